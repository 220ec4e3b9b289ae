(** Proofs about the service info API, the owner's list for the device, and the two together with the device. *)
From Verif Require Import Base BaseFacts ValueModel ValueProofs Text Hex TypesModel TypesProofs CryptoSpec SiModel DevSiModel SiSpec SiProofs SiProofs2 SiProofs3 SiApiModel SiApiSpec.
Local Open Scope N_scope.
Local Opaque dec_top any_value.

(** ** The reply *)
Definition first_active (asked : list simod) (b : builder) : Prop :=
  (forall m, existsb (simod_eqb m) (bl_enabled b) = true -> In (m, txt "active", JBool true) (extras b)) /\
  (forall pre m key v post, extras b = pre ++ (m, key, v) :: post ->
     In m asked /\ ((key = txt "active" /\ v = JBool true) \/ In (m, txt "active", JBool true) pre)).
Lemma existsb_in m l : existsb (simod_eqb m) l = true <-> In m l.
Proof. rewrite existsb_exists. split; [intros (x & I & E); apply simod_eqb_eq in E; congruence|intros I; exists m; split; [exact I|apply simod_eqb_refl]]. Qed.
Lemma snoc_split {A} (l : list A) x pre y post : l ++ [x] = pre ++ y :: post -> (post = [] /\ pre = l /\ y = x) \/ exists post', post = post' ++ [x] /\ l = pre ++ y :: post'.
Proof.
  intros E. destruct (last_cases post) as [->|(p' & z & ->)].
  - apply app_inj_tail in E. destruct E. subst. left. auto.
  - right. rewrite app_comm_cons, app_assoc in E. apply app_inj_tail in E. destruct E as [E ->]. eauto.
Qed.
Lemma first_active_add asked b m key v : In m asked -> first_active asked b -> first_active asked (add_extra b m key v).
Proof.
  intros MA (A & B). unfold add_extra. cbv zeta. destruct (existsb (simod_eqb m) (bl_enabled b)) eqn:EN; (split; [|intros pre m' key' v' post E]); cbn [bl_enabled extras bl_extra] in *.
  - intros m' H. apply in_or_app. left. apply A. exact H.
  - apply snoc_split in E. destruct E as [(-> & -> & E)|(post' & -> & E)]; [|eapply B; exact E]. inversion E; subst. split; [exact MA|]. right. apply A. exact EN.
  - intros m' H. cbn [existsb] in H. apply orb_true_iff in H. apply in_or_app. left. apply in_or_app. destruct H as [H|H]; [|left; apply A; exact H].
    apply simod_eqb_eq in H. subst m'. right. left. reflexivity.
  - apply snoc_split in E. destruct E as [(-> & -> & E)|(post' & -> & E)].
    + inversion E; subst. split; [exact MA|]. right. apply in_or_app. right. left. reflexivity.
    + apply snoc_split in E. destruct E as [(-> & -> & E)|(post'' & -> & E)]; [|eapply B; exact E]. inversion E; subst. auto.
Qed.
Lemma first_active_all asked m l : forall b, In m asked -> first_active asked b -> first_active asked (add_all b m l).
Proof. induction l as [|[k v] l IH]; intros b M F; cbn [add_all]; [exact F|]. apply IH; [exact M|]. apply first_active_add; assumption. Qed.
Lemma first_active_each {A} asked m (f : A -> list (str * json)) l : forall b, In m asked -> first_active asked b -> first_active asked (add_each b m f l).
Proof. induction l as [|x l IH]; intros b M F; cbn [add_each]; [exact F|]. apply IH; [exact M|]. apply first_active_all; assumption. Qed.
Lemma first_active_when {A} asked m (f : A -> list (str * json)) (o : option (list A)) b : first_active asked b -> first_active asked (add_each b m f (listed (when asked m o))).
Proof. intros F. unfold when. destruct (existsb (simod_eqb m) asked) eqn:E; [|exact F]. apply first_active_each; [apply existsb_in; exact E|exact F]. Qed.
Lemma first_active_additional asked l : forall b, first_active asked b -> first_active asked (add_additional asked b l).
Proof.
  induction l as [|[m lines] l IH]; intros b F; cbn [add_additional]; [exact F|]. apply IH. destruct (existsb (simod_eqb m) asked) eqn:E; [|exact F].
  apply first_active_all; [apply existsb_in; exact E|exact F].
Qed.
Lemma reply_active conf pd asked : let r := make_reply conf pd asked in
  (forall pre m key v post, listed (ar_extra r) = pre ++ (m, key, v) :: post ->
     In m asked /\ ((key = txt "active" /\ v = JBool true) \/ In (m, txt "active", JBool true) pre)) /\
  (ar_user r <> None -> In SSHKey asked) /\ (ar_reboot r <> None -> In Reboot asked).
Proof.
  cbv zeta. unfold make_reply. cbv zeta. cbn [ar_extra ar_user ar_reboot]. split; [|split].
  - match goal with |- forall pre m key v post, listed (bl_extra ?b) = _ -> _ => assert (F : first_active asked b) end.
    { apply first_active_additional, first_active_when, first_active_when, first_active_when. split; [discriminate|]. intros [|? ?]; discriminate. }
    destruct F as [_ F]. exact F.
  - unfold when. destruct (existsb (simod_eqb SSHKey) asked) eqn:E; [intros _; apply existsb_in; exact E|congruence].
  - unfold when. destruct (existsb (simod_eqb Reboot) asked) eqn:E; [intros _; apply existsb_in; exact E|congruence].
Qed.

(** ** The owner's list *)
Definition conv (x : extra) : option sientry :=
  let '(m, key, v) := x in
  if suffixb (txt "|hex") key then
    match v with JStr s => option_map (fun b => (m, remove_all (length key) (txt "|hex") key, VBytes b)) (hex_dec s) | _ => None end
  else Some (m, key, json_val v).
Lemma si_add_of es m key v : si_add (si_of es) m key v = si_of (es ++ [(m, key, v)]).
Proof. rewrite !si_of_map, map_app. reflexivity. Qed.
Lemma add_reply_extras_spec xs : forall l l', add_reply_extras l xs = Some l' <-> exists es, all_some (map conv xs) = Some es /\ l' = l ++ map entry_bytes es.
Proof.
  induction xs as [|[[m key] v] xs IH]; intros l l'; cbn [add_reply_extras map all_some].
  - split; [intros E; inversion E; exists []; rewrite app_nil_r; auto|]. intros (es & E & ->). inversion E. rewrite app_nil_r. reflexivity.
  - assert (ST : forall x l1, add_reply_extra l (m, key, v) = Some l1 -> conv (m, key, v) = Some x -> l1 = l ++ [entry_bytes x]).
    { unfold add_reply_extra, conv. intros x l1 A C. destruct (suffixb (txt "|hex") key).
      - destruct v; try discriminate. destruct (hex_dec s); try discriminate. inversion A; inversion C; subst. reflexivity.
      - inversion A; inversion C; subst. reflexivity. }
    assert (SAME : add_reply_extra l (m, key, v) = None <-> conv (m, key, v) = None).
    { unfold add_reply_extra, conv. destruct (suffixb (txt "|hex") key); [|split; discriminate]. destruct v; try (split; reflexivity). destruct (hex_dec s); split; try discriminate; reflexivity. }
    destruct (add_reply_extra l (m, key, v)) as [l1|]; destruct (conv (m, key, v)) as [x|].
    + rewrite IH. rewrite (ST x l1 eq_refl eq_refl). split.
      * intros (es & E & ->). exists (x :: es). rewrite E, <- app_assoc. auto.
      * intros (es & E & ->). destruct (all_some (map conv xs)) as [es'|]; [|discriminate]. inversion E; subst. exists es'. rewrite <- app_assoc. auto.
    + exfalso. destruct SAME as [_ S]. discriminate (S eq_refl).
    + exfalso. destruct SAME as [S _]. discriminate (S eq_refl).
    + split; [discriminate|]. intros (es & E & _). discriminate.
Qed.

Definition user_entries (u : inituser) : list sientry :=
  [(SSHKey, txt "active", VBool true); (SSHKey, txt "username", text_v (iu_name u))] ++
  (match iu_pw u with Some p => [(SSHKey, txt "password", text_v p)] | None => [] end) ++
  (match iu_keys u with Some ks => [(SSHKey, txt "sshkeys", text_v (join SEMI ks))] | None => [] end).
Definition reboot_entries (b : bool) : list sientry := [(Reboot, txt "active", VBool true); (Reboot, txt "reboot", VBool b)].
Definition opt {A B} (f : A -> list B) (o : option A) : list B := match o with Some x => f x | None => [] end.
Lemma list_of_reply_spec r l : list_of_reply r = Some l <->
  exists es, all_some (map conv (listed (ar_extra r))) = Some es /\ l = si_of (opt user_entries (ar_user r) ++ es ++ opt reboot_entries (ar_reboot r)).
Proof.
  unfold list_of_reply. cbv zeta.
  match goal with |- context [add_reply_extras ?x _] => replace x with (si_of (opt user_entries (ar_user r))) end.
  2: { destruct (ar_user r) as [[n [p|] [ks|]]|]; reflexivity. }
  assert (FIN : forall es, match ar_reboot r with
     | Some b => si_add (si_add (si_of (opt user_entries (ar_user r)) ++ map entry_bytes es) Reboot (txt "active") (VBool true)) Reboot (txt "reboot") (VBool b)
     | None => si_of (opt user_entries (ar_user r)) ++ map entry_bytes es end
     = si_of (opt user_entries (ar_user r) ++ es ++ opt reboot_entries (ar_reboot r))).
  { intros es. rewrite !si_of_map, !map_app. destruct (ar_reboot r) as [b|]; cbn [opt reboot_entries map]; [|rewrite app_nil_r; reflexivity].
    unfold si_add. rewrite <- !app_assoc. reflexivity. }
  split.
  - destruct (add_reply_extras (si_of (opt user_entries (ar_user r))) (listed (ar_extra r))) as [l2|] eqn:E; [|discriminate].
    apply add_reply_extras_spec in E. destruct E as (es & E & ->). intros X. inversion X; subst. exists es. split; [exact E|]. apply FIN.
  - intros (es & E & ->). assert (A : add_reply_extras (si_of (opt user_entries (ar_user r))) (listed (ar_extra r)) = Some (si_of (opt user_entries (ar_user r)) ++ map entry_bytes es)).
    { apply add_reply_extras_spec. eauto. }
    rewrite A. f_equal. apply FIN.
Qed.

(** ** What the configuration is turned into *)
Lemma add_all_enabled m l : forall b, existsb (simod_eqb m) (bl_enabled b) = true ->
  bl_enabled (add_all b m l) = bl_enabled b /\ extras (add_all b m l) = extras b ++ map (fun kv => (m, fst kv, snd kv)) l.
Proof.
  induction l as [|[k v] l IH]; intros b E; cbn [add_all map]; [rewrite app_nil_r; auto|].
  assert (S : bl_enabled (add_extra b m k v) = bl_enabled b /\ extras (add_extra b m k v) = extras b ++ [(m, k, v)]) by (unfold add_extra; cbv zeta; rewrite E; auto).
  destruct S as [S1 S2]. destruct (IH (add_extra b m k v)) as [I1 I2]; [rewrite S1; exact E|]. rewrite I1, I2, S1, S2, <- app_assoc. auto.
Qed.
Lemma add_each_enabled {A} m (f : A -> list (str * json)) l : forall b, existsb (simod_eqb m) (bl_enabled b) = true ->
  bl_enabled (add_each b m f l) = bl_enabled b /\ extras (add_each b m f l) = extras b ++ flat_map (fun x => map (fun kv => (m, fst kv, snd kv)) (f x)) l.
Proof.
  induction l as [|x l IH]; intros b E; cbn [add_each flat_map]; [rewrite app_nil_r; auto|].
  destruct (add_all_enabled m (f x) b E) as [S1 S2]. destruct (IH (add_all b m (f x))) as [I1 I2]; [rewrite S1; exact E|]. rewrite I1, I2, S1, S2, <- app_assoc. auto.
Qed.
Definition block {A} (m : simod) (f : A -> list (str * json)) (l : list A) : list extra :=
  match l with [] => [] | _ => (m, txt "active", JBool true) :: flat_map (fun x => map (fun kv => (m, fst kv, snd kv)) (f x)) l end.
Lemma add_each_new {A} m (f : A -> list (str * json)) l b : existsb (simod_eqb m) (bl_enabled b) = false -> (forall x, f x <> []) ->
  extras (add_each b m f l) = extras b ++ block m f l /\
  (forall m', m' <> m -> existsb (simod_eqb m') (bl_enabled (add_each b m f l)) = existsb (simod_eqb m') (bl_enabled b)).
Proof.
  intros E N. destruct l as [|x l]; [cbn; rewrite app_nil_r; auto|]. cbn [add_each block flat_map]. specialize (N x). destruct (f x) as [|[k v] r]; [contradiction|].
  cbn [add_all map].
  assert (S : bl_enabled (add_extra b m k v) = m :: bl_enabled b /\ extras (add_extra b m k v) = extras b ++ [(m, txt "active", JBool true); (m, k, v)]).
  { unfold add_extra. cbv zeta. rewrite E. cbn [bl_enabled extras bl_extra]. rewrite <- app_assoc. auto. }
  destruct S as [S1 S2]. assert (EN : existsb (simod_eqb m) (bl_enabled (add_extra b m k v)) = true) by (rewrite S1; cbn [existsb]; rewrite simod_eqb_refl; reflexivity).
  destruct (add_all_enabled m r _ EN) as [A1 A2]. assert (EN2 : existsb (simod_eqb m) (bl_enabled (add_all (add_extra b m k v) m r)) = true) by (rewrite A1; exact EN).
  destruct (add_each_enabled m f l _ EN2) as [B1 B2]. split.
  - rewrite B2, A2, S2, <- !app_assoc. reflexivity.
  - intros m' N'. rewrite B1, A1, S1. cbn [existsb]. destruct (simod_eqb m' m) eqn:X; [|reflexivity]. apply simod_eqb_eq in X. contradiction.
Qed.
Lemma listed_when {A} asked m (o : option (list A)) : listed (when asked m o) = part asked m o.
Proof. unfold when, part, listed. destruct (existsb (simod_eqb m) asked); [destruct o|]; reflexivity. Qed.
Lemma file_commands_ne f : file_commands f <> []. Proof. discriminate. Qed.
Lemma reply_extras conf pd asked : st_extra conf = None ->
  listed (ar_extra (make_reply conf pd asked)) =
  block BinaryFile file_commands (part asked BinaryFile (st_files conf)) ++ block Command command_commands (part asked Command (st_commands conf)) ++
  block DiskEncryption disk_commands (part asked DiskEncryption (st_disks conf)).
Proof.
  intros EX. unfold make_reply. cbv zeta. cbn [ar_extra]. rewrite EX. cbn [listed add_additional]. rewrite !listed_when.
  match goal with |- listed (bl_extra ?b) = ?rhs => change (extras b = rhs) | |- match bl_extra ?b with Some l => l | None => _ end = ?rhs => change (extras b = rhs) end.
  destruct (add_each_new BinaryFile file_commands (part asked BinaryFile (st_files conf)) builder0 eq_refl) as [A1 A2]; [discriminate|].
  destruct (add_each_new Command command_commands (part asked Command (st_commands conf)) (add_each builder0 BinaryFile file_commands (part asked BinaryFile (st_files conf)))) as [B1 B2];
    [rewrite A2 by discriminate; reflexivity|discriminate|].
  destruct (add_each_new DiskEncryption disk_commands (part asked DiskEncryption (st_disks conf)) (add_each (add_each builder0 BinaryFile file_commands (part asked BinaryFile (st_files conf))) Command command_commands (part asked Command (st_commands conf)))) as [C1 C2];
    [rewrite B2 by discriminate; rewrite A2 by discriminate; reflexivity|discriminate|].
  rewrite C1, B1, A1. cbn [extras builder0 bl_extra app]. rewrite <- app_assoc. reflexivity.
Qed.

(** ** Activation in the owner's list *)
Definition led (asked : simod -> Prop) (es : list sientry) : Prop :=
  forall pre m key v post, es = pre ++ (m, key, v) :: post -> asked m /\ ((key = txt "active" /\ v = VBool true) \/ In (m, txt "active", VBool true) pre).
Lemma app_split {A} (a b pre : list A) x post : a ++ b = pre ++ x :: post ->
  (exists post', a = pre ++ x :: post' /\ post = post' ++ b) \/ (exists pre', pre = a ++ pre' /\ b = pre' ++ x :: post).
Proof.
  revert pre. induction a as [|y a IH]; intros pre E; cbn [app] in E; [right; exists pre; auto|].
  destruct pre as [|z pre]; cbn [app] in E; injection E as E1 E2; subst.
  - left. exists a. auto.
  - destruct (IH pre E2) as [(p' & -> & ->)|(p' & -> & ->)]; [left; exists p'; auto|right; exists p'; auto].
Qed.
Lemma led_app asked a b : led asked a -> led asked b -> led asked (a ++ b).
Proof.
  intros A B pre m key v post E. apply app_split in E. destruct E as [(post' & E & _)|(pre' & -> & E)]; [exact (A _ _ _ _ _ E)|].
  destruct (B _ _ _ _ _ E) as [X [Y|Y]]; (split; [exact X|]); [left; exact Y|right; apply in_or_app; right; exact Y].
Qed.
Lemma all_some_split {A} (l : list (option A)) pre x post : all_some l = Some (pre ++ x :: post) -> exists lp lq, l = lp ++ Some x :: lq /\ all_some lp = Some pre.
Proof.
  revert pre. induction l as [|[y|] l IH]; intros pre E; cbn [all_some] in E; [destruct pre; discriminate| |discriminate].
  destruct (all_some l) as [r|]; [|discriminate]. cbn [option_map] in E. injection E as E. destruct pre as [|z pre]; cbn [app] in E; injection E as E1 E2; subst.
  - exists [], l. auto.
  - destruct (IH pre eq_refl) as (lp & lq & -> & E). exists (Some z :: lp), lq. cbn [app all_some]. rewrite E. auto.
Qed.
Lemma map_split {A B} (f : A -> B) l lp y lq : map f l = lp ++ y :: lq -> exists a x b, l = a ++ x :: b /\ map f a = lp /\ f x = y.
Proof.
  revert lp. induction l as [|x l IH]; intros lp E; [destruct lp; discriminate|]. destruct lp as [|z lp]; cbn [map app] in E; injection E as E1 E2.
  - exists [], x, l. auto.
  - destruct (IH lp E2) as (a & x' & b & -> & M & F). exists (x :: a), x', b. cbn [map]. rewrite M, E1. auto.
Qed.
Lemma all_some_in {A} (l : list (option A)) r x : all_some l = Some r -> In (Some x) l -> In x r.
Proof.
  revert r. induction l as [|[y|] l IH]; intros r E I; cbn [all_some] in E; [destruct I| |discriminate].
  destruct (all_some l) as [r'|]; [|discriminate]. inversion E; subst. destruct I as [I|I]; [left; congruence|right; eapply IH; [reflexivity|exact I]].
Qed.
Lemma conv_led asked xs es :
  (forall pre m key v post, xs = pre ++ (m, key, v) :: post -> In m asked /\ ((key = txt "active" /\ v = JBool true) \/ In (m, txt "active", JBool true) pre)) ->
  all_some (map conv xs) = Some es -> led (fun m => In m asked) es.
Proof.
  intros H E pre m key v post EQ. subst es. apply all_some_split in E. destruct E as (lp & lq & E & EP). apply map_split in E. destruct E as (a & [[m' k'] j] & b & -> & <- & CV).
  destruct (H _ _ _ _ _ eq_refl) as [IM HH].
  assert (CV' : m' = m /\ ((key = k' /\ v = json_val j /\ suffixb (txt "|hex") k' = false) \/ suffixb (txt "|hex") k' = true)).
  { unfold conv in CV. destruct (suffixb (txt "|hex") k'); [|inversion CV; auto]. destruct j; try discriminate. destruct (hex_dec s); inversion CV; auto. }
  destruct CV' as [-> CV']. split; [exact IM|]. destruct HH as [[-> ->]|HH].
  - left. destruct CV' as [(-> & -> & _)|X]; [auto|discriminate].
  - right. eapply all_some_in; [exact EP|]. apply in_map_iff. exists (m, txt "active", JBool true). split; [reflexivity|exact HH].
Qed.
Lemma led_head m es : (forall x, In x es -> fst (fst x) = m) -> led (fun m' => m' = m) ((m, txt "active", VBool true) :: es).
Proof.
  intros F pre m' key v post E. destruct pre as [|z pre]; cbn [app] in E; inversion E; subst; [split; [reflexivity|left; auto]|].
  split; [apply (F (m', key, v)); apply in_or_app; right; left; reflexivity|]. right. left.
  assert (M : m' = m) by (apply (F (m', key, v)); apply in_or_app; right; left; reflexivity). congruence.
Qed.
Lemma led_weaken (P Q : simod -> Prop) es : (forall m, P m -> Q m) -> led P es -> led Q es.
Proof. intros W L pre m key v post E. destruct (L _ _ _ _ _ E). auto. Qed.
Lemma list_led conf pd asked l : list_of_reply (make_reply conf pd asked) = Some l -> exists es, l = si_of es /\ led (fun m => In m asked) es.
Proof.
  intros E. apply list_of_reply_spec in E. destruct E as (es & E & ->). eexists. split; [reflexivity|].
  destruct (reply_active conf pd asked) as (R1 & R2 & R3). cbv zeta in *.
  apply led_app; [|apply led_app].
  - destruct (ar_user (make_reply conf pd asked)) as [u|]; cbn [opt]; [|intros [|? ?]; discriminate].
    apply (led_weaken (fun m => m = SSHKey)); [intros m ->; apply R2; discriminate|]. unfold user_entries. cbn [app]. apply led_head.
    intros x I. destruct I as [<-|I]; [reflexivity|]. apply in_app_or in I. destruct I as [I|I]; [destruct (iu_pw u)|destruct (iu_keys u)]; try destruct I as [<-|[]]; try destruct I; reflexivity.
  - eapply conv_led; eassumption.
  - destruct (ar_reboot (make_reply conf pd asked)) as [b|]; cbn [opt]; [|intros [|? ?]; discriminate].
    apply (led_weaken (fun m => m = Reboot)); [intros m ->; apply R3; discriminate|]. unfold reboot_entries. apply led_head. intros x [<-|[]]. reflexivity.
Qed.

(** ** The modules a device names *)
Lemma dedupe_in seen l x : In x (dedupe seen l) -> In x l.
Proof. revert seen. induction l as [|y l IH]; intros seen I; [destruct I|]. cbn [dedupe] in I. destruct (existsb (text_eqb y) seen); [right; eapply IH; exact I|]. destruct I as [I|I]; [left; exact I|right; eapply IH; exact I]. Qed.
Lemma split_commas l : l <> [] -> Forall (fun k => ~ In COMMA k) l -> split_on COMMA (join COMMA l) = l.
Proof.
  assert (ONE : forall k, ~ In COMMA k -> split_on COMMA k = [k]).
  { induction k as [|x k IH]; intros N; [reflexivity|]. cbn [split_on]. destruct (N.eqb_spec x COMMA) as [->|_]; [exfalso; apply N; left; reflexivity|].
    rewrite IH by (intros I; apply N; right; exact I). reflexivity. }
  intros NE F. induction l as [|k l IH]; [contradiction|]. inversion F; subst. destruct l as [|k2 l]; [apply ONE; assumption|].
  change (join COMMA (k :: k2 :: l)) with (k ++ COMMA :: join COMMA (k2 :: l)). rewrite split_on_app, ONE, IH by (assumption || discriminate). reflexivity.
Qed.
Lemma last_modules_in l : forall acc ms, last_modules acc l = Ok (Some ms) -> acc = Some ms \/ exists v, In (DevMod, txt "modules", v) l /\ module_list v = Some ms.
Proof.
  induction l as [|[[m key] v] l IH]; intros acc ms E; cbn [last_modules] in E; [inversion E; auto|].
  destruct (simod_eqb m DevMod && text_eqb key (txt "modules")) eqn:C.
  - apply andb_true_iff in C. destruct C as [C1 C2]. apply simod_eqb_eq in C1. apply text_eqb_eq in C2. subst. destruct (module_list v) as [ms'|] eqn:ML; [|discriminate].
    apply IH in E. destruct E as [E|(v' & I & E)]; [inversion E; subst; right; exists v; split; [left; reflexivity|exact ML]|right; exists v'; split; [right; exact I|exact E]].
  - apply IH in E. destruct E as [E|(v' & I & E)]; [auto|right; exists v'; split; [right; exact I|exact E]].
Qed.
