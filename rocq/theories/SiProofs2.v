(** Files and commands as announced, paths, panics. *)
From Verif Require Import Base BaseFacts ValueModel ValueProofs Text TypesModel MsgModel SiModel DevSiModel SiSpec SiProofs.
From Coq Require Import ZifyBool ZifyNat ZifyN.
Local Open Scope N_scope.

Lemma gathered_app m a b : gathered m (a ++ b) = fold_left (gather m) b (gathered m a).
Proof. unfold gathered. rewrite fold_left_app. reflexivity. Qed.
Lemma gathered_read m log key v : gathered m (log ++ [Read (m, key, v)]) = gathered m log ++ [(key, v)].
Proof. rewrite gathered_app. cbn [fold_left gather]. rewrite simod_eqb_refl. reflexivity. Qed.
Lemma simod_eqb_neq a b : a <> b -> simod_eqb a b = false.
Proof. intros H. destruct (simod_eqb a b) eqn:E; [|reflexivity]. apply simod_eqb_eq in E. contradiction. Qed.
Lemma gathered_read_other m m' log key v : m' <> m -> gathered m (log ++ [Read (m', key, v)]) = gathered m log.
Proof. intros H. rewrite gathered_app. cbn [fold_left gather]. rewrite simod_eqb_neq by exact H. reflexivity. Qed.
Lemma gathered_dids m m' log es : m' <> m -> Forall (fun e => module_of e = m') es -> gathered m (log ++ map Did es) = gathered m log.
Proof.
  intros N. induction es as [|e es IH] using rev_ind; intros F; [cbn; rewrite app_nil_r; reflexivity|].
  apply Forall_app in F. destruct F as [F Fe]. inversion Fe; subst. rewrite map_app, app_assoc, gathered_app, (IH F).
  cbn [map fold_left gather]. rewrite simod_eqb_neq by exact N. reflexivity.
Qed.
Lemma given_app k g key v : given k (g ++ [(key, v)]) = given k g ++ (if text_eqb key k then [v] else []).
Proof. unfold given. rewrite filter_app, map_app. cbn [filter fst]. destruct (text_eqb key k); reflexivity. Qed.
Lemma parts_app g key v : parts (g ++ [(key, v)]) = parts g ++ (if text_eqb (firstn 4 key) (txt "data") then [v] else []).
Proof. unfold parts. rewrite filter_app, map_app. cbn [filter fst]. destruct (text_eqb (firstn 4 key) (txt "data")); reflexivity. Qed.
Lemma prefixb_firstn p s : prefixb p s = text_eqb (firstn (length p) s) p.
Proof.
  revert s. induction p as [|x p IH]; intros s; [reflexivity|]. destruct s as [|y s]; [reflexivity|]. cbn [prefixb length firstn].
  unfold text_eqb in *. cbn [list_eqb]. rewrite IH, N.eqb_sym. reflexivity.
Qed.
Lemma prefixb_true p s : prefixb p s = true -> exists r, s = p ++ r.
Proof.
  revert s. induction p as [|x p IH]; intros s H; [exists s; reflexivity|]. destruct s as [|y s]; [discriminate|]. cbn [prefixb] in H.
  apply andb_true_iff in H. destruct H as [E H]. apply N.eqb_eq in E. subst y. destruct (IH s H) as [r ->]. exists r. reflexivity.
Qed.
Lemma prefixb_app p r : prefixb p (p ++ r) = true.
Proof. induction p as [|x p IH]; [reflexivity|]. cbn. rewrite N.eqb_refl. exact IH. Qed.

(** What is known of the file and of the command in progress. *)
Definition bin_rel (b : binfile) (g : list (str * cval)) : Prop :=
  (match bf_path b with None => given (txt "name") g = [] | Some n => exists u, given (txt "name") g = [VText u] /\ utf8_dec u = Some n end) /\
  (match bf_len b with
   | None => given (txt "length") g = [] /\ bf_data b = None /\ parts g = []
   | Some n => (exists z, given (txt "length") g = [VInt z] /\ (Z.of_N n = z mod 18446744073709551616)%Z) /\
               exists ds, bf_data b = Some (concat ds) /\ parts g = map VBytes ds
   end) /\
  (match bf_mode b with None => given (txt "mode") g = [] | Some m => exists z, given (txt "mode") g = [VInt z] /\ (Z.of_N m = z mod 4294967296)%Z end).
Definition cmd_rel (c : command) (g : list (str * cval)) : Prop :=
  (match cm_cmd c with None => given (txt "command") g = [] | Some n => exists u, given (txt "command") g = [VText u] /\ utf8_dec u = Some n end) /\
  (given (txt "args") g = [] /\ cm_args c = [] \/
   exists before us, given (txt "args") g = before ++ [VArr (map VText us)] /\ Forall2 (fun u a => utf8_dec u = Some a) us (cm_args c)).
Lemma no_bin_rel : bin_rel no_bin []. Proof. repeat split. Qed.
Lemma no_cmd_rel : cmd_rel no_cmd []. Proof. split; [reflexivity|]. left. split; reflexivity. Qed.

(** Entries with other keys change nothing. *)
Lemma bin_rel_other b g key v : bin_rel b g -> key <> txt "name" -> key <> txt "length" -> firstn 4 key <> txt "data" -> key <> txt "mode" ->
  bin_rel b (g ++ [(key, v)]).
Proof.
  intros H N1 N2 N3 N4. unfold bin_rel. rewrite !given_app, parts_app.
  apply text_eqb_neq in N1, N2, N3, N4. rewrite N1, N2, N3, N4, !app_nil_r. exact H.
Qed.
Lemma cmd_rel_other c g key v : cmd_rel c g -> key <> txt "command" -> key <> txt "args" -> cmd_rel c (g ++ [(key, v)]).
Proof. intros H N1 N2. unfold cmd_rel. rewrite !given_app. apply text_eqb_neq in N1, N2. rewrite N1, N2, !app_nil_r. exact H. Qed.

Lemma v_texts_some l ss : v_texts l = Some ss -> exists us, l = map VText us /\ Forall2 (fun u a => utf8_dec u = Some a) us ss.
Proof.
  revert ss. induction l as [|v l IH]; intros ss H; cbn [v_texts] in H.
  - inversion H; subst. exists []. split; [reflexivity|constructor].
  - destruct v; try discriminate. cbn [v_str] in H. destruct (utf8_dec b) eqn:U; [|discriminate]. destruct (v_texts l) as [ss'|]; [|discriminate].
    inversion H; subst. destruct (IH _ eq_refl) as (us & -> & F). exists (b :: us). split; [reflexivity|]. constructor; assumption.
Qed.
Lemma v_u64_some v n : v_u64 v = Some n -> exists z, v = VInt z /\ (Z.of_N n = z mod 18446744073709551616)%Z.
Proof. destruct v; try discriminate. cbn. intros H; inversion H; subst. exists z. split; [reflexivity|]. rewrite Z2N.id; [reflexivity|]. apply Z.mod_pos_bound. lia. Qed.
Lemma v_u32_some v n : v_u32 v = Some n -> exists z, v = VInt z /\ (Z.of_N n = z mod 4294967296)%Z.
Proof. destruct v; try discriminate. cbn. intros H; inversion H; subst. exists z. split; [reflexivity|]. rewrite Z2N.id; [reflexivity|]. apply Z.mod_pos_bound. lia. Qed.
Lemma v_str_some v s : v_str v = Some s -> exists u, v = VText u /\ utf8_dec u = Some s.
Proof. destruct v; try discriminate. cbn. eauto. Qed.
Lemma v_bytes_some v s : v_bytes v = Some s -> v = VBytes s.
Proof. destruct v; try discriminate. cbn. congruence. Qed.

(** ** Paths *)
Lemma last_cases {A} (l : list A) : l = [] \/ exists l' x, l = l' ++ [x].
Proof. induction l as [|x l _] using rev_ind; [left; reflexivity|right; eauto]. Qed.
Lemma destination_placed prefix name p : destination_path name prefix = Some p <-> placed prefix name p.
Proof.
  unfold destination_path, placed. destruct name as [|x rest].
  - cbn. split; [discriminate|]. intros (r & E & _). discriminate.
  - cbn [is_absolute negb tl]. destruct (N.eqb_spec x SLASH) as [->|NE]; cbn [negb].
    2: { split; [discriminate|]. intros (r & E & _). inversion E. contradiction. }
    destruct prefix as [f|].
    + unfold path_join. destruct (is_absolute rest) eqn:AB.
      * split; [intros H; inversion H; subst; exists p; rewrite AB; auto|]. intros (r & E & H). inversion E; subst. rewrite AB in H. congruence.
      * destruct (last_cases f) as [->|(f' & y & ->)].
        -- cbn [rev]. split.
           ++ intros H. inversion H; subst. exists p. rewrite AB. split; [reflexivity|]. left. auto.
           ++ intros (r & E & H). inversion E; subst. rewrite AB in H. destruct H as [[-> _]|[_ [H _]]]; [reflexivity|contradiction].
        -- rewrite rev_app_distr. cbn [rev app]. destruct (N.eqb_spec y SLASH) as [->|NY].
           ++ split.
              ** intros H. inversion H; subst. exists rest. rewrite AB. split; [reflexivity|]. left. eauto.
              ** intros (r & E & H). inversion E; subst. rewrite AB in H. destruct H as [[-> _]|[_ [_ H]]]; [reflexivity|]. exfalso. apply H. eauto.
           ++ split.
              ** intros H. inversion H; subst. exists rest. rewrite AB. split; [reflexivity|]. right. split; [reflexivity|]. split.
                 --- destruct f'; discriminate.
                 --- intros (f2 & E2). apply app_inj_tail in E2. destruct E2. contradiction.
              ** intros (r & E & H). inversion E; subst. rewrite AB in H. destruct H as [[_ [H|(f2 & H)]]|[-> _]]; [| |reflexivity].
                 --- destruct f'; discriminate.
                 --- apply app_inj_tail in H. destruct H. contradiction.
    + split; [intros H; inversion H; subst; exists rest; auto|]. intros (r & E & ->). reflexivity.
Qed.
Lemma digest_key_of key t : prefixb (txt "sha-") key = true ->
  (if text_eqb (match split_on 45 key with _ :: t :: _ => t | _ => [] end) (txt "256") then Some Sha256
   else if text_eqb (match split_on 45 key with _ :: t :: _ => t | _ => [] end) (txt "384") then Some Sha384 else None) = Some t ->
  digest_key key t.
Proof.
  intros P H. apply prefixb_true in P. destruct P as [r ->].
  assert (S : split_on 45 (txt "sha-" ++ r) = txt "sha" :: split_on 45 r) by reflexivity. rewrite S in H.
  assert (X : forall r h l, split_on 45 r = h :: l -> exists rest, r = h ++ rest /\ (rest = [] \/ exists q, rest = 45 :: q)).
  { clear. induction r as [|x r IH]; intros h l E; cbn [split_on] in E.
    - inversion E; subst. exists []. auto.
    - destruct (N.eqb_spec x 45) as [->|_].
      + inversion E; subst. exists (45 :: r). split; [reflexivity|]. right. eauto.
      + destruct (split_on 45 r) as [|h' t'] eqn:SP; [destruct r; cbn in SP; [discriminate|]; destruct (n =? 45); [discriminate|]; destruct (split_on 45 r); discriminate|].
        inversion E; subst. destruct (IH _ _ eq_refl) as (rest & -> & Q). exists rest. auto. }
  destruct (split_on 45 r) as [|h l] eqn:SP; [cbn in H; discriminate|]. destruct (X r h l SP) as (rest & -> & Q). exists rest. split; [exact Q|].
  destruct (text_eqb_spec h (txt "256")) as [->|_].
  - inversion H; subst. left. auto.
  - destruct (text_eqb_spec h (txt "384")) as [->|_]; [|discriminate]. inversion H; subst. right. auto.
Qed.
Lemma hash_ok_inv c t x h d : hash_from_digest t x = Ok h -> hash_compare_data c h d = Ok tt -> x = c_hash c t d.
Proof.
  unfold hash_from_digest, hash_compare_data. destruct (nlen x =? digest_size t); cbn [negb]; [|discriminate]. intros H; inversion H; subst.
  cbn [h_type h_value]. destruct (digestible t); [|discriminate]. unfold memcmp_eq. destruct (nlen x =? nlen (c_hash c t d)); cbn [negb bind]; [|discriminate].
  destruct (bytes_eqb x (c_hash c t d)) eqn:E; [|discriminate]. intros _. apply bytes_eqb_spec. exact E.
Qed.

(** A step of the file module: what it writes was announced. *)
Definition wrote1 (c : crypto) (prefix : option str) (g : list (str * cval)) (es : list effect) : Prop :=
  es = [] \/ exists p d m, es = [EWrite p d m] /\ announced c prefix g p d m.
Definition bin_panics (prefix : option str) (g : list (str * cval)) (key : str) (v : cval) : Prop :=
  (key = txt "length" /\ exists z, v = VInt z /\ (Z.of_N CAPACITY < z mod 18446744073709551616)%Z) \/
  (exists t u name p, digest_key key t /\ given (txt "name") g = [VText u] /\ utf8_dec u = Some name /\ placed prefix name p /\ segments p = []).

Lemma no_parent_segments p : has_parent p = false -> segments p = [].
Proof.
  unfold has_parent, segments. intros H. apply orb_false_iff in H. destruct H as [H _]. induction (split_on SLASH p) as [|s l IH]; [reflexivity|].
  cbn [existsb filter] in *. apply orb_false_iff in H. destruct H as [H1 H2]. rewrite H1. apply IH. exact H2.
Qed.
Definition hash_sizes (c : crypto) : Prop := forall t d, nlen (c_hash c t d) = digest_size t.

Lemma step_bin_rel c w prefix s log key v :
  d_log s = log ++ [Read (BinaryFile, key, v)] -> bin_rel (d_bin s) (gathered BinaryFile log) ->
  let r := step_bin c w prefix s key v in
  let g := gathered BinaryFile log ++ [(key, v)] in
  (snd r = Ok tt -> bin_rel (d_bin (fst r)) (gathered BinaryFile (d_log (fst r)))) /\
  (exists es, d_log (fst r) = d_log s ++ map Did es /\ wrote1 c prefix g es) /\
  (forall x, hash_sizes c -> snd r = Panic x -> (d_log (fst r) = d_log s /\ bin_panics prefix g key v) \/
     exists e, d_log (fst r) = d_log s ++ [Did e] /\ w (effects (d_log (fst r))) = Crashes).
Proof.
  intros L B. cbv zeta. set (g0 := gathered BinaryFile log) in *.
  assert (G : gathered BinaryFile (d_log s) = g0 ++ [(key, v)]) by (rewrite L; apply gathered_read).
  assert (NIL : exists es, d_log s = d_log s ++ map Did es /\ wrote1 c prefix (g0 ++ [(key, v)]) es) by (exists []; cbn; rewrite app_nil_r; split; [reflexivity|left; reflexivity]).
  assert (STOP : forall r : res, fst r = s -> snd r = Err tt ->
    (snd r = Ok tt -> bin_rel (d_bin (fst r)) (gathered BinaryFile (d_log (fst r)))) /\
    (exists es, d_log (fst r) = d_log s ++ map Did es /\ wrote1 c prefix (g0 ++ [(key, v)]) es) /\
    (forall x, hash_sizes c -> snd r = Panic x -> (d_log (fst r) = d_log s /\ bin_panics prefix (g0 ++ [(key, v)]) key v) \/
       exists e, d_log (fst r) = d_log s ++ [Did e] /\ w (effects (d_log (fst r))) = Crashes)).
  { intros r -> ->. split; [discriminate|]. split; [exact NIL|discriminate]. }
  assert (ON : forall b, bin_rel b (g0 ++ [(key, v)]) ->
    (snd (go (set_bin s b)) = Ok tt -> bin_rel (d_bin (fst (go (set_bin s b)))) (gathered BinaryFile (d_log (fst (go (set_bin s b)))))) /\
    (exists es, d_log (fst (go (set_bin s b))) = d_log s ++ map Did es /\ wrote1 c prefix (g0 ++ [(key, v)]) es) /\
    (forall x, hash_sizes c -> snd (go (set_bin s b)) = Panic x -> (d_log (fst (go (set_bin s b))) = d_log s /\ bin_panics prefix (g0 ++ [(key, v)]) key v) \/
       exists e, d_log (fst (go (set_bin s b))) = d_log s ++ [Did e] /\ w (effects (d_log (fst (go (set_bin s b))))) = Crashes)).
  { intros b HB. cbn [go fst snd set_bin d_bin d_log]. split; [intros _; rewrite G; exact HB|]. split; [exact NIL|discriminate]. }
  unfold step_bin. cbv zeta. pose proof B as B0. destruct B as (B1 & B2 & B3).
  destruct (text_eqb_spec key (txt "name")) as [K|K1].
  { destruct (bf_path (d_bin s)) as [n|]; [apply STOP; reflexivity|]. destruct (v_str v) as [x|] eqn:V; cbn [need]; [|apply STOP; reflexivity].
    apply ON. apply v_str_some in V. destruct V as (u & -> & U). subst key. unfold bin_rel. cbn [bf_path bf_len bf_data bf_mode].
    rewrite !given_app, parts_app. cbn [text_eqb]. change (text_eqb (txt "name") (txt "name")) with true. change (text_eqb (txt "name") (txt "length")) with false.
    change (text_eqb (firstn 4 (txt "name")) (txt "data")) with false. change (text_eqb (txt "name") (txt "mode")) with false.
    rewrite !app_nil_r, B1. split; [exists u; auto|]. split; assumption. }
  destruct (text_eqb_spec key (txt "length")) as [K|K2].
  { destruct (bf_len (d_bin s)) as [n|] eqn:LE; [apply STOP; reflexivity|]. destruct (v_u64 v) as [n|] eqn:V; cbn [need]; [|apply STOP; reflexivity].
    apply v_u64_some in V. destruct V as (z & -> & Z). destruct (N.ltb_spec CAPACITY n) as [BIG|SMALL].
    - cbn [fst snd]. split; [discriminate|]. split; [exact NIL|]. intros x _ _. left. split; [reflexivity|]. left. split; [exact K|]. exists z. split; [reflexivity|]. rewrite <- Z. lia.
    - apply ON. subst key. destruct B2 as (E1 & E2 & E3). unfold bin_rel. cbn [bf_path bf_len bf_data bf_mode].
      rewrite !given_app, parts_app. change (text_eqb (txt "length") (txt "length")) with true. change (text_eqb (txt "length") (txt "name")) with false.
      change (text_eqb (firstn 4 (txt "length")) (txt "data")) with false. change (text_eqb (txt "length") (txt "mode")) with false.
      rewrite !app_nil_r, E1. split; [exact B1|]. split; [|exact B3]. split; [exists z; auto|]. exists []. cbn [concat map]. rewrite E3. auto. }
  destruct (prefixb (txt "data") key) eqn:K3.
  { destruct (bf_data (d_bin s)) as [d|] eqn:DD; [|apply STOP; reflexivity]. destruct (v_bytes v) as [x|] eqn:V; cbn [need]; [|apply STOP; reflexivity].
    apply v_bytes_some in V. subst v. apply ON. rewrite prefixb_firstn in K3. change (length (txt "data")) with 4%nat in K3.
    assert (K4 : key <> txt "mode") by (intros ->; discriminate).
    unfold bin_rel. cbn [bf_path bf_len bf_data bf_mode]. rewrite !given_app, parts_app, K3.
    apply text_eqb_neq in K1, K2, K4. rewrite K1, K2, K4, !app_nil_r. split; [exact B1|]. split; [|exact B3].
    destruct (bf_len (d_bin s)) as [n|].
    - destruct B2 as (E1 & ds & E2 & E3). split; [exact E1|]. exists (ds ++ [x]). inversion E2; subst. rewrite concat_app, map_app, E3. cbn. rewrite app_nil_r. auto.
    - destruct B2 as (_ & E & _). congruence. }
  assert (K3' : firstn 4 key <> txt "data") by (rewrite prefixb_firstn in K3; change (length (txt "data")) with 4%nat in K3; apply text_eqb_neq; exact K3).
  destruct (text_eqb_spec key (txt "mode")) as [K|K4].
  { destruct (bf_mode (d_bin s)) as [n|] eqn:LE; [apply STOP; reflexivity|]. destruct (v_u32 v) as [n|] eqn:V; cbn [need]; [|apply STOP; reflexivity].
    apply v_u32_some in V. destruct V as (z & -> & Z). apply ON. subst key. unfold bin_rel. cbn [bf_path bf_len bf_data bf_mode].
    rewrite !given_app, parts_app. change (text_eqb (txt "mode") (txt "mode")) with true. change (text_eqb (txt "mode") (txt "name")) with false.
    change (text_eqb (firstn 4 (txt "mode")) (txt "data")) with false. change (text_eqb (txt "mode") (txt "length")) with false.
    rewrite !app_nil_r, B3. split; [exact B1|]. split; [exact B2|]. exists z. auto. }
  assert (OTHER : bin_rel (d_bin s) (g0 ++ [(key, v)])) by (apply bin_rel_other; assumption).
  destruct (prefixb (txt "sha-") key) eqn:K5.
  2: { cbn [go fst snd]. split; [intros _; rewrite G; exact OTHER|]. split; [exact NIL|discriminate]. }
  destruct (v_bytes v) as [x|] eqn:V; cbn [need]; [|apply STOP; reflexivity]. apply v_bytes_some in V. subst v.
  match goal with |- context [need s ?o _] => destruct o as [t|] eqn:TY end; cbn [need]; [|apply STOP; reflexivity].
  pose proof (digest_key_of key t K5 TY) as DK.
  destruct (hash_from_digest t x) as [h|e|pn] eqn:HD; [|apply STOP; reflexivity|unfold hash_from_digest in HD; destruct (negb (nlen x =? digest_size t)); discriminate].
  destruct (bf_path (d_bin s)) as [n|] eqn:PA; cbn [need]; [|apply STOP; reflexivity].
  destruct (bf_len (d_bin s)) as [len|] eqn:LE; cbn [need]; [|apply STOP; reflexivity].
  destruct B2 as ((z & E1 & Z) & ds & E2 & E3). rewrite E2. destruct (N.eqb_spec (nlen (concat ds)) len) as [LEN|_]; cbn [negb]; [|apply STOP; reflexivity].
  destruct (hash_compare_data c h (concat ds)) as [[]|e|pn] eqn:HC; [|apply STOP; reflexivity|].
  2: { cbn [fst snd]. split; [discriminate|]. split; [exact NIL|]. intros y HS _. exfalso. revert HD HC. unfold hash_from_digest, hash_compare_data, memcmp_eq.
       destruct (N.eqb_spec (nlen x) (digest_size t)) as [SZ|_]; cbn [negb]; [|discriminate]. intros H; inversion H; subst. cbn [h_type h_value].
       destruct (digestible t); [|discriminate]. rewrite (HS t (concat ds)), SZ, N.eqb_refl. cbn [negb bind]. destruct (bytes_eqb x (c_hash c t (concat ds))); discriminate. }
  pose proof (hash_ok_inv _ _ _ _ _ HD HC) as HX.
  destruct B1 as (u & G1 & U). pose proof G1 as G1k.
  assert (GN : given (txt "name") (g0 ++ [(key, VBytes x)]) = [VText u]) by (rewrite given_app; apply text_eqb_neq in K1; rewrite K1, app_nil_r; exact G1).
  unfold deploy. destruct (destination_path n prefix) as [p|] eqn:DP; cbn [need]; [|apply STOP; reflexivity].
  apply destination_placed in DP. destruct (has_parent p) eqn:HP.
  2: { cbn [andthen fst snd]. split; [discriminate|]. split; [exact NIL|]. intros y _ _. left. split; [reflexivity|]. right. exists t, u, n, p.
       split; [exact DK|]. split; [exact GN|]. split; [exact U|]. split; [exact DP|]. apply no_parent_segments. exact HP. }
  set (e := EWrite p (concat ds) (match bf_mode (d_bin s) with Some m => m | None => 384 end)).
  assert (AN : announced c prefix (g0 ++ [(key, VBytes x)]) p (concat ds) (match bf_mode (d_bin s) with Some m => m | None => 384 end)).
  { exists n, u, z, ds, g0, key, t. split; [exact GN|]. split; [exact U|]. split; [exact DP|].
    rewrite !given_app, parts_app. apply text_eqb_neq in K2, K3', K4. rewrite K2, K3', K4, !app_nil_r. split; [exact E1|].
    split; [rewrite LEN; exact Z|]. split; [exact E3|]. split; [reflexivity|]. split; [rewrite HX; reflexivity|]. split; [exact DK|].
    destruct (bf_mode (d_bin s)) as [m|]; [right; exact B3|left; auto]. }
  assert (WR : exists es, d_log s ++ [Did e] = d_log s ++ map Did es /\ wrote1 c prefix (g0 ++ [(key, VBytes x)]) es).
  { exists [e]. split; [reflexivity|]. right. eexists _, _, _. split; [reflexivity|exact AN]. }
  assert (GW : gathered BinaryFile (d_log s ++ [Did e]) = []) by (rewrite gathered_app; reflexivity).
  unfold perform. fold e. cbv zeta.
  change (d_log (noted s (Did e))) with (d_log s ++ [Did e]).
  destruct (w (effects (d_log s ++ [Did e]))) eqn:WA; cbn [simple andthen go bail fst snd set_bin noted d_bin d_log].
  - split; [intros _; rewrite GW; exact no_bin_rel|]. split; [exact WR|discriminate].
  - split; [discriminate|]. split; [exact WR|discriminate].
  - split; [discriminate|]. split; [exact WR|]. intros y _ _. right. exists e. split; [reflexivity|exact WA].
  - split; [intros _; rewrite GW; exact no_bin_rel|]. split; [exact WR|discriminate].
Qed.

(** A step of the command module. *)
Definition ran1 (g : list (str * cval)) (es : list effect) : Prop :=
  es = [] \/ exists cmd args, es = [ERun cmd args] /\ ordered g cmd args.

Lemma step_cmd_rel w s log key v :
  d_log s = log ++ [Read (Command, key, v)] -> cmd_rel (d_cmd s) (gathered Command log) ->
  let r := step_cmd w s key v in
  let g := gathered Command log ++ [(key, v)] in
  (snd r = Ok tt -> cmd_rel (d_cmd (fst r)) (gathered Command (d_log (fst r)))) /\
  (exists es, d_log (fst r) = d_log s ++ map Did es /\ ran1 g es) /\
  (forall x, snd r = Panic x -> d_log (fst r) = d_log s /\ key = txt "execute" /\ given (txt "command") (gathered Command log) = []).
Proof.
  intros L B. cbv zeta. set (g0 := gathered Command log) in *.
  assert (G : gathered Command (d_log s) = g0 ++ [(key, v)]) by (rewrite L; apply gathered_read).
  assert (NIL : exists es, d_log s = d_log s ++ map Did es /\ ran1 (g0 ++ [(key, v)]) es) by (exists []; cbn; rewrite app_nil_r; split; [reflexivity|left; reflexivity]).
  assert (STOP : forall r : res, fst r = s -> snd r = Err tt ->
    (snd r = Ok tt -> cmd_rel (d_cmd (fst r)) (gathered Command (d_log (fst r)))) /\
    (exists es, d_log (fst r) = d_log s ++ map Did es /\ ran1 (g0 ++ [(key, v)]) es) /\
    (forall x, snd r = Panic x -> d_log (fst r) = d_log s /\ key = txt "execute" /\ given (txt "command") g0 = [])).
  { intros r -> ->. split; [discriminate|]. split; [exact NIL|discriminate]. }
  assert (ON : forall b, cmd_rel b (g0 ++ [(key, v)]) ->
    (snd (go (set_cmd s b)) = Ok tt -> cmd_rel (d_cmd (fst (go (set_cmd s b)))) (gathered Command (d_log (fst (go (set_cmd s b)))))) /\
    (exists es, d_log (fst (go (set_cmd s b))) = d_log s ++ map Did es /\ ran1 (g0 ++ [(key, v)]) es) /\
    (forall x, snd (go (set_cmd s b)) = Panic x -> d_log (fst (go (set_cmd s b))) = d_log s /\ key = txt "execute" /\ given (txt "command") g0 = [])).
  { intros b HB. cbn [go fst snd set_cmd d_cmd d_log]. split; [intros _; rewrite G; exact HB|]. split; [exact NIL|discriminate]. }
  unfold step_cmd. cbv zeta. pose proof B as B0. destruct B as (B1 & B2).
  destruct (text_eqb_spec key (txt "command")) as [K|K1].
  { destruct (cm_cmd (d_cmd s)) as [n|]; [apply STOP; reflexivity|]. destruct (v_str v) as [x|] eqn:V; cbn [need]; [|apply STOP; reflexivity].
    apply ON. apply v_str_some in V. destruct V as (u & -> & U). subst key. unfold cmd_rel. cbn [cm_cmd cm_args].
    rewrite !given_app. change (text_eqb (txt "command") (txt "command")) with true. change (text_eqb (txt "command") (txt "args")) with false.
    rewrite app_nil_r, B1. split; [exists u; auto|exact B2]. }
  destruct (text_eqb_spec key (txt "args")) as [K|K2].
  { destruct (v_strs v) as [x|] eqn:V; cbn [need]; [|apply STOP; reflexivity]. apply ON. subst key.
    destruct v; try discriminate. cbn [v_strs] in V. apply v_texts_some in V. destruct V as (us & -> & F).
    unfold cmd_rel. cbn [cm_cmd cm_args]. rewrite !given_app. change (text_eqb (txt "args") (txt "args")) with true. change (text_eqb (txt "args") (txt "command")) with false.
    rewrite app_nil_r. split; [exact B1|]. right. eauto. }
  assert (OTHER : cmd_rel (d_cmd s) (g0 ++ [(key, v)])) by (apply cmd_rel_other; assumption).
  destruct (text_eqb_spec key (txt "may_fail")) as [_|_].
  { destruct (v_bool v) as [x|]; cbn [need]; [|apply STOP; reflexivity]. apply ON. exact OTHER. }
  destruct (text_eqb_spec key (txt "return_stdout")) as [_|_].
  { destruct (v_bool v) as [x|]; cbn [need]; [|apply STOP; reflexivity]. apply ON. exact OTHER. }
  destruct (text_eqb_spec key (txt "return_stderr")) as [_|_].
  { destruct (v_bool v) as [x|]; cbn [need]; [|apply STOP; reflexivity]. apply ON. exact OTHER. }
  destruct (text_eqb_spec key (txt "execute")) as [K|_].
  2: { cbn [go fst snd]. split; [intros _; rewrite G; exact OTHER|]. split; [exact NIL|discriminate]. }
  unfold run_command. destruct (cm_cmd (d_cmd s)) as [cmd|] eqn:CM.
  2: { cbn [andthen fst snd]. split; [discriminate|]. split; [exact NIL|]. intros x _. split; [reflexivity|]. split; [exact K|exact B1]. }
  destruct B1 as (u & G1 & U). cbv zeta. unfold perform. cbv zeta.
  set (e := ERun cmd (cm_args (d_cmd s))).
  match goal with |- context [noted ?q (Did e)] => set (s2 := q) end.
  assert (L2 : d_log s2 = d_log s) by reflexivity.
  assert (WR : exists es, d_log s ++ [Did e] = d_log s ++ map Did es /\ ran1 (g0 ++ [(key, v)]) es).
  { exists [e]. split; [reflexivity|]. right. eexists _, _. split; [reflexivity|]. exists u, g0, v.
    rewrite !given_app. apply text_eqb_neq in K1, K2. rewrite K1, K2, !app_nil_r. split; [exact G1|]. split; [exact U|]. split; [rewrite K; reflexivity|exact B2]. }
  assert (GW : gathered Command (d_log s ++ [Did e]) = []) by (rewrite gathered_app; reflexivity).
  change (d_log (noted s2 (Did e))) with (d_log s ++ [Did e]).
  assert (DONE : forall s6, d_log s6 = d_log s ++ [Did e] -> forall b : bool,
     let r := andthen (if b then go s6 else bail s6) (fun s1 => go (set_cmd s1 no_cmd)) in
     (snd r = Ok tt -> cmd_rel (d_cmd (fst r)) (gathered Command (d_log (fst r)))) /\
     (exists es, d_log (fst r) = d_log s ++ map Did es /\ ran1 (g0 ++ [(key, v)]) es) /\
     (forall x, snd r = Panic x -> d_log (fst r) = d_log s /\ key = txt "execute" /\ given (txt "command") g0 = [])).
  { intros s6 E6 b. destruct b; cbn [andthen go bail fst snd set_cmd d_cmd d_log]; rewrite E6.
    - split; [intros _; rewrite GW; exact no_cmd_rel|]. split; [exact WR|discriminate].
    - split; [discriminate|]. split; [exact WR|discriminate]. }
  destruct (w (effects (d_log s ++ [Did e]))) as [| | |out err code];
    try (apply (DONE (noted s2 (Did e)) eq_refl false)).
  apply DONE. destruct (cm_out (d_cmd s)), (cm_err (d_cmd s)); reflexivity.
Qed.

(** The other modules panic only where the machine does. *)
Definition crash_only (w : machine) (r : res) : Prop :=
  forall x, snd r = Panic x -> exists pre e, d_log (fst r) = pre ++ [Did e] /\ w (effects (d_log (fst r))) = Crashes.
Lemma crash_go w s : crash_only w (go s). Proof. intros x H. discriminate. Qed.
Lemma crash_bail w s : crash_only w (bail s). Proof. intros x H. discriminate. Qed.
Lemma crash_need {A} w s (o : option A) f : (forall a, crash_only w (f a)) -> crash_only w (need s o f).
Proof. intros H. destruct o; [apply H|apply crash_bail]. Qed.
Lemma crash_andthen w r f : crash_only w r -> (forall s, crash_only w (f s)) -> crash_only w (andthen r f).
Proof. intros H F. destruct r as [s [a| |]]; cbn; [apply F|exact H|exact H]. Qed.
Lemma crash_perform w s e f : (forall s1, crash_only w (f s1)) -> crash_only w (perform w s e (fun s1 a => simple s1 a f)).
Proof.
  intros H. unfold perform. cbv zeta. destruct (w (effects (d_log (noted s (Did e))))) eqn:W; cbn [simple]; try apply H.
  - apply crash_bail.
  - intros x _. exists (d_log s), e. cbn [fst]. split; [reflexivity|exact W].
Qed.
Ltac in_crash := repeat match goal with
  | |- crash_only _ (go _) => apply crash_go
  | |- crash_only _ (bail _) => apply crash_bail
  | |- crash_only _ (need _ _ _) => apply crash_need; intros ?
  | |- crash_only _ (andthen _ _) => apply crash_andthen; [|intros ?]
  | |- crash_only _ (perform _ _ _ _) => apply crash_perform; intros ?
  | |- crash_only _ (if ?b then _ else _) => destruct b
  | |- crash_only _ (match ?b with _ => _ end) => destruct b
  end.
Lemma step_disk_crash w s k v : crash_only w (step_disk w s k v).
Proof. unfold step_disk, run_disk. cbv zeta. in_crash. Qed.
Lemma step_ssh_crash w s k v : crash_only w (step_ssh s k v).
Proof. unfold step_ssh. in_crash. Qed.
Lemma step_rhsm_crash w s k v : crash_only w (step_rhsm s k v).
Proof. unfold step_rhsm. in_crash. Qed.
Lemma install_keys_crash w u keys : forall s, crash_only w (install_keys w u s keys).
Proof. induction keys as [|k keys IH]; intros s; cbn [install_keys]; in_crash. apply IH. Qed.
Lemma finish_ssh_crash w s : crash_only w (finish_ssh w s).
Proof. unfold finish_ssh. in_crash; apply install_keys_crash. Qed.
Lemma finish_rhsm_crash w s : crash_only w (finish_rhsm w s).
Proof. unfold finish_rhsm. in_crash. Qed.

(** ** The whole run *)
Section runs.
Context (c : crypto) (w : machine) (prefix : option str).

Definition wrote_ok (log : list note) : Prop :=
  forall pre p d m post, log = pre ++ Did (EWrite p d m) :: post -> announced c prefix (gathered BinaryFile pre) p d m.
Definition ran_ok (log : list note) : Prop :=
  forall pre cmd args post, log = pre ++ Did (ERun cmd args) :: post -> ordered (gathered Command pre) cmd args.
Definition panics_at (log : list note) : Prop :=
  (exists log0 z, log = log0 ++ [Read (BinaryFile, txt "length", VInt z)] /\ (Z.of_N CAPACITY < z mod 18446744073709551616)%Z) \/
  (exists log0 key v t u name p, log = log0 ++ [Read (BinaryFile, key, v)] /\ digest_key key t /\
     given (txt "name") (gathered BinaryFile log) = [VText u] /\ utf8_dec u = Some name /\ placed prefix name p /\ segments p = []) \/
  (exists log0 v, log = log0 ++ [Read (Command, txt "execute", v)] /\ given (txt "command") (gathered Command log0) = []) \/
  (exists log0 e, log = log0 ++ [Did e] /\ w (effects log) = Crashes).
Definition run_inv (s : dst) : Prop :=
  bin_rel (d_bin s) (gathered BinaryFile (d_log s)) /\ cmd_rel (d_cmd s) (gathered Command (d_log s)).

(** Adding effects to a log, one at most being of interest. *)
Lemma split_did log es pre e post : log ++ map Did es = pre ++ Did e :: post ->
  (exists post', log = pre ++ Did e :: post') \/ (exists a b, es = a ++ e :: b /\ pre = log ++ map Did a).
Proof.
  revert pre. induction log as [|n log IH]; intros pre E; cbn [app] in E.
  - right. revert pre E. induction es as [|x es IHe]; intros pre E; [destruct pre; discriminate|]. cbn [map] in E. destruct pre as [|y pre]; cbn [app] in E.
    + injection E as E1 E2. subst. exists [], es. auto.
    + injection E as E1 E2. destruct (IHe pre E2) as (a & b & -> & ->). subst y. exists (x :: a), b. auto.
  - destruct pre as [|y pre]; cbn [app] in E; injection E as E1 E2; subst; [left; exists log; reflexivity|]. destruct (IH pre E2) as [(post' & ->)|(a & b & -> & ->)].
    + left. exists post'. reflexivity.
    + right. exists a, b. auto.
Qed.
Lemma wrote_more log es : wrote_ok log -> (forall a p d m b, es = a ++ EWrite p d m :: b -> announced c prefix (gathered BinaryFile (log ++ map Did a)) p d m) ->
  wrote_ok (log ++ map Did es).
Proof. intros W H pre p d m post E. apply split_did in E. destruct E as [(post' & E)|(a & b & E & ->)]; [eapply W; exact E|eapply H; exact E]. Qed.
Lemma ran_more log es : ran_ok log -> (forall a cmd args b, es = a ++ ERun cmd args :: b -> ordered (gathered Command (log ++ map Did a)) cmd args) ->
  ran_ok (log ++ map Did es).
Proof. intros W H pre cmd args post E. apply split_did in E. destruct E as [(post' & E)|(a & b & E & ->)]; [eapply W; exact E|eapply H; exact E]. Qed.
Lemma split_read log x pre e post : log ++ [Read x] = pre ++ Did e :: post -> exists post', log = pre ++ Did e :: post'.
Proof.
  intros E. destruct (last_cases post) as [->|(post' & y & ->)].
  - apply app_inj_tail in E. destruct E. discriminate.
  - rewrite app_comm_cons, app_assoc in E. apply app_inj_tail in E. destruct E as [E _]. eauto.
Qed.
Lemma wrote_read log x : wrote_ok log -> wrote_ok (log ++ [Read x]).
Proof. intros W pre p d m post E. apply split_read in E. destruct E as (post' & E). eapply W; exact E. Qed.
Lemma ran_read log x : ran_ok log -> ran_ok (log ++ [Read x]).
Proof. intros W pre p d post E. apply split_read in E. destruct E as (post' & E). eapply W; exact E. Qed.
Lemma wrote_other log m es : wrote_ok log -> m <> BinaryFile -> Forall (fun e => module_of e = m) es -> wrote_ok (log ++ map Did es).
Proof. intros W N F. apply wrote_more; [exact W|]. intros a p d md b ->. apply Forall_app in F. destruct F as [_ F]. inversion F. cbn in *. congruence. Qed.
Lemma ran_other log m es : ran_ok log -> m <> Command -> Forall (fun e => module_of e = m) es -> ran_ok (log ++ map Did es).
Proof. intros W N F. apply ran_more; [exact W|]. intros a p d b ->. apply Forall_app in F. destruct F as [_ F]. inversion F. cbn in *. congruence. Qed.

(** A part of a step that belongs to neither module. *)
Lemma within_inv m s s' : m <> BinaryFile -> m <> Command -> within m s s' -> run_inv s -> wrote_ok (d_log s) -> ran_ok (d_log s) ->
  run_inv s' /\ wrote_ok (d_log s') /\ ran_ok (d_log s').
Proof.
  intros NB NC (_ & _ & B & C & es & L & F) (R1 & R2) W R. unfold run_inv. rewrite (B NB), (C NC), L.
  rewrite (gathered_dids BinaryFile m), (gathered_dids Command m) by assumption. split; [split; assumption|].
  split; [eapply wrote_other; eassumption|eapply ran_other; eassumption].
Qed.

Definition step_claim (r : res) : Prop :=
  (snd r = Ok tt -> run_inv (fst r)) /\ wrote_ok (d_log (fst r)) /\ ran_ok (d_log (fst r)) /\
  (forall x, hash_sizes c -> snd r = Panic x -> panics_at (d_log (fst r))).
Lemma claim_other m s r : m <> BinaryFile -> m <> Command -> inside m s r -> crash_only w r -> run_inv s -> wrote_ok (d_log s) -> ran_ok (d_log s) -> step_claim r.
Proof.
  intros NB NC I K R1 R2 R3. destruct (within_inv m s (fst r) NB NC I R1 R2 R3) as (A & B & C). split; [intros _; exact A|]. split; [exact B|]. split; [exact C|].
  intros x _ P. destruct (K x P) as (pre & e & E & W). right. right. right. eauto.
Qed.

Lemma step_all s x : run_inv s -> wrote_ok (d_log s) -> ran_ok (d_log s) -> step_claim (step c w prefix s x).
Proof.
  intros (B & C) W R. destruct x as [[m key] v]. unfold step. cbv zeta. set (s1 := noted s (Read (m, key, v))).
  assert (L1 : d_log s1 = d_log s ++ [Read (m, key, v)]) by reflexivity.
  assert (W1 : wrote_ok (d_log s1)) by (rewrite L1; apply wrote_read; exact W).
  assert (R1 : ran_ok (d_log s1)) by (rewrite L1; apply ran_read; exact R).
  assert (BAIL : step_claim (bail s1)) by (split; [discriminate|]; split; [exact W1|]; split; [exact R1|discriminate]).
  assert (I1 : (key = txt "active" \/ (m <> BinaryFile /\ m <> Command)) -> run_inv s1).
  { intros H. unfold run_inv. rewrite L1. change (d_bin s1) with (d_bin s). change (d_cmd s1) with (d_cmd s). split.
    - destruct (simod_eqb m BinaryFile) eqn:E.
      + apply simod_eqb_eq in E. subst m. destruct H as [->|[H _]]; [|contradiction]. rewrite gathered_read. apply bin_rel_other; [exact B|discriminate..].
      + rewrite gathered_read_other; [exact B|]. intros ->. rewrite simod_eqb_refl in E. discriminate.
    - destruct (simod_eqb m Command) eqn:E.
      + apply simod_eqb_eq in E. subst m. destruct H as [->|[_ H]]; [|contradiction]. rewrite gathered_read. apply cmd_rel_other; [exact C|discriminate..].
      + rewrite gathered_read_other; [exact C|]. intros ->. rewrite simod_eqb_refl in E. discriminate. }
  destruct (text_eqb_spec key (txt "active")) as [KA|NA].
  - specialize (I1 (or_introl KA)). destruct (v_bool v); cbn [need]; [|exact BAIL].
    split; [intros _; exact I1|]. split; [exact W1|]. split; [exact R1|discriminate].
  - destruct (existsb (simod_eqb m) (d_active s1)); cbn [negb]; [|exact BAIL].
    assert (OTH : forall m', m = m' -> m' <> BinaryFile -> m' <> Command -> forall r, inside m' s1 r -> crash_only w r -> step_claim r).
    { intros m' -> NB NC r I K. eapply claim_other; try eassumption. apply I1. right. auto. }
    assert (GO : m <> BinaryFile -> m <> Command -> step_claim (go s1)).
    { intros NB NC. apply (OTH m eq_refl NB NC); [apply within_refl|apply crash_go]. }
    destruct m.
    + apply GO; discriminate.
    + assert (CR : cmd_rel (d_cmd s1) (gathered Command (d_log s))) by exact C.
      destruct (step_cmd_rel w s1 (d_log s) key v L1 CR) as (A1 & (es & A2 & A3) & A4). cbv zeta in *.
      pose proof (step_cmd_within w s1 key v) as (_ & _ & NB & _ & es' & LE & FE).
      assert (EE : es' = es) by (rewrite A2 in LE; apply app_inv_head in LE; rewrite <- (effects_did es), <- (effects_did es'); congruence). subst es'.
      split; [|split; [|split]].
      * intros OK. split; [|apply A1; exact OK]. rewrite NB by discriminate. rewrite A2, (gathered_dids BinaryFile Command) by (discriminate || exact FE).
        rewrite L1, gathered_read_other by discriminate. exact B.
      * rewrite A2. eapply wrote_other; [exact W1| |exact FE]. discriminate.
      * rewrite A2. apply ran_more; [exact R1|]. intros a cmd args b E. destruct A3 as [->|(cmd' & args' & -> & O)]; [destruct a; discriminate|].
        destruct a as [|? a]; [|destruct a; discriminate]. inversion E; subst. cbn [map]. rewrite app_nil_r, L1, gathered_read. exact O.
      * intros x _ P. destruct (A4 x P) as (E1 & E2 & E3). right. right. left. exists (d_log s), v. rewrite E1, L1, E2. auto.
    + apply (OTH SSHKey eq_refl); [discriminate|discriminate|apply step_ssh_within|apply step_ssh_crash].
    + assert (CR : bin_rel (d_bin s1) (gathered BinaryFile (d_log s))) by exact B.
      destruct (step_bin_rel c w prefix s1 (d_log s) key v L1 CR) as (A1 & (es & A2 & A3) & A4). cbv zeta in *.
      pose proof (step_bin_within c w prefix s1 key v) as (_ & _ & _ & NC & es' & LE & FE).
      assert (EE : es' = es) by (rewrite A2 in LE; apply app_inv_head in LE; rewrite <- (effects_did es), <- (effects_did es'); congruence). subst es'.
      split; [|split; [|split]].
      * intros OK. split; [apply A1; exact OK|]. rewrite NC by discriminate. rewrite A2, (gathered_dids Command BinaryFile) by (discriminate || exact FE).
        rewrite L1, gathered_read_other by discriminate. exact C.
      * rewrite A2. apply wrote_more; [exact W1|]. intros a p d md b E. destruct A3 as [->|(p' & d' & m' & -> & O)]; [destruct a; discriminate|].
        destruct a as [|? a]; [|destruct a; discriminate]. inversion E; subst. cbn [map]. rewrite app_nil_r, L1, gathered_read. exact O.
      * rewrite A2. eapply ran_other; [exact R1| |exact FE]. discriminate.
      * intros x HS P. destruct (A4 x HS P) as [[E1 [[-> (z & -> & Z)]|(t & u & name & p & D & G & U & PL & SG)]]|(e & E1 & E2)].
        -- left. exists (d_log s), z. rewrite E1, L1. auto.
        -- right. left. exists (d_log s), key, v, t, u, name, p. rewrite E1, L1, gathered_read. repeat (split; [assumption || reflexivity|]). exact SG.
        -- right. right. right. exists (d_log s1), e. auto.
    + apply (OTH DiskEncryption eq_refl); [discriminate|discriminate|apply step_disk_within|apply step_disk_crash].
    + destruct (text_eqb key (txt "reboot")); [|apply GO; discriminate]. destruct (v_bool v); cbn [need]; [|exact BAIL].
      split; [intros _; apply I1; right; split; discriminate|]. split; [exact W1|]. split; [exact R1|discriminate].
    + apply (OTH SubscriptionManager eq_refl); [discriminate|discriminate|apply step_rhsm_within|apply step_rhsm_crash].
    + apply GO; discriminate.
Qed.

Lemma steps_all l : forall s, run_inv s -> wrote_ok (d_log s) -> ran_ok (d_log s) -> step_claim (steps c w prefix s l).
Proof.
  induction l as [|x l IH]; intros s I W R; cbn [steps].
  - split; [intros _; exact I|]. split; [exact W|]. split; [exact R|discriminate].
  - pose proof (step_all s x I W R) as S. destruct (step c w prefix s x) as [s1 [[]|u|n]]; cbn [andthen]; [|exact S|exact S].
    destruct S as (S1 & S2 & S3 & _). cbn [fst snd] in *. apply IH; [apply S1; reflexivity|assumption|assumption].
Qed.

Lemma process_all l out : step_claim (process c w prefix l out).
Proof.
  unfold process.
  assert (S : step_claim (steps c w prefix (dst0 out) (si_iter l))).
  { apply steps_all; [split; [exact no_bin_rel|exact no_cmd_rel]| |]; intros [|? ?]; discriminate. }
  destruct (steps c w prefix (dst0 out) (si_iter l)) as [s1 [[]|u|n]]; cbn [andthen]; [|exact S|exact S].
  destruct S as (S1 & S2 & S3 & _). cbn [fst snd] in *. specialize (S1 eq_refl).
  assert (F : step_claim (finish_ssh w s1)).
  { eapply (claim_other SSHKey s1); [discriminate|discriminate|apply finish_ssh_within|apply finish_ssh_crash|assumption..]. }
  destruct (finish_ssh w s1) as [s2 [[]|u|n]]; cbn [andthen]; [|exact F|exact F].
  destruct F as (F1 & F2 & F3 & _). cbn [fst snd] in *. specialize (F1 eq_refl).
  eapply (claim_other SubscriptionManager s2); [discriminate|discriminate|apply finish_rhsm_within|apply finish_rhsm_crash|assumption..].
Qed.
End runs.

(** ** Resolution of paths *)
Lemma split_on_app c a b : split_on c (a ++ c :: b) = split_on c a ++ split_on c b.
Proof.
  induction a as [|x a IH]; cbn [app split_on].
  - rewrite N.eqb_refl. reflexivity.
  - destruct (x =? c); [rewrite IH; reflexivity|]. rewrite IH. destruct (split_on c a) as [|h t] eqn:E; [|reflexivity].
    exfalso. destruct a as [|y a]; cbn in E; [discriminate|]. destruct (y =? c); [discriminate|]. destruct (split_on c a); discriminate.
Qed.
Lemma segments_join a b : segments (a ++ SLASH :: b) = segments a ++ segments b.
Proof. unfold segments. rewrite split_on_app, filter_app. reflexivity. Qed.
Lemma segments_slash b : segments (SLASH :: b) = segments b. Proof. reflexivity. Qed.
Lemma segments_trail f : segments (f ++ [SLASH]) = segments f.
Proof. rewrite segments_join. cbn. rewrite app_nil_r. reflexivity. Qed.
Lemma placed_segments f name p : placed (Some f) name p -> (forall r, name <> SLASH :: SLASH :: r) ->
  segments p = segments f ++ segments name /\ (f <> [] -> is_absolute p = is_absolute f).
Proof.
  intros (rest & -> & H) N. rewrite segments_slash. destruct (is_absolute rest) eqn:AB.
  - exfalso. destruct rest as [|x rest]; [discriminate|]. cbn in AB. apply N.eqb_eq in AB. subst x. apply (N rest). reflexivity.
  - destruct H as [[-> [->|(f' & ->)]]|[-> [NE _]]].
    + split; [reflexivity|]. intros NE. contradiction.
    + split; [|destruct f'; reflexivity]. rewrite <- app_assoc. cbn [app]. rewrite segments_join, segments_trail. reflexivity.
    + split; [apply segments_join|]. destruct f; [contradiction|reflexivity].
Qed.
Lemma removelast_app1 {A} (l : list A) x : removelast (l ++ [x]) = l.
Proof. rewrite removelast_app by discriminate. cbn. rewrite app_nil_r. reflexivity. Qed.
Lemma walk_below segs : forall base more, never_above (length more) segs -> exists more', walk (base ++ more) segs = base ++ more'.
Proof.
  induction segs as [|s segs IH]; intros base more H; cbn [walk].
  - eauto.
  - cbn [never_above] in H. destruct (text_eqb s UP).
    + destruct (last_cases more) as [->|(m' & y & ->)]; [destruct H|]. rewrite app_length in H. cbn in H. rewrite Nat.add_1_r in H.
      rewrite app_assoc, removelast_app1. apply IH. exact H.
    + rewrite <- app_assoc. apply IH. rewrite app_length. cbn. rewrite Nat.add_1_r. exact H.
Qed.
Lemma walk_app a b at_ : walk at_ (a ++ b) = walk (walk at_ a) b.
Proof. revert at_. induction a as [|s a IH]; intros at_; cbn [app walk]; [reflexivity|]. destruct (text_eqb s UP); apply IH. Qed.
Lemma placed_below f name p : f <> [] -> placed (Some f) name p -> (forall r, name <> SLASH :: SLASH :: r) -> never_above 0 (segments name) -> below f p.
Proof.
  intros NE PL N A. destruct (placed_segments f name p PL N) as [S AB]. split; [apply AB; exact NE|].
  unfold resolve. rewrite S, walk_app. destruct (walk_below (segments name) (walk [] (segments f)) [] A) as (more & E).
  rewrite app_nil_r in E. eauto.
Qed.
