(** Lemmas on service info: names, entries, the device's steps, activation. *)
From Verif Require Import Base BaseFacts ValueModel ValueProofs Text TypesModel MsgModel SiModel DevSiModel SiSpec.
From Coq Require Import ZifyBool ZifyNat ZifyN.
Local Open Scope N_scope.

Lemma text_eqb_eq a b : text_eqb a b = true <-> a = b.
Proof. unfold text_eqb. apply bytes_eqb_spec. Qed.
Lemma text_eqb_refl a : text_eqb a a = true. Proof. apply text_eqb_eq; reflexivity. Qed.
Lemma text_eqb_neq a b : text_eqb a b = false <-> a <> b.
Proof.
  split; intros H.
  - intros E. apply text_eqb_eq in E. congruence.
  - destruct (text_eqb a b) eqn:E; [|reflexivity]. apply text_eqb_eq in E. contradiction.
Qed.
Lemma text_eqb_spec a b : reflect (a = b) (text_eqb a b).
Proof. destruct (text_eqb a b) eqn:E; constructor; [apply text_eqb_eq|apply text_eqb_neq]; exact E. Qed.

Lemma simod_eqb_eq a b : simod_eqb a b = true <-> a = b.
Proof.
  destruct a, b; cbn; split; intros H; try reflexivity; try discriminate.
  - apply text_eqb_eq in H. congruence.
  - inversion H. apply text_eqb_refl.
Qed.
Lemma simod_eqb_refl a : simod_eqb a a = true. Proof. apply simod_eqb_eq; reflexivity. Qed.

(** ** Names *)
Lemma simod_of_spec s : (exists m, In (m, s) known_modules /\ simod_of s = m) \/ (~ In s (map snd known_modules) /\ simod_of s = Unsupported s).
Proof.
  unfold simod_of.
  repeat match goal with
  | |- context [text_eqb s ?t] => destruct (text_eqb_spec s t) as [->|]; [left; eexists; split; [|reflexivity]; cbn; tauto|]
  end.
  right. split; [|reflexivity]. cbn [known_modules map snd In]. intuition congruence.
Qed.
Lemma known_text m s : In (m, s) known_modules -> simod_text m = s.
Proof. cbn [known_modules In]. intros H. repeat (destruct H as [H|H]; [inversion H; subst; reflexivity|]). destruct H. Qed.
Lemma simod_text_of s : simod_text (simod_of s) = s.
Proof. destruct (simod_of_spec s) as [(m & I & ->)|[_ ->]]; [apply known_text; exact I|reflexivity]. Qed.
Lemma simod_of_text m : proper m -> simod_of (simod_text m) = m.
Proof.
  intros P. destruct m; try (vm_compute; reflexivity). cbn [simod_text].
  destruct (simod_of_spec s) as [(m & I & _)|[_ E]]; [|exact E]. exfalso. apply (P s eq_refl). apply in_map_iff. exists (m, s). auto.
Qed.
Lemma proper_of s : proper (simod_of s).
Proof.
  destruct (simod_of_spec s) as [(m & I & ->)|[N ->]]; intros s' E.
  - cbn [known_modules In] in I. repeat (destruct I as [I|I]; [inversion I; subst; discriminate|]). destruct I.
  - inversion E; subst. exact N.
Qed.

(** ** Entries *)
Lemma split_colon_some s a b : split_colon s = Some (a, b) -> exists r, b = COLON :: r /\ s = a ++ COLON :: r /\ ~ In COLON a.
Proof.
  revert a b. induction s as [|x s IH]; intros a b H; [discriminate|]. cbn [split_colon] in H. destruct (N.eqb_spec x COLON) as [->|NE].
  - inversion H; subst. exists s. repeat split. intros [].
  - destruct (split_colon s) as [[a' b']|]; [|discriminate]. cbn in H. inversion H; subst. destruct (IH _ _ eq_refl) as (r & -> & E & N).
    exists r. split; [reflexivity|]. split; [rewrite E; reflexivity|]. intros [E'|I]; [congruence|exact (N I)].
Qed.
Lemma split_colon_app a r : ~ In COLON a -> split_colon (a ++ COLON :: r) = Some (a, COLON :: r).
Proof.
  induction a as [|x a IH]; intros H; cbn [app split_colon].
  - rewrite N.eqb_refl. reflexivity.
  - destruct (N.eqb_spec x COLON) as [->|_]; [exfalso; apply H; left; reflexivity|]. rewrite IH; [reflexivity|]. intros I. apply H. right. exact I.
Qed.
Lemma any_value_some b v : any_value b = Some v -> dec_top b = Some v /\ texts_ok v = true.
Proof. unfold any_value. destruct (dec_top b) as [x|]; [|discriminate]. destruct (texts_ok x) eqn:T; [|discriminate]. intros H; inversion H; subst; auto. Qed.
Lemma any_value_none b : any_value b = None -> dec_top b = None \/ exists v, dec_top b = Some v /\ texts_ok v = false.
Proof. unfold any_value. destruct (dec_top b) as [x|]; [|auto]. destruct (texts_ok x) eqn:T; [discriminate|]. right. eauto. Qed.
Lemma si_iter_says l : exists n, Forall2 says (firstn n l) (si_iter l).
Proof.
  induction l as [|[k b] l [n IH]]; [exists O; constructor|]. cbn [si_iter].
  destruct (split_colon k) as [[m key]|] eqn:SC; [|exists O; constructor]. destruct (any_value b) as [v|] eqn:V; [|exists O; constructor].
  exists (S n). cbn [firstn]. constructor; [|exact IH]. apply split_colon_some in SC. destruct SC as (r & -> & E & N). apply any_value_some in V.
  exists m. cbn [fst snd tl]. repeat split; try assumption. apply V.
Qed.

(** ** The device's steps *)
Lemma effects_app a b : effects (a ++ b) = effects a ++ effects b.
Proof. induction a as [|[x|e] a IH]; cbn; [reflexivity|exact IH|f_equal; exact IH]. Qed.
Lemma reads_app a b : reads (a ++ b) = reads a ++ reads b.
Proof. induction a as [|[x|e] a IH]; cbn; [reflexivity|f_equal; exact IH|exact IH]. Qed.
Lemma reads_did es : reads (map Did es) = [].
Proof. induction es; cbn; auto. Qed.
Lemma effects_did es : effects (map Did es) = es.
Proof. induction es; cbn; [reflexivity|f_equal; assumption]. Qed.

(** A part of a step: only effects of module [m] are added to the log; activation and the reboot flag stay. *)
Definition within (m : simod) (s s' : dst) : Prop :=
  d_active s' = d_active s /\ d_reboot s' = d_reboot s /\
  (m <> BinaryFile -> d_bin s' = d_bin s) /\ (m <> Command -> d_cmd s' = d_cmd s) /\
  exists es, d_log s' = d_log s ++ map Did es /\ Forall (fun e => module_of e = m) es.
Lemma within_refl m s : within m s s.
Proof. split; [reflexivity|]. split; [reflexivity|]. split; [reflexivity|]. split; [reflexivity|]. exists []. cbn. rewrite app_nil_r. auto. Qed.
Lemma within_same m s s' : d_active s' = d_active s -> d_reboot s' = d_reboot s -> (m <> BinaryFile -> d_bin s' = d_bin s) ->
  (m <> Command -> d_cmd s' = d_cmd s) -> d_log s' = d_log s -> within m s s'.
Proof. intros A R B C L. split; [exact A|]. split; [exact R|]. split; [exact B|]. split; [exact C|]. exists []. cbn. rewrite app_nil_r. auto. Qed.
Lemma within_trans m a b c : within m a b -> within m b c -> within m a c.
Proof.
  intros (A & R & B & C & es & L & F) (A' & R' & B' & C' & es' & L' & F'). split; [congruence|]. split; [congruence|].
  split; [intros N; rewrite B', B by exact N; reflexivity|]. split; [intros N; rewrite C', C by exact N; reflexivity|]. exists (es ++ es'). split.
  - rewrite L', L, map_app, app_assoc. reflexivity.
  - apply Forall_app. auto.
Qed.
Lemma within_did m s e : module_of e = m -> within m s (noted s (Did e)).
Proof. intros E. split; [reflexivity|]. split; [reflexivity|]. split; [reflexivity|]. split; [reflexivity|]. exists [e]. split; [reflexivity|]. constructor; auto. Qed.

Definition inside (m : simod) (s : dst) (r : res) : Prop := within m s (fst r).
Lemma inside_go m s s' : within m s s' -> inside m s (go s'). Proof. exact id. Qed.
Lemma inside_bail m s s' : within m s s' -> inside m s (bail s'). Proof. exact id. Qed.
Lemma inside_need {A} m s s' (x : option A) f : within m s s' -> (forall a, x = Some a -> inside m s (f a)) -> inside m s (need s' x f).
Proof. intros W H. destruct x; [apply H; reflexivity|exact W]. Qed.
Lemma inside_perform m s s' w e f : within m s s' -> module_of e = m -> (forall s1 a, within m s s1 -> inside m s (f s1 a)) -> inside m s (perform w s' e f).
Proof. intros W E H. unfold perform. apply H. eapply within_trans; [exact W|apply within_did; exact E]. Qed.
Lemma inside_simple m s s' a f : within m s s' -> inside m s (f s') -> inside m s (simple s' a f).
Proof. intros W H. destruct a; cbn; assumption. Qed.
Lemma inside_andthen m s r f : inside m s r -> (forall s1, within m s s1 -> inside m s (f s1)) -> inside m s (andthen r f).
Proof. intros W H. destruct r as [s1 [a| |]]; cbn; [apply H|exact W|exact W]. exact W. Qed.
Lemma within_set_bin s s' b : within BinaryFile s s' -> within BinaryFile s (set_bin s' b).
Proof. intros W. eapply within_trans; [exact W|]. apply within_same; try reflexivity. intros N. contradiction. Qed.
Lemma within_set_cmd s s' b : within Command s s' -> within Command s (set_cmd s' b).
Proof. intros W. eapply within_trans; [exact W|]. apply within_same; try reflexivity. intros N. contradiction. Qed.
Lemma within_set_disk m s s' b : within m s s' -> within m s (set_disk s' b).
Proof. intros W. eapply within_trans; [exact W|]. apply within_same; reflexivity. Qed.
Lemma within_add_out m s s' a b v : within m s s' -> within m s (add_out s' a b v).
Proof. intros W. eapply within_trans; [exact W|]. apply within_same; reflexivity. Qed.

Ltac in_step :=
  repeat match goal with
    | |- within _ _ (if ?b then _ else _) => destruct b
    | |- within _ _ _ => first [apply within_refl | assumption | apply within_set_bin | apply within_set_cmd | apply within_set_disk | apply within_add_out]
    | |- inside _ _ (go _) => apply inside_go
    | |- inside _ _ (bail _) => apply inside_bail
    | |- inside _ _ (need _ _ _) => apply inside_need; [|intros ? _]
    | |- inside _ _ (perform _ _ _ _) => apply inside_perform; [|reflexivity|intros ? ? ?]
    | |- inside _ _ (simple _ _ _) => apply inside_simple
    | |- inside _ _ (andthen _ _) => apply inside_andthen; [|intros ? ?]
    | |- inside _ _ (_, Panic _) => unfold inside; cbn [fst]
    | |- inside _ _ (if ?b then _ else _) => destruct b
    | |- inside _ _ (match ?b with _ => _ end) => destruct b
    end.

Lemma step_bin_within c w p s k v : inside BinaryFile s (step_bin c w p s k v).
Proof. unfold step_bin, deploy. cbv zeta. in_step. Qed.
Lemma step_cmd_within w s k v : inside Command s (step_cmd w s k v).
Proof. unfold step_cmd, run_command. cbv zeta. in_step. Qed.
Lemma step_disk_within w s k v : inside DiskEncryption s (step_disk w s k v).
Proof. unfold step_disk, run_disk. cbv zeta. in_step. Qed.
Lemma step_ssh_within s k v : inside SSHKey s (step_ssh s k v).
Proof. unfold step_ssh. in_step; apply within_same; try reflexivity. Qed.
Lemma step_rhsm_within s k v : inside SubscriptionManager s (step_rhsm s k v).
Proof. unfold step_rhsm. in_step; apply within_same; try reflexivity. Qed.
Lemma install_keys_within w u keys : forall s0 s, within SSHKey s0 s -> inside SSHKey s0 (install_keys w u s keys).
Proof. induction keys as [|k keys IH]; intros s0 s W; cbn [install_keys]; in_step. apply IH. assumption. Qed.
Lemma finish_ssh_within w s : inside SSHKey s (finish_ssh w s).
Proof. unfold finish_ssh. in_step. all: apply install_keys_within; assumption. Qed.
Lemma finish_rhsm_within w s : inside SubscriptionManager s (finish_rhsm w s).
Proof. unfold finish_rhsm. in_step. Qed.

(** ** Activation *)
Definition act_ok (s : dst) : Prop := forall m, existsb (simod_eqb m) (d_active s) = true -> activated (d_log s) m.
Definition did_ok (log : list note) : Prop := forall pre e post, log = pre ++ Did e :: post -> activated pre (module_of e).
Definition reboot_ok (s : dst) : Prop := d_reboot s = true ->
  exists pre post, d_log s = pre ++ Read (Reboot, txt "reboot", VBool true) :: post /\ activated pre Reboot.

Lemma activated_app log m more : activated log m -> ~ In (Read (m, txt "active", VBool false)) more -> activated (log ++ more) m.
Proof.
  intros (l1 & l2 & -> & N) H. exists l1, (l2 ++ more). split; [rewrite <- app_assoc; reflexivity|]. intros I. apply in_app_or in I. tauto.
Qed.
Lemma not_in_did x es : ~ In (Read x) (map Did es).
Proof. intros I. apply in_map_iff in I. destruct I as (e & E & _). discriminate. Qed.
Lemma did_ok_more log m es : did_ok log -> activated log m -> Forall (fun e => module_of e = m) es -> did_ok (log ++ map Did es).
Proof.
  intros D A F pre e post E. revert E. revert es F post. induction es as [|x es IH] using rev_ind; intros F post E.
  - cbn in E. rewrite app_nil_r in E. eapply D; exact E.
  - apply Forall_app in F. destruct F as [F Fx]. inversion Fx; subst. rewrite map_app, app_assoc in E. cbn [map] in E.
    destruct post as [|y post] using rev_ind.
    + apply app_inj_tail in E. destruct E as [E1 E2]. inversion E2; subst. apply activated_app; [exact A|apply not_in_did].
    + rewrite app_comm_cons, app_assoc in E. apply app_inj_tail in E. destruct E as [E1 _]. eapply IH; [exact F|exact E1].
Qed.
Lemma did_ok_read log x : did_ok log -> did_ok (log ++ [Read x]).
Proof.
  intros D pre e post E. destruct post as [|y post] using rev_ind.
  - apply app_inj_tail in E. destruct E as [_ E]. discriminate.
  - rewrite app_comm_cons, app_assoc in E. apply app_inj_tail in E. destruct E as [E _]. eapply D; exact E.
Qed.
Lemma within_ok m s s' : act_ok s -> did_ok (d_log s) -> reboot_ok s -> activated (d_log s) m -> within m s s' ->
  act_ok s' /\ did_ok (d_log s') /\ reboot_ok s'.
Proof.
  intros A D R M (EA & ER & _ & _ & es & L & F). split; [|split].
  - intros m' H. rewrite EA in H. rewrite L. apply activated_app; [apply A; exact H|apply not_in_did].
  - rewrite L. eapply did_ok_more; eassumption.
  - intros H. rewrite ER in H. destruct (R H) as (pre & post & E & P). exists pre, (post ++ map Did es). split; [|exact P]. rewrite L, E, <- app_assoc. reflexivity.
Qed.

Lemma mods_insert_in l m x : existsb (simod_eqb x) (mods_insert l m) = true -> x = m \/ existsb (simod_eqb x) l = true.
Proof.
  unfold mods_insert. destruct (existsb (simod_eqb m) l) eqn:E; [auto|]. cbn [existsb]. intros H. apply orb_true_iff in H. destruct H as [H|H]; [|auto].
  left. apply simod_eqb_eq. exact H.
Qed.
Lemma mods_remove_in l m x : existsb (simod_eqb x) (mods_remove l m) = true -> x <> m /\ existsb (simod_eqb x) l = true.
Proof.
  unfold mods_remove. rewrite !existsb_exists. intros (y & I & E). apply filter_In in I. destruct I as [I N]. apply simod_eqb_eq in E. subst y. split.
  - intros ->. rewrite simod_eqb_refl in N. discriminate.
  - exists x. split; [exact I|apply simod_eqb_refl].
Qed.

(** One turn of the loop. *)
Lemma step_ok c w p s x : act_ok s -> did_ok (d_log s) -> reboot_ok s ->
  let s' := fst (step c w p s x) in
  (snd (step c w p s x) = Ok tt -> act_ok s' /\ reboot_ok s') /\ did_ok (d_log s') /\ exists es, d_log s' = d_log s ++ Read x :: map Did es.
Proof.
  intros A D R. destruct x as [[m key] v]. unfold step. cbv zeta.
  set (s1 := noted s (Read (m, key, v))).
  assert (L1 : d_log s1 = d_log s ++ [Read (m, key, v)]) by reflexivity.
  assert (A1 : key <> txt "active" -> act_ok s1).
  { intros NE m' H. rewrite L1. apply activated_app; [apply A; exact H|]. intros [E|[]]. inversion E; subst. apply NE. reflexivity. }
  assert (D1 : did_ok (d_log s1)) by (rewrite L1; apply did_ok_read; exact D).
  assert (R1 : reboot_ok s1).
  { intros H. destruct (R H) as (pre & post & E & P). exists pre, (post ++ [Read (m, key, v)]). split; [rewrite L1, E, <- app_assoc; reflexivity|exact P]. }
  assert (LE : exists es, d_log s1 = d_log s ++ Read (m, key, v) :: map Did es) by (exists []; rewrite L1; reflexivity).
  destruct (text_eqb_spec key (txt "active")) as [KA|NA].
  - destruct v; cbn [v_bool need bail go fst snd]; try (split; [discriminate|]; split; assumption).
    split; [intros _; split|split; [exact D1|exact LE]].
    + intros m' H. cbn [set_active d_active d_log] in *. rewrite L1. destruct b.
      * apply mods_insert_in in H. destruct H as [->|H].
        -- exists (d_log s), []. split; [rewrite KA; reflexivity|intros []].
        -- apply activated_app; [apply A; exact H|]. intros [E|[]]. inversion E.
      * apply mods_remove_in in H. destruct H as [NE H]. apply activated_app; [apply A; exact H|]. intros [E|[]]. inversion E; subst. contradiction.
    + exact R1.
  - specialize (A1 NA). destruct (existsb (simod_eqb m) (d_active s1)) eqn:ACT; cbn [negb]; [|cbn [bail fst snd]; split; [discriminate|]; split; assumption].
    assert (W : forall r, inside m s1 r -> (snd r = Ok tt -> act_ok (fst r) /\ reboot_ok (fst r)) /\ did_ok (d_log (fst r)) /\ exists es, d_log (fst r) = d_log s ++ Read (m, key, v) :: map Did es).
    { intros r I. destruct (within_ok m s1 (fst r) A1 D1 R1 (A1 _ ACT) I) as (X & Y & Z). split; [intros _; split; assumption|]. split; [exact Y|].
      destruct I as (_ & _ & _ & _ & es & E & _). exists es. rewrite E, L1, <- app_assoc. reflexivity. }
    destruct m.
    + apply W. apply within_refl.
    + apply W. apply step_cmd_within.
    + apply W. apply step_ssh_within.
    + apply W. apply step_bin_within.
    + apply W. apply step_disk_within.
    + destruct (text_eqb_spec key (txt "reboot")) as [KR|_]; [|apply W; apply within_refl].
      destruct v; cbn [v_bool need]; try (apply W; apply within_refl). cbn [go fst snd].
      split; [intros _; split; [exact A1|]|split; [exact D1|exact LE]].
      intros H. cbn [set_reboot d_reboot d_log] in *. subst b. exists (d_log s), []. split; [rewrite L1, KR; reflexivity|].
      apply A. exact ACT.
    + apply W. apply step_rhsm_within.
    + apply W. apply within_refl.
Qed.

Lemma steps_ok c w p l : forall s, act_ok s -> did_ok (d_log s) -> reboot_ok s ->
  let r := steps c w p s l in
  (snd r = Ok tt -> act_ok (fst r) /\ reboot_ok (fst r)) /\ did_ok (d_log (fst r)) /\
  (exists n, reads (d_log (fst r)) = reads (d_log s) ++ firstn n l) /\ (snd r = Ok tt -> reads (d_log (fst r)) = reads (d_log s) ++ l).
Proof.
  induction l as [|x l IH]; intros s A D R; cbn [steps].
  - cbn [go fst snd]. split; [auto|]. split; [exact D|]. split; [exists O|intros _]; cbn; rewrite app_nil_r; reflexivity.
  - pose proof (step_ok c w p s x A D R) as SO. cbv zeta in SO. destruct (step c w p s x) as [s1 r1] eqn:E. cbn [fst snd] in SO.
    destruct SO as (S1 & S2 & es & S3).
    assert (RD : reads (d_log s1) = reads (d_log s) ++ [x]) by (rewrite S3, reads_app; cbn [reads]; rewrite reads_did; reflexivity).
    destruct r1 as [u|u|n]; cbn [andthen].
    + destruct u. destruct (S1 eq_refl) as [A1 R1]. destruct (IH s1 A1 S2 R1) as (I1 & I2 & (n & I3) & I4).
      split; [exact I1|]. split; [exact I2|]. split; [exists (S n)|intros OK; specialize (I4 OK)].
      * cbn [firstn]. rewrite I3, RD, <- app_assoc. reflexivity.
      * rewrite I4, RD, <- app_assoc. reflexivity.
    + cbn [fst snd]. split; [discriminate|]. split; [exact S2|]. split; [exists 1%nat; exact RD|discriminate].
    + cbn [fst snd]. split; [discriminate|]. split; [exact S2|]. split; [exists 1%nat; exact RD|discriminate].
Qed.

Lemma existsb_simod m l : existsb (simod_eqb m) l = true -> In m l.
Proof. rewrite existsb_exists. intros (x & I & E). apply simod_eqb_eq in E. subst. exact I. Qed.

Lemma finish_in (w : machine) (s : dst) (m : simod) (f : machine -> dst -> res) :
  (existsb (simod_eqb m) (d_active s) = false -> f w s = go s) -> inside m s (f w s) ->
  act_ok s -> did_ok (d_log s) -> reboot_ok s ->
  act_ok (fst (f w s)) /\ did_ok (d_log (fst (f w s))) /\ reboot_ok (fst (f w s)) /\ reads (d_log (fst (f w s))) = reads (d_log s).
Proof.
  intros NO I A D R. destruct (existsb (simod_eqb m) (d_active s)) eqn:E.
  - destruct (within_ok m s (fst (f w s)) A D R (A _ E) I) as (X & Y & Z). split; [exact X|]. split; [exact Y|]. split; [exact Z|].
    destruct I as (_ & _ & _ & _ & es & L & _). rewrite L, reads_app, reads_did, app_nil_r. reflexivity.
  - rewrite (NO eq_refl). cbn [go fst]. auto.
Qed.

Lemma process_ok c w p l out s r : process c w p l out = (s, r) ->
  did_ok (d_log s) /\ (exists n, reads (d_log s) = firstn n (si_iter l)) /\ (r = Ok tt -> reboot_ok s /\ reads (d_log s) = si_iter l).
Proof.
  unfold process. intros E.
  assert (A0 : act_ok (dst0 out)) by (intros m H; discriminate).
  assert (D0 : did_ok (d_log (dst0 out))) by (intros pre e post H; destruct pre; discriminate).
  assert (R0 : reboot_ok (dst0 out)) by (intros H; discriminate).
  pose proof (steps_ok c w p (si_iter l) (dst0 out) A0 D0 R0) as S. cbv zeta in S.
  destruct (steps c w p (dst0 out) (si_iter l)) as [s1 r1]. cbn [fst snd dst0 d_log reads app] in S. destruct S as (S1 & S2 & S3 & S4).
  destruct r1 as [u|u|n]; cbn [andthen] in E; [|inversion E; subst; split; [exact S2|]; split; [exact S3|discriminate]|inversion E; subst; split; [exact S2|]; split; [exact S3|discriminate]].
  destruct u. destruct (S1 eq_refl) as [A1 R1]. specialize (S4 eq_refl).
  assert (N1 : existsb (simod_eqb SSHKey) (d_active s1) = false -> finish_ssh w s1 = go s1) by (unfold finish_ssh; intros ->; reflexivity).
  destruct (finish_in w s1 SSHKey finish_ssh N1 (finish_ssh_within w s1) A1 S2 R1) as (A2 & D2 & R2 & T2).
  destruct (finish_ssh w s1) as [s2 r2]. cbn [fst] in A2, D2, R2, T2.
  assert (X2 : exists n, reads (d_log s2) = firstn n (si_iter l)) by (exists (length (si_iter l)); rewrite firstn_all; congruence).
  destruct r2 as [u|u|n]; cbn [andthen] in E; [|inversion E; subst; split; [exact D2|]; split; [exact X2|discriminate]|inversion E; subst; split; [exact D2|]; split; [exact X2|discriminate]].
  assert (N2 : existsb (simod_eqb SubscriptionManager) (d_active s2) = false -> finish_rhsm w s2 = go s2) by (unfold finish_rhsm; intros ->; reflexivity).
  destruct (finish_in w s2 SubscriptionManager finish_rhsm N2 (finish_rhsm_within w s2) A2 D2 R2) as (A3 & D3 & R3 & T3).
  rewrite E in *. cbn [fst] in *. split; [exact D3|]. split; [exists (length (si_iter l)); rewrite firstn_all; congruence|].
  intros _. split; [exact R3|congruence].
Qed.
