(** Lists of service info: adding and reading back; lists that cannot make the device panic. *)
From Verif Require Import Base BaseFacts ValueModel ValueProofs Text TypesModel CryptoSpec SiModel DevSiModel SiSpec SiProofs SiProofs2.
Local Open Scope N_scope.
Local Opaque dec_top.

(** ** Reading back *)
Definition entry_ok (x : sientry) : Prop :=
  proper (fst (fst x)) /\ ~ In COLON (simod_text (fst (fst x))) /\ vok MAX_DEPTH (snd x) /\ texts_ok (snd x) = true.
Lemma any_value_enc v : vok MAX_DEPTH v -> texts_ok v = true -> any_value (enc v) = Some v.
Proof. intros V T. unfold any_value. rewrite dec_top_enc by exact V. rewrite T. reflexivity. Qed.
Local Opaque any_value.
Lemma si_iter_app a : forall b, Forall (fun e => exists m key v, split_colon (fst e) = Some (m, key) /\ any_value (snd e) = Some v) a ->
  si_iter (a ++ b) = si_iter a ++ si_iter b.
Proof.
  induction a as [|[k d] a IH]; intros b F; [reflexivity|]. inversion F as [|? ? (m & key & v & S & V) F']; subst. cbn [fst snd] in *.
  cbn [app si_iter]. rewrite S, V, IH by exact F'. reflexivity.
Qed.
Definition entry_bytes (x : sientry) : str * bytes := (simod_text (fst (fst x)) ++ COLON :: snd (fst x), enc (snd x)).
Lemma si_of_map l : si_of l = map entry_bytes l.
Proof.
  unfold si_of. change (map entry_bytes l) with ([] ++ map entry_bytes l). generalize (@nil (str * bytes)).
  induction l as [|x l IH]; intros acc; cbn [fold_left map]; [rewrite app_nil_r; reflexivity|].
  rewrite IH. unfold si_add. rewrite <- app_assoc. reflexivity.
Qed.
Lemma entry_read x : entry_ok x -> split_colon (fst (entry_bytes x)) = Some (simod_text (fst (fst x)), COLON :: snd (fst x)) /\ any_value (snd (entry_bytes x)) = Some (snd x).
Proof. intros (P & C & V & T). cbn [entry_bytes fst snd]. split; [apply split_colon_app; exact C|apply any_value_enc; assumption]. Qed.
Lemma si_iter_map l rest : Forall entry_ok l -> si_iter (map entry_bytes l ++ rest) = l ++ si_iter rest.
Proof.
  induction 1 as [|x l X F IH]; [reflexivity|]. cbn [map app]. destruct (entry_read x X) as [S V]. destruct x as [[m key] v]. cbn [entry_bytes fst snd] in *.
  change (entry_bytes (m, key, v)) with (simod_text m ++ COLON :: key, enc v). cbn [si_iter]. rewrite S, V, IH. cbn [tl]. destruct X as (XP & _). cbn [fst snd] in XP. rewrite (simod_of_text _ XP). reflexivity.
Qed.
Lemma si_iter_of l : Forall entry_ok l -> si_iter (si_of l) = l.
Proof. intros F. rewrite si_of_map, <- (app_nil_r (map _ l)), si_iter_map by exact F. apply app_nil_r. Qed.

(** ** No panic *)
Lemma given_in key v g : In v (given key g) -> In (key, v) g.
Proof.
  unfold given. intros H. apply in_map_iff in H. destruct H as ([k x] & E & I). apply filter_In in I. destruct I as [I K]. cbn [fst snd] in *.
  apply text_eqb_eq in K. congruence.
Qed.
Lemma in_given key v g : In (key, v) g -> In v (given key g).
Proof. intros H. unfold given. apply in_map_iff. exists (key, v). split; [reflexivity|]. apply filter_In. split; [exact H|apply text_eqb_refl]. Qed.
Lemma gathered_snoc m log n : gathered m (log ++ [n]) = gather m (gathered m log) n.
Proof. unfold gathered. rewrite fold_left_app. reflexivity. Qed.
Lemma gathered_in m log k v : In (k, v) (gathered m log) -> In (m, k, v) (reads log).
Proof.
  induction log as [|n log IH] using rev_ind; [intros []|]. rewrite gathered_snoc, reads_app. intros I. apply in_or_app.
  destruct n as [[[m' k'] v']|e]; cbn [gather reads] in *.
  - destruct (simod_eqb m' m) eqn:E; [|left; auto]. apply simod_eqb_eq in E. subst m'. apply in_app_or in I.
    destruct I as [I|[I|[]]]; [left; auto|right; left; congruence].
  - destruct (simod_eqb (module_of e) m); [destruct I|]. left. auto.
Qed.
(** What was last gathered was last read. *)
Lemma gathered_last m log g0 k v : gathered m log = g0 ++ [(k, v)] -> exists la lb, log = la ++ Read (m, k, v) :: lb /\
  (forall k' v', ~ In (Read (m, k', v')) lb) /\ (forall e, In (Did e) lb -> module_of e <> m).
Proof.
  revert g0. induction log as [|n log IH] using rev_ind; intros g0 E; [destruct g0; discriminate|].
  rewrite gathered_snoc in E. destruct n as [[[m' k'] v']|e]; cbn [gather] in E.
  - destruct (simod_eqb m' m) eqn:M.
    + apply simod_eqb_eq in M. subst m'. apply app_inj_tail in E. destruct E as [_ E]. inversion E; subst. exists log, []. repeat split; intros; [intros []|intros]. contradiction.
    + destruct (IH g0 E) as (la & lb & -> & N1 & N2). exists la, (lb ++ [Read (m', k', v')]). split; [rewrite <- app_assoc; reflexivity|]. split.
      * intros k2 v2 I. apply in_app_or in I. destruct I as [I|[I|[]]]; [eapply N1; exact I|]. inversion I; subst. rewrite simod_eqb_refl in M. discriminate.
      * intros e I. apply in_app_or in I. destruct I as [I|[I|[]]]; [auto|discriminate].
  - destruct (simod_eqb (module_of e) m) eqn:M; [destruct g0; discriminate|].
    destruct (IH g0 E) as (la & lb & -> & N1 & N2). exists la, (lb ++ [Did e]). split; [rewrite <- app_assoc; reflexivity|]. split.
    * intros k2 v2 I. apply in_app_or in I. destruct I as [I|[I|[]]]; [eapply N1; exact I|discriminate].
    * intros e' I. apply in_app_or in I. destruct I as [I|[I|[]]]; [auto|]. inversion I; subst. intros X. subst m. rewrite simod_eqb_refl in M. discriminate.
Qed.
Lemma gathered_keeps m la k v lb : (forall e, In (Did e) lb -> module_of e <> m) -> In (k, v) (gathered m (la ++ Read (m, k, v) :: lb)).
Proof.
  intros N. induction lb as [|n lb IH] using rev_ind.
  - rewrite gathered_snoc. cbn [gather]. rewrite simod_eqb_refl. apply in_or_app. right. left. reflexivity.
  - rewrite app_comm_cons, app_assoc, gathered_snoc.
    assert (IH' : In (k, v) (gathered m (la ++ Read (m, k, v) :: lb))) by (apply IH; intros e I; apply N; apply in_or_app; left; exact I).
    destruct n as [[[m' k'] v']|e]; cbn [gather].
    + destruct (simod_eqb m' m); [apply in_or_app; left; exact IH'|exact IH'].
    + destruct (simod_eqb (module_of e) m) eqn:M; [|exact IH']. apply simod_eqb_eq in M. exfalso. eapply N; [|exact M]. apply in_or_app. right. left. reflexivity.
Qed.
Lemma reads_split log a x b : reads log = a ++ x :: b -> exists la lb, log = la ++ Read x :: lb /\ reads la = a /\ reads lb = b.
Proof.
  revert a. induction log as [|n log IH]; intros a E; [destruct a; discriminate|]. destruct n as [y|e]; cbn [reads] in E.
  - destruct a as [|z a]; cbn [app] in E; injection E as E1 E2; subst.
    + exists [], log. auto.
    + destruct (IH a E2) as (la & lb & -> & R1 & R2). exists (Read z :: la), lb. cbn [reads]. rewrite R1. auto.
  - destruct (IH a E) as (la & lb & -> & R1 & R2). exists (Did e :: la), lb. auto.
Qed.
Lemma in_reads x log : In (Read x) log -> In x (reads log).
Proof. induction log as [|[y|e] log IH]; cbn [reads]; [intros []|intros [E|I]; [left; congruence|right; auto]|intros [E|I]; [discriminate|auto]]. Qed.

(** A command read and no order since: it is still there. *)
Lemma command_there log a1 u a2 : ran_ok log -> reads log = a1 ++ (Command, txt "command", u) :: a2 ->
  (forall x, ~ In (Command, txt "execute", x) a2) -> given (txt "command") (gathered Command log) <> [].
Proof.
  intros R E N. apply reads_split in E. destruct E as (la & lb & -> & _ & R2).
  assert (ND : forall e, In (Did e) lb -> module_of e <> Command).
  { intros e I M. destruct e; try discriminate. apply in_split in I. destruct I as (l1 & l2 & ->).
    assert (E : la ++ Read (Command, txt "command", u) :: l1 ++ Did (ERun cmd args) :: l2 = (la ++ Read (Command, txt "command", u) :: l1) ++ Did (ERun cmd args) :: l2)
      by (rewrite <- app_assoc; reflexivity).
    specialize (R _ _ _ _ E). destruct R as (utf & g0 & v & _ & _ & G & _). apply gathered_last in G. destruct G as (xa & xb & G & G1 & _).
    (* the order was read after the command, or the command came after it *)
    assert (C : In (Read (Command, txt "execute", v)) l1 \/ In (Read (Command, txt "command", u)) xb \/ False).
    { revert G. clear -G1. revert xa. induction la as [|y la IH]; intros xa G; cbn [app] in G.
      - destruct xa as [|z xa]; cbn [app] in G; injection G as G2 G3; [discriminate|]. left. rewrite G3. apply in_or_app. right. left. reflexivity.
      - destruct xa as [|z xa]; cbn [app] in G; injection G as G2 G3; [|eapply IH; exact G3]. right. left. rewrite <- G3. apply in_or_app. right. left. reflexivity. }
    destruct C as [C|[C|[]]]; [|eapply G1; exact C]. apply (N v). rewrite <- R2, reads_app. apply in_or_app. left. apply in_reads. exact C. }
  intros G. pose proof (gathered_keeps Command la (txt "command") u lb ND) as I. apply in_given in I. rewrite G in I. destruct I.
Qed.

Lemma placed_real prefix name p : placed prefix name p -> segments name <> [] -> segments p <> [].
Proof.
  intros (rest & -> & H) N. rewrite segments_slash in N. destruct prefix as [f|]; [|subst p; rewrite segments_slash; exact N].
  destruct (is_absolute rest); [subst p; exact N|]. destruct H as [[-> [->|(f' & ->)]]|[-> _]].
  - exact N.
  - rewrite <- app_assoc. cbn [app]. rewrite segments_join. intros E. apply app_eq_nil in E. apply N, E.
  - rewrite segments_join. intros E. apply app_eq_nil in E. apply N, E.
Qed.

Lemma no_panic c w prefix l out : hash_sizes c -> (forall es, w es <> Crashes) ->
  commands_complete (si_iter l) -> lengths_fit (si_iter l) -> names_real (si_iter l) ->
  forall x, snd (process c w prefix l out) <> Panic x.
Proof.
  intros HS NC CC LF NR x P. destruct (process_all c w prefix l out) as (_ & _ & RO & PA). specialize (PA x HS P).
  destruct (process c w prefix l out) as [s r] eqn:E. cbn [fst snd] in *. destruct (process_ok _ _ _ _ _ _ _ E) as (_ & (n & RD) & _).
  assert (SUB : forall y, In y (reads (d_log s)) -> In y (si_iter l)).
  { intros y I. rewrite RD in I. rewrite <- (firstn_skipn n). apply in_or_app. left. exact I. }
  destruct PA as [(log0 & z & EL & Z)|[(log0 & key & v & t & u & name & p & EL & D & G & U & PL & SG)|[(log0 & v & EL & G)|(log0 & e & EL & W)]]].
  - assert (I : In (BinaryFile, txt "length", VInt z) (si_iter l)) by (apply SUB; rewrite EL, reads_app; apply in_or_app; right; left; reflexivity).
    specialize (LF z I). unfold CAPACITY in Z. lia.
  - assert (I : In (BinaryFile, txt "name", VText u) (si_iter l)).
    { apply SUB, gathered_in, given_in. rewrite G. left. reflexivity. }
    specialize (NR u name I U). eapply placed_real; eassumption.
  - assert (R0 : exists b, si_iter l = reads log0 ++ (Command, txt "execute", v) :: b).
    { exists (skipn n (si_iter l)). rewrite EL, reads_app in RD. cbn [reads] in RD.
      rewrite <- (firstn_skipn n (si_iter l)) at 1. rewrite <- RD, <- app_assoc. reflexivity. }
    destruct R0 as (b & R0). destruct (CC _ _ _ R0) as (a1 & u & a2 & EA & NA). eapply command_there; [|exact EA|exact NA|exact G].
    intros pre cmd args post EE. eapply RO. rewrite EL, EE, <- app_assoc. reflexivity.
  - exact (NC _ W).
Qed.

(** ** Commands that fail *)
Section failures.
Context (c : crypto) (w : machine) (prefix : option str).
Definition fail_rel (cm : command) (g : list (str * cval)) : Prop := cm_may_fail cm = true -> tolerated g.
Definition fine_runs (log : list note) : Prop :=
  forall pre cmd args post, log = pre ++ Did (ERun cmd args) :: post ->
  exists out err code, w (effects pre ++ [ERun cmd args]) = Output out err code /\ (code = Some 0%Z \/ tolerated (gathered Command pre)).
Definition fine_state (s : dst) : Prop := fail_rel (d_cmd s) (gathered Command (d_log s)) /\ fine_runs (d_log s).
Lemma tolerated_snoc g k v : k <> txt "may_fail" -> tolerated g -> tolerated (g ++ [(k, v)]).
Proof. intros N (b & E). exists b. rewrite given_app. destruct (text_eqb_spec k (txt "may_fail")); [contradiction|]. rewrite app_nil_r. exact E. Qed.
Lemma fine_runs_read log x : fine_runs log -> fine_runs (log ++ [Read x]).
Proof. intros H pre cmd args post E. apply split_read in E. destruct E as (post' & E). eapply H; exact E. Qed.
Lemma fine_runs_other log m es : m <> Command -> Forall (fun e => module_of e = m) es -> fine_runs log -> fine_runs (log ++ map Did es).
Proof.
  intros N F H pre cmd args post E. apply split_did in E. destruct E as [(post' & E)|(a & b & E & ->)]; [eapply H; exact E|].
  subst es. apply Forall_app in F. destruct F as [_ F]. inversion F. cbn in *. congruence.
Qed.
Lemma fine_within m s s' : m <> Command -> within m s s' -> fine_state s -> fine_state s'.
Proof.
  intros N (_ & _ & _ & C & es & L & F) [A B]. unfold fine_state. rewrite (C N), L, (gathered_dids Command m) by assumption. split; [exact A|eapply fine_runs_other; eassumption].
Qed.
Lemma fine_step s x s' : fine_state s -> step c w prefix s x = (s', Ok tt) -> fine_state s'.
Proof.
  destruct x as [[m key] v]. intros [A B] E. unfold step in E. cbv zeta in E. set (s1 := noted s (Read (m, key, v))) in *.
  assert (L1 : d_log s1 = d_log s ++ [Read (m, key, v)]) by reflexivity.
  assert (B1 : fine_runs (d_log s1)) by (rewrite L1; apply fine_runs_read; exact B).
  assert (I1 : m <> Command \/ key <> txt "may_fail" -> fine_state s1).
  { intros H. split; [|exact B1]. rewrite L1. change (d_cmd s1) with (d_cmd s). intros MF. specialize (A MF). destruct (simod_eqb m Command) eqn:EM.
    - apply simod_eqb_eq in EM. subst m. destruct H as [H|H]; [contradiction|]. rewrite gathered_read. apply tolerated_snoc; assumption.
    - rewrite gathered_read_other; [exact A|]. intros ->. rewrite simod_eqb_refl in EM. discriminate. }
  destruct (text_eqb_spec key (txt "active")) as [KA|NA].
  - assert (X : fine_state s1) by (apply I1; right; rewrite KA; discriminate). destruct (v_bool v); cbn [need] in E; [|discriminate]. inversion E; subst s'. exact X.
  - destruct (existsb (simod_eqb m) (d_active s1)); cbn [negb] in E; [|discriminate].
    assert (OTH : forall m' r, m' <> Command -> m <> Command -> inside m' s1 r -> r = (s', Ok tt) -> fine_state s').
    { intros m' r N N2 I ->. eapply fine_within; [exact N|exact I|apply I1; left; exact N2]. }
    destruct m; try (inversion E; subst s'; apply I1; left; discriminate).
    + clear OTH. unfold step_cmd in E. cbv zeta in E. assert (G : gathered Command (d_log s1) = gathered Command (d_log s) ++ [(key, v)]) by (rewrite L1; apply gathered_read).
      change (d_cmd s1) with (d_cmd s) in E.
      destruct (text_eqb_spec key (txt "command")) as [->|N1].
      { assert (X : fine_state s1) by (apply I1; right; discriminate). destruct (cm_cmd (d_cmd s)); [discriminate|]. destruct (v_str v); [|discriminate]. inversion E; subst s'. exact X. }
      destruct (text_eqb_spec key (txt "args")) as [->|N2].
      { assert (X : fine_state s1) by (apply I1; right; discriminate). destruct (v_strs v); [|discriminate]. inversion E; subst s'. exact X. }
      destruct (text_eqb_spec key (txt "may_fail")) as [->|N3].
      { destruct (v_bool v) as [b|] eqn:VB; [|discriminate]. inversion E; subst s'. split; [|exact B1].
        intros MF. cbn [set_cmd d_cmd cm_may_fail] in MF. subst b. change (d_log (set_cmd s1 _)) with (d_log s1). rewrite G. exists (given (txt "may_fail") (gathered Command (d_log s))).
        rewrite given_app. change (text_eqb (txt "may_fail") (txt "may_fail")) with true. cbn match. destruct v; try discriminate. inversion VB; subst. reflexivity. }
      assert (X : fine_state s1) by (apply I1; right; assumption).
      destruct (text_eqb key (txt "return_stdout")); [destruct (v_bool v); [|discriminate]; inversion E; subst s'; exact X|].
      destruct (text_eqb key (txt "return_stderr")); [destruct (v_bool v); [|discriminate]; inversion E; subst s'; exact X|].
      destruct (text_eqb_spec key (txt "execute")) as [->|N4]; [|inversion E; subst s'; exact X].
      unfold run_command in E. destruct (cm_cmd (d_cmd s)) as [cmd|]; [|discriminate]. cbv zeta in E. unfold perform in E. cbv zeta in E.
      destruct (w _) as [| | |out err code] eqn:W; try discriminate.
      set (ok := match code with Some 0%Z => true | _ => false end) in *.
      set (s5 := if cm_err (d_cmd s) then _ else _) in E.
      assert (L5 : d_log s5 = d_log s1 ++ [Did (ERun cmd (cm_args (d_cmd s)))]) by (unfold s5; destruct (cm_err _), (cm_out _); reflexivity).
      destruct (cm_may_fail (d_cmd s) || ok) eqn:OK; [|discriminate]. inversion E; subst s'. split; [discriminate|].
      change (d_log (set_cmd (add_out s5 Command (txt "exit_code") (opt_int code)) no_cmd)) with (d_log s5). rewrite L5.
      intros pre cmd' args' post EL. destruct (last_cases post) as [->|(post' & y & ->)].
      * apply app_inj_tail in EL. destruct EL as [<- E2]. inversion E2; subst cmd' args'. exists out, err, code. split.
        -- rewrite <- W. f_equal. cbn [noted d_log add_out]. rewrite !effects_app. reflexivity.
        -- apply orb_prop in OK. destruct OK as [OK|OK]; [right; apply (proj1 X); exact OK|left]. unfold ok in OK. destruct code as [[]|]; discriminate || reflexivity.
      * rewrite app_comm_cons, app_assoc in EL. apply app_inj_tail in EL. destruct EL as [EL _]. exact (B1 _ _ _ _ EL).
    + eapply (OTH SSHKey); [discriminate|discriminate|apply step_ssh_within|exact E].
    + eapply (OTH BinaryFile); [discriminate|discriminate|apply step_bin_within|exact E].
    + eapply (OTH DiskEncryption); [discriminate|discriminate|apply step_disk_within|exact E].
    + destruct (text_eqb key (txt "reboot")); [destruct (v_bool v); [|discriminate]|]; inversion E; subst s'; apply I1; left; discriminate.
    + eapply (OTH SubscriptionManager); [discriminate|discriminate|apply step_rhsm_within|exact E].
Qed.
Lemma fine_steps l : forall s s', fine_state s -> steps c w prefix s l = (s', Ok tt) -> fine_state s'.
Proof.
  induction l as [|x l IH]; intros s s' F E; cbn [steps] in E; [inversion E; subst; exact F|]. destruct (step c w prefix s x) as [s1 [[]|u|n]] eqn:S; cbn [andthen] in E; try discriminate.
  eapply IH; [|exact E]. eapply fine_step; eassumption.
Qed.
Lemma fine_process l out s : process c w prefix l out = (s, Ok tt) -> fine_runs (d_log s).
Proof.
  unfold process. intros E. destruct (steps c w prefix (dst0 out) (si_iter l)) as [s1 [[]|u|n]] eqn:S; cbn [andthen] in E; try discriminate.
  apply fine_steps in S; [|split; [discriminate|intros [|? ?]; discriminate]].
  pose proof (finish_ssh_within w s1) as F1. destruct (finish_ssh w s1) as [s2 [[]|u|n]]; cbn [andthen] in E; try discriminate.
  pose proof (finish_rhsm_within w s2) as F2. rewrite E in F2. unfold inside in *. cbn [fst] in *.
  assert (X : fine_state s2) by (eapply fine_within; [|exact F1|exact S]; discriminate). assert (Y : fine_state s) by (eapply fine_within; [|exact F2|exact X]; discriminate). apply Y.
Qed.
End failures.
