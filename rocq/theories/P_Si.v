(** C44-C48, C54, C55: service info on the device, module names, message numbers. *)
From Verif Require Import Base BaseFacts ValueModel ValueProofs Text TypesModel CryptoSpec ToyCrypto MsgModel SiModel DevSiModel SiSpec SiProofs SiProofs2 SiProofs3.
From Coq Require Import ZifyBool ZifyNat ZifyN.
Local Open Scope N_scope.
Local Opaque dec_top any_value.

(** * C48 *)
(** Every name is that of one module, which prints as that name. *)
Theorem C48_names : forall s, simod_text (simod_of s) = s /\ proper (simod_of s) /\
  (In (simod_of s, s) known_modules \/ (~ In s (map snd known_modules) /\ simod_of s = Unsupported s)).
Proof.
  intros s. split; [apply simod_text_of|]. split; [apply proper_of|]. destruct (simod_of_spec s) as [(m & I & E)|[N E]]; [left; rewrite E; exact I|right; auto].
Qed.
Theorem C48_known : forall m s, In (m, s) known_modules -> simod_of s = m /\ simod_text m = s.
Proof.
  intros m s H. cbn [known_modules In] in H. repeat (destruct H as [H|H]; [inversion H; subst; split; vm_compute; reflexivity|]). destruct H.
Qed.
(** Over all values of the type the statement is false: an unsupported module may carry a known name. *)
Definition C48_statement : Prop := forall m m', simod_of (simod_text m) = m /\ (simod_text m = simod_text m' -> m = m').
Theorem C48_refuted : ~ C48_statement.
Proof. intros H. destruct (H (Unsupported (txt "devmod")) DevMod) as [E _]. vm_compute in E. discriminate. Qed.
(** Such a value does not arise from parsing ([C48_names]); for all others the statement holds. *)
Theorem C48_modules_partial : forall m m', proper m -> proper m' -> simod_of (simod_text m) = m /\ (simod_text m = simod_text m' -> m = m').
Proof. intros m m' P P'. split; [apply simod_of_text; exact P|]. intros E. rewrite <- (simod_of_text m P), <- (simod_of_text m' P'), E. reflexivity. Qed.
Example C48_case : proper (Unsupported (txt "acme.widget")) /\ simod_text (Unsupported (txt "acme.widget")) = txt "acme.widget" /\
  simod_of (txt "org.fedoraiot.command") = Command.
Proof. split; [intros s E; inversion E; subst; cbn; intros H; repeat (destruct H as [H|H]; [discriminate|]); exact H|]. split; vm_compute; reflexivity. Qed.
(** The numbers of the messages. *)
Theorem C48_message_numbers : forall m n, (mtype_num m = n <-> In (m, n) message_numbers) /\ (mtype_of_num n = Some m <-> In (m, n) message_numbers).
Proof.
  assert (A : forall m, In (m, mtype_num m) message_numbers) by (intros []; vm_compute; tauto).
  assert (B : forall m n, In (m, n) message_numbers -> mtype_num m = n).
  { intros m n H. cbn [message_numbers In] in H. repeat (destruct H as [H|H]; [inversion H; subst; reflexivity|]). destruct H. }
  intros m n. split; (split; [intros E|intros I]).
  - subst n. apply A.
  - apply B. exact I.
  - unfold mtype_of_num in E. apply find_some in E. destruct E as [_ E]. apply N.eqb_eq in E. subst n. apply A.
  - cbn [message_numbers In] in I. repeat (destruct I as [I|I]; [inversion I; subst; vm_compute; reflexivity|]). destruct I.
Qed.

(** * A list for the examples *)
Definition w_ok : machine := fun es => match last es EInsights with ERun _ _ => Output [111] [] (Some 0%Z) | _ => Fine end.
Definition T (s : str) : cval := VText (utf8_enc s).
Definition ex_entries (name : str) : list sientry :=
  [(BinaryFile, txt "active", VBool true); (BinaryFile, txt "name", T name); (BinaryFile, txt "length", VInt 3);
   (BinaryFile, txt "data001", VBytes [1]); (BinaryFile, txt "data002", VBytes [2; 3]); (BinaryFile, txt "sha-384", VBytes (c_hash toy Sha384 [1; 2; 3]));
   (Command, txt "active", VBool true); (Command, txt "command", T (txt "ls")); (Command, txt "args", VArr [T (txt "-l")]); (Command, txt "execute", VBool true);
   (Reboot, txt "active", VBool true); (Reboot, txt "reboot", VBool true)].
Definition ex_run (prefix : option str) (name : str) : res := process toy w_ok prefix (si_of (ex_entries name)) [].
Lemma toy_sizes : hash_sizes toy.
Proof. intros t d. unfold nlen. cbn [toy c_hash]. rewrite be_enc_length. destruct t; reflexivity. Qed.
Lemma w_ok_calm es : w_ok es <> Crashes.
Proof. unfold w_ok. destruct (last es EInsights); discriminate. Qed.
Example ex_run_ok : snd (ex_run None (txt "/etc/x")) = Ok tt /\ d_reboot (fst (ex_run None (txt "/etc/x"))) = true /\
  effects (d_log (fst (ex_run None (txt "/etc/x")))) = [EWrite (txt "/etc/x") [1; 2; 3] 384; ERun (txt "ls") [txt "-l"]].
Proof. split; [vm_compute; reflexivity|]. split; vm_compute; reflexivity. Qed.

(** * C44 *)
(** Whatever list arrives, for whatever machine: what was read is an initial part of the list; an effect of a module comes
    after the module's activation; success means that everything readable was read, and a reboot is requested only by an
    entry read while the module was active. *)
Theorem C44_activation : forall c w prefix l out s r, process c w prefix l out = (s, r) ->
  (forall pre e post, d_log s = pre ++ Did e :: post -> activated pre (module_of e)) /\
  (exists n, Forall2 says (firstn n l) (reads (d_log s))) /\
  (r = Ok tt -> d_reboot s = true -> exists pre post, d_log s = pre ++ Read (Reboot, txt "reboot", VBool true) :: post /\ activated pre Reboot).
Proof.
  intros c w prefix l out s r E. destruct (process_ok _ _ _ _ _ _ _ E) as (D & (n & R) & K). split; [exact D|]. split.
  - destruct (si_iter_says l) as (k & F). exists (Nat.min n k). rewrite R, <- firstn_firstn.
    clear -F. revert n. induction F as [|x y a b H F IH]; intros n; destruct n; cbn [firstn]; constructor; auto.
  - intros OK RB. destruct (K OK) as [RO _]. exact (RO RB).
Qed.
(** Inactive modules have no effect: the same list without activations is an error and nothing is done. *)
Example C44_case : (exists pre, d_log (fst (ex_run None (txt "/etc/x"))) = pre ++ [Did (ERun (txt "ls") [txt "-l"]); Read (Reboot, txt "active", VBool true); Read (Reboot, txt "reboot", VBool true)]) /\
  (let r := process toy w_ok None (si_of (skipn 1 (ex_entries (txt "/etc/x")))) [] in snd r = Err tt /\ effects (d_log (fst r)) = []) /\
  (let r := process toy w_ok None (si_of (firstn 5 (ex_entries (txt "/etc/x")) ++ (BinaryFile, txt "active", VBool false) :: skipn 5 (ex_entries (txt "/etc/x")))) [] in
     snd r = Err tt /\ effects (d_log (fst r)) = []).
Proof.
  split; [eexists (firstn 11 (d_log (fst (ex_run None (txt "/etc/x"))))); vm_compute; reflexivity|]. split; vm_compute; split; reflexivity.
Qed.

(** * C45, the device's half *)
Theorem C45_announced : forall c w prefix l out s r, process c w prefix l out = (s, r) ->
  forall pre p data mode post, d_log s = pre ++ Did (EWrite p data mode) :: post -> announced c prefix (gathered BinaryFile pre) p data mode.
Proof.
  intros c w prefix l out s r E pre p data mode post L. destruct (process_all c w prefix l out) as (_ & WO & _). rewrite E in WO. exact (WO _ _ _ _ _ L).
Qed.
(** A wrong digest or a wrong length: nothing is written. *)
Example C45_case : let bad1 := firstn 5 (ex_entries (txt "/etc/x")) ++ [(BinaryFile, txt "sha-384", VBytes (c_hash toy Sha384 [1; 2; 4]))] in
  let bad2 := firstn 4 (ex_entries (txt "/etc/x")) ++ [(BinaryFile, txt "sha-384", VBytes (c_hash toy Sha384 [1]))] in
  effects (d_log (fst (ex_run None (txt "/etc/x")))) <> [] /\
  (snd (process toy w_ok None (si_of bad1) []) = Err tt /\ effects (d_log (fst (process toy w_ok None (si_of bad1) []))) = []) /\
  (snd (process toy w_ok None (si_of bad2) []) = Err tt /\ effects (d_log (fst (process toy w_ok None (si_of bad2) []))) = []).
Proof. split; [vm_compute; discriminate|]. split; vm_compute; split; reflexivity. Qed.

(** * C55: commands *)
Theorem C55_commands : forall c w prefix l out s r, process c w prefix l out = (s, r) ->
  forall pre cmd args post, d_log s = pre ++ Did (ERun cmd args) :: post -> ordered (gathered Command pre) cmd args.
Proof.
  intros c w prefix l out s r E pre cmd args post L. destruct (process_all c w prefix l out) as (_ & _ & RO & _). rewrite E in RO. exact (RO _ _ _ _ L).
Qed.
(** If the list was processed successfully, every command that ran gave an exit code of 0 or had been allowed to fail. *)
Theorem C55_failures : forall c w prefix l out s, process c w prefix l out = (s, Ok tt) ->
  forall pre cmd args post, d_log s = pre ++ Did (ERun cmd args) :: post ->
  exists stdout stderr code, w (effects pre ++ [ERun cmd args]) = Output stdout stderr code /\ (code = Some 0%Z \/ tolerated (gathered Command pre)).
Proof. intros c w prefix l out s E. exact (fine_process c w prefix l out s E). Qed.
Example C55_case : exists pre post, d_log (fst (ex_run None (txt "/etc/x"))) = pre ++ Did (ERun (txt "ls") [txt "-l"]) :: post.
Proof. exists (firstn 11 (d_log (fst (ex_run None (txt "/etc/x"))))), (skipn 12 (d_log (fst (ex_run None (txt "/etc/x"))))). vm_compute. reflexivity. Qed.

(** * C46 *)
Definition C46_statement : Prop := forall c w f l out s r, is_absolute f = true -> process c w (Some f) l out = (s, r) ->
  forall pre p data mode post, d_log s = pre ++ Did (EWrite p data mode) :: post -> below f p.
(** False: a name beginning with two slashes replaces the prefix, and ".." goes up out of it. *)
Lemma escapes name p pre post : d_log (fst (ex_run (Some (txt "/pfx")) name)) = pre ++ Did (EWrite p [1; 2; 3] 384) :: post -> ~ below (txt "/pfx") p -> ~ C46_statement.
Proof.
  intros E N H. apply N. eapply (H toy w_ok (txt "/pfx") (si_of (ex_entries name)) [] (fst (ex_run (Some (txt "/pfx")) name)) (snd (ex_run (Some (txt "/pfx")) name)) eq_refl);
    [unfold ex_run; apply surjective_pairing|exact E].
Qed.
Theorem C46_refuted : ~ C46_statement.
Proof.
  apply (escapes (txt "//etc/x") (txt "/etc/x") (firstn 6 (d_log (fst (ex_run (Some (txt "/pfx")) (txt "//etc/x"))))) (skipn 7 (d_log (fst (ex_run (Some (txt "/pfx")) (txt "//etc/x")))))).
  - vm_compute. reflexivity.
  - intros (_ & more & E). vm_compute in E. discriminate.
Qed.
Theorem C46_up_refuted : ~ C46_statement.
Proof.
  apply (escapes (txt "/../x") (txt "/pfx/../x") (firstn 6 (d_log (fst (ex_run (Some (txt "/pfx")) (txt "/../x"))))) (skipn 7 (d_log (fst (ex_run (Some (txt "/pfx")) (txt "/../x")))))).
  - vm_compute. reflexivity.
  - intros (_ & more & E). vm_compute in E. discriminate.
Qed.
(** Proved: files whose names begin with one slash and never lead above the root lie below the prefix. *)
Theorem C46_partial : forall c w f l out s r, f <> [] -> process c w (Some f) l out = (s, r) ->
  (forall u name, In (BinaryFile, txt "name", VText u) (si_iter l) -> utf8_dec u = Some name -> (forall rest, name <> SLASH :: SLASH :: rest) /\ never_above 0 (segments name)) ->
  forall pre p data mode post, d_log s = pre ++ Did (EWrite p data mode) :: post -> below f p.
Proof.
  intros c w f l out s r NE E H pre p data mode post L. destruct (process_ok _ _ _ _ _ _ _ E) as (_ & (n & R) & _).
  destruct (C45_announced _ _ _ _ _ _ _ E _ _ _ _ _ L) as (name & utf & z & ds & g0 & key & t & G & U & PL & _).
  assert (I : In (BinaryFile, txt "name", VText utf) (si_iter l)).
  { assert (I0 : In (BinaryFile, txt "name", VText utf) (reads (d_log s))).
    { rewrite L, reads_app. apply in_or_app. left. apply gathered_in, given_in. rewrite G. left. reflexivity. }
    rewrite R in I0. rewrite <- (firstn_skipn n). apply in_or_app. left. exact I0. }
  destruct (H utf name I U) as [N A]. eapply placed_below; eassumption.
Qed.
Example C46_case : effects (d_log (fst (ex_run (Some (txt "/pfx")) (txt "/a/../b/./x")))) = [EWrite (txt "/pfx/a/../b/./x") [1; 2; 3] 384; ERun (txt "ls") [txt "-l"]] /\
  never_above 0 (segments (txt "/a/../b/./x")) /\ resolve (txt "/pfx/a/../b/./x") = [txt "pfx"; txt "b"; txt "x"].
Proof. split; [vm_compute; reflexivity|]. split; vm_compute; trivial. Qed.

(** * C47 *)
Definition C47_statement : Prop := forall c w prefix l out, hash_sizes c -> (forall es, w es <> Crashes) -> forall x, snd (process c w prefix l out) <> Panic x.
Theorem C47_length_refuted : ~ C47_statement.
Proof.
  intros H. apply (H toy w_ok None (si_of [(BinaryFile, txt "active", VBool true); (BinaryFile, txt "length", VInt (-1))]) [] toy_sizes w_ok_calm P_CAPACITY). vm_compute. reflexivity.
Qed.
Theorem C47_name_refuted : ~ C47_statement.
Proof. intros H. apply (H toy w_ok None (si_of (ex_entries (txt "/"))) [] toy_sizes w_ok_calm P_PARENT). vm_compute. reflexivity. Qed.
Theorem C47_command_refuted : ~ C47_statement.
Proof.
  intros H. apply (H toy w_ok None (si_of [(Command, txt "active", VBool true); (Command, txt "execute", VBool true)]) [] toy_sizes w_ok_calm P_NO_COMMAND). vm_compute. reflexivity.
Qed.
(** These are all the ways, besides the machine's own: a panic happens at an oversized length, at the digest of a file whose
    path has no component, at the execution of a command never given, or at an effect. *)
Theorem C47_panics : forall c w prefix l out x, hash_sizes c -> snd (process c w prefix l out) = Panic x ->
  let log := d_log (fst (process c w prefix l out)) in
  (exists log0 z, log = log0 ++ [Read (BinaryFile, txt "length", VInt z)] /\ (9223372036854775807 < z mod 18446744073709551616)%Z) \/
  (exists log0 key v t u name p, log = log0 ++ [Read (BinaryFile, key, v)] /\ digest_key key t /\
     given (txt "name") (gathered BinaryFile log) = [VText u] /\ utf8_dec u = Some name /\ placed prefix name p /\ segments p = []) \/
  (exists log0 v, log = log0 ++ [Read (Command, txt "execute", v)] /\ given (txt "command") (gathered Command log0) = []) \/
  (exists log0 e, log = log0 ++ [Did e] /\ w (effects log) = Crashes).
Proof. intros c w prefix l out x HS P. destruct (process_all c w prefix l out) as (_ & _ & _ & H). exact (H x HS P). Qed.
(** Proved: no panic if lengths are possible, names name something and every order has its command. *)
Theorem C47_no_panic_partial : forall c w prefix l out, hash_sizes c -> (forall es, w es <> Crashes) ->
  commands_complete (si_iter l) -> lengths_fit (si_iter l) -> names_real (si_iter l) -> forall x, snd (process c w prefix l out) <> Panic x.
Proof. exact no_panic. Qed.
Lemma ex_iter : si_iter (si_of (ex_entries (txt "/etc/x"))) = ex_entries (txt "/etc/x").
Proof. vm_compute. reflexivity. Qed.
Example C47_case : commands_complete (si_iter (si_of (ex_entries (txt "/etc/x")))) /\ lengths_fit (si_iter (si_of (ex_entries (txt "/etc/x")))) /\
  names_real (si_iter (si_of (ex_entries (txt "/etc/x")))).
Proof.
  rewrite ex_iter. split; [|split].
  - intros a v b E. exists (firstn 7 a), (T (txt "ls")), (skipn 8 a).
    do 9 (destruct a as [|? a]; [discriminate|injection E as <- E]). destruct a as [|? a]; [|injection E as <- E; destruct a as [|? a]; [discriminate|injection E as <- E; destruct a as [|? a]; [discriminate|injection E as <- E; destruct a; discriminate]]].
    split; [reflexivity|]. intros x [I|[]]. discriminate.
  - intros z I. cbn [ex_entries In] in I. repeat (destruct I as [I|I]; [try discriminate|]); [inversion I; vm_compute; discriminate|destruct I].
  - intros u name I U. cbn [ex_entries In] in I. repeat (destruct I as [I|I]; [try discriminate|]); [|destruct I]. inversion I; subst. vm_compute in U. inversion U; subst. vm_compute. discriminate.
Qed.

(** * C54: what was added is read back *)
(** For entries with readable values and modules of their own without a colon in their name. *)
Theorem C54_read_back_partial : forall l, Forall (fun x => proper (fst (fst x)) /\ ~ In COLON (simod_text (fst (fst x))) /\ vok MAX_DEPTH (snd x) /\ texts_ok (snd x) = true) l ->
  si_iter (si_of l) = l.
Proof. exact si_iter_of. Qed.
Example C54_case : si_iter (si_of (ex_entries (txt "/etc/x"))) = ex_entries (txt "/etc/x") /\ length (ex_entries (txt "/etc/x")) = 12%nat.
Proof. split; [exact ex_iter|reflexivity]. Qed.
(** Without the condition on names it is false. *)
Definition C54_statement : Prop := forall l, Forall (fun x => vok MAX_DEPTH (snd x) /\ texts_ok (snd x) = true) l -> si_iter (si_of l) = l.
Theorem C54_colon_refuted : ~ C54_statement.
Proof.
  intros H. assert (E : si_iter (si_of [(Unsupported (txt "a:b"), txt "c", VBool true)]) = [(Unsupported (txt "a:b"), txt "c", VBool true)]).
  { apply H. constructor; [|constructor]. split; [exact Logic.I|reflexivity]. }
  vm_compute in E. discriminate.
Qed.
(** A list with an unreadable entry is processed as if it ended there: no error is reported and the rest is not done. *)
Definition C54_complete_statement : Prop := forall c w prefix l out s, process c w prefix l out = (s, Ok tt) -> Forall2 says l (reads (d_log s)).
Theorem C54_truncated_refuted : ~ C54_complete_statement.
Proof.
  intros H. set (l := (txt "nothing", [246]) :: si_of (ex_entries (txt "/etc/x"))).
  assert (E : process toy w_ok None l [] = (fst (process toy w_ok None l []), Ok tt)) by (vm_compute; reflexivity).
  specialize (H _ _ _ _ _ _ E).
  assert (R : reads (d_log (fst (process toy w_ok None l []))) = []) by (vm_compute; reflexivity). rewrite R in H. inversion H.
Qed.
(** Proved: on success everything before the first unreadable entry was taken up, in order. *)
Theorem C54_complete_partial : forall c w prefix l out s, process c w prefix l out = (s, Ok tt) -> reads (d_log s) = si_iter l /\
  exists n, Forall2 says (firstn n l) (si_iter l) /\ forall e, nth_error l n = Some e -> forall x, ~ (says e x /\ texts_ok (snd x) = true).
Proof.
  intros c w prefix l out s E. destruct (process_ok _ _ _ _ _ _ _ E) as (_ & _ & K). destruct (K eq_refl) as [_ R]. split; [exact R|]. clear.
  induction l as [|[k b] l (n & F & M)]; [exists O; split; [constructor|discriminate]|]. cbn [si_iter].
  destruct (split_colon k) as [[m key]|] eqn:SC.
  - destruct (any_value b) as [v|] eqn:V.
    + exists (S n). split; [|exact M]. cbn [firstn]. constructor; [|exact F]. apply split_colon_some in SC. destruct SC as (r & -> & -> & NC). apply any_value_some in V. destruct V.
      exists m. cbn [fst snd tl]. auto.
    + exists O. split; [constructor|]. intros e H. inversion H; subst. intros x [(name & _ & _ & _ & D) TO]. cbn [snd] in D.
      apply any_value_none in V. destruct V as [V|(v & V & T0)]; congruence.
  - exists O. split; [constructor|]. intros e H. inversion H; subst. intros x [(name & E & NC & _) _]. cbn [fst] in E. rewrite E, split_colon_app in SC by exact NC. discriminate.
Qed.

Print Assumptions C44_activation.
Print Assumptions C45_announced.
Print Assumptions C46_refuted.
Print Assumptions C46_up_refuted.
Print Assumptions C46_partial.
Print Assumptions C47_length_refuted.
Print Assumptions C47_name_refuted.
Print Assumptions C47_command_refuted.
Print Assumptions C47_panics.
Print Assumptions C47_no_panic_partial.
Print Assumptions C48_names.
Print Assumptions C48_known.
Print Assumptions C48_refuted.
Print Assumptions C48_modules_partial.
Print Assumptions C48_message_numbers.
Print Assumptions C54_read_back_partial.
Print Assumptions C54_colon_refuted.
Print Assumptions C54_truncated_refuted.
Print Assumptions C54_complete_partial.
Print Assumptions C55_commands.
Print Assumptions C55_failures.
