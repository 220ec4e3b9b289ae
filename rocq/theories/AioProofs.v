(** Proofs about the all-in-one: its directory. *)
From Verif Require Import Base BaseFacts CborModel ValueModel Text TypesModel CryptoSpec Assoc RvModel RvYamlModel RvServerModel SiApiModel OwnerModel To0Model To0Spec MfgModel FactorySpec LifeSpec AioModel AioSpec.
From Coq Require Import ZifyBool ZifyNat ZifyN.
Local Open Scope N_scope.

(** * Steps *)
Definition path_of (o : op) : name := match o with Mkdir p => p | Write p _ => p end.
Lemma untouched p l : forall d, (forall o, In o l -> path_of o <> p) -> aget p (fold_left do_op l d) = aget p d.
Proof.
  induction l as [|o l IH]; intros d H; [reflexivity|]. cbn [fold_left]. rewrite IH by (intros; apply H; right; assumption).
  assert (N : path_of o <> p) by (apply H; left; reflexivity). destruct o; cbn [do_op path_of] in *; apply aget_aset_ne; congruence.
Qed.
Lemma untouched_ops p l e : (forall o, In o l -> path_of o <> p) -> aget p (fst (do_ops [] l e)) = None.
Proof.
  intros H. assert (F : forall n, aget p (fold_left do_op (firstn n l) []) = None).
  { intros n. rewrite untouched; [reflexivity|]. intros o I'. apply H. rewrite <- (firstn_skipn n l). apply in_or_app. left. exact I'. }
  destruct e as [|n|n r]; cbn [do_ops fst].
  - rewrite untouched by exact H. reflexivity.
  - apply F.
  - destruct (skipn n l) as [|[q|q x] r'] eqn:E; try apply F. rewrite aget_aset_ne; [apply F|].
    intros ->. apply (H (Write q x)); [|reflexivity]. rewrite <- (firstn_skipn n l), E. apply in_or_app. right. left. reflexivity.
Qed.
Lemma skipn_last {A} (pre : list A) x : forall n, skipn n (pre ++ [x]) = match Nat.compare n (length pre) with Lt => skipn n pre ++ [x] | Eq => [x] | Gt => [] end.
Proof.
  induction pre as [|y pre IH]; intros [|n]; try reflexivity; cbn [app skipn length Nat.compare]; [destruct n; reflexivity|apply IH].
Qed.
(** The last step's path is there only when all others are done. *)
Lemma last_there pre R x e : (forall o, In o pre -> path_of o <> R) -> aget R (fst (do_ops [] (pre ++ [Write R x]) e)) <> None ->
  exists nd, fst (do_ops [] (pre ++ [Write R x]) e) = aset R nd (fold_left do_op pre []) /\ (e = Complete -> nd = NWhole x).
Proof.
  intros H T. assert (F : forall n, aget R (fold_left do_op (firstn n pre) []) = None).
  { intros n. rewrite untouched; [reflexivity|]. intros o I'. apply H. rewrite <- (firstn_skipn n pre). apply in_or_app. left. exact I'. }
  assert (G : forall n, (n <= length pre)%nat -> firstn n (pre ++ [Write R x]) = firstn n pre).
  { intros n L. rewrite firstn_app. replace (n - length pre)%nat with O by lia. cbn [firstn]. apply app_nil_r. }
  assert (L : fold_left do_op (pre ++ [Write R x]) [] = aset R (NWhole x) (fold_left do_op pre [])) by (rewrite fold_left_app; reflexivity).
  destruct e as [|n|n r]; cbn [do_ops fst] in *.
  - exists (NWhole x). split; [exact L|reflexivity].
  - destruct (Nat.leb n (length pre)) eqn:E.
    + apply Nat.leb_le in E. rewrite G in T by exact E. congruence.
    + apply Nat.leb_gt in E. exists (NWhole x). split; [|reflexivity]. rewrite firstn_all2; [exact L|rewrite app_length; cbn [length]; lia].
  - rewrite skipn_last in *. destruct (Nat.compare n (length pre)) eqn:E.
    + apply Nat.compare_eq in E. subst n. exists (NPart r). split; [|discriminate]. rewrite G by lia. rewrite firstn_all. reflexivity.
    + exfalso. apply T. apply Nat.compare_lt_iff in E. rewrite G by lia. destruct (skipn n pre) as [|[q|q y] r'] eqn:ES; cbn [app].
      * apply (f_equal (@length _)) in ES. rewrite skipn_length in ES. cbn [length] in ES. lia.
      * apply F.
      * rewrite aget_aset_ne; [apply F|]. intros ->. apply (H (Write q y)); [|reflexivity]. rewrite <- (firstn_skipn n pre), ES. apply in_or_app. right. left. reflexivity.
    + apply Nat.compare_gt_iff in E. exists (NWhole x). split; [|discriminate]. rewrite firstn_all2; [exact L|rewrite app_length; cbn [length]; lia].
Qed.

(** * The directory *)
Section Dir.
Context (show_ip : bytes -> str) (mk_key : subject -> str -> str -> bytes -> option (bytes * bytes)).
Local Notation steps := (steps show_ip mk_key).
Local Notation commands := (commands show_ip mk_key).
Local Notation command := (command show_ip mk_key).
Local Notation run := (run show_ip mk_key).

Definition fresh (d : option adir) : Prop := d = None \/ d = Some [].
(** What an all-in-one's directory can be: a beginning of one configuration. *)
Definition begun (l : list cmd) (d : option adir) : Prop :=
  fresh d \/ exists k o dr e, In k l /\ configures k o dr e /\ d = Some (fst (do_ops [] (fst (steps o dr)) e)).

Lemma nonempty_kept d x r k : d = Some (x :: r) -> command d k = d.
Proof.
  intros ->. destruct k as [o dr e|dr e]; [reflexivity|]. cbn [AioModel.command]. unfold AioModel.run.
  destruct (match aget RECORD (x :: r) with Some _ => true | None => false end); reflexivity.
Qed.
Lemma generate_fresh d o dr e : fresh d ->
  generate_configs_and_keys show_ip mk_key d o dr e =
  (Some (fst (do_ops [] (fst (steps (match o with Some o => o | None => default_opts end) dr)) e)),
   snd (steps (match o with Some o => o | None => default_opts end) dr) && snd (do_ops [] (fst (steps (match o with Some o => o | None => default_opts end) dr)) e)).
Proof.
  intros [-> | ->]; unfold generate_configs_and_keys; destruct (AioModel.steps show_ip mk_key _ dr) as [ops ok]; cbn [fst snd]; destruct (do_ops [] ops e); reflexivity.
Qed.
Lemma fst_run_fresh d dr e : fresh d -> fst (run d dr e) = Some (fst (do_ops [] (fst (steps default_opts dr)) e)).
Proof.
  intros F. unfold AioModel.run. assert (E : match d with Some d => match aget RECORD d with Some _ => true | None => false end | None => false end = false) by (destruct F as [-> | ->]; reflexivity).
  rewrite E, generate_fresh by exact F. reflexivity.
Qed.
Lemma command_begun l d k : begun l d -> begun (l ++ [k]) (command d k).
Proof.
  assert (FR : forall d, fresh d -> begun (l ++ [k]) (command d k)).
  { intros d' F. right. destruct k as [o dr e|dr e].
    - exists (Generate o dr e), o, dr, e. split; [apply in_or_app; right; left; reflexivity|]. split; [left; reflexivity|].
      cbn [AioModel.command]. rewrite generate_fresh by exact F. reflexivity.
    - exists (Run dr e), default_opts, dr, e. split; [apply in_or_app; right; left; reflexivity|]. split; [right; split; reflexivity|].
      cbn [AioModel.command]. apply fst_run_fresh, F. }
  intros [F|(k' & o & dr & e & I' & C & E)]; [apply FR, F|].
  destruct d as [[|x r]|]; [apply FR; right; reflexivity| |discriminate].
  refine (eq_ind_r (fun z => begun (l ++ [k]) z) _ (nonempty_kept (Some (x :: r)) x r k eq_refl)). right. exists k', o, dr, e. split; [apply in_or_app; left; exact I'|]. split; assumption.
Qed.
Lemma commands_begun l d : fresh d -> begun l (commands l d).
Proof.
  intros F. rewrite <- (rev_involutive l). induction (rev l) as [|k r IH]; [left; exact F|]. cbn [rev]. unfold AioModel.commands in *. rewrite fold_left_app. cbn [fold_left].
  apply command_begun, IH.
Qed.

(** * Whole configurations *)
Definition keys_of (o : aopts) (dr : draws) (s : subject) : option (bytes * bytes) := mk_key s (ao_org o) (ao_country o) (dr_rnd dr s).
(** All files are there, from one configuration. *)
Record complete (o : aopts) (dr : draws) (d : adir) : Prop := {
  cp_keys : forall s, exists sk cert, keys_of o dr s = Some (sk, cert) /\ read d (key_path s) = Some (CKey sk) /\ read d (cert_path s) = Some (CCert cert);
  cp_rv : read d (txt "configs/rendezvous_server.yml") = Some (CRv (rv_config (filled_in o dr)));
  cp_api : read d (txt "configs/serviceinfo_api_server.yml") = Some (CApi (api_config (filled_in o dr)));
  cp_mfg : read d (txt "configs/manufacturing_server.yml") = Some (CMfg (mfg_config show_ip (filled_in o dr)));
  cp_own : read d (txt "configs/owner_onboarding_server.yml") = Some (COwn (own_config show_ip (filled_in o dr))) }.

Ltac no_path := intros ? H; cbn [In app map] in H; repeat (destruct H as [<-|H]; [vm_compute; discriminate|]); destruct H.
Lemma record_complete o dr e : aget RECORD (fst (do_ops [] (fst (steps o dr)) e)) <> None ->
  snd (steps o dr) = true /\ complete o dr (fst (do_ops [] (fst (steps o dr)) e)) /\
  (e = Complete -> read (fst (do_ops [] (fst (steps o dr)) e)) RECORD = Some (CRecord (filled_in o dr))).
Proof.
  assert (DP : forall x, In x (directories o) -> path_of x <> RECORD).
  { unfold directories. intros x I'. apply in_map_iff in I'. destruct I' as (p & <- & I'). cbn [path_of]. apply in_app_or in I'.
    destruct I' as [I'|I']; [cbn [In] in I'; repeat (destruct I' as [<-|I']; [vm_compute; discriminate|]); destruct I'|].
    destruct (ao_separate o); cbn [In] in I'; [destruct I' as [<-|[]]; vm_compute; discriminate|destruct I']. }
  unfold AioModel.steps. cbn [key_steps].
  destruct (mk_key SDiun _ _ _) as [[sk1 ce1]|] eqn:K1.
  2:{ intros T. exfalso. apply T. apply untouched_ops. cbn [fst app]. rewrite app_nil_r. exact DP. }
  destruct (mk_key SManufacturer _ _ _) as [[sk2 ce2]|] eqn:K2.
  2:{ intros T. exfalso. apply T. apply untouched_ops. cbn [fst]. intros x I'. apply in_app_or in I'. destruct I' as [I'|I']; [apply DP, I'|revert x I'; no_path]. }
  destruct (mk_key SDeviceCA _ _ _) as [[sk3 ce3]|] eqn:K3.
  2:{ intros T. exfalso. apply T. apply untouched_ops. cbn [fst]. intros x I'. apply in_app_or in I'. destruct I' as [I'|I']; [apply DP, I'|revert x I'; no_path]. }
  destruct (mk_key SOwner _ _ _) as [[sk4 ce4]|] eqn:K4.
  2:{ intros T. exfalso. apply T. apply untouched_ops. cbn [fst]. intros x I'. apply in_app_or in I'. destruct I' as [I'|I']; [apply DP, I'|revert x I'; no_path]. }
  cbn [fst snd]. intros T. split; [reflexivity|].
  set (ks := [Write (key_path SDiun) (CKey sk1); Write (cert_path SDiun) (CCert ce1); Write (key_path SManufacturer) (CKey sk2); Write (cert_path SManufacturer) (CCert ce2);
              Write (key_path SDeviceCA) (CKey sk3); Write (cert_path SDeviceCA) (CCert ce3); Write (key_path SOwner) (CKey sk4); Write (cert_path SOwner) (CCert ce4)]) in *.
  set (cs := [Write (txt "configs/rendezvous_server.yml") (CRv (rv_config (filled_in o dr))); Write (txt "configs/serviceinfo_api_server.yml") (CApi (api_config (filled_in o dr)));
     Write (txt "configs/manufacturing_server.yml") (CMfg (mfg_config show_ip (filled_in o dr))); Write (txt "configs/owner_onboarding_server.yml") (COwn (own_config show_ip (filled_in o dr)))]).
  assert (EQ : directories o ++ ks ++ configs show_ip (filled_in o dr) = (directories o ++ ks ++ cs) ++ [Write RECORD (CRecord (filled_in o dr))]) by (rewrite <- !app_assoc; reflexivity).
  change (directories o ++ ks ++ configs show_ip (filled_in o dr)) with (directories o ++ ks ++ configs show_ip (filled_in o dr)) in T.
  rewrite EQ in *. clear EQ.
  destruct (last_there (directories o ++ ks ++ cs) RECORD (CRecord (filled_in o dr)) e) as (nd & E & W).
  { intros x I'. apply in_app_or in I'. destruct I' as [I'|I']; [apply DP, I'|]. revert x I'. unfold ks, cs. no_path. }
  { exact T. }
  rewrite E. rewrite !fold_left_app.
  assert (RD : forall p x d, p <> RECORD -> aget p d = Some (NWhole x) -> read (aset RECORD nd d) p = Some x).
  { intros p x d N A. unfold read. rewrite aget_aset_ne by exact N. rewrite A. reflexivity. }
  split; [|intros EC; rewrite (W EC); unfold read; rewrite aget_aset_eq; reflexivity].
  generalize (fold_left do_op (directories o) []) as d0. intros d0. unfold ks, cs. cbn [fold_left do_op].
  Ltac look := repeat first [rewrite aget_aset_eq; reflexivity | rewrite aget_aset_ne by (vm_compute; discriminate)].
  constructor.
  - intros [| | |]; unfold keys_of; [exists sk1, ce1|exists sk2, ce2|exists sk3, ce3|exists sk4, ce4]; (split; [assumption|]); (split; apply RD; [vm_compute; discriminate|look|vm_compute; discriminate|look]).
  - apply RD; [vm_compute; discriminate|look].
  - apply RD; [vm_compute; discriminate|look].
  - apply RD; [vm_compute; discriminate|look].
  - apply RD; [vm_compute; discriminate|look].
Qed.

(** When the all-in-one starts its servers, the configuration is whole. *)
Lemma run_complete l d0 dr e d a : fresh d0 -> run (commands l d0) dr e = (Some d, Some a) ->
  exists k o dr' e', In k (l ++ [Run dr e]) /\ configures k o dr' e' /\ complete o dr' d /\ (e' = Complete -> a = filled_in o dr').
Proof.
  intros F R. assert (B : begun (l ++ [Run dr e]) (Some d)).
  { replace (Some d) with (commands (l ++ [Run dr e]) d0); [apply commands_begun, F|]. unfold AioModel.commands. rewrite fold_left_app. cbn [fold_left AioModel.command].
    unfold AioModel.commands in R. rewrite R. reflexivity. }
  assert (T : read d RECORD = Some (CRecord a)).
  { unfold AioModel.run in R. cbv zeta in R. match type of R with (let (_, _) := ?x in _) = _ => destruct x as [d1 ok] end. injection R as -> R. destruct ok; [|discriminate]. destruct (read d RECORD) as [[]|]; congruence. }
  assert (T2 : aget RECORD d <> None) by (unfold read in T; destruct (aget RECORD d); discriminate).
  destruct B as [[B|B]|(k & o & dr' & e' & I' & C & E)]; [discriminate| |].
  - injection B as ->. exfalso. apply T2. reflexivity.
  - injection E as ->. destruct (record_complete o dr' e' T2) as (_ & CP & W). exists k, o, dr', e'. split; [exact I'|]. split; [exact C|]. split; [exact CP|].
    intros EC. rewrite (W EC) in T. congruence.
Qed.
End Dir.
