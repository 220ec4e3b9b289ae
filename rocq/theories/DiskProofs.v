(** Lemmas about rebinding and re-encryption. *)
From Verif Require Import Base BaseFacts Text CborModel ValueModel SiModel DevSiModel HostModel DiskModel DiskSpec.
From Coq Require Import ZifyBool ZifyNat ZifyN.
Local Open Scope N_scope.

Lemma dbind_ok {A B} (m : dm A) (f : A -> dm B) s s' r : dbind m f s = (s', Ok r) -> exists s1 a, m s = (s1, Ok a) /\ f a s1 = (s', Ok r).
Proof. unfold dbind. destruct (m s) as [s1 [a|e|x]]; intros H; [eauto|discriminate|discriminate]. Qed.
Lemma dbind_step {A B} (m : dm A) (f : A -> dm B) s s1 a : m s = (s1, Ok a) -> dbind m f s = f a s1.
Proof. intros H. unfold dbind. rewrite H. reflexivity. Qed.
(** Programs that only read *)
Definition reads {A} (m : dm A) : Prop := forall s, ds_lk (fst (m s)) = ds_lk s.
Lemma reads_bind {A B} (m : dm A) (f : A -> dm B) : reads m -> (forall a, reads (f a)) -> reads (dbind m f).
Proof. intros M F s. unfold dbind. specialize (M s). destruct (m s) as [s1 [a|e|x]]; cbn [fst] in *; [|exact M|exact M]. rewrite F. exact M. Qed.
Lemma reads_dread w {A} o (f : luks -> A) : reads (dread w o f).
Proof. intros s. unfold dread. destruct (dw_io w _); reflexivity. Qed.
Lemma reads_ret {A} (a : A) : reads (dret a). Proof. intros s. reflexivity. Qed.
Lemma reads_fail {A} : reads (@dfail A). Proof. intros s. reflexivity. Qed.
Lemma reads_scan w l : forall found, reads (scan w l found).
Proof. induction l as [|i l IH]; intros found; cbn [scan]; [apply reads_ret|]. apply reads_bind; [apply reads_dread|]. intros []; [destruct found; [apply reads_fail|apply IH]|apply IH]. Qed.
Lemma reads_pass w slot : reads (run_pass w slot).
Proof. intros s. unfold run_pass. destruct (dw_pass w _ _); reflexivity. Qed.
Lemma reads_tsp w : reads (get_clevis_token_slot_pass w).
Proof.
  unfold get_clevis_token_slot_pass, get_clevis_token, get_clevis_keyslot. apply reads_bind; [apply reads_bind; [apply reads_scan|intros [i|]; [apply reads_ret|apply reads_fail]]|]. intros i.
  apply reads_bind; [apply reads_bind; [apply reads_dread|intros [t|]; [destruct (keyslot_of (tk_json t)); [apply reads_ret|apply reads_fail]|apply reads_fail]]|]. intros slot.
  apply reads_bind; [apply reads_dread|]. intros _. apply reads_bind; [apply reads_pass|]. intros p. apply reads_ret.
Qed.
Lemma dread_ok w {A} o (f : luks -> A) s s' a : dread w o f s = (s', Ok a) -> ds_lk s' = ds_lk s /\ a = f (ds_lk s).
Proof. unfold dread. destruct (dw_io w _); intros H; inversion H; subst. auto. Qed.
Lemma reads_ok {A} (m : dm A) s s' r : reads m -> m s = (s', r) -> ds_lk s' = ds_lk s.
Proof. intros R E. specialize (R s). rewrite E in R. exact R. Qed.

(** *** Finding the token *)
Lemma scan_ok w : forall l found s s' r, scan w l found s = (s', Ok r) ->
  (forall j, In j l -> is_clevis (lk_tokens (ds_lk s) j) = true -> r = Some j) /\
  match found with Some i => r = Some i | None => match r with Some i => In i l /\ is_clevis (lk_tokens (ds_lk s) i) = true | None => True end end.
Proof.
  induction l as [|i l IH]; intros found s s' r; cbn [scan]; intros H.
  - unfold dret in H. inversion H; subst. split; [intros j []|]. destruct r; auto.
  - apply dbind_ok in H. destruct H as (s1 & c & D & H). apply dread_ok in D. destruct D as [L ->]. destruct (is_clevis (lk_tokens (ds_lk s) i)) eqn:C.
    + destruct found as [f|]; [discriminate H|]. apply IH in H. rewrite L in H. destruct H as [A B]. split; [|rewrite B; split; [left; reflexivity|exact C]]. intros j [<-|I] CJ; [exact B|apply A; assumption].
    + apply IH in H. rewrite L in H. destruct H as [A B]. split; [intros j [<-|I] CJ; [congruence|apply A; assumption]|]. destruct found as [f|]; [exact B|]. destruct r as [k|]; [|exact Logic.I]. destruct B as [B1 B2]. split; [right; exact B1|exact B2].
Qed.
Lemma looked_at j : In j LOOKED_AT <-> j < 10.
Proof. unfold LOOKED_AT. cbn [In]. lia. Qed.
Lemma bound_clevis lk i slot pc : bound lk i slot pc -> is_clevis (lk_tokens lk i) = true.
Proof. intros (j & kvs & s & more & T & _). rewrite T. vm_compute. reflexivity. Qed.
Lemma clevis_token lk i : is_clevis (lk_tokens lk i) = true -> exists j pc, lk_tokens lk i = Some (Token (ExternalUnknown CLEVIS) j pc).
Proof. unfold is_clevis. destruct (lk_tokens lk i) as [[[] j pc]|]; try discriminate. intros E. apply bytes_eqb_spec in E. subst. eauto. Qed.
Lemma keyslot_bound lk i t slot : is_clevis (lk_tokens lk i) = true -> lk_tokens lk i = Some t -> keyslot_of (tk_json t) = Some slot -> bound lk i slot (tk_pin t).
Proof.
  intros C T K. apply clevis_token in C. destruct C as (j & pc & T2). rewrite T2 in T. inversion T; subst t. cbn [tk_json tk_pin] in *. unfold keyslot_of, jget in K. destruct j as [| |kvs|]; try discriminate.
  destruct (find _ kvs) as [[k v]|] eqn:F; cbn [option_map snd] in K; [|discriminate]. destruct v as [|[|[s| | |] more]| |]; try discriminate. pose proof (find_some _ _ F) as [_ E]. cbn [fst] in E. apply bytes_eqb_spec in E. subst k.
  exists (JObj kvs), kvs, s, more. auto.
Qed.
Lemma bound_keyslot lk i slot pc : bound lk i slot pc -> exists t, lk_tokens lk i = Some t /\ keyslot_of (tk_json t) = Some slot /\ tk_pin t = pc.
Proof. intros (j & kvs & s & more & T & -> & F & P). eexists. split; [exact T|]. split; [|reflexivity]. unfold keyslot_of, jget. cbn [tk_json]. rewrite F. exact P. Qed.
Lemma bound_fun lk i s1 p1 s2 p2 : bound lk i s1 p1 -> bound lk i s2 p2 -> s1 = s2 /\ p1 = p2.
Proof. intros A B. apply bound_keyslot in A, B. destruct A as (t & T & K & P), B as (t' & T' & K' & P'). rewrite T in T'. inversion T'; subst. split; congruence. Qed.
Lemma tsp_ok w s s' i slot pass : get_clevis_token_slot_pass w s = (s', Ok (i, slot, pass)) ->
  ds_lk s' = ds_lk s /\ i < 10 /\ (exists pc, bound (ds_lk s) i slot pc) /\ (pass_law w -> lk_slots (ds_lk s) slot = Some pass) /\ forall j, j < 10 -> is_clevis (lk_tokens (ds_lk s) j) = true -> j = i.
Proof.
  intros H. split; [eapply reads_ok; [apply reads_tsp|exact H]|]. unfold get_clevis_token_slot_pass in H. apply dbind_ok in H. destruct H as (s1 & i0 & G & H). unfold get_clevis_token in G. apply dbind_ok in G. destruct G as (s0 & [k|] & SC & G); [|discriminate G].
  pose proof (reads_ok _ _ _ _ (reads_scan w LOOKED_AT None) SC) as L0. unfold dret in G. inversion G; subst s1 i0. clear G. apply scan_ok in SC. destruct SC as [U [IN C]].
  apply dbind_ok in H. destruct H as (s2 & sl & KS & H). unfold get_clevis_keyslot in KS. apply dbind_ok in KS. destruct KS as (s3 & t & D & KS). apply dread_ok in D. destruct D as [L1 ->]. destruct (lk_tokens (ds_lk s0) k) as [t|] eqn:T; [|discriminate KS]. destruct (keyslot_of (tk_json t)) as [n|] eqn:K; [|discriminate KS].
  unfold dret in KS. inversion KS; subst s2 sl. clear KS. apply dbind_ok in H. destruct H as (s4 & u & D & H). apply dread_ok in D. destruct D as [L2 _]. apply dbind_ok in H. destruct H as (s5 & p & RP & H). unfold dret in H. inversion H; subst. clear H.
  rewrite L0 in T. split; [apply looked_at; exact IN|]. split; [exists (tk_pin t); apply keyslot_bound; assumption|]. split.
  - intros PL. unfold run_pass in RP. destruct (dw_pass w _ _) as [p|] eqn:E; inversion RP; subst. apply PL in E. congruence.
  - intros j J CJ. apply looked_at in J. specialize (U j J CJ). congruence.
Qed.
Lemma scan_works w : (forall log, dw_io w log = true) -> forall l found s, NoDup l ->
  (forall j, In j l -> is_clevis (lk_tokens (ds_lk s) j) = true -> found = None /\ forall k, In k l -> is_clevis (lk_tokens (ds_lk s) k) = true -> k = j) ->
  exists s' r, scan w l found s = (s', Ok r) /\ ds_lk s' = ds_lk s.
Proof.
  intros IO. induction l as [|i l IH]; intros found s ND U; cbn [scan]; [exists s, found; auto|]. inversion ND as [|? ? NI ND']; subst.
  unfold dbind, dread. rewrite IO. set (s1 := DSt _ _). assert (L1 : ds_lk s1 = ds_lk s) by reflexivity. destruct (is_clevis (lk_tokens (ds_lk s) i)) eqn:C.
  - destruct (U i (or_introl eq_refl) C) as [-> UU]. destruct (IH (Some i) s1 ND') as (s' & r & E & L).
    + intros j J CJ. exfalso. rewrite L1 in CJ. assert (j = i) by (apply UU; [right; exact J|exact CJ]). subst. contradiction.
    + exists s', r. split; [exact E|congruence].
  - destruct (IH found s1 ND') as (s' & r & E & L).
    + intros j J CJ. rewrite L1 in CJ. destruct (U j (or_intror J) CJ) as [F UU]. split; [exact F|]. intros k K CK. apply UU; [right; exact K|exact CK].
    + exists s', r. split; [exact E|congruence].
Qed.
Lemma tsp_works w s i slot pc : (forall log, dw_io w log = true) -> (forall log sl lk p, lk_slots lk sl = Some p -> dw_pass w (log ++ [DPass sl]) lk = Some p) -> one_binding (ds_lk s) i slot pc ->
  exists s' pass, get_clevis_token_slot_pass w s = (s', Ok (i, slot, pass)) /\ ds_lk s' = ds_lk s /\ lk_slots (ds_lk s) slot = Some pass.
Proof.
  intros IO PS (I & B & ST & U). pose proof (bound_clevis _ _ _ _ B) as C. destruct (scan_works w IO LOOKED_AT None s) as (s1 & r & SC & L1).
  - unfold LOOKED_AT. repeat constructor; cbn [In]; lia.
  - intros j J CJ. split; [reflexivity|]. intros k K CK. apply looked_at in J, K. rewrite (U k K CK), (U j J CJ). reflexivity.
  - destruct (scan_ok _ _ _ _ _ _ SC) as [R _]. assert (r = Some i) by (apply R; [apply looked_at; exact I|exact C]). subst r.
    destruct (bound_keyslot _ _ _ _ B) as (t & T & K & _). destruct (lk_slots (ds_lk s) slot) as [p|] eqn:SL; [|congruence].
    unfold get_clevis_token_slot_pass, get_clevis_token, get_clevis_keyslot. unfold dbind, dread. rewrite SC. cbn [dret]. rewrite IO. cbn [ds_lk]. rewrite L1, T, K. cbn [dret]. rewrite IO. unfold run_pass. cbn [ds_lk ds_log].
    rewrite (PS _ _ _ _ SL). unfold dret. eexists _, p. split; [reflexivity|]. auto.
Qed.
(** *** Rebinding *)
Inductive rebound (w : dworld) (pin config : str) (lk : luks) : luks -> outcome unit unit -> Prop :=
| RbNothing : rebound w pin config lk lk (Err tt)
| RbTried i slot pass pc lk1 ok log : i < 10 -> bound lk i slot pc -> (pass_law w -> lk_slots lk slot = Some pass) -> dw_bind w (log ++ [DBind pin config (pass ++ [LF])]) lk = (lk1, ok) -> rebound w pin config lk lk1 (Err tt)
| RbRemoved i slot pass pc lk1 log : i < 10 -> bound lk i slot pc -> (pass_law w -> lk_slots lk slot = Some pass) -> dw_bind w (log ++ [DBind pin config (pass ++ [LF])]) lk = (lk1, true) -> rebound w pin config lk (Luks (del_at (lk_tokens lk1) i) (lk_slots lk1) (lk_pending lk1)) (Err tt)
| RbDone i slot pass pc lk1 log : i < 10 -> bound lk i slot pc -> (pass_law w -> lk_slots lk slot = Some pass) -> dw_bind w (log ++ [DBind pin config (pass ++ [LF])]) lk = (lk1, true) ->
    (forall j, j < 10 -> is_clevis (lk_tokens lk j) = true -> j = i) -> rebound w pin config lk (Luks (del_at (lk_tokens lk1) i) (del_at (lk_slots lk1) slot) (lk_pending lk1)) (Ok tt).
Lemma no_panic_reads w s : exists s' r, get_clevis_token_slot_pass w s = (s', r) /\ forall x, r <> Panic x.
Proof.
  assert (B : forall A B0 (x : dm A) (f : A -> dm B0), (forall s w, snd (x s) <> Panic w) -> (forall a s w, snd (f a s) <> Panic w) -> forall s w, snd (dbind x f s) <> Panic w).
  { intros A B0 x f X F st v. unfold dbind. specialize (X st v). destruct (x st) as [s1 [a|e|u]]; cbn [snd] in *; [apply F|discriminate|congruence]. }
  assert (R : forall A o (f : luks -> A) s x, snd (dread w o f s) <> Panic x) by (intros A o f st x; unfold dread; destruct (dw_io w _); discriminate).
  assert (SC : forall l f s x, snd (scan w l f s) <> Panic x).
  { induction l as [|i l IH]; intros f; cbn [scan]; [discriminate|]. apply B; [apply R|]. intros []; [destruct f; [discriminate|apply IH]|apply IH]. }
  assert (X : forall x, snd (get_clevis_token_slot_pass w s) <> Panic x).
  { unfold get_clevis_token_slot_pass, get_clevis_token, get_clevis_keyslot. apply B; [apply B; [apply SC|intros [i|]; discriminate]|]. intros i. apply B; [apply B; [apply R|intros [t|]; [destruct (keyslot_of (tk_json t)); discriminate|discriminate]]|]. intros slot.
    apply B; [apply R|]. intros _. apply B; [intros st x; unfold run_pass; destruct (dw_pass w _ _); discriminate|]. discriminate. }
  destruct (get_clevis_token_slot_pass w s) as [s' r]. exists s', r. split; [reflexivity|exact X].
Qed.
Lemma rebind_cases w pin config s s' r : rebind_clevis w pin config s = (s', r) -> rebound w pin config (ds_lk s) (ds_lk s') r.
Proof.
  unfold rebind_clevis. destruct (no_panic_reads w s) as (s1 & r1 & E & NP). pose proof (reads_ok _ _ _ _ (reads_tsp w) E) as L1. unfold dbind at 1. rewrite E. destruct r1 as [[[i slot] pass]|[]|x]; [|intros H; inversion H; subst; rewrite L1; constructor|exfalso; eapply NP; reflexivity].
  apply tsp_ok in E. destruct E as (_ & I & [pc B] & PL & U). unfold clevis_bind, delete_clevis_token_and_slot, dbind, dread, run, dcall.
  destruct (dw_io w (ds_log s1 ++ [DPath])); [|intros H; inversion H; subst; cbn [ds_lk]; rewrite L1; constructor]. cbn [ds_lk ds_log]. rewrite L1.
  destruct (dw_bind w _ (ds_lk s)) as [lk1 [|]] eqn:BD; [|intros H; inversion H; subst; cbn [ds_lk]; eapply RbTried; eassumption]. cbn [ds_lk ds_log].
  destruct (dw_io w _); [|intros H; inversion H; subst; cbn [ds_lk]; eapply RbTried; eassumption]. cbn [ds_lk ds_log].
  destruct (dw_io w _); [|intros H; inversion H; subst; cbn [ds_lk]; eapply RbTried; eassumption]. cbn [ds_lk ds_log lk_tokens lk_slots lk_pending].
  destruct (dw_io w _); intros H; inversion H; subst; cbn [ds_lk]; [eapply RbDone; eassumption|eapply RbRemoved; eassumption].
Qed.
Lemma bound_kept lk lk' i slot pc : bound lk i slot pc -> (forall t, lk_tokens lk i = Some t -> lk_tokens lk' i = Some t) -> bound lk' i slot pc.
Proof. intros (j & kvs & s & more & T & R) K. exists j, kvs, s, more. split; [apply K; exact T|exact R]. Qed.
Lemma del_ne {X} (f : N -> option X) i j : j <> i -> del_at f i j = f j. Proof. intros N. unfold del_at. destruct (j =? i) eqn:E; [lia|reflexivity]. Qed.
Lemma del_eq {X} (f : N -> option X) i : del_at f i i = None. Proof. unfold del_at. rewrite N.eqb_refl. reflexivity. Qed.
(** What was deleted is not what was bound. *)
Lemma new_apart lk i slot pass pc lk1 i' slot' pc' : bound lk i slot pc -> lk_slots lk slot = Some pass -> free_token lk i' -> lk_slots lk slot' = None -> bound lk1 i' slot' pc' -> slot_there lk1 slot' ->
  forall sl, (sl = lk_slots lk1 \/ sl = del_at (lk_slots lk1) slot) -> let lk2 := Luks (del_at (lk_tokens lk1) i) sl (lk_pending lk1) in bound lk2 i' slot' pc' /\ slot_there lk2 slot' /\ i' <> i /\ slot' <> slot.
Proof.
  intros B SL F FS B' S' sl HS lk2. assert (NI : i' <> i). { intros ->. apply bound_clevis in B. unfold free_token in F. rewrite F in B. discriminate. } assert (NS : slot' <> slot) by congruence.
  split; [eapply bound_kept; [exact B'|]; intros t T; cbn [lk2 lk_tokens]; rewrite del_ne by exact NI; exact T|]. split; [|auto]. unfold slot_there, lk2. cbn [lk_slots]. destruct HS as [->| ->]; [exact S'|rewrite del_ne by exact NS; exact S'].
Qed.
