(** C33, C34 and C59: the device's client. *)
From Verif Require Import Base BaseFacts CborModel ValueModel Text TypesModel VoucherModel CryptoSpec VoucherSpec KexModel RvModel MsgModel SessionModel
  HttpClientModel RvServerModel SiModel DevSiModel OwnerModel ToyCrypto ToySession P_Voucher P_Rv P_Kex P_RvServer P_To0 ClientModel ClientSpec ClientProofs ClientProofs2 ClientToy.
Local Open Scope N_scope.

Section client.
Context (A : aead) (c : crypto) (chk : bool) (ko : kex_ops) (avail : bool) (show_ip : bytes -> str) (prefix : option str) (wo : world).
Local Notation main := (main A c chk ko avail show_ip prefix wo).

(** Every event of a run from the beginning *)
Lemma main_run allow d n h x : main allow d n = (h, x) -> h = [] \/ exists dc l s r, dd_cred d = Cred dc /\
  try_rounds A c chk ko avail show_ip prefix wo (dd_method d) dc l n st0 = (s, r) /\ h = s_hist s /\ forall b, x = Onboarded b -> r = Ok (Some b).
Proof.
  unfold ClientModel.main. destruct (negb avail && negb allow); [intros E; inversion E; auto|]. destruct (dd_marker d); [intros E; inversion E; auto|].
  destruct (dd_cred d) as [| |dc]; try (intros E; inversion E; auto; fail). destruct (negb (dc_active dc)); [intros E; inversion E; auto|].
  destruct (negb (dc_version dc =? V1_1)); [intros E; inversion E; auto|]. destruct (to_interpreted (dc_rv dc) Device) as [[|i l]| |]; try (intros E; inversion E; auto; fail).
  destruct (try_rounds _ _ _ _ _ _ _ _ _ _ _ _ _) as [s r] eqn:T. intros E. right. exists dc, (i :: l), s, r.
  split; [reflexivity|]. split; [exact T|]. destruct r as [[b|]| |]; inversion E; subst; split; try reflexivity; intros b' X; congruence.
Qed.
Lemma main_events allow d n h x p e q : sane wo -> main allow d n = (h, x) -> h = p ++ e :: q ->
  exists dc, dd_cred d = Cred dc /\ run_event A c chk ko avail wo (dd_method d) dc p e.
Proof.
  intros SA M E. apply main_run in M. destruct M as [->|(dc & l & s & r & D & T & -> & _)]; [destruct p; discriminate|].
  exists dc. split; [exact D|]. destruct (rounds_run A c chk ko avail prefix wo show_ip (dd_method d) dc l SA n st0 s r T) as (l' & E' & H).
  cbn [s_hist st0 app] in E'. cbn [s_hist st0] in H. rewrite E in E'. exact (H _ _ _ (eq_sym E')).
Qed.

(** * C33 *)
(** Whatever the network and the owner answer: before each message and each action of the device beyond owner
    authentication, in the session then open, the owner had proved itself. *)
Theorem C33_authenticated_owner : forall allow d n h x p e q, sane wo -> main allow d n = (h, x) ->
  h = p ++ e :: q -> past_authentication e ->
  exists dc, dd_cred d = Cred dc /\ session_authenticated c chk wo dc p.
Proof. intros allow d n h x p e q SA M E PA. destruct (main_events _ _ _ _ _ _ _ _ SA M E) as (dc & D & R & _). exists dc. auto. Qed.

(** * C34 *)
Lemma fold_keep dc : forall p d, Forall (fun e => disk_after1 dc d e = d) p -> fold_left (disk_after1 dc) p d = d.
Proof. intros p d H. induction H as [|e p X F IH]; [reflexivity|]. cbn [fold_left]. rewrite X. exact IH. Qed.
Lemma disk_after1_changes dc d e : disk_after1 dc d e = d \/ (e = TMark true \/ e = TErase true \/ e = TOff true \/ e = TDelete true).
Proof. destruct e as [| |[] |[] |[] |[]]; auto. Qed.
Lemma quiet_or_changed dc d : forall p, Forall (fun e => disk_after1 dc d e = d) p \/
  exists p1 e p2, p = p1 ++ e :: p2 /\ (e = TMark true \/ e = TErase true \/ e = TOff true \/ e = TDelete true).
Proof.
  induction p as [|e p IH]; [left; constructor|]. destruct (disk_after1_changes dc d e) as [K|K]; [|right; exists [], e, p; auto].
  destruct IH as [F|(p1 & e' & p2 & -> & K')]; [left; constructor; auto|]. right. exists (e :: p1), e', p2. auto.
Qed.

(** The device loses neither its will to onboard nor its credential before the owner has said that it has nothing more to
    tell; from an interruption before that it recovers.  Missing from C34: the time from there until the Done message. *)
Theorem C34_retries_partial : forall allow d n h x p q, sane wo -> main allow d n = (h, x) -> h = p ++ q -> will_onboard d ->
  will_onboard (disk_after d p) \/ exists h1 h2, p = h1 ++ h2 /\ info_done A ko avail wo h1.
Proof.
  intros allow d n h x p q SA M E W. unfold disk_after. destruct (dd_cred d) as [| |dc] eqn:D; [left; exact W|left; exact W|].
  destruct (quiet_or_changed dc d p) as [F|(p1 & e & p2 & -> & K)]; [left; rewrite fold_keep by exact F; exact W|]. right.
  rewrite <- app_assoc in E. destruct (main_events _ _ _ _ _ _ _ _ SA M E) as (dc' & _ & _ & O).
  assert (X : exists h1 l, p1 = h1 ++ l /\ info_done A ko avail wo h1).
  { unfold in_order in O. destruct K as [->|[->|[->| ->]]].
    - destruct O as (h1 & X & I). eauto.
    - destruct O as (_ & h1 & X & I). eauto.
    - destruct O as (_ & h1 & X & I). eauto.
    - destruct O as (_ & h1 & X & I). eauto. }
  destruct X as (h1 & l & -> & I). exists h1, (l ++ e :: p2). split; [|exact I]. rewrite <- app_assoc. reflexivity.
Qed.
(** Marker, credential and Done message come in this order, after the end of service information. *)
Theorem C34_order : forall allow d n h x p e q, sane wo -> main allow d n = (h, x) -> h = p ++ e :: q -> in_order A ko avail wo (dd_method d) p e.
Proof. intros allow d n h x p e q SA M E. destruct (main_events _ _ _ _ _ _ _ _ SA M E) as (dc & D & _ & R). exact R. Qed.
(** The program ends with success only if the owner has answered the Done message, with the device's nonce. *)
Theorem C34_success_answered : forall allow d n h b, main allow d n = (h, Onboarded b) -> done_answered A ko avail wo h.
Proof.
  intros allow d n h b M. pose proof M as M'. apply main_run in M'. destruct M' as [->|(dc & l & s & r & D & T & -> & X)].
  - exfalso. revert M. unfold ClientModel.main. destruct (negb avail && negb allow); [discriminate|]. destruct (dd_marker d); [discriminate|].
    destruct (dd_cred d) as [| |dc]; try discriminate. destruct (negb (dc_active dc)); [discriminate|]. destruct (negb (dc_version dc =? V1_1)); [discriminate|].
    destruct (to_interpreted (dc_rv dc) Device) as [[|i l]| |]; try discriminate.
    destruct (try_rounds _ _ _ _ _ _ _ _ _ _ _ _ _) as [s r] eqn:T. destruct r as [[b'|]| |]; intros E; inversion E. 
    pose proof (rounds_done A c chk ko avail prefix wo show_ip _ _ _ _ _ _ _ T) as (h0 & l' & url & w & ct & pt & n7 & Y & _). destruct (h0 ++ l'); cbn in Y; congruence.
  - rewrite (X b eq_refl) in T. exact (rounds_done A c chk ko avail prefix wo show_ip _ _ _ _ _ _ _ T).
Qed.
(** A device that is to onboard does not give up before it has tried. *)
Theorem C34_tries : forall allow d n, will_onboard d -> avail = true \/ allow = true ->
  match snd (main allow d n) with Skipped | Refused => False | _ => True end.
Proof.
  intros allow d n (MK & dc & l & i & D & AC & V & R) AV. unfold ClientModel.main.
  assert (G : negb avail && negb allow = false) by (destruct AV as [-> | ->]; [reflexivity|apply andb_false_r]). rewrite G, MK, D, AC, V, R. cbn [negb].
  change (V1_1 =? V1_1) with true. cbn [negb]. destruct (try_rounds _ _ _ _ _ _ _ _ _ _ _ _ _) as [s [[b|]| |]]; exact Logic.I.
Qed.

(** * C59 *)
Lemma marker_stays dc : forall l d, dd_marker d = true -> dd_marker (fold_left (disk_after1 dc) l d) = true.
Proof. induction l as [|e l IH]; [auto|]. intros d M. cbn [fold_left]. apply IH. destruct e as [| |[] |[] |[] |[]]; try exact M; reflexivity. Qed.
Lemma marked dc d h : dd_cred d = Cred dc -> In (TMark true) h -> dd_marker (disk_after d h) = true.
Proof.
  intros D I. unfold disk_after. rewrite D. clear D. revert d. induction h as [|e h IH]; [destruct I|]. intros d. cbn [fold_left].
  destruct I as [->|I]; [apply marker_stays; reflexivity|apply IH; exact I].
Qed.
(** A device that has ended with success does nothing when it is started again, whatever the world is then. *)
Theorem C59_once : forall allow d n h b, sane wo -> main allow d n = (h, Onboarded b) ->
  forall A' c' chk' ko' avail' show_ip' prefix' wo' allow' n',
  fst (ClientModel.main A' c' chk' ko' avail' show_ip' prefix' wo' allow' (disk_after d h) n') = [] /\
  (avail' = true -> snd (ClientModel.main A' c' chk' ko' avail' show_ip' prefix' wo' allow' (disk_after d h) n') = Skipped).
Proof.
  intros allow d n h b SA M. pose proof (C34_success_answered _ _ _ _ _ M) as (h0 & l & url & w & ct & pt & n7 & E & T & _).
  destruct (main_events allow d n h (Onboarded b) (h0 ++ l) (TWire url w) [] SA M E) as (dc & D & _ & O). cbn [in_order] in O. destruct (O T) as (h1 & E1 & _).
  assert (MK : dd_marker (disk_after d h) = true).
  { apply (marked dc); [exact D|]. rewrite E, E1. apply in_or_app. left. apply in_or_app. right. left. reflexivity. }
  intros A' c' chk' ko' avail' show_ip' prefix' wo' allow' n'. unfold ClientModel.main. rewrite MK. destruct avail', allow'; cbn; split; try reflexivity; discriminate.
Qed.
(** Every message of type 70 and every change to the credential is preceded by the marker: once one of them is out, a restart
    does nothing. *)
Theorem C59_marked_first : forall allow d n h x p e q, sane wo -> main allow d n = (h, x) -> h = p ++ e :: q ->
  match e with TWire _ w => wr_type w = 70 | TErase _ | TOff _ | TDelete _ => True | _ => False end ->
  dd_marker (disk_after d p) = true.
Proof.
  intros allow d n h x p e q SA M E K. destruct (main_events _ _ _ _ _ _ _ _ SA M E) as (dc & D & _ & O). apply (marked dc); [exact D|].
  unfold in_order in O. destruct e as [url w| | | | |]; try contradiction.
  - destruct (O K) as (h1 & -> & _). apply in_or_app. right. left. reflexivity.
  - destruct O as (_ & h1 & -> & _). apply in_or_app. right. left. reflexivity.
  - destruct O as (_ & h1 & -> & _). apply in_or_app. right. left. reflexivity.
  - destruct O as (_ & h1 & -> & _). apply in_or_app. right. left. reflexivity.
Qed.
End client.
Print Assumptions C33_authenticated_owner.
Print Assumptions C34_retries_partial.
Print Assumptions C34_order.
Print Assumptions C34_success_answered.
Print Assumptions C34_tries.
Print Assumptions C59_once.
Print Assumptions C59_marked_first.

(** The hypotheses are met: a run against the models of both servers gets past authentication and to the end. *)
Lemma event_at h k n r : map seen (skipn k h) = n :: r -> In n [64; 66; 68; 70] -> exists p e q, h = p ++ e :: q /\ past_authentication e /\ p = firstn k h.
Proof.
  intros T I. destruct (skipn k h) as [|e q] eqn:E; [discriminate|]. exists (firstn k h), e, q. split; [rewrite <- E; symmetry; apply firstn_skipn|]. split; [|reflexivity].
  cbn [map] in T. injection T as T _. destruct e; try exact Logic.I. cbn [past_authentication]. cbn [seen] in T. rewrite T. exact I.
Qed.
Lemma cl_past : map seen (skipn 6 (fst cl_run)) = [64; 66; 68; 1000; 1000; 1000; 1000; 1000; 1000; 1000; 68; 1001; 1002; 1003; 70].
Proof. vm_compute. reflexivity. Qed.
Example C33_case : sane (cl_world [] ex_exts) /\ exists p e q, fst cl_run = p ++ e :: q /\ past_authentication e /\ p = firstn 6 (fst cl_run).
Proof. split; [apply cl_sane|]. apply (event_at _ _ _ _ cl_past). left. reflexivity. Qed.
Lemma cl_will m : will_onboard (cl_disk m).
Proof.
  assert (X : exists l x, to_interpreted (dc_rv cl_cred) Device = Ok (x :: l)) by (vm_compute; eauto).
  destruct X as (l & x & X). split; [reflexivity|]. exists cl_cred, l, x. repeat split. exact X.
Qed.
(** Another secret: nothing is sent after the owner's first answer but the error. *)
Example C33_case_refused :
  let d := DevDisk false (Cred (DevCred true V1_1 ex_guid [ex_d1] cl_mfg (Plain [33; 34] [42]))) KeepIt in
  map seen (fst (main toy_aead toy true toy_kex true to_sh None (cl_world [] ex_exts) false d 1)) = [30; 32; 60; 255].
Proof. vm_compute. reflexivity. Qed.

(** C34 is false: the marker is written before the Done message is sent, and a device interrupted between the two does not
    onboard again although no owner knows. *)
Definition C34_statement : Prop := forall A c chk ko avail show_ip prefix wo allow d n h x p q, sane wo -> will_onboard d ->
  main A c chk ko avail show_ip prefix wo allow d n = (h, x) -> h = p ++ q -> will_onboard (disk_after d p) \/ told_done p.
Lemma cl_marked : dd_marker (disk_after (cl_disk DeactivateIt) (firstn 18 (fst cl_run))) = true.
Proof. vm_compute. reflexivity. Qed.
Lemma cl_untold : map seen (firstn 18 (fst cl_run)) = [30; 32; 60; 62; 62; 62; 64; 66; 68; 1000; 1000; 1000; 1000; 1000; 1000; 1000; 68; 1001].
Proof. vm_compute. reflexivity. Qed.
Lemma cl_main_is : main toy_aead toy true toy_kex true to_sh None (cl_world [] ex_exts) false (cl_disk DeactivateIt) 1 = (fst cl_run, snd cl_run).
Proof. unfold cl_run, cl_main. apply surjective_pairing. Qed.
Theorem C34_refuted : ~ C34_statement.
Proof.
  intros H. pose proof (H toy_aead toy true toy_kex true to_sh None (cl_world [] ex_exts) false (cl_disk DeactivateIt) 1%nat
    (fst cl_run) (snd cl_run) (firstn 18 (fst cl_run)) (skipn 18 (fst cl_run)) (cl_sane _ _) (cl_will _) cl_main_is (eq_sym (firstn_skipn 18 _))) as X.
  destruct X as [(W & _)|(url & w & I & T)].
  - rewrite cl_marked in W. discriminate.
  - apply (in_map seen) in I. cbn [seen] in I. rewrite T, cl_untold in I. cbn [In] in I. repeat (destruct I as [I|I]; [discriminate I|]). exact I.
Qed.
Print Assumptions C34_refuted.
(** In the same run: the interruption after the erasure of the credential, before it is written again, leaves it unreadable. *)
Example C34_erased : dd_cred (disk_after (cl_disk DeactivateIt) (firstn 19 (fst cl_run))) = Unreadable.
Proof. vm_compute. reflexivity. Qed.
(** When the Done message gets no answer, a device told to delete its credential tries on but never says Done again: it
    cannot delete the credential twice. *)
Definition lost_done (h : list devent) : bool := existsb (fun e => match e with TDelete true => true | _ => false end) h.
Definition lost_world : world := let w := cl_world [70] ex_exts in
  World (wo_resp w) (wo_fx w) (fun h => match rev h with TMark _ :: _ => negb (lost_done h) | _ => true end) (wo_rand w) (wo_kex w) (wo_release w) (wo_arch w) (wo_mods w).
Example C34_lost_done : (filter (fun x => (x =? 70) || (1000 <? x)) (map seen (fst (main toy_aead toy true toy_kex true to_sh None lost_world false (cl_disk DeleteIt) 2))),
    snd (main toy_aead toy true toy_kex true to_sh None lost_world false (cl_disk DeleteIt) 2)) = ([1001; 1004; 70; 1001; 1004], Trying).
Proof. vm_compute. reflexivity. Qed.
