(** C41 and C58: the owner server's registrations with the rendezvous servers. *)
From Verif Require Import Base BaseFacts Text Assoc RvModel StoreModel StoreSpec StoreProofs Hex Backend RvServerModel
  CborSpec CborModel CborProofs ValueModel ValueProofs TypesModel CryptoSpec TypesProofs VoucherModel
  VoucherSpec VoucherProofs2 RvServerSpec RvServerProofs RvServerRuns MsgModel SessionModel SessionSpec OwnerModel To0Model To0Spec To0Proofs To0Accept
  ToyCrypto P_Voucher P_Rv P_RvServer.
From Coq Require Import ZifyBool ZifyNat ZifyN.
Local Open Scope N_scope.
Local Opaque dec_top.

(** * C41 *)
(** Which configurations are accepted: the period defaults to ten minutes, the window to 61 seconds; neither is zero, the
    window is longer than the sixty seconds between rounds, and the period longer than the window. *)
Theorem C41_accepted_times period window p w : registration_times period window = Some (p, w) <->
  p = match period with Some x => x | None => 600 end /\ w = match window with Some x => x | None => 61 end /\ 60 < w /\ w < p.
Proof.
  unfold registration_times, DEFAULT_REGISTRATION_PERIOD, DEFAULT_RE_REGISTRATION_WINDOW, MAINTENANCE_INTERVAL.
  destruct period as [[|pp]|]; destruct window as [ww|];
    repeat match goal with |- context [?a =? ?b] => destruct (N.eqb_spec a b) | |- context [?a <=? ?b] => destruct (N.leb_spec a b) end;
    (split; [let X := fresh in intros X; inversion X; subst|intros (-> & -> & ? & ?)]); try reflexivity; try lia.
Qed.
Print Assumptions C41_accepted_times.

Section db.
Context (c : crypto) (chk : bool) (sh : bytes -> str) (cf : to0conf).
(** A round over the database at [now1], the window checked at [now2], while handlers only mark vouchers as onboarded and the
    store can be written. *)
Context (now1 now2 : N) (env1 env2 : nat -> around table) (t t' : table) (l : list report).
Definition good_round : Prop := sound_table c chk t /\ (forall i, calm now1 (env1 i)) /\ (forall i, calm now2 (env2 i)) /\
  maint_round c chk sh cf (db_ovs c chk) now1 now2 env1 env2 t = (t', l, Ok tt).

(** Each un-onboarded voucher whose registration ends within the window is reported, unless its device onboards meanwhile. *)
Theorem C41_window_partial : good_round -> forall k r v, aget k t = Some r -> holds c chk r v ->
  ~ onboarded r -> ~ registered_until r (now2 / second + tc_window cf) ->
  reported l k v \/ exists r', aget k t' = Some r' /\ onboarded r'.
Proof.
  intros (S & C1 & C2 & R) k r v A HV NO NR. destruct (round_db c chk sh cf now1 now2 env1 env2 t t' l S C1 C2 R) as (t1 & l1 & l2 & vs1 & vs2 & -> & M1 & M2 & V1 & V2 & L1 & L2 & _).
  destruct S as [ND S]. destruct (S k r (aget_in _ _ _ A)) as (v' & HV' & G). unfold holds in *. rewrite HV in HV'. inversion HV'; subst v'. clear HV'.
  assert (REP : In v vs1 \/ In v vs2 -> reported (l1 ++ l2) k v).
  { intros I. split; [exact G|]. destruct I as [I|I]; [rewrite <- M1 in I|rewrite <- M2 in I]; apply in_map_iff in I; destruct I as (rp & E & I); exists rp; (split; [apply in_app_iff; auto|exact E]). }
  destruct (in_dec (list_eq_dec N.eq_dec) k (keys_of vs1)) as [IK|NK].
  - left. apply REP. left. apply in_map_iff in IK. destruct IK as (v1 & EK & I1). apply V1. pose proof I1 as I1'. apply V1 in I1. destruct I1 as (k1 & r1 & G1 & A1 & H1 & S1).
    rewrite (guid_of_text _ _ G1) in EK. subst k1. rewrite A in A1. inversion A1; subst r1. exists k, r. auto.
  - destruct (proj2 L1 k r A) as (r1 & A1 & E1 & T1 & Z1). specialize (Z1 NK).
    assert (DO : onboarded r1 \/ ~ onboarded r1) by (unfold onboarded; destruct (r_to2 r1) as [[|]|]; auto; right; discriminate).
    destruct DO as [O|NO1].
    + right. destruct (proj2 L2 k r1 A1) as (r2 & A2 & _ & T2 & _). exists r2. split; [exact A2|]. unfold onboarded in *. destruct T2; congruence.
    + left. apply REP. right. apply V2. exists k, r1. split; [exact G|]. split; [exact A1|]. split; [unfold holds; congruence|]. split; [exact NO1|].
      rewrite Z1. destruct (r_to0 r) as [x|] eqn:EX; [|exact I]. destruct (Z.ltb_spec x (Z.of_N (now2 / second + tc_window cf))); [assumption|]. exfalso. apply NR. exists x. auto.
Qed.

(** No voucher that was onboarded when the round began is reported. *)
Theorem C41_not_onboarded_partial : good_round -> forall k v, reported l k v -> exists r, aget k t = Some r /\ holds c chk r v /\ ~ onboarded r.
Proof.
  intros (S & C1 & C2 & R) k v (G & rp & I & EV). destruct (round_db c chk sh cf now1 now2 env1 env2 t t' l S C1 C2 R) as (t1 & l1 & l2 & vs1 & vs2 & -> & M1 & M2 & V1 & V2 & L1 & L2 & _).
  apply in_app_iff in I. destruct I as [I|I].
  - assert (IV : In v vs1) by (rewrite <- M1, <- EV; apply in_map; exact I). apply V1 in IV. destruct IV as (k1 & r & G1 & A & H & NO & _). rewrite G in G1. inversion G1; subst. exists r. auto.
  - assert (IV : In v vs2) by (rewrite <- M2, <- EV; apply in_map; exact I). apply V2 in IV. destruct IV as (k1 & r1 & G1 & A & H & NO & _). rewrite G in G1. inversion G1; subst.
    destruct (later_back _ _ _ _ _ L1 A) as (r & A0 & CO & T & _). exists r. split; [exact A0|]. split; [unfold holds in *; congruence|]. unfold onboarded in *. intros X. apply NO. destruct T; congruence.
Qed.

(** If every report of the round succeeds for at least the window, then afterwards every voucher is onboarded or registered
    beyond the window; *)
Theorem C41_covered_partial : good_round -> (forall rp, In rp l -> exists s, rp_outcome rp = Ok s /\ tc_window cf <= s) ->
  forall k r', aget k t' = Some r' -> onboarded r' \/ registered_until r' (now2 / second + tc_window cf).
Proof.
  intros (S & C1 & C2 & R) OK k r' A'. destruct (round_db c chk sh cf now1 now2 env1 env2 t t' l S C1 C2 R) as (t1 & l1 & l2 & vs1 & vs2 & -> & M1 & M2 & V1 & V2 & L1 & L2 & RC).
  destruct (in_dec (list_eq_dec N.eq_dec) k (keys_of vs2)) as [IK|NK].
  - right. apply in_map_iff in IK. destruct IK as (v & EK & IV). rewrite <- M2 in IV. apply in_map_iff in IV. destruct IV as (rp & EV & I).
    destruct (OK rp ltac:(apply in_app_iff; auto)) as (s & O & LE). destruct (RC rp s I O) as (r & now & LN & AR & TO). rewrite EV, EK, A' in AR. inversion AR; subst r.
    exists (Z.of_N (deadline now s)). split; [exact TO|]. rewrite deadline_eq. pose proof (N.div_le_mono now2 now second ltac:(discriminate) LN). lia.
  - destruct (later_back _ _ _ _ _ L2 A') as (r1 & A1 & CO & T & Z1). specialize (Z1 NK).
    assert (DO : onboarded r1 \/ ~ onboarded r1) by (unfold onboarded; destruct (r_to2 r1) as [[|]|]; auto; right; discriminate).
    destruct DO as [O|NO]; [left; unfold onboarded in *; destruct T; congruence|]. right.
    pose proof (later_sound c chk _ _ _ L1 S) as S1. destruct S1 as [_ S1]. destruct (S1 k r1 (aget_in _ _ _ A1)) as (v & HV & G).
    destruct (r_to0 r1) as [x|] eqn:EX.
    + destruct (Z.ltb_spec x (Z.of_N (now2 / second + tc_window cf))); [|exists x; split; [congruence|assumption]].
      exfalso. apply NK. rewrite <- (guid_of_text v k G). apply in_map. apply V2. exists k, r1. split; [exact G|]. split; [exact A1|]. split; [exact HV|]. split; [exact NO|]. rewrite EX. assumption.
    + exfalso. apply NK. rewrite <- (guid_of_text v k G). apply in_map. apply V2. exists k, r1. split; [exact G|]. split; [exact A1|]. split; [exact HV|]. split; [exact NO|]. rewrite EX. exact I.
Qed.
(** with an accepted configuration, that is for longer than the sixty seconds to the next round. *)
Theorem C41_no_gap_partial period window : registration_times period window = Some (tc_period cf, tc_window cf) ->
  good_round -> (forall rp, In rp l -> exists s, rp_outcome rp = Ok s /\ tc_window cf <= s) ->
  forall k r' later, aget k t' = Some r' -> later / second <= now2 / second + 60 -> onboarded r' \/ registered_until r' (later / second + 1).
Proof.
  intros RT GR OK k r' later A LE. apply C41_accepted_times in RT. destruct RT as (_ & _ & LW & _). destruct (C41_covered_partial GR OK k r' A) as [O|(x & E & X)]; [left; exact O|].
  right. exists x. split; [exact E|]. lia.
Qed.
(** Nothing else about the vouchers changes. *)
Theorem C41_kept : good_round -> map fst t' = map fst t /\ forall k r, aget k t = Some r -> exists r', aget k t' = Some r' /\ r_contents r' = r_contents r /\
  (r_to2 r' = r_to2 r \/ r_to2 r' = Some true).
Proof.
  intros (S & C1 & C2 & R). destruct (round_db c chk sh cf now1 now2 env1 env2 t t' l S C1 C2 R) as (t1 & l1 & l2 & vs1 & vs2 & -> & M1 & M2 & V1 & V2 & [D1 L1] & [D2 L2] & _).
  split; [congruence|]. intros k r A. destruct (L1 k r A) as (r1 & A1 & E1 & T1 & _). destruct (L2 k r1 A1) as (r2 & A2 & E2 & T2 & _). exists r2. split; [exact A2|]. split; [congruence|].
  destruct T2 as [->|T2]; [exact T1|right; exact T2].
Qed.
End db.
Print Assumptions C41_window_partial.
Print Assumptions C41_not_onboarded_partial.
Print Assumptions C41_covered_partial.
Print Assumptions C41_no_gap_partial.
Print Assumptions C41_kept.

(** A report that succeeds: the voucher's chain is accepted, and one of the URLs in its rendezvous information for owners was
    sent a message about it and granted the time. *)
Theorem C41_success_means c chk sh cf net rnd v cs s : report_ov c chk sh cf net rnd v = (cs, Ok s) ->
  hd_version (ov_header v) = 101 /\ (exists ch leaf, ov_chain v = Some ch /\ match tc_trusted cf with Some bag => verify_from_x5bag c ch bag | None => insecure_verify c ch end = Ok leaf) /\
  exists il x u i nonce answer m, to_interpreted (hd_rv (ov_header v)) RvModel.Owner = Ok il /\ In x il /\ In u (get_urls sh x) /\
    net i u = Ok (nonce, answer) /\ sign_msg c chk cf v nonce rnd = Ok m /\ In (CSign u m) cs /\ answer m = Ok s.
Proof.
  intros H. unfold report_ov in H. change V1_1 with 101 in H. destruct (N.eqb_spec (hd_version (ov_header v)) 101) as [EV|]; [|discriminate]. split; [exact EV|]. cbn [negb] in H.
  destruct (ov_chain v) as [ch|]; [|discriminate].
  destruct (match tc_trusted cf with Some bag => verify_from_x5bag c ch bag | None => insecure_verify c ch end) as [leaf| |] eqn:LF; try discriminate.
  destruct (to_interpreted (hd_rv (ov_header v)) RvModel.Owner) as [il| |] eqn:TI; try discriminate.
  split; [exists ch, leaf; auto|]. destruct (try_urls c chk cf net 0 rnd v (flat_map (get_urls sh) il)) as [cs' [o|]] eqn:TU; [|discriminate]. inversion H; subst.
  apply try_urls_ok in TU. destruct TU as (pre & u & i & nonce & answer & m & -> & I & NU & SM & AN). apply in_flat_map in I. destruct I as (x & I & IU).
  exists il, x, u, i, nonce, answer, m. repeat (split; [first [reflexivity|assumption]|]). split; [|exact AN]. apply in_app_iff. right. right. left. reflexivity.
Qed.
Print Assumptions C41_success_means.

(** The URLs are tried in order until one answers; that one is sent the registration and its answer counts. *)
Theorem C41_first_reachable c chk sh cf net rnd v ch leaf il pre u post nonce answer m : hd_version (ov_header v) = 101 -> ov_chain v = Some ch ->
  match tc_trusted cf with Some bag => verify_from_x5bag c ch bag | None => insecure_verify c ch end = Ok leaf ->
  to_interpreted (hd_rv (ov_header v)) RvModel.Owner = Ok il -> flat_map (get_urls sh) il = pre ++ u :: post -> (forall i x, nth_error pre i = Some x -> net i x = Err tt) ->
  net (length pre) u = Ok (nonce, answer) -> sign_msg c chk cf v nonce rnd = Ok m ->
  report_ov c chk sh cf net rnd v = (map CHello pre ++ [CHello u; CSign u m], answer m).
Proof.
  intros EV CH LF TI UR PRE NU SM. unfold report_ov. rewrite EV, CH, LF, TI, UR. change (negb (101 =? V1_1)) with false. cbv iota.
  assert (X : forall i, (forall j x, nth_error pre j = Some x -> net (i + j)%nat x = Err tt) -> net (i + length pre)%nat u = Ok (nonce, answer) ->
    try_urls c chk cf net i rnd v (pre ++ u :: post) = (map CHello pre ++ [CHello u; CSign u m], Some (answer m))).
  { clear UR PRE NU. induction pre as [|x pre IH]; intros i PRE NU; cbn [app try_urls map].
    - rewrite Nat.add_0_r in NU. rewrite NU, SM. reflexivity.
    - specialize (PRE 0%nat x eq_refl) as P0. rewrite Nat.add_0_r in P0. rewrite P0. rewrite (IH (S i)); [reflexivity| |].
      + intros j y N. replace (S i + j)%nat with (i + S j)%nat by lia. apply PRE. exact N.
      + replace (S i + length pre)%nat with (i + length (x :: pre))%nat by (cbn [length]; lia). exact NU. }
  rewrite (X 0%nat PRE NU). reflexivity.
Qed.
Print Assumptions C41_first_reachable.

(** ** The directory store: the window is not looked at *)
Definition C41_directory_statement : Prop :=
  forall c chk sh cf now1 now2 env1 env2 d d' l, Forall (fun e => file_sound (snd e)) d -> Forall (fun e => attr "user.store_ttl" (snd e) = None) d ->
  (forall i, ar_write (env1 i) = true) -> (forall i, ar_write (env2 i) = true) -> now1 <= now2 -> 60 < tc_window cf < tc_period cf ->
  maint_round c chk sh cf (dir_ovs c chk) now1 now2 env1 env2 d = (d', l, Ok tt) ->
  forall n f v, In (n, f) d -> voucher_deserialize c chk (f_data f) = Ok v -> ~ file_onboarded f -> ~ file_registered_until f (now2 / second + tc_window cf) ->
  exists rp, In rp l /\ rp_voucher rp = v.
Theorem C41_directory_partial c chk sh cf now1 now2 env1 env2 d d' l : Forall (fun e => file_sound (snd e)) d -> Forall (fun e => attr "user.store_ttl" (snd e) = None) d ->
  (forall i, ar_write (env1 i) = true) -> maint_round c chk sh cf (dir_ovs c chk) now1 now2 env1 env2 d = (d', l, Ok tt) ->
  forall v, (exists rp, In rp l /\ rp_voucher rp = v) <->
  exists n f, In (n, f) d /\ voucher_deserialize c chk (f_data f) = Ok v /\ ~ file_onboarded f /\ ~ file_registered_until f (now1 / second).
Proof.
  intros FS NT W R v. unfold maint_round in R. cbn [ov_within dir_ovs] in R.
  change (fst (b_maint (ov_be (OvStore (dir_backend (voucher_codec c chk)) (fun now d => dir_query (voucher_codec c chk) [(To2Performed, to_stored 0 (MBool true))] [(To0Wait, Z.of_N (unix_timestamp now))] d) None)) now1 d))
    with (fst (dir_maint now1 d)) in R.
  rewrite maint_no_ttl in R by exact NT. cbn [ov_due dir_ovs] in R. destruct (dir_query_spec c chk sh (now1 / second) d FS) as (vs & Q & V).
  change (Z.of_N (unix_timestamp now1)) with (Z.of_N (now1 / second)) in R. rewrite Q in R. cbn [report_queried] in R.
  match type of R with context [report_all c chk sh cf ?b env1 0 vs d] => change b with (ov_be (dir_ovs c chk)) in R end.
  destruct (report_all c chk sh cf (ov_be (dir_ovs c chk)) env1 0 vs d) as [[d1 l1] x] eqn:RA.
  pose proof (dir_reports c chk sh cf env1 W _ _ _ _ _ _ RA) as X. destruct x as [[]|e|p]; [|contradiction|discriminate]. inversion R; subst d1 l1.
  assert (EQ : (exists rp, In rp l /\ rp_voucher rp = v) <-> In v vs).
  { rewrite <- X, in_map_iff. split; intros (rp & A & B); exists rp; auto. }
  rewrite EQ, V. unfold file_selected. split; intros (n & f & A & B); exists n, f; tauto.
Qed.
Print Assumptions C41_directory_partial.

(** ** Concrete rounds *)
(** A voucher whose rendezvous server is http://rv1:80, last owned by [7] *)
Definition to_header : header := header_new V1_1 ex_guid [ex_d1] [32; 112; 105; 32] (ex_key 7) (Some ex_chain_hash).
Definition to_new : voucher :=
  match voucher_new to_header ex_hmac (Some [[42; 43]; [43; 43]]) with Ok v => v | _ => ex_voucher end.
Definition to_data : bytes := of_ok [] (voucher_serialize (fst (extend_all toy true to_new ex_exts))).
Definition to_voucher : voucher := of_ok ex_voucher (voucher_deserialize toy true to_data).
Lemma to_reads : voucher_deserialize toy true to_data = Ok to_voucher.
Proof. vm_compute. reflexivity. Qed.
Definition to_conf : to0conf := To0Conf (Some [[43; 43]]) [Addr None (Some (txt "owner")) 8043 2] [7] 600 61.
(** The rendezvous server of P_RvServer.v behind that URL *)
Definition rv_at : rvnet := fun _ u =>
  if bytes_eqb u (txt "http://rv1:80")
  then Ok (n3, fun m => match rv_parse true TO0OwnerSign m with
                         | Ok (MOwnerSign o) => match ownersign_check toy true kf_toy cf_toy (nonce_text n3) o with Ok (_, _, s) => Ok s | _ => Err tt end
                         | _ => Err tt end)
  else Err tt.
Definition to_sh : bytes -> str := fun _ => txt "192.168.1.2".
Definition quiet {W} (now : N) : nat -> around W := fun _ => Around rv_at [] (fun w => w) now true.
Lemma quiet_calm now i : calm now (quiet now i).
Proof. split; [|split; [reflexivity|reflexivity]]. intros t. split; [reflexivity|]. intros k r A. exists r. auto. Qed.
Definition t1000 : N := 1000 * second.
(** The registration ends at second 1050, in the window of 61 seconds at second 1000. *)
Definition to_table (to2 : option bool) (to0 : option Z) : table := [(key_toy, Row to_data to2 to0 None)].
Definition round_at (to2 : option bool) (to0 : option Z) :=
  maint_round toy true to_sh to_conf (db_ovs toy true) t1000 t1000 (quiet t1000) (quiet t1000) (to_table to2 to0).
Lemma to_sound to2 to0 : sound_table toy true (to_table to2 to0).
Proof.
  split; [constructor; [intros []|constructor]|]. intros k r [E|[]]. inversion E; subst. exists to_voucher. split; [exact to_reads|]. vm_compute. reflexivity.
Qed.
Lemma round_is to2 to0 : round_at to2 to0 = (fst (fst (round_at to2 to0)), snd (fst (round_at to2 to0)), snd (round_at to2 to0)).
Proof. destruct (round_at to2 to0) as [[a b] x]. reflexivity. Qed.
(** At second 1000: registered until 1050, the voucher is reported and is then registered until second 1600; *)
Lemma case_window : snd (round_at None (Some 1050%Z)) = Ok tt /\ map rp_outcome (snd (fst (round_at None (Some 1050%Z)))) = [Ok 600] /\
  fst (fst (round_at None (Some 1050%Z))) = to_table None (Some 1600%Z).
Proof. vm_compute. auto. Qed.
Example C41_case : good_round toy true to_sh to_conf t1000 t1000 (quiet t1000) (quiet t1000) (to_table None (Some 1050%Z)) (to_table None (Some 1600%Z))
    (snd (fst (round_at None (Some 1050%Z)))) /\
  (forall rp, In rp (snd (fst (round_at None (Some 1050%Z)))) -> exists s, rp_outcome rp = Ok s /\ tc_window to_conf <= s) /\
  registration_times None None = Some (tc_period to_conf, tc_window to_conf).
Proof.
  destruct case_window as (A & B & C). split; [|split; [|reflexivity]].
  - split; [apply to_sound|]. split; [intros i; apply quiet_calm|]. split; [intros i; apply quiet_calm|]. change (round_at None (Some 1050%Z) = (to_table None (Some 1600%Z), snd (fst (round_at None (Some 1050%Z))), Ok tt)).
    rewrite (round_is None (Some 1050%Z)) at 1. rewrite A, C. reflexivity.
  - intros rp I. apply (in_map rp_outcome) in I. rewrite B in I. destruct I as [E|[]]. exists 600. split; [symmetry; exact E|discriminate].
Qed.
(** an expired one is reported once more in the same round only if needed; one that lasts longer, or an onboarded one, is left alone. *)
Example C41_case_others : map rp_outcome (snd (fst (round_at None (Some 900%Z)))) = [Ok 600] /\ map rp_outcome (snd (fst (round_at (Some false) None))) = [Ok 600] /\
  snd (fst (round_at None (Some 1061%Z))) = [] /\ snd (fst (round_at (Some true) (Some 900%Z))) = [].
Proof. vm_compute. auto. Qed.

(** http://rv1:80 does not answer, the address does. *)
Example C41_case_second : map (fun x => match x with CHello u => (u, false) | CSign u _ => (u, true) end) (fst (report_ov toy true to_sh to_conf
    (fun i u => if bytes_eqb u (txt "http://192.168.1.2:80") then rv_at i (txt "http://rv1:80") else Err tt) [] to_voucher)) =
  [(txt "http://rv1:80", false); (txt "http://192.168.1.2:80", false); (txt "http://192.168.1.2:80", true)].
Proof. vm_compute. reflexivity. Qed.

(** The directory store: the same voucher is left to expire in the next 50 seconds. *)
Definition le8 (n : N) : bytes := [n mod 256; n / 256; 0; 0; 0; 0; 0; 0].
Definition to_dir : dir := [(key_toy, File to_data [(txt "user.fdo.to0_accept_owner_wait_seconds", le8 1050)])].
Definition dir_round := maint_round toy true to_sh to_conf (dir_ovs toy true) t1000 t1000 (quiet t1000) (quiet t1000) to_dir.
Lemma dir_round_nothing : dir_round = (to_dir, [], Ok tt).
Proof. vm_compute. reflexivity. Qed.
Theorem C41_directory_refuted : ~ C41_directory_statement.
Proof.
  intros H. destruct (H toy true to_sh to_conf t1000 t1000 (quiet t1000) (quiet t1000) to_dir to_dir []) with (n := key_toy)
    (f := File to_data [(txt "user.fdo.to0_accept_owner_wait_seconds", le8 1050)]) (v := to_voucher) as (rp & [] & _).
  - constructor; [|constructor]. split; [exact I|]. vm_compute. repeat constructor.
  - constructor; [reflexivity|constructor].
  - reflexivity.
  - reflexivity.
  - apply N.le_refl.
  - split; reflexivity.
  - exact dir_round_nothing.
  - left. reflexivity.
  - exact to_reads.
  - discriminate.
  - intros (b & E & LE). vm_compute in E. inversion E; subst b. vm_compute in LE. apply LE. reflexivity.
Qed.
Print Assumptions C41_directory_refuted.
(** Expired at second 1051: reported. *)
Example C41_directory_case :
  let d := maint_round toy true to_sh to_conf (dir_ovs toy true) (1051 * second) (1051 * second) (quiet (1051 * second)) (quiet (1051 * second)) to_dir in
  map rp_outcome (snd (fst d)) = [Ok 600] /\ snd d = Ok tt /\
  fst (fst d) = [(key_toy, File to_data [(txt "user.fdo.to0_accept_owner_wait_seconds", le8 1651)])].
Proof. vm_compute. auto. Qed.

(** A device that onboards after the query and before its voucher's turn is registered again. *)
Definition C41_statement : Prop :=
  forall c chk sh cf t0 env t vs1 v vs2 t1 l1, sound_table c chk t -> (forall i, calm t0 (env i)) ->
  ov_due (db_ovs c chk) t0 t = Ok (vs1 ++ v :: vs2) ->
  report_all c chk sh cf (ov_be (db_ovs c chk)) env 0 vs1 t = (t1, l1, Ok tt) ->   (* t1: when the report of v starts *)
  forall k r, guid_text (hd_guid (ov_header v)) = Some k -> aget k t1 = Some r -> ~ onboarded r.
Definition guid2 : bytes := [9;9;9;9;9;9;9;9;9;9;9;9;9;9;9;9].
Definition to_data2 : bytes :=
  of_ok [] (let! v := voucher_new (header_new V1_1 guid2 [ex_d1] [32; 112; 105; 32] (ex_key 7) (Some ex_chain_hash)) ex_hmac (Some [[42; 43]; [43; 43]]) in
            voucher_serialize (fst (extend_all toy true v ex_exts))).
Definition to_voucher2 : voucher := of_ok ex_voucher (voucher_deserialize toy true to_data2).
Definition key2 : str := of_ok [] (of_option tt (guid_text guid2)).
Definition two_rows : table := to_table None None ++ [(key2, Row to_data2 None None None)].
(** While the first is reported, the device of the second onboards. *)
Definition mark2 (t : table) : table := update t key2 (fun r => Row (r_contents r) (Some true) (r_to0 r) (r_ttl r)).
Definition busy : nat -> around table := fun _ => Around rv_at [] mark2 t1000 true.
Lemma mark2_marks : only_marks mark2.
Proof.
  intros t. unfold mark2, update. destruct (aget key2 t) as [r0|] eqn:G; [|split; [reflexivity|]; intros k r A; exists r; auto]. split.
  - apply (aset_dom to_sh). apply aget_in in G. apply (in_map fst) in G. exact G.
  - intros k r A. destruct (name_dec k key2) as [->|NE].
    + rewrite G in A. inversion A; subst r0. rewrite aget_aset_eq. eexists. split; [reflexivity|]. cbn. auto.
    + rewrite aget_aset_ne by exact NE. exists r. auto.
Qed.
Lemma two_sound : sound_table toy true two_rows.
Proof.
  split.
  - constructor; [intros [X|[]]; vm_compute in X; discriminate|]. constructor; [intros []|constructor].
  - intros k r [E|[E|[]]]; inversion E; subst; [exists to_voucher|exists to_voucher2]; (split; [vm_compute; reflexivity|vm_compute; reflexivity]).
Qed.
Lemma two_due : ov_due (db_ovs toy true) t1000 two_rows = Ok ([to_voucher] ++ to_voucher2 :: []).
Proof. vm_compute. reflexivity. Qed.
Definition first_report := report_all toy true to_sh to_conf (ov_be (db_ovs toy true)) busy 0 [to_voucher] two_rows.
Lemma first_ok : snd first_report = Ok tt /\ option_map r_to2 (aget key2 (fst (fst first_report))) = Some (Some true).
Proof. vm_compute. auto. Qed.
Theorem C41_overlap_refuted : ~ C41_statement.
Proof.
  intros H. destruct first_ok as [F A]. destruct (aget key2 (fst (fst first_report))) as [r|] eqn:G; [|discriminate].
  assert (E : first_report = (fst (fst first_report), snd (fst first_report), Ok tt)) by (rewrite <- F; destruct first_report as [[a b] x]; reflexivity).
  pose proof (H toy true to_sh to_conf t1000 busy two_rows [to_voucher] to_voucher2 [] (fst (fst first_report)) (snd (fst first_report)) two_sound) as X.
  assert (CB : forall i, calm t1000 (busy i)) by (intros i; split; [exact mark2_marks|split; [reflexivity|apply N.le_refl]]).
  specialize (X CB two_due E key2 r). apply X; [vm_compute; reflexivity|exact G|]. cbn [option_map] in A. unfold onboarded. congruence.
Qed.
Print Assumptions C41_overlap_refuted.
(** In that round both are registered. *)
Example C41_overlap_case :
  let x := maint_round toy true to_sh to_conf (db_ovs toy true) t1000 t1000 busy (quiet t1000) two_rows in
  map (fun rp => (hd_guid (ov_header (rp_voucher rp)), rp_outcome rp)) (snd (fst x)) = [(ex_guid, Ok 600); (guid2, Ok 600)].
Proof. vm_compute. reflexivity. Qed.

(** * C58 *)
(** A registration made by the last owner of a voucher that verifies is accepted by a rendezvous server that trusts the
    voucher's manufacturer and device chain: the owner is granted the time asked for or the server's maximum, whichever is
    shorter, and until then a lookup of the device finds the device's key and, signed by the owner, the owner's addresses. *)
Definition accepted (c : crypto) (chk : bool) (kf : keyfns) (rcf : rvconf) (cf : to0conf) {W} (be : backend RvServerModel.item W) (v : voucher) (key : pubkey) (nonce rnd : bytes) (w : W)
  (s : session rvdata) (e : rvenv) : Prop :=
  exists m msg w' it, sign_msg c chk cf v nonce rnd = Ok m /\ rv_parse chk TO0OwnerSign m = Ok msg /\
    rv_handle c chk kf rcf be TO0OwnerSign w s msg e = (w', HReply (ses_data s) None (enc (VArr [VInt (Z.of_N (N.min (tc_period cf) (cf_max rcf)))]))) /\
    si_key it = key /\ (exists h, cose_get_payload c (from_slice as_to1payload) (si_to1d it) (c_pub c (tc_sk cf)) = Ok (To1p (tc_addrs cf) h)) /\
    forall k t, guid_text (hd_guid (ov_header v)) = Some k -> t <= (e_now e / second + N.min (tc_period cf) (cf_max rcf)) * second -> snd (b_load be t w' k) = Ok (Some it).
(** The owner's side and the server's policy *)
Definition rightful_request (c : crypto) (chk : bool) (kf : keyfns) (rcf : rvconf) (cf : to0conf) (data : bytes) (v : voucher) (key : pubkey) (nonce : bytes)
  (s : session rvdata) (e : rvenv) : Prop :=
  bytes_ok data /\ nlen data < 2 ^ 32 /\ voucher_deserialize c chk data = Ok v /\ tag_small (pa_tag (ov_contents v)) /\
  (exists ps, verify_entries c chk v = Ok ps /\ ps <> [] /\ pk_key (owner_after v ps) = c_pub c (tc_sk cf)) /\
  tellable c cf /\ admits c kf rcf v key /\ bytes_ok nonce /\ nlen nonce = 16 /\
  sd_nonce3 (ses_data s) = Some (nonce_text nonce) /\ e_fault e = IoOk /\ e_now e / second + N.min (tc_period cf) (cf_max rcf) < 2 ^ 63.
Lemma rightful_checked c chk kf rcf cf data v key nonce rnd s e : outputs_ok c -> sign_correct c -> keyfns_ok c kf ->
  rightful_request c chk kf rcf cf data v key nonce s e ->
  exists m o, sign_msg c chk cf v nonce rnd = Ok m /\ rv_parse chk TO0OwnerSign m = Ok (MOwnerSign o) /\
    ownersign_check c chk kf rcf (nonce_text nonce) o = Ok (hd_guid (ov_header v), Item key (os_to1d o), N.min (tc_period cf) (cf_max rcf)) /\
    (exists h, cose_get_payload c (from_slice as_to1payload) (os_to1d o) (c_pub c (tc_sk cf)) = Ok (To1p (tc_addrs cf) h)) /\
    (exists k, guid_text (hd_guid (ov_header v)) = Some k) /\
    exists ib, item_write (Item key (os_to1d o)) = Ok ib /\ item_read c chk ib = Ok (Item key (os_to1d o)).
Proof.
  intros HO HS KF (B & L & D & TS & (ps & VE & PN & OW) & (FA & LA & LP & AL) & (MF & ch & leaf & CH & LF & PK) & NB & NL & _).
  destruct (sign_msg_accepted c chk cf kf rcf HO HS data v ps nonce rnd ch leaf key B L D TS FA LA LP AL NB NL VE PN OW MF CH LF PK) as (m & o & SM & RP & OC & GP & raw & RB & RL & RD).
  exists m, o. split; [exact SM|]. split; [exact RP|]. split; [exact OC|]. split; [eauto|]. split.
  - destruct (voucher_guid c chk data v B D) as [GB GL]. destruct (guid_text_some (hd_guid (ov_header v)) GL) as (k & G). eauto.
  - eapply item_round; [| |exact RB|exact RL|exact RD]; unfold pubkey_of_cert in PK; destruct (c_cert_key c leaf) as [kk|] eqn:CK; cbn [of_option bind] in PK; try discriminate;
      destruct (kf_type kf kk) as [kt|] eqn:KTy; cbn [of_option bind] in PK; try discriminate; inversion PK; subst key; cbn [pk_data]; [|apply (KF _ _ CK)].
    destruct (KF _ _ CK) as (KT & D1 & D2 & D3). repeat split; cbn [pk_type pk_enc pk_data]; auto.
    unfold pubkey_new, parse_key. change (ENC_X509 =? ENC_X509) with true. cbv iota. rewrite D3. reflexivity.
Qed.
Theorem C58_directory c chk kf rcf cf data v key nonce rnd d s e : outputs_ok c -> sign_correct c -> keyfns_ok c kf ->
  rightful_request c chk kf rcf cf data v key nonce s e -> accepted c chk kf rcf cf (rv_dir c chk) v key nonce rnd d s e.
Proof.
  intros HO HS KF RR. pose proof (rightful_checked c chk kf rcf cf data v key nonce rnd s e HO HS KF RR) as (m & o & SM & RP & OC & GP & (k & G) & ib & IW & IR).
  destruct RR as (_ & _ & _ & _ & _ & _ & _ & _ & _ & N3 & EF & TB).
  assert (HH : exists d', h_ownersign c chk kf rcf (rv_dir c chk) d s o e = (d', HReply (ses_data s) None (enc (VArr [VInt (Z.of_N (N.min (tc_period cf) (cf_max rcf)))])))).
  { unfold h_ownersign. rewrite N3, OC, G, EF. unfold rv_dir. cbn [b_store dir_backend]. unfold dir_store. cbn [item_codec ser]. unfold to_serr. rewrite IW. cbn [map_err]. rewrite rename_write. cbn [b_meta dir_backend].
    unfold dir_set_meta. rewrite aget_aset_eq. eexists. reflexivity. }
  destruct HH as (d' & HH). exists m, (MOwnerSign o), d', (Item key (os_to1d o)). split; [exact SM|]. split; [exact RP|]. cbn [si_key si_to1d rv_handle]. split; [exact HH|]. split; [reflexivity|]. split; [exact GP|]. intros k' t G' LE. rewrite G in G'. inversion G'; subst k'.
  eapply C25_found_until; try eassumption. exists ib. auto.
Qed.
Print Assumptions C58_directory.
(** The database store: likewise when it has no registration of this device. *)
Theorem C58_database_partial c chk kf rcf cf data v key nonce rnd t s e : outputs_ok c -> sign_correct c -> keyfns_ok c kf ->
  rightful_request c chk kf rcf cf data v key nonce s e -> (forall k, guid_text (hd_guid (ov_header v)) = Some k -> aget k t = None) ->
  accepted c chk kf rcf cf (rv_db c chk) v key nonce rnd t s e.
Proof.
  intros HO HS KF RR NO. pose proof (rightful_checked c chk kf rcf cf data v key nonce rnd s e HO HS KF RR) as (m & o & SM & RP & OC & GP & (k & G) & ib & IW & IR).
  destruct RR as (_ & _ & _ & _ & _ & _ & _ & _ & _ & N3 & EF & TB).
  exists m, (MOwnerSign o). eexists. exists (Item key (os_to1d o)). split; [exact SM|]. split; [exact RP|]. cbn [si_key si_to1d rv_handle]. split; [|split; [reflexivity|split; [exact GP|]]].
  - unfold h_ownersign. rewrite N3, OC, G, EF. unfold rv_db. cbn [b_store db_backend]. unfold db_store. cbn [item_codec ser]. unfold to_serr. rewrite IW. cbn [map_err]. rewrite (NO k G). cbn [b_meta db_backend]. unfold db_set_meta. reflexivity.
  - intros k' t' G' LE. rewrite G in G'. inversion G'; subst k'. unfold rv_db. cbn [b_load db_backend snd]. unfold db_load, update.
    assert (AG : aget k (t ++ [(k, Row ib None None None)]) = Some (Row ib None None None)) by (rewrite StoreProofs2.aget_app_new by exact (NO k G); apply aget_aset_eq).
    rewrite AG. rewrite aget_aset_eq. cbn [r_contents item_codec de]. rewrite IR. reflexivity.
Qed.
Print Assumptions C58_database_partial.
(** With the toy cryptography *)
Definition ses_toy : session rvdata := Ses (Some TO0HelloAck) None (RvData (Some (nonce_text n3)) None None).
Definition to_env : rvenv := RvEnv t1000 n3 IoOk.
Lemma to_rightful : rightful_request toy true kf_toy cf_toy to_conf to_data to_voucher (Pubkey 10 1 [42] [42] None) n3 ses_toy to_env.
Proof.
  split; [apply bytes_okb; vm_compute; reflexivity|]. split; [vm_compute; reflexivity|]. split; [exact to_reads|]. split; [vm_compute; exact I|].
  split.
  { destruct (verify_entries toy true to_voucher) as [ps| |] eqn:E; [|vm_compute in E; discriminate|vm_compute in E; discriminate]. exists ps. split; [reflexivity|].
    assert (X : match verify_entries toy true to_voucher with Ok q => q <> [] /\ pk_key (owner_after to_voucher q) = [7] | _ => False end) by (vm_compute; split; [discriminate|reflexivity]).
    rewrite E in X. exact X. }
  split; [split; [|split; [|split]]|].
  - constructor; [|constructor]. split; [exact I|]. split; [split; [reflexivity|vm_compute; discriminate]|]. split; [vm_compute; discriminate|]. split; vm_compute; discriminate.
  - vm_compute. discriminate.
  - reflexivity.
  - discriminate.
  - split; [split; [vm_compute; reflexivity|exists [[42; 43]; [43; 43]], [42; 43]; split; [vm_compute; reflexivity|split; vm_compute; reflexivity]]|].
    split; [apply bytes_okb; reflexivity|]. split; [reflexivity|]. split; [reflexivity|]. split; reflexivity.
Qed.
Example C58_case : outputs_ok toy /\ sign_correct toy /\ keyfns_ok toy kf_toy /\
  rightful_request toy true kf_toy cf_toy to_conf to_data to_voucher (Pubkey 10 1 [42] [42] None) n3 ses_toy to_env.
Proof. split; [apply toy_outputs_ok|]. split; [apply toy_sign_correct|]. split; [apply kf_toy_ok|exact to_rightful]. Qed.
(** Registering again with the database store fails until the row has expired and maintenance has removed it: a server that
    re-registers in time, before the old registration ends, is refused. *)
Definition C58_database_statement : Prop :=
  forall c chk kf rcf cf data v key nonce rnd t s e, outputs_ok c -> sign_correct c -> keyfns_ok c kf ->
  rightful_request c chk kf rcf cf data v key nonce s e -> accepted c chk kf rcf cf (rv_db c chk) v key nonce rnd t s e.
Definition to_msg : bytes := of_ok [] (sign_msg toy true to_conf to_voucher n3 []).
Definition to_ask (t : table) : table * hres rvdata :=
  match rv_parse true TO0OwnerSign to_msg with Ok msg => rv_handle toy true kf_toy cf_toy (rv_db toy true) TO0OwnerSign t ses_toy msg to_env | _ => (t, HPanic) end.
Lemma asked_again : sign_msg toy true to_conf to_voucher n3 [] = Ok to_msg /\ snd (to_ask []) = HReply (ses_data ses_toy) None (enc (VArr [VInt 600])) /\
  snd (to_ask (fst (to_ask []))) = HReject InternalServerError.
Proof. vm_compute. auto. Qed.
Lemma ok_inj {E T} (x y : T) : @Ok E T x = Ok y -> x = y.
Proof. intros H. injection H. auto. Qed.
Lemma ask_refused t msg w' d ks b : rv_parse true TO0OwnerSign to_msg = Ok msg -> rv_handle toy true kf_toy cf_toy (rv_db toy true) TO0OwnerSign t ses_toy msg to_env = (w', HReply d ks b) ->
  snd (to_ask t) = HReject InternalServerError -> False.
Proof. intros RP RH AG. unfold to_ask in AG. rewrite RP, RH in AG. discriminate. Qed.
Theorem C58_database_refuted : ~ C58_database_statement.
Proof.
  intros H. destruct C58_case as (HO & HS & KF & RR). destruct (H toy true kf_toy cf_toy to_conf to_data to_voucher _ n3 [] (fst (to_ask [])) ses_toy to_env HO HS KF RR) as (m & msg & w' & it & SM & RP & RH & _).
  destruct asked_again as (SM' & _ & AG). rewrite SM' in SM. apply ok_inj in SM. rewrite <- SM in RP. exact (ask_refused _ _ _ _ _ _ RP RH AG).
Qed.
Print Assumptions C58_database_refuted.
