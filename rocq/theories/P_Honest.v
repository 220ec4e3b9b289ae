(** C29: how many entries a voucher may have. *)
From Verif Require Import Base BaseFacts CborSpec CborModel CborProofs ValueModel ValueProofs Text TypesModel CryptoSpec TypesProofs VoucherModel VoucherSpec VoucherProofs VoucherProofs2
  ToyCrypto P_Voucher KexModel RvModel MsgModel SessionModel ToySession HttpClientModel RvServerModel CoseFacts SiModel DevSiModel OwnerModel To0Accept ClientModel ClientSpec ClientProofs ClientHonest.
From Coq Require Import ZifyBool ZifyNat ZifyN.
Local Open Scope N_scope.
Local Opaque dec_top any_value.

(** For every voucher of at most 65535 entries, but at least one, that this implementation made and that verifies, a
    device that is shown it by an honest owner gets all entries and accepts the owner. *)
Definition C29_statement : Prop := forall A c chk avail av wo v tok ph to1d s,
  outputs_ok c -> sign_correct c -> issued c chk v -> 1 <= nlen (entries_raw v) <= 65535 ->
  after_proof s -> honest_owner c chk av wo v tok ph to1d s ->
  exists s', get_and_verify A c chk avail wo tok ph to1d s = (s', Ok ph).

Lemma signed_get {T} c key e (rd : bytes -> outcome ferr T) x : signed_by c key e -> rd (cs_payload e) = Ok x -> cose_get_payload c rd e key = Ok x.
Proof. intros S R. apply cose_check_ok in S. unfold cose_get_payload, cose_verified_payload. rewrite S. exact R. Qed.
Lemma signed_verifies c key e : signed_by c key e -> cose_verify c e key = Ok tt.
Proof. intros S. apply cose_check_ok in S. unfold cose_verify. rewrite S. reflexivity. Qed.
Lemma last_owner v ps : ps <> [] -> exists qs q, ps = qs ++ [q] /\ owner_after v ps = p_key q.
Proof.
  intros H. destruct (rev ps) as [|q r] eqn:R; [destruct H; rewrite <- (rev_involutive ps), R; reflexivity|].
  exists (rev r), q. assert (ps = rev r ++ [q]) by (rewrite <- (rev_involutive ps), R; reflexivity). split; [assumption|]. subst ps.
  unfold owner_after. rewrite map_app. cbn [map]. rewrite last_last. reflexivity.
Qed.
Lemma verified_number c chk v ps : verify_entries c chk v = Ok ps -> length ps = length (entries_raw v).
Proof. intros H. rewrite verify_walk in H. apply walk_length in H. exact H. Qed.

(** It holds up to 256 entries; what was asked were the entries, one request each. *)
Theorem C29_up_to_256_partial : forall A c chk avail av wo v tok ph to1d s,
  outputs_ok c -> sign_correct c -> issued c chk v -> 1 <= nlen (entries_raw v) <= 256 ->
  after_proof s -> honest_owner c chk av wo v tok ph to1d s ->
  exists s' l, get_and_verify A c chk avail wo tok ph to1d s = (s', Ok ph) /\
    s_hist s' = s_hist s ++ l /\ nlen l = nlen (entries_raw v) /\ Forall (fun ev => exists w, ev = TWire (s_url s) w /\ wr_type w = 62) l.
Proof.
  intros A c chk avail av wo v tok ph to1d s HO HS I LE AP (ps & VE & HR & EM & EN & RD & ST & S1 & SE).
  pose proof (issued_size _ _ _ HO HS I) as SZ. pose proof (verified_number _ _ _ _ VE) as LP.
  destruct (last_owner v ps) as (qs & q & -> & OW). { intros ->. destruct (entries_raw v); [change (nlen (@nil bytes)) with 0 in LE; lia|discriminate]. }
  rewrite OW in ST, S1.
  destruct (get_and_verify_completes A c chk avail wo av v (ph_header ph) qs q tok ph to1d ph s) as (s' & l & G & H & F & N & _); auto.
  - lia.
  - apply signed_get; assumption.
  - apply signed_verifies; assumption.
  - exists s', l. auto.
Qed.
(** No voucher with more entries passes: entry 256 is asked for as number 0. *)
Theorem C29_more_than_256 : forall A c chk avail av wo v tok ph to1d s,
  outputs_ok c -> sign_correct c -> issued c chk v -> 256 < nlen (entries_raw v) <= 65535 ->
  after_proof s -> honest_owner c chk av wo v tok ph to1d s ->
  exists s', get_and_verify A c chk avail wo tok ph to1d s = (s', Err tt).
Proof.
  intros A c chk avail av wo v tok ph to1d s HO HS I LE AP (ps & VE & HR & EM & EN & RD & ST & S1 & SE).
  pose proof (issued_size _ _ _ HO HS I) as SZ. destruct (issued_rewrites _ _ _ HO HS I) as (RW & _).
  pose proof (k_entries _ _ _ (made_kept _ _ _ HO HS (issued_made _ _ _ I))) as IT.
  destruct (entry_256 A chk avail wo av v [] s (nlen (entries_raw v)) RW IT ltac:(lia) SE AP ltac:(lia) ltac:(lia)) as (s1 & G).
  exists s1. unfold get_and_verify, dbind. rewrite EN, G. reflexivity.
Qed.
(** Nor a voucher without entries, whatever it is signed with. *)
Theorem C29_no_entries : forall A c chk avail wo tok ph to1d s p', ph_num ph = 0 -> snd (get_and_verify A c chk avail wo tok ph to1d s) <> Ok p'.
Proof.
  intros A c chk avail wo tok ph to1d s p' E. unfold get_and_verify, dbind. rewrite E. cbn [N.to_nat get_entries ret lift snd]. unfold check_owner, voucher_from_parts.
  destruct (serialize_array (PA None [])) as [eb| |]; cbn [map_err bind]; try discriminate. destruct (header_deserialize c chk (ph_header ph)); cbn [bind map_err]; try discriminate.
Qed.

(** * A voucher of 257 entries, and an owner that gives out its entries and nothing else *)
Lemma ex_issued chk : issued toy chk ex_voucher.
Proof.
  eapply issued_new with (h := ex_header) (hmac := ex_hmac) (ch := [[42; 43]; [43; 43]]).
  - apply ex_header_rt.
  - split; repeat constructor; cbn; lia.
  - split; [reflexivity|]. repeat constructor; cbn; try lia.
  - vm_compute. reflexivity.
  - vm_compute. reflexivity.
Qed.
Definition hon_resp (v : voucher) (h : list devent) : option hresponse :=
  match rev h with
  | TWire _ w :: _ =>
    match from_slice as_getentry (wr_body w) with
    | Ok n => match entry true v (N.to_nat n) with Ok e => match ovnextentry n e with Ok b => to_hresponse true (Answer TO2OVNextEntry b None) [] | _ => None end | _ => None end
    | _ => None
    end
  | _ => None
  end.
Definition hon_world (v : voucher) : world := World (hon_resp v) (fun _ => Fine) (fun _ => true) (fun _ _ => repeat 1 16) (fun _ _ => None) None [] [].
Lemma hon_serves v url h0 : serves_entries true true (hon_world v) url v h0.
Proof. intros l w n e b F T G E O. unfold answers, hon_world. cbn [wo_resp]. unfold hon_resp. rewrite rev_app_distr. cbn [rev app]. rewrite G, E, O. reflexivity. Qed.
Definition hon_state : st := St [] [104] (HClient None unencrypted (Some TO2ProveOVHdr) None).
Definition hon_payload (n : N) : bytes := match proveovhdr_payload alt_header_bytes n ex_hmac (repeat 2 16) (ES384, []) [1] (Hash Sha384 [2]) with Ok b => b | _ => [] end.
Definition hon_tok (n : N) : cose := match cose_new toy true (hon_payload n) [(VInt CUPH_NONCE, bstr_val (repeat 3 16))] [7] [] with Ok t => t | _ => Cose (PA None []) [] [] [] [] end.
Definition hon_ph (n : N) : provehdr := ProveHdr alt_header_bytes n ex_hmac (repeat 2 16) (ES384, []) [1].
Definition hon_to1d : cose := match cose_new toy true [1] [] [7] [] with Ok t => t | _ => Cose (PA None []) [] [] [] [] end.
Definition hon_exts (n : nat) : list ext := repeat (Ext [7] None (ex_key 7) []) n.
Lemma hon_vouchers n : (n <= 1000)%nat -> exists v ps, issued toy true v /\ nlen (entries_raw v) = N.of_nat n /\ verify_entries toy true v = Ok ps /\ owner_after v ps = ex_key 7 /\
  header_raw v alt_header_bytes /\ ov_hmac v = ex_hmac.
Proof.
  intros LN.
  assert (FX : Forall (ext_ok toy) (hon_exts n)) by (apply Forall_forall; intros x H; apply repeat_spec in H; subst x; repeat split; repeat constructor; cbn; lia).
  assert (FA : Forall (fun x => c_alg toy (c_pub toy (x_sk x)) <> None) (hon_exts n)) by (apply Forall_forall; intros x H; apply repeat_spec in H; subst x; discriminate).
  assert (RI : rightful toy (pk_key (hd_mfg ex_header)) (hon_exts n)) by (unfold hon_exts; clear; induction n; cbn; auto).
  assert (NE : nlen (hon_exts n) = N.of_nat n) by (unfold nlen, hon_exts; rewrite repeat_length; reflexivity).
  destruct (C07_new_voucher toy true ex_header ex_hmac [[42; 43]; [43; 43]] ex_voucher (hon_exts n)) as (v & ps & EA & VE & LP & _ & _ & OW); auto using toy_outputs_ok, toy_sign_correct, ex_header_rt; try lia.
  - split; repeat constructor; cbn; lia.
  - split; [reflexivity|]. repeat constructor; cbn; try lia.
  - vm_compute. reflexivity.
  - destruct (extend_all_keeps toy true toy_outputs_ok toy_sign_correct _ _ _ (ex_issued true) FX EA) as (IS & HM & HB & NN).
    exists v, ps. split; [exact IS|]. split; [rewrite NN, NE; reflexivity|]. split; [exact VE|]. split.
    + rewrite OW. clear. unfold hon_exts. induction n as [|n IHn]; [reflexivity|]. destruct n; [reflexivity|exact IHn].
    + split; [|exact HM]. apply HB. exists (enc (VBytes alt_header_bytes)). split; vm_compute; reflexivity.
Qed.
Lemma hon_reads3 : read_provehdr true (cs_payload (hon_tok 3)) = Ok (hon_ph 3). Proof. vm_compute. reflexivity. Qed.
Lemma hon_reads257 : read_provehdr true (cs_payload (hon_tok 257)) = Ok (hon_ph 257). Proof. vm_compute. reflexivity. Qed.
Lemma hon_signed3 : signed_by toy [7] (hon_tok 3). Proof. apply cose_check_ok. vm_compute. reflexivity. Qed.
Lemma hon_signed257 : signed_by toy [7] (hon_tok 257). Proof. apply cose_check_ok. vm_compute. reflexivity. Qed.
Lemma hon_signed1 : signed_by toy [7] hon_to1d. Proof. apply cose_check_ok. vm_compute. reflexivity. Qed.
Lemma hon_honest v ps n : nlen (entries_raw v) = n -> verify_entries toy true v = Ok ps -> owner_after v ps = ex_key 7 -> header_raw v alt_header_bytes -> ov_hmac v = ex_hmac ->
  read_provehdr true (cs_payload (hon_tok n)) = Ok (hon_ph n) -> signed_by toy [7] (hon_tok n) -> honest_owner toy true true (hon_world v) v (hon_tok n) (hon_ph n) hon_to1d hon_state.
Proof.
  intros N VE OW HB HM RD SG. exists ps. rewrite OW. cbn [ex_key pk_key hon_ph ph_header ph_hmac ph_num]. split; [exact VE|]. split; [exact HB|]. split; [auto|]. split; [auto|]. split; [exact RD|].
  split; [exact SG|]. split; [exact hon_signed1|]. apply hon_serves.
Qed.
Theorem C29_refuted : ~ C29_statement.
Proof.
  intros H. destruct (hon_vouchers 257 ltac:(lia)) as (v & ps & IS & NN & VE & OW & HB & HM). change (N.of_nat 257) with 257 in NN.
  pose proof (hon_honest v ps 257 NN VE OW HB HM hon_reads257 hon_signed257) as HH.
  assert (AP : after_proof hon_state) by (split; reflexivity).
  destruct (H toy_aead toy true true true (hon_world v) v _ _ _ hon_state toy_outputs_ok toy_sign_correct IS ltac:(lia) AP HH) as (s1 & G1).
  destruct (C29_more_than_256 toy_aead toy true true true (hon_world v) v _ _ _ hon_state toy_outputs_ok toy_sign_correct IS ltac:(lia) AP HH) as (s2 & G2).
  rewrite G1 in G2. discriminate.
Qed.
Example C29_case : exists v, issued toy true v /\ nlen (entries_raw v) = 3 /\ after_proof hon_state /\ honest_owner toy true true (hon_world v) v (hon_tok 3) (hon_ph 3) hon_to1d hon_state.
Proof.
  destruct (hon_vouchers 3 ltac:(lia)) as (v & ps & IS & NN & VE & OW & HB & HM). exists v. split; [exact IS|]. split; [exact NN|]. split; [split; reflexivity|].
  exact (hon_honest v ps 3 NN VE OW HB HM hon_reads3 hon_signed3).
Qed.

Print Assumptions C29_up_to_256_partial.
Print Assumptions C29_more_than_256.
Print Assumptions C29_no_entries.
Print Assumptions C29_refuted.
