(** Signed objects and arrays as read: what they contain, and that writing them gives something that reads the same. *)
From Verif Require Import Base BaseFacts RvServerModel CborSpec CborModel CborProofs ValueModel ValueProofs TypesModel CryptoSpec TypesProofs VoucherModel
  VoucherSpec VoucherProofs VoucherProofs2 DecFacts.
From Coq Require Import ZifyBool ZifyNat ZifyN.
Local Open Scope N_scope.
Local Opaque dec_top.

Lemma nonce_eq_ok {E} a b : @nonce_eq E a b = Ok true <-> a = b.
Proof.
  unfold nonce_eq, memcmp_eq. split.
  - destruct (negb (nlen a =? nlen b)); [discriminate|]. intros H. inversion H as [X]. apply bytes_eqb_spec in X. exact X.
  - intros ->. rewrite N.eqb_refl, bytes_eqb_refl. reflexivity.
Qed.
Lemma array_facts chk n s a : bytes_ok s -> 0 < n -> parse_array_data chk (Some n) s = Ok a ->
  exists rest h, parse_array chk (Some n) s = Ok (a, rest) /\ s = h ++ rest /\ top_array (map_count chk) (pa_tag a) (pa_items a) h /\
    nlen (pa_items a) = n /\ Forall bytes_ok (pa_items a) /\ items (map_count chk) (pa_items a) /\ nlen (concat (pa_items a)) <= nlen s.
Proof.
  intros B NZ P. unfold parse_array_data in P. destruct (parse_array chk (Some n) s) as [[a' rest]| |] eqn:PA; cbn [bind] in P; try discriminate.
  inversion P; subst a'. destruct (parse_sound chk (Some n) s a rest) as (h & -> & T & SZ); auto; [intros X; inversion X; lia|].
  exists rest, h. apply bytes_ok_app in B. destruct B as [Bh _].
  split; [reflexivity|]. split; [reflexivity|]. split; [exact T|]. split; [destruct SZ as [SZ|SZ]; [discriminate|]; inversion SZ; reflexivity|].
  split; [eapply top_items_ok; eassumption|]. split; [inversion T; assumption|].
  pose proof (top_array_tag_bytes _ _ _ _ T). rewrite nlen_app. lia.
Qed.
Lemma from_slice_bytebuf_ok s b : bytes_ok s -> from_slice as_bytebuf s = Ok b -> bytes_ok b.
Proof. intros B F. apply from_slice_ok in F. destruct F as (v & D & A). eapply bytebuf_ok; [eapply dec_top_octets; eassumption|exact A]. Qed.
Lemma from_slice_bstr16_ok s b : bytes_ok s -> from_slice as_bstr16 s = Ok b -> bytes_ok b /\ nlen b = 16.
Proof.
  intros B F. apply from_slice_ok in F. destruct F as (v & D & A). split; [eapply bstr16_ok; [eapply dec_top_octets; eassumption|exact A]|].
  unfold as_bstr16 in A. destruct (as_bytebuf v); [|discriminate]. destruct (N.eqb_spec (nlen b0) 16); inversion A; subst; assumption.
Qed.

(** A signed object that was read can be written, and what is written reads as the same object. *)
Lemma cose_reread chk s t : bytes_ok s -> nlen s < 2 ^ 62 -> cose_deserialize chk s = Ok t ->
  exists b, cose_serialize t = Ok b /\ cose_deserialize chk b = Ok t /\ item (map_count chk) b /\ nlen b <= nlen s + 6.
Proof.
  intros B L D. unfold cose_deserialize in D. destruct (parse_array_data chk (Some 4) s) as [a| |] eqn:P; cbn [map_err bind] in D; try discriminate.
  destruct (array_facts chk 4 s a B ltac:(lia) P) as (rest & h & PA0 & ES & T & N4 & IO & ITS & LC).
  destruct (pa_tag a) as [tg|] eqn:TG; [|discriminate]. destruct (N.eqb_spec tg COSESIGN_TAG) as [ET|]; cbn [negb] in D; [|discriminate].
  destruct (serialize_array a) as [data| |] eqn:S; cbn [map_err bind] in D; try discriminate.
  destruct (cose_inner_of_bytes data) as [[[[p u] pl] sg]| |] eqn:CI; cbn [bind] in D; try discriminate.
  inversion D; subst t; clear D. exists data. pose proof (serialize_len _ _ S) as SL. change (2 ^ 62) with 4611686018427387904 in L.
  assert (PD : parse_array chk (Some 4) data = Ok (a, [])).
  { destruct a as [tag xs]. cbn [CborModel.pa_items CborModel.pa_tag] in *. subst tag.
    destruct (serialize_loop chk (Some tg) xs ltac:(lia) ltac:(cbn; unfold COSESIGN_TAG in ET; lia) ITS) as (b' & E & TB). rewrite S in E. inversion E; subst b'.
    rewrite <- (app_nil_r data). apply parse_complete; [exact TB|right; split; [congruence|destruct xs; [discriminate|discriminate]]|unfold two63; lia]. }
  split; [|split; [|split]].
  - unfold cose_serialize. cbn [cs_contents]. rewrite TG, ET. unfold COSESIGN_TAG. rewrite S. reflexivity.
  - unfold cose_deserialize, parse_array_data. rewrite PD. cbn [bind map_err]. rewrite TG. replace (tg =? COSESIGN_TAG) with true by (symmetry; apply N.eqb_eq; exact ET).
    cbn [negb]. rewrite S. cbn [map_err bind]. rewrite CI. reflexivity.
  - eapply array_item; eassumption.
  - lia.
Qed.
Lemma cose_payload_signed {A} c (rd : bytes -> outcome ferr A) e key x : cose_get_payload c rd e key = Ok x ->
  signed_by c key e /\ rd (cs_payload e) = Ok x.
Proof.
  unfold cose_get_payload. destruct (cose_verified_payload c e key) as [p| |] eqn:V; cbn [bind]; try discriminate.
  apply verified_payload_ok in V. destruct V as [S ->]. auto.
Qed.
(** The last result of the iterator is good only if all are. *)
Lemma last_collect c chk v : forall fuel it acc p, iter_last c chk v it fuel acc = Some (Ok p) ->
  exists ps, iter_collect c chk v it fuel = Ok ps /\ (ps = [] /\ acc = Some (Ok p) \/ exists qs, ps = qs ++ [p]).
Proof.
  assert (ERR : forall it x it' f acc, iter_next c chk v it = (Some (Err x), it') -> iter_last c chk v it' f acc = acc).
  { intros it x it' f acc NX. assert (it_errored it' = true) as ER.
    { unfold iter_next in NX. destruct (it_errored it); [discriminate|]. destruct (_ <=? _)%nat; [discriminate|].
      destruct (get _ _ _) as [e| |]; [|inversion NX; reflexivity|discriminate]. destruct (process_element c v it e); inversion NX; reflexivity. }
    destruct f; cbn [iter_last]; unfold iter_next; rewrite ER; reflexivity. }
  induction fuel as [|fuel IH]; intros it acc p L; cbn [iter_last iter_collect] in *.
  - destruct (iter_next c chk v it) as [[[x|x|x]|] it'] eqn:NX; try discriminate. subst acc. exists []. auto.
  - destruct (iter_next c chk v it) as [[[x|x|x]|] it'] eqn:NX; try discriminate.
    + destruct (IH _ _ _ L) as (ps & C & E). rewrite C. cbn [bind]. exists (x :: ps). split; [reflexivity|]. right.
      destruct E as [[-> E]|(qs & ->)]; [inversion E; subst; exists []; reflexivity|exists (x :: qs); reflexivity].
    + rewrite (ERR _ _ _ _ _ NX) in L. discriminate.
    + subst acc. exists []. auto.
Qed.
Lemma collect_fuel c chk v : forall fuel it ps, iter_collect c chk v it fuel = Ok ps -> iter_collect c chk v it (S fuel) = Ok ps.
Proof.
  induction fuel as [|fuel IH]; intros it ps C; cbn [iter_collect] in *.
  - destruct (iter_next c chk v it) as [[[x|x|x]|] it']; try discriminate. exact C.
  - destruct (iter_next c chk v it) as [[[x|x|x]|] it']; try discriminate; [|exact C].
    destruct (iter_collect c chk v it' fuel) as [l| |] eqn:CL; cbn [bind] in C; try discriminate. rewrite (IH _ _ CL). exact C.
Qed.
