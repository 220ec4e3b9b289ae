(** Lemmas for P_Voucher.v. *)
From Verif Require Import Base BaseFacts CborSpec CborModel CborProofs ValueModel ValueProofs
  TypesModel CryptoSpec TypesProofs VoucherModel VoucherSpec.
From Coq Require Import ZifyBool ZifyNat ZifyN.
Ltac Zify.zify_post_hook ::= Z.div_mod_to_equations.
Local Open Scope N_scope.

(** * Small facts *)

Lemma hash_compare_ok a b : hash_compare a b = Ok tt <-> h_value a = h_value b.
Proof.
  unfold hash_compare, hash_eq, memcmp_eq.
  destruct (N.eqb_spec (nlen (h_value a)) (nlen (h_value b))) as [E|E]; cbn [negb bind].
  - destruct (bytes_eqb (h_value a) (h_value b)) eqn:B.
    + apply bytes_eqb_spec in B. split; auto.
    + apply bytes_eqb_neq in B. split; [discriminate|congruence].
  - split; [discriminate|]. intros H. rewrite H in E. congruence.
Qed.

Lemma hash_from_data_ok c t d h : hash_from_data c t d = Ok h <-> (t = Sha256 \/ t = Sha384) /\ h = Hash t (c_hash c t d).
Proof.
  unfold hash_from_data. destruct t; cbn [digestible]; split.
  all: try (intros H; inversion H; subst; auto; fail).
  all: try (intros [[H|H] ->]; (discriminate || reflexivity)).
Qed.

Lemma cose_check_ok c e key : cose_check c e key = Ok true <-> signed_by c key e.
Proof.
  unfold cose_check, signed_by. split.
  - destruct (c_alg c key) as [alg|]; cbn [of_option bind]; [|discriminate].
    destruct (dec_top (cs_prot e)) as [m|]; cbn [of_option bind]; [|discriminate].
    destruct (as_map m) as [l|] eqn:M; cbn [of_option bind]; [|discriminate].
    destruct (hdr_get 1 l) as [v|] eqn:G; [|discriminate].
    destruct (untag v) eqn:U; try discriminate.
    destruct (Z.eqb_spec z alg) as [->|]; [|discriminate].
    intros H. inversion H as [H']. exists alg, m, alg. repeat split; auto. exists l, v. auto.
  - intros (alg & m & z & -> & -> & (l & v & M & G & U) & -> & V). cbn [of_option bind].
    rewrite M. cbn [of_option bind]. rewrite G, U, Z.eqb_refl, V. reflexivity.
Qed.

Lemma verified_payload_ok c e key p :
  cose_verified_payload c e key = Ok p <-> signed_by c key e /\ p = cs_payload e.
Proof.
  unfold cose_verified_payload. rewrite <- cose_check_ok. split.
  - destruct (cose_check c e key) as [[]| |]; cbn [bind]; try discriminate. intros H; inversion H; auto.
  - intros [-> ->]. reflexivity.
Qed.

(** * Iteration as a fold over the encoded entries *)

(** One entry, given what it must point back to. *)
Definition check_entry c chk (hp hi : hashtype -> outcome ferr hash) (key raw : bytes) : outcome ferr payload :=
  let! e := cose_deserialize chk raw in
  let! p := cose_get_payload c (read_payload c) e key in
  let! prev := hp (h_type (p_prev p)) in
  let! _ := hash_compare (p_prev p) prev in
  let! h := hi (h_type (p_hdr p)) in
  let! _ := hash_compare (p_hdr p) h in
  Ok p.

Fixpoint walk c chk (hp hi : hashtype -> outcome ferr hash) (key : bytes) (raws : list bytes)
  : outcome ferr (list payload) :=
  match raws with
  | [] => Ok []
  | raw :: r =>
    let! p := check_entry c chk hp hi key raw in
    let! l := walk c chk (fun t => hash_from_data c t raw) hi (pk_key (p_key p)) r in
    Ok (p :: l)
  end.

Lemma iter_walk c chk v : forall raws done key fuel,
  pa_items (ov_entries v) = done ++ raws -> (length raws <= fuel)%nat ->
  iter_collect c chk v (Iter (length done) false key) fuel
  = walk c chk
      (fun t => match rev done with
                | [] => hdr_hash c v t
                | raw :: _ => hash_from_data c t raw
                end)
      (hdr_info_hash c (ov_header v)) (pk_key key) raws.
Proof.
  induction raws as [|raw raws IH]; intros done key fuel E F.
  - assert (L : (length (pa_items (ov_entries v)) <=? length done)%nat = true).
    { rewrite E, app_nil_r. apply Nat.leb_refl. }
    destruct fuel; cbn [iter_collect]; unfold iter_next; cbn [it_errored it_index]; rewrite L; reflexivity.
  - assert (L : (length (pa_items (ov_entries v)) <=? length done)%nat = false).
    { rewrite E, app_length. apply Nat.leb_gt. cbn; lia. }
    assert (NE : nth_error (pa_items (ov_entries v)) (length done) = Some raw).
    { rewrite E, nth_error_app2 by lia. rewrite Nat.sub_diag. reflexivity. }
    assert (S0 : iter_next c chk v (Iter (length done) false key)
       = match check_entry c chk
               (fun t => match rev done with [] => hdr_hash c v t | raw :: _ => hash_from_data c t raw end)
               (hdr_info_hash c (ov_header v)) (pk_key key) raw with
         | Ok p => (Some (Ok p), Iter (S (length done)) false (p_key p))
         | Err x => (Some (Err x), snd (iter_next c chk v (Iter (length done) false key)))
         | Panic w => (Some (Panic w), snd (iter_next c chk v (Iter (length done) false key)))
         end).
    { unfold iter_next. cbn [it_errored it_index]. rewrite L. unfold get, get_raw. rewrite NE. cbn [map_err bind].
      unfold check_entry.
      destruct (cose_deserialize chk raw) as [e|e|w]; cbn [bind]; try reflexivity.
      unfold process_element. cbn [it_key it_index].
      assert (HP : forall t, match length done with
                 | O => hdr_hash c v t
                 | S i => get_hash c (ov_entries v) i t
                 end = match rev done with [] => hdr_hash c v t | raw :: _ => hash_from_data c t raw end).
      { intros t. destruct done as [|d0 done0] using rev_ind; [reflexivity|].
        rewrite rev_app_distr, app_length, Nat.add_1_r. cbn [rev app].
        unfold get_hash, get_raw.
        rewrite E, <- app_assoc, nth_error_app2 by lia. rewrite Nat.sub_diag. cbn [app nth_error map_err bind]. reflexivity. }
      destruct (cose_get_payload c (read_payload c) e (pk_key key)) as [p|e0|w]; cbn [bind]; try reflexivity.
      rewrite HP.
      destruct (match rev done with [] => hdr_hash c v (h_type (p_prev p)) | raw0 :: _ => hash_from_data c (h_type (p_prev p)) raw0 end) as [prev|e0|w];
        cbn [bind]; try reflexivity.
      destruct (hash_compare (p_prev p) prev) as [u|e0|w]; cbn [bind]; try reflexivity.
      destruct (hdr_info_hash c (ov_header v) (h_type (p_hdr p))) as [hi|e0|w]; cbn [bind]; try reflexivity.
      destruct (hash_compare (p_hdr p) hi) as [u2|e0|w]; cbn [bind]; reflexivity. }
    cbn [length] in F. destruct fuel as [|fuel]; [lia|]. cbn [iter_collect walk]. rewrite S0.
    destruct (check_entry c chk _ _ (pk_key key) raw) as [p|e|w]; cbn [bind]; try reflexivity.
    replace (S (length done)) with (length (done ++ [raw])) by (rewrite app_length; cbn; lia).
    rewrite IH; [|rewrite <- app_assoc; exact E|lia].
    rewrite rev_app_distr. reflexivity.
Qed.

Lemma verify_walk c chk v :
  verify_entries c chk v
  = walk c chk (hdr_hash c v) (hdr_info_hash c (ov_header v)) (pk_key (hd_mfg (ov_header v))) (pa_items (ov_entries v)).
Proof.
  unfold verify_entries, iter_entries. rewrite (iter_walk c chk v (pa_items (ov_entries v)) []); auto.
Qed.

(** * Walk and custody *)

Lemma check_entry_ok c chk hp hi key raw p :
  check_entry c chk hp hi key raw = Ok p <->
  exists e a b, cose_deserialize chk raw = Ok e /\ signed_by c key e /\ read_payload c (cs_payload e) = Ok p /\
    hp (h_type (p_prev p)) = Ok a /\ h_value (p_prev p) = h_value a /\
    hi (h_type (p_hdr p)) = Ok b /\ h_value (p_hdr p) = h_value b.
Proof.
  unfold check_entry, cose_get_payload. split.
  - destruct (cose_deserialize chk raw) as [e| |]; cbn [bind]; try discriminate.
    destruct (cose_verified_payload c e key) as [pl| |] eqn:VP; cbn [bind]; try discriminate.
    apply verified_payload_ok in VP. destruct VP as [S ->].
    destruct (read_payload c (cs_payload e)) as [p'| |] eqn:R; cbn [bind]; try discriminate.
    destruct (hp (h_type (p_prev p'))) as [a| |] eqn:A; cbn [bind]; try discriminate.
    destruct (hash_compare (p_prev p') a) as [[]| |] eqn:C1; cbn [bind]; try discriminate.
    destruct (hi (h_type (p_hdr p'))) as [b| |] eqn:B; cbn [bind]; try discriminate.
    destruct (hash_compare (p_hdr p') b) as [[]| |] eqn:C2; cbn [bind]; try discriminate.
    intros H; inversion H; subst. apply hash_compare_ok in C1, C2. exists e, a, b. auto 10.
  - intros (e & a & b & -> & S & R & A & C1 & B & C2). cbn [bind].
    rewrite (proj2 (verified_payload_ok c e key (cs_payload e)) (conj S eq_refl)). cbn [bind]. rewrite R. cbn [bind].
    rewrite A. cbn [bind]. apply hash_compare_ok in C1, C2. rewrite C1. cbn [bind]. rewrite B. cbn [bind]. rewrite C2.
    reflexivity.
Qed.

Lemma walk_custody c chk info : forall raws prev key ps,
  walk c chk (fun t => hash_from_data c t prev) (fun t => hash_from_data c t info) key raws = Ok ps
  <-> custody c chk info prev key raws ps.
Proof.
  induction raws as [|raw raws IH]; intros prev key ps; cbn [walk].
  - split; [intros H; inversion H; constructor|intros H; inversion H; reflexivity].
  - split.
    + destruct (check_entry c chk _ _ key raw) as [p| |] eqn:CE; cbn [bind]; try discriminate.
      destruct (walk c chk _ _ (pk_key (p_key p)) raws) as [l| |] eqn:W; cbn [bind]; try discriminate.
      intros H; inversion H; subst. apply IH in W.
      apply check_entry_ok in CE. destruct CE as (e & a & b & D & S & R & A & C1 & B & C2).
      apply hash_from_data_ok in A, B. destruct A as [T1 ->], B as [T2 ->]. cbn [h_value] in *.
      econstructor; eauto; split; auto.
    + intros H. inversion H as [|? ? ? e p ? ps' D S R [T1 V1] [T2 V2] K]; subst.
      assert (CE : check_entry c chk (fun t => hash_from_data c t prev) (fun t => hash_from_data c t info) key raw = Ok p).
      { apply check_entry_ok. exists e, (Hash (h_type (p_prev p)) (c_hash c (h_type (p_prev p)) prev)),
          (Hash (h_type (p_hdr p)) (c_hash c (h_type (p_hdr p)) info)).
        repeat split; auto; apply hash_from_data_ok; auto. }
      rewrite CE. cbn [bind]. apply IH in K. rewrite K. reflexivity.
Qed.

Lemma walk_ext c chk raws : forall hp hp' hi hi' key,
  (forall t, hp t = hp' t) -> (forall t, hi t = hi' t) ->
  walk c chk hp hi key raws = walk c chk hp' hi' key raws.
Proof.
  induction raws as [|raw raws IH]; intros hp hp' hi hi' key H1 H2; cbn [walk]; [reflexivity|].
  assert (E : check_entry c chk hp hi key raw = check_entry c chk hp' hi' key raw).
  { unfold check_entry. destruct (cose_deserialize chk raw); cbn [bind]; auto.
    destruct (cose_get_payload c (read_payload c) a key); cbn [bind]; auto.
    rewrite H1. destruct (hp' (h_type (p_prev a0))); cbn [bind]; auto.
    destruct (hash_compare (p_prev a0) a1); cbn [bind]; auto. rewrite H2. reflexivity. }
  rewrite E. destruct (check_entry c chk hp' hi' key raw); cbn [bind]; auto.
  rewrite (IH _ (fun t => hash_from_data c t raw) hi hi'); auto.
Qed.

Lemma walk_length c chk raws : forall hp hi key ps, walk c chk hp hi key raws = Ok ps -> length ps = length raws.
Proof.
  induction raws as [|raw raws IH]; intros hp hi key ps; cbn [walk]; [intros H; inversion H; auto|].
  destruct (check_entry c chk hp hi key raw); cbn [bind]; try discriminate.
  destruct (walk c chk _ hi _ raws) eqn:W; cbn [bind]; try discriminate.
  intros H; inversion H; subst. cbn. f_equal. eauto.
Qed.

(** The last entry alone. *)
Definition last_hp c (hp : hashtype -> outcome ferr hash) (raws : list bytes) : hashtype -> outcome ferr hash :=
  match rev raws with [] => hp | raw :: _ => fun t => hash_from_data c t raw end.

Lemma walk_snoc c chk raws : forall hp hi key raw ps,
  walk c chk hp hi key raws = Ok ps ->
  walk c chk hp hi key (raws ++ [raw])
  = let! p := check_entry c chk (last_hp c hp raws) hi (last (map (fun p => pk_key (p_key p)) ps) key) raw in Ok (ps ++ [p]).
Proof.
  induction raws as [|r0 raws IH]; intros hp hi key raw ps H.
  - cbn [walk] in H. inversion H; subst. cbn [app walk map last]. unfold last_hp. cbn [rev].
    destruct (check_entry c chk hp hi key raw); reflexivity.
  - cbn [walk] in H. cbn [app walk].
    destruct (check_entry c chk hp hi key r0) as [p| |]; cbn [bind] in *; try discriminate.
    destruct (walk c chk _ hi (pk_key (p_key p)) raws) as [l| |] eqn:W; cbn [bind] in *; try discriminate.
    inversion H; subst. rewrite (IH _ _ _ _ _ W).
    assert (E1 : last_hp c (fun t => hash_from_data c t r0) raws = last_hp c hp (r0 :: raws)).
    { unfold last_hp. cbn [rev]. destruct (rev raws) eqn:R; [reflexivity|]. reflexivity. }
    rewrite E1.
    assert (E2 : last (map (fun p0 => pk_key (p_key p0)) l) (pk_key (p_key p))
       = last (map (fun p0 => pk_key (p_key p0)) (p :: l)) key).
    { cbn [map]. destruct l as [|q l]; [reflexivity|]. cbn [map last].
      clear. generalize (pk_key (p_key q)) as z. generalize (map (fun p0 => pk_key (p_key p0)) l) as m.
      induction m as [|y m IHm]; intros z; [reflexivity|]. cbn [last]. destruct m; [reflexivity|]. apply IHm. exact z. }
    rewrite E2. destruct (check_entry c chk _ hi _ raw); reflexivity.
Qed.

(** * Vouchers whose cached fields agree with their contents *)

Definition coherent (c : crypto) (chk : bool) (v : voucher) : Prop :=
  voucher_of_array c chk (ov_contents v) = Ok v.

Lemma get_ok {A} (rd : bytes -> outcome ferr A) a n x :
  get rd a n = Ok x <-> exists raw, nth_error (pa_items a) n = Some raw /\ rd raw = Ok x.
Proof.
  unfold get, get_raw. destruct (nth_error (pa_items a) n); cbn [map_err bind]; split.
  - eauto.
  - intros (raw & E & H). inversion E; subst; auto.
  - discriminate.
  - intros (raw & E & H). discriminate.
Qed.

Ltac inv_get H x :=
  let E := fresh "G" in
  match type of H with bind ?e _ = Ok _ => destruct e as [x| |] eqn:E; cbn [bind] in H; [|discriminate|discriminate] end.

Lemma header_deserialize_ok c chk s h :
  header_deserialize c chk s = Ok h ->
  parse_array_data chk (Some 6) s = Ok (hd_contents h) /\
  get (from_slice as_version) (hd_contents h) 0 = Ok (hd_version h) /\
  get (from_slice as_bstr16) (hd_contents h) 1 = Ok (hd_guid h) /\
  get (from_slice as_rv_info) (hd_contents h) 2 = Ok (hd_rv h) /\
  get (from_slice as_string) (hd_contents h) 3 = Ok (hd_devinfo h) /\
  check_device_info (hd_devinfo h) = Ok tt /\
  get (from_slice (as_pubkey c)) (hd_contents h) 4 = Ok (hd_mfg h) /\
  get (from_slice (as_option as_hash)) (hd_contents h) 5 = Ok (hd_chain_hash h).
Proof.
  unfold header_deserialize. intros H.
  destruct (parse_array_data chk (Some 6) s) as [a| |] eqn:P; cbn [map_err bind] in H; try discriminate.
  inv_get H x0. inv_get H x1. inv_get H x2. inv_get H x3. inv_get H u. inv_get H x4. inv_get H x5.
  inversion H; subst. cbn [hd_contents hd_version hd_guid hd_rv hd_devinfo hd_mfg hd_chain_hash].
  destruct u. auto 10.
Qed.

Lemma coherent_ok c chk v : coherent c chk v ->
  get (from_slice as_version) (ov_contents v) 0 = Ok (ov_version v) /\
  (exists hb, get (from_slice as_bytebuf) (ov_contents v) 1 = Ok hb /\ header_deserialize c chk hb = Ok (ov_header v)) /\
  get (from_slice as_hash) (ov_contents v) 2 = Ok (ov_hmac v) /\
  get (from_slice (as_option (as_x5chain c))) (ov_contents v) 3 = Ok (ov_chain v) /\
  get (fun s => map_err FArray (parse_array_data chk None s)) (ov_contents v) 4 = Ok (ov_entries v).
Proof.
  unfold coherent, voucher_of_array. intros H.
  inv_get H x0. inv_get H hb. inv_get H h. inv_get H x2. inv_get H x3. inv_get H x4.
  inversion H as [E]. rewrite <- E. cbn [ov_contents ov_version ov_header ov_hmac ov_chain ov_entries].
  rewrite <- E in *. cbn [ov_contents] in *. eauto 10.
Qed.

Lemma coherent_hdr_info c chk v t : coherent c chk v ->
  hdr_info_hash c (ov_header v) t = hash_from_data c t (device_identity (ov_header v)).
Proof.
  intros H. apply coherent_ok in H. destruct H as (_ & (hb & _ & H) & _).
  apply header_deserialize_ok in H. destruct H as (_ & _ & G & _ & D & _).
  unfold hdr_info_hash. rewrite G. cbn [bind]. rewrite D. reflexivity.
Qed.

Lemma coherent_raws c chk v : coherent c chk v -> exists hb hm,
  header_raw v hb /\ hmac_raw v hm /\ header_deserialize c chk hb = Ok (ov_header v) /\
  forall t, hdr_hash c v t = hash_from_data c t (hb ++ hm).
Proof.
  intros H. apply coherent_ok in H. destruct H as (_ & (hb & G & H) & G2 & _).
  pose proof G as G'. apply get_ok in G. destruct G as (raw & N1 & F).
  apply get_ok in G2. destruct G2 as (hm & N2 & F2).
  exists hb, hm. repeat split; auto; [exists raw; auto|].
  intros t. unfold hdr_hash. rewrite G'. cbn [bind]. unfold get_raw. rewrite N2. reflexivity.
Qed.

Lemma verify_custody c chk v hb hm ps :
  coherent c chk v -> header_raw v hb -> hmac_raw v hm ->
  (verify_entries c chk v = Ok ps <->
   custody c chk (device_identity (ov_header v)) (hb ++ hm) (pk_key (hd_mfg (ov_header v))) (entries_raw v) ps).
Proof.
  intros H HB HM. destruct (coherent_raws _ _ _ H) as (hb' & hm' & HB' & HM' & _ & HH).
  assert (hb' = hb) as ->.
  { destruct HB as (r & N & F), HB' as (r' & N' & F'). rewrite N in N'. inversion N'; subst. rewrite F in F'. congruence. }
  assert (hm' = hm) as -> by (unfold hmac_raw in *; congruence).
  rewrite verify_walk. unfold entries_raw. rewrite <- walk_custody.
  rewrite (walk_ext c chk _ (hdr_hash c v) (fun t => hash_from_data c t (hb ++ hm))
             (hdr_info_hash c (ov_header v)) (fun t => hash_from_data c t (device_identity (ov_header v)))).
  - tauto.
  - exact HH.
  - intros t. apply (coherent_hdr_info c chk). exact H.
Qed.

(** * Extension *)


(** Ready to be extended: fits the writer. *)
Record sound_voucher (c : crypto) (chk : bool) (v : voucher) : Prop := {
  sv_coherent : coherent c chk v;
  sv_len : length (pa_items (ov_contents v)) = 5%nat;
  sv_etag : tag_small (pa_tag (ov_entries v));
  sv_entries : items (map_count chk) (pa_items (ov_entries v))
}.


Lemma as_extra_val e : extra_ok e -> as_option as_extra (extra_val e) = Some e.
Proof.
  destruct e as [l|]; [|reflexivity]. intros (_ & _ & H). cbn [extra_val as_option].
  unfold as_extra. cbn [untag].
  rewrite (all_some_map as_extra_entry (fun kv => (VInt (Z.of_N (fst kv)), VBytes (snd kv)))); [reflexivity|].
  intros [k b] Hi. rewrite Forall_forall in H. destruct (H _ Hi) as (H1 & _). cbn [fst snd] in *.
  unfold as_extra_entry, as_int. cbn [fst snd untag]. unfold two64 in H1.
  assert (((0 <=? Z.of_N k) && (Z.of_N k <=? 18446744073709551615))%Z = true) as -> by lia.
  cbn [as_bytebuf untag]. rewrite N2Z.id. reflexivity.
Qed.

Lemma vok_extra d e : (2 <= d)%nat -> extra_ok e -> vok d (extra_val e).
Proof.
  intros Hd H. eapply vok_mono with (d := 2%nat); [|auto]. destruct e as [l|]; [|exact I].
  destruct H as (H1 & _ & H). cbn [extra_val vok]. split; [rewrite nlen_map; unfold two64; lia|].
  apply Forall_map. rewrite Forall_forall in *. intros [k b] Hi. destruct (H _ Hi) as (A & B & C0). cbn [fst snd] in *.
  split; [unfold two64 in *; lia|]. split; [auto|unfold two64; lia].
Qed.

Lemma vok_payload c p :
  bytes_ok (h_value (p_prev p)) -> nlen (h_value (p_prev p)) <= 1024 ->
  bytes_ok (h_value (p_hdr p)) -> nlen (h_value (p_hdr p)) <= 1024 ->
  extra_ok (p_extra p) -> pubkey_valid c (p_key p) -> nlen (pk_data (p_key p)) < 4294967296 ->
  vok MAX_DEPTH (payload_val p) /\ nlen (enc (payload_val p)) < 4398046511104.
Proof.
  intros A1 A2 B1 B2 E K1 K2. split.
  - eapply vok_mono with (d := 3%nat); [|unfold MAX_DEPTH; lia]. unfold payload_val.
    apply vok_arr; [unfold nlen, two64; cbn; lia|].
    constructor; [apply vok_hash; auto; unfold two64; lia|].
    constructor; [apply vok_hash; auto; unfold two64; lia|].
    constructor; [apply vok_extra; auto|].
    constructor; [eapply vok_pubkey; eauto; unfold two64; lia|constructor].
  - unfold payload_val. cbn [enc map concat]. rewrite !nlen_app.
    assert (X : nlen (enc (extra_val (p_extra p))) < 4294967297).
    { destruct (p_extra p); [destruct E as (_ & E & _); lia|reflexivity]. }
    pose proof (enc_head_nlen 4 (nlen [hash_val (p_prev p); hash_val (p_hdr p); extra_val (p_extra p); pubkey_val (p_key p)])).
    assert (HV : forall h, nlen (h_value h) <= 1024 -> nlen (enc (hash_val h)) <= 1100).
    { intros h Hh. unfold hash_val. cbn [enc map concat]. rewrite !nlen_app.
      pose proof (enc_head_nlen 4 (nlen [VInt (hashtype_num (h_type h)); VBytes (h_value h)])).
      pose proof (enc_int_nlen (hashtype_num (h_type h))). cbn [enc] in *.
      pose proof (enc_head_nlen 2 (nlen (h_value h))). change (nlen (@nil N)) with 0. lia. }
    pose proof (HV _ A2). pose proof (HV _ B2).
    assert (KV : nlen (enc (pubkey_val (p_key p))) <= 100 + nlen (pk_data (p_key p))).
    { unfold pubkey_val. cbn [enc map concat]. rewrite !nlen_app.
      pose proof (enc_head_nlen 4 (nlen [VInt (Z.of_N (pk_type (p_key p))); VInt (Z.of_N (pk_enc (p_key p))); VBytes (pk_data (p_key p))])).
      pose proof (enc_int_nlen (Z.of_N (pk_type (p_key p)))). pose proof (enc_int_nlen (Z.of_N (pk_enc (p_key p)))).
      cbn [enc] in *. pose proof (enc_head_nlen 2 (nlen (pk_data (p_key p)))). change (nlen (@nil N)) with 0. lia. }
    change (nlen (@nil N)) with 0. lia.
Qed.

Lemma as_payload_val c p :
  extra_ok (p_extra p) -> pubkey_valid c (p_key p) -> as_payload c (payload_val p) = Some p.
Proof.
  intros E K. unfold as_payload, payload_val, as_fields. cbn [untag].
  rewrite !as_hash_val, as_extra_val, as_pubkey_val by auto. destruct p; reflexivity.
Qed.

Lemma inner_digestible t : inner_hash t = Sha256 \/ inner_hash t = Sha384.
Proof. destruct t; auto. Qed.

Lemma last_map {A B} (f : A -> B) l d : last (map f l) (f d) = f (last l d).
Proof. induction l as [|x l IH]; [reflexivity|]. cbn [map last]. destruct l; [reflexivity|]. apply IH. Qed.

Lemma owner_key v ps :
  pk_key (owner_after v ps) = last (map (fun p => pk_key (p_key p)) ps) (pk_key (hd_mfg (ov_header v))).
Proof.
  unfold owner_after. rewrite <- (last_map pk_key), map_map. reflexivity.
Qed.

(** The last verified payload is the one [extend] looks at. *)
Lemma walk_last c chk raws : forall hp hi key ps,
  walk c chk hp hi key raws = Ok ps -> raws <> [] ->
  exists raw e p, nth_error raws (length raws - 1) = Some raw /\ cose_deserialize chk raw = Ok e /\
    read_payload c (cs_payload e) = Ok p /\ forall d, last ps d = p.
Proof.
  intros hp hi key ps H Hn. destruct raws as [|raw raws] using rev_ind; [congruence|]. clear IHraws.
  assert (exists ps0, walk c chk hp hi key raws = Ok ps0) as [ps0 W0].
  { clear Hn. revert hp key ps H. induction raws as [|r0 raws IH]; intros hp key ps H; [exists []; reflexivity|].
    cbn [app walk] in *. destruct (check_entry c chk hp hi key r0) as [p0| |]; cbn [bind] in *; try discriminate.
    destruct (walk c chk _ hi (pk_key (p_key p0)) (raws ++ [raw])) as [l| |] eqn:W; cbn [bind] in *; try discriminate.
    destruct (IH _ _ _ W) as [l0 ->]. cbn [bind]. eauto. }
  rewrite (walk_snoc _ _ _ _ _ _ _ _ W0) in H.
  destruct (check_entry c chk _ hi _ raw) as [p| |] eqn:CE; cbn [bind] in H; try discriminate.
  inversion H; subst. apply check_entry_ok in CE. destruct CE as (e & a & b & D & S & R & _).
  exists raw, e, p. repeat split; auto.
  - rewrite app_length. cbn [length]. rewrite nth_error_app2 by lia.
    replace (length raws + 1 - 1 - length raws)%nat with 0%nat by lia. reflexivity.
  - intros d. clear. induction ps0 as [|x l IH]; [reflexivity|]. cbn [app last].
    destruct (l ++ [p]) eqn:E; [destruct l; discriminate|]. exact IH.
Qed.

(** What [extend_check] computes on a voucher that verifies. *)
Lemma extend_check_eq c chk v hb hm ps sk extra :
  coherent c chk v -> header_raw v hb -> hmac_raw v hm -> verify_entries c chk v = Ok ps ->
  (extra = None \/ V1_1 <= ov_version v) ->
  let t := voucher_hash_type v in
  extend_check c chk v sk extra =
  if bytes_eqb (pk_key (owner_after v ps)) (c_pub c sk)
  then Ok (Hash t (c_hash c t (last (entries_raw v) (hb ++ hm))),
           Hash t (c_hash c t (device_identity (ov_header v))))
  else Err FNonOwnerKey.
Proof.
  intros HC HB HM HV HX t. destruct (coherent_raws _ _ _ HC) as (hb' & hm' & HB' & HM' & _ & HH).
  assert (hb' = hb) as ->.
  { destruct HB as (r & N & F), HB' as (r' & N' & F'). rewrite N in N'. inversion N'; subst. rewrite F in F'. congruence. }
  assert (hm' = hm) as -> by (unfold hmac_raw in *; congruence).
  assert (HFD : forall d, hash_from_data c t d = Ok (Hash t (c_hash c t d))).
  { intros d. apply hash_from_data_ok. split; auto. apply inner_digestible. }
  unfold extend_check.
  replace (match extra with Some _ => ov_version v <? V1_1 | None => false end) with false.
  2:{ destruct HX as [->|HX]; [reflexivity|]. destruct extra; [|reflexivity]. symmetry. apply N.ltb_ge. exact HX. }
  rewrite (coherent_hdr_info c chk) by exact HC. fold t. rewrite HFD. cbn [bind].
  destruct (pa_items (ov_entries v)) as [|r0 rs] eqn:ER.
  - rewrite HH, HFD. cbn [bind].
    rewrite verify_walk, ER in HV. cbn [walk] in HV. inversion HV; subst.
    unfold owner_after, entries_raw. rewrite ER. cbn [map last]. unfold matches_pkey.
    destruct (bytes_eqb (pk_key (hd_mfg (ov_header v))) (c_pub c sk)); reflexivity.
  - rewrite verify_walk in HV.
    assert (NE : pa_items (ov_entries v) <> []) by (rewrite ER; discriminate).
    destruct (walk_last _ _ _ _ _ _ _ HV NE) as (raw & e & p & N & D & R & L).
    rewrite <- ER. unfold get_hash, get, get_raw. rewrite N. cbn [map_err bind]. rewrite HFD. cbn [bind].
    rewrite D. cbn [bind]. unfold cose_get_payload_unverified. rewrite R. cbn [bind].
    assert (EO : p_key p = owner_after v ps).
    { unfold owner_after. apply walk_length in HV. destruct ps as [|q ps].
      - rewrite ER in HV. discriminate.
      - rewrite <- (L q). cbn [map]. rewrite <- last_map with (f := p_key) (l := q :: ps) (d := q).
        change (last (map p_key (q :: ps)) (p_key q) = last (map p_key (q :: ps)) (hd_mfg (ov_header v))).
        clear. cbn [map]. generalize (p_key q) as z. generalize (map p_key ps) as m. intros m z.
        generalize z at 2. generalize (hd_mfg (ov_header v)) as w. revert z.
        induction m as [|y m IHm]; intros z w z'; [reflexivity|]. cbn [last] in *. destruct m; [reflexivity|]. apply IHm; auto. }
    rewrite EO. unfold matches_pkey.
    assert (EL : last (entries_raw v) (hb ++ hm) = raw).
    { unfold entries_raw. clear - N NE. revert N NE. generalize (pa_items (ov_entries v)) as l. intros l N NE.
      destruct l as [|x l] using rev_ind; [congruence|]. rewrite last_last.
      rewrite app_length in N. cbn [length] in N. rewrite nth_error_app2 in N by lia.
      replace (length l + 1 - 1 - length l)%nat with 0%nat in N by lia. cbn in N. congruence. }
    rewrite EL.
    destruct (bytes_eqb (pk_key (owner_after v ps)) (c_pub c sk)); reflexivity.
Qed.

Lemma list_set_some {A} (l : list A) n x : (n < length l)%nat -> exists l', list_set l n x = Some l' /\
  length l' = length l /\ nth_error l' n = Some x /\ forall m, m <> n -> nth_error l' m = nth_error l m.
Proof.
  revert n; induction l as [|y l IH]; intros [|n] H; cbn [length] in *; try lia.
  - exists (x :: l). cbn. repeat split; auto. intros [|m] Hm; [congruence|reflexivity].
  - destruct (IH n) as (l' & E & L & N & M); [lia|]. cbn [list_set]. rewrite E. exists (y :: l').
    cbn. repeat split; auto. intros [|m] Hm; [reflexivity|]. cbn. apply M. lia.
Qed.

Lemma items_snoc cnt xs x : items cnt xs -> item cnt x -> items cnt (xs ++ [x]).
Proof. intros H Hx; induction H; cbn; repeat (constructor; auto). Qed.

Lemma serialize_loop chk tag xs :
  nlen xs <= 65535 -> tag_small tag -> items (map_count chk) xs ->
  exists b, serialize_array (PA tag xs) = Ok b /\ top_array (map_count chk) tag xs b.
Proof.
  intros Hl Ht Hx. unfold serialize_array. cbn [pa_tag pa_items].
  destruct (encode_item_start_head MArray (nlen xs) Hl) as [h [E Hh]].
  destruct tag as [t|]; cbn [bind].
  - destruct (encode_item_start_head MTag t Ht) as [h' [E' Hh']]. rewrite E'. cbn [bind]. rewrite E. cbn [bind].
    eexists. split; [reflexivity|]. constructor; auto.
  - rewrite E. cbn [bind]. eexists. split; [reflexivity|]. constructor; auto.
Qed.

(** * The step: a rightful extension succeeds and verifies *)
Lemma extend_step c chk v ps x :
  outputs_ok c -> sign_correct c ->
  sound_voucher c chk v -> verify_entries c chk v = Ok ps ->
  (x_extra x = None \/ V1_1 <= ov_version v) -> ext_ok c x ->
  c_pub c (x_sk x) = pk_key (owner_after v ps) -> c_alg c (c_pub c (x_sk x)) <> None ->
  nlen (entries_raw v) < 65535 -> nlen (concat (entries_raw v)) < 2305843009213693952 ->
  exists v' p raw, extend c chk v (x_sk x) (x_extra x) (x_next x) (x_rnd x) = (v', Ok tt) /\
    verify_entries c chk v' = Ok (ps ++ [p]) /\ p_key p = x_next x /\ p_extra p = x_extra x /\
    sound_voucher c chk v' /\ ov_version v' = ov_version v /\ ov_header v' = ov_header v /\
    ov_hmac v' = ov_hmac v /\ ov_chain v' = ov_chain v /\ pa_tag (ov_contents v') = pa_tag (ov_contents v) /\
    entries_raw v' = entries_raw v ++ [raw] /\ cbor_item raw /\ bytes_ok raw /\
    nlen raw < 8796093022208 /\
    (forall m, (m < 4)%nat -> nth_error (pa_items (ov_contents v')) m = nth_error (pa_items (ov_contents v)) m) /\
    (exists b, nth_error (pa_items (ov_contents v')) 4 = Some b /\ serialize_array (ov_entries v') = Ok b).
Proof.
  intros HO HS SV HV HX (XK & XL & XE) HK HA HN HT.
  destruct SV as [HC SL ST SI].
  destruct (coherent_raws _ _ _ HC) as (hb & hm & HB & HM & HH & HHH).
  pose proof (extend_check_eq c chk v hb hm ps (x_sk x) (x_extra x) HC HB HM HV HX) as EC. cbv zeta in EC.
  set (t := voucher_hash_type v) in *.
  rewrite <- HK, bytes_eqb_refl in EC.
  set (p := Payload (Hash t (c_hash c t (last (entries_raw v) (hb ++ hm))))
                    (Hash t (c_hash c t (device_identity (ov_header v)))) (x_extra x) (x_next x)).
  destruct (c_alg c (c_pub c (x_sk x))) as [alg|] eqn:ALG; [|congruence].
  pose proof HO as (OH & OS & OA).
  destruct (vok_payload c p) as [PV PL]; cbn [p_prev p_hdr p_extra p_key h_value p]; try apply OH; auto.
  destruct (cose_new_full c chk (enc (payload_val p)) (x_sk x) (x_rnd x) alg HO HS ALG) as
    (e & raw & CN & CS & CD & CP & CC & CI & CB & CL).
  { eapply enc_bytes_ok. exact PV. }
  { lia. }
  set (es := PA (pa_tag (ov_entries v)) (pa_items (ov_entries v) ++ [raw])).
  assert (RL : nlen raw < 4611686018427387904 + 131072) by lia.
  assert (CI' : item (map_count chk) raw).
  { apply std_to_loop; [exact CI|]. unfold two63. lia. }
  assert (SI' : items (map_count chk) (pa_items es)).
  { cbn [pa_items es]. apply items_snoc; auto. }
  assert (LEN : nlen (pa_items es) <= 65535).
  { cbn [pa_items es]. rewrite nlen_app. unfold entries_raw in HN. change (nlen [raw]) with 1. lia. }
  destruct (serialize_loop chk (pa_tag es) (pa_items es) LEN ST SI') as (b & SB & TB).
  change (PA (pa_tag es) (pa_items es)) with es in SB.
  destruct (list_set_some (pa_items (ov_contents v)) 4 b) as (l' & LS & LL & LN & LM); [rewrite SL; lia|].
  set (v' := Voucher (PA (pa_tag (ov_contents v)) l') (ov_version v) (ov_header v) (ov_hmac v) (ov_chain v) es).
  assert (EX : extend c chk v (x_sk x) (x_extra x) (x_next x) (x_rnd x) = (v', Ok tt)).
  { unfold extend. rewrite EC. cbn [bind]. fold p. rewrite CN. cbn [bind]. rewrite CS. fold es. rewrite SB. cbn [bind].
    unfold set_raw. rewrite LS. reflexivity. }
  assert (RP : read_payload c (cs_payload e) = Ok p).
  { rewrite CP. unfold read_payload. rewrite from_slice_enc by exact PV. rewrite as_payload_val; auto. }
  assert (HDR : forall k, hdr_hash c v' k = hdr_hash c v k).
  { intros k. unfold hdr_hash, get, get_raw. cbn [v' ov_contents pa_items].
    rewrite !LM by lia. reflexivity. }
  assert (V' : verify_entries c chk v' = Ok (ps ++ [p])).
  { rewrite verify_walk. cbn [v' ov_header ov_entries pa_items es].
    rewrite (walk_ext c chk _ (hdr_hash c v') (hdr_hash c v) (hdr_info_hash c (ov_header v)) (hdr_info_hash c (ov_header v)))
      by (auto; exact HDR).
    rewrite verify_walk in HV. rewrite (walk_snoc _ _ _ _ _ _ _ _ HV).
    rewrite <- (owner_key v ps), <- HK.
    assert (CE : check_entry c chk (last_hp c (hdr_hash c v) (pa_items (ov_entries v)))
               (hdr_info_hash c (ov_header v)) (c_pub c (x_sk x)) raw = Ok p).
    { apply check_entry_ok. exists e, (p_prev p), (p_hdr p).
      split; [exact CD|]. split; [apply cose_check_ok; exact CC|]. split; [exact RP|].
      split; [|split; [reflexivity|split; [|reflexivity]]].
      - cbn [p p_prev h_type]. unfold last_hp. fold (entries_raw v).
        assert (HFD : forall d, hash_from_data c t d = Ok (Hash t (c_hash c t d))).
        { intros d. apply hash_from_data_ok. split; auto. apply inner_digestible. }
        destruct (entries_raw v) as [|y l] using rev_ind; cbn [rev last].
        + rewrite HHH. apply HFD.
        + rewrite rev_app_distr. cbn [rev app]. rewrite last_last. apply HFD.
      - cbn [p p_hdr h_type]. rewrite (coherent_hdr_info c chk) by exact HC.
        apply hash_from_data_ok. split; auto. apply inner_digestible. }
    rewrite CE. reflexivity. }
  exists v', p, raw. split; [exact EX|]. split; [exact V'|]. split; [reflexivity|]. split; [reflexivity|].
  assert (TL : nlen b < two63).
  { inversion TB as [xs h Hh Hx E1 E2 E3|tg ht xs h Ht Hh Hx E1 E2 E3]; subst; rewrite ?nlen_app.
    - assert (nlen h <= 9) by (destruct Hh; unfold nlen; cbn [length]; rewrite ?be_enc_length; lia).
      cbn [es pa_items]. rewrite concat_app, nlen_app. cbn [concat]. rewrite app_nil_r.
      unfold entries_raw in HT. unfold two63. unfold bytes in *. lia.
    - assert (nlen h <= 9) by (destruct Hh; unfold nlen; cbn [length]; rewrite ?be_enc_length; lia).
      assert (nlen ht <= 9) by (destruct Ht; unfold nlen; cbn [length]; rewrite ?be_enc_length; lia).
      cbn [es pa_items]. rewrite concat_app, nlen_app. cbn [concat]. rewrite app_nil_r.
      unfold entries_raw in HT. unfold two63. unfold bytes in *. lia. }
  assert (GE : get (fun s => map_err FArray (parse_array_data chk None s)) (PA (pa_tag (ov_contents v)) l') 4 = Ok es).
  { apply get_ok. exists b. split; [exact LN|]. unfold parse_array_data.
    rewrite <- (app_nil_r b). rewrite (parse_complete chk None _ _ _ [] TB); [|left; reflexivity|exact TL]. reflexivity. }
  assert (C' : coherent c chk v').
  { unfold coherent, voucher_of_array. cbn [v' ov_contents].
    assert (G : forall A (rd : bytes -> outcome ferr A) m, (m < 4)%nat ->
       get rd (PA (pa_tag (ov_contents v)) l') m = get rd (ov_contents v) m).
    { intros A rd m Hm. unfold get, get_raw. cbn [pa_items]. rewrite LM by lia. reflexivity. }
    pose proof (coherent_ok _ _ _ HC) as (G0 & (hb2 & G1 & G1') & G2 & G3 & _).
    rewrite !G by lia. rewrite G0. cbn [bind]. rewrite G1. cbn [bind]. rewrite G1'. cbn [bind]. rewrite G2. cbn [bind].
    rewrite G3. cbn [bind]. rewrite GE. cbn [bind]. reflexivity. }
  split. { constructor; auto. cbn [v' ov_contents pa_items]. rewrite LL. exact SL. }
  do 5 (split; [reflexivity|]). split; [reflexivity|]. split; [exact CI|]. split; [exact CB|].
  split; [lia|]. split.
  - intros m Hm. cbn [v' ov_contents pa_items]. apply LM. lia.
  - exists b. split; [exact LN|exact SB].
Qed.

(** Failed extensions leave the voucher as it was; only the current owner extends. *)
Lemma extend_err c chk v sk extra next rnd v' e :
  extend c chk v sk extra next rnd = (v', Err e) -> v' = v.
Proof.
  unfold extend.
  destruct (let! (last, hdrinfo) := extend_check c chk v sk extra in
            let! e0 := cose_new c chk (enc (payload_val (Payload last hdrinfo extra next))) [] sk rnd in cose_serialize e0) as [raw|e0|w].
  - set (es := PA _ (_ ++ [raw])).
    assert (NE : forall e0, (let! b := serialize_array es in set_raw (ov_contents v) 4 b) <> Err e0).
    { intros e0. unfold serialize_array, encode_item_start, set_raw.
      destruct (pa_tag es) as [tg|]; cbn [bind].
      - destruct (tg <=? 23), (tg <=? 255), (tg <=? 65535); cbn [bind]; try discriminate;
        destruct (nlen (pa_items es) <=? 23), (nlen (pa_items es) <=? 255), (nlen (pa_items es) <=? 65535); cbn [bind]; try discriminate;
        destruct (list_set _ 4 _); discriminate.
      - destruct (nlen (pa_items es) <=? 23), (nlen (pa_items es) <=? 255), (nlen (pa_items es) <=? 65535); cbn [bind]; try discriminate;
        destruct (list_set _ 4 _); discriminate. }
    destruct (let! b := serialize_array es in set_raw (ov_contents v) 4 b) as [ct|e1|w]; intros H; inversion H; subst.
    exfalso. eapply NE. reflexivity.
  - intros H; inversion H; auto.
  - discriminate.
Qed.

Lemma extend_ok_owner c chk v sk extra next rnd v' ps :
  coherent c chk v -> verify_entries c chk v = Ok ps ->
  extend c chk v sk extra next rnd = (v', Ok tt) -> c_pub c sk = pk_key (owner_after v ps).
Proof.
  intros HC HV H. destruct (coherent_raws _ _ _ HC) as (hb & hm & HB & HM & _ & _).
  assert (HX : extra = None \/ V1_1 <= ov_version v).
  { destruct extra as [l|]; [|auto]. right. unfold extend, extend_check in H.
    destruct (ov_version v <? V1_1) eqn:L; [cbn [bind] in H; discriminate|]. apply N.ltb_ge in L. exact L. }
  pose proof (extend_check_eq c chk v hb hm ps sk extra HC HB HM HV HX) as EC. cbv zeta in EC.
  unfold extend in H. rewrite EC in H.
  destruct (bytes_eqb (pk_key (owner_after v ps)) (c_pub c sk)) eqn:B; [|cbn [bind] in H; discriminate].
  apply bytes_eqb_spec in B. congruence.
Qed.

Lemma extend_nonowner c chk v sk extra next rnd ps :
  coherent c chk v -> verify_entries c chk v = Ok ps -> c_pub c sk <> pk_key (owner_after v ps) ->
  (extra = None \/ V1_1 <= ov_version v) ->
  extend c chk v sk extra next rnd = (v, Err FNonOwnerKey).
Proof.
  intros HC HV HK HX. destruct (coherent_raws _ _ _ HC) as (hb & hm & HB & HM & _ & _).
  pose proof (extend_check_eq c chk v hb hm ps sk extra HC HB HM HV HX) as EC. cbv zeta in EC.
  unfold extend. rewrite EC.
  destruct (bytes_eqb (pk_key (owner_after v ps)) (c_pub c sk)) eqn:B.
  - apply bytes_eqb_spec in B. congruence.
  - reflexivity.
Qed.
