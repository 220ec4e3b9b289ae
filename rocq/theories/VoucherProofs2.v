(** Lemmas for P_Voucher.v: commitment of the last entry, iteration, storing and loading. *)
From Verif Require Import Base BaseFacts CborSpec CborModel CborProofs ValueModel ValueProofs
  TypesModel CryptoSpec TypesProofs VoucherModel VoucherSpec VoucherProofs.
From Coq Require Import ZifyBool ZifyNat ZifyN.
Ltac Zify.zify_post_hook ::= Z.div_mod_to_equations.
Local Open Scope N_scope.

(** * Commitment *)

Lemma custody_fun c chk info : forall raws prev key ps, custody c chk info prev key raws ps ->
  forall ps', custody c chk info prev key raws ps' -> ps = ps'.
Proof.
  intros raws prev key ps H ps' H'. apply walk_custody in H, H'. congruence.
Qed.

Lemma custody_snoc_inv c chk info : forall raws prev key raw ps,
  custody c chk info prev key (raws ++ [raw]) ps ->
  exists ps0 p e key', ps = ps0 ++ [p] /\ custody c chk info prev key raws ps0 /\
    cose_deserialize chk raw = Ok e /\ signed_by c key' e /\ read_payload c (cs_payload e) = Ok p /\
    digest_of c (p_prev p) (last raws prev) /\ digest_of c (p_hdr p) info.
Proof.
  induction raws as [|r0 raws IH]; intros prev key raw ps H; cbn [app] in H.
  - inversion H as [|? ? ? e p ? ps' D S R A B K]; subst. inversion K; subst.
    exists [], p, e, key. split; [reflexivity|]. split; [constructor|]. auto 10.
  - inversion H as [|? ? ? e p ? ps' D S R A B K]; subst.
    destruct (IH _ _ _ _ K) as (ps0 & p0 & e0 & k0 & -> & K0 & D0 & S0 & R0 & A0 & B0).
    exists (p :: ps0), p0, e0, k0. split; [reflexivity|]. split; [econstructor; eauto|].
    split; [exact D0|]. split; [exact S0|]. split; [exact R0|]. split; [|exact B0].
    destruct raws as [|r1 raws]; [exact A0|].
    assert (E : forall d d', last (r1 :: raws) d = last (r1 :: raws) d').
    { clear. intros d d'. revert r1. induction raws as [|x l IHl]; intros r1; [reflexivity|].
      cbn [last] in *. apply IHl. }
    change (last (r0 :: r1 :: raws) prev) with (last (r1 :: raws) prev). rewrite (E prev r0). exact A0.
Qed.

Lemma digest_same c h x y : digest_of c h x -> digest_of c h y -> x = y \/ collision c.
Proof.
  intros [_ A] [_ B]. destruct (bytes_eq_dec x y) as [|N]; [auto|]. right. exists (h_type h), x, y. split; congruence.
Qed.

Definition is_entry (chk : bool) (b : bytes) : Prop := exists e, cose_deserialize chk b = Ok e.

Lemma commit_prefix c chk i1 i2 : forall r1 r2 x p1 p2 k1 k2 ps1 ps2,
  custody c chk i1 p1 k1 (r1 ++ [x]) ps1 -> custody c chk i2 p2 k2 (r2 ++ [x]) ps2 ->
  collision c \/ (r1 = r2 /\ p1 = p2 /\ i1 = i2) \/ is_entry chk p1 \/ is_entry chk p2.
Proof.
  induction r1 as [|y1 r1 IH] using rev_ind; intros r2 x p1 p2 k1 k2 ps1 ps2 H1 H2;
    pose proof (custody_snoc_inv _ _ _ _ _ _ _ _ H1) as (q1 & a1 & e1 & s1 & _ & C1 & D1 & _ & R1 & A1 & B1);
    pose proof (custody_snoc_inv _ _ _ _ _ _ _ _ H2) as (q2 & a2 & e2 & s2 & _ & C2 & D2 & _ & R2 & A2 & B2);
    rewrite D1 in D2; inversion D2; subst e2; rewrite R1 in R2; inversion R2; subst a2;
    (destruct (digest_same _ _ _ _ A1 A2) as [EA|]; [|auto]);
    (destruct (digest_same _ _ _ _ B1 B2) as [EB|]; [|auto]).
  - destruct r2 as [|y2 r2] using rev_ind.
    + cbn [last] in EA. auto.
    + rewrite last_last in EA. cbn [last] in EA. subst y2. clear IHr2.
      destruct (custody_snoc_inv _ _ _ _ _ _ _ _ C2) as (_ & _ & e & _ & _ & _ & D & _).
      right. right. left. exists e. exact D.
  - rewrite last_last in EA. destruct r2 as [|y2 r2] using rev_ind.
    + cbn [last] in EA. subst y1.
      destruct (custody_snoc_inv _ _ _ _ _ _ _ _ C1) as (_ & _ & e & _ & _ & _ & D & _).
      right. right. right. exists e. exact D.
    + rewrite last_last in EA. subst y2. clear IHr2.
      destruct (IH _ _ _ _ _ _ _ _ C1 C2) as [C|[(-> & -> & ->)|E]]; auto.
Qed.

Lemma header_deserialize_more c chk s h x :
  header_deserialize c chk s = Ok h -> header_deserialize c chk (s ++ x) = Ok h.
Proof.
  unfold header_deserialize.
  destruct (parse_array_data chk (Some 6) s) as [a| |] eqn:P; cbn [map_err bind]; try discriminate.
  rewrite (parse_data_more _ _ _ _ x P). cbn [map_err bind]. auto.
Qed.

Lemma header_not_entry c chk hb hm h : header_deserialize c chk hb = Ok h -> ~ is_entry chk (hb ++ hm).
Proof.
  intros H [e E]. apply header_deserialize_more with (x := hm) in H.
  apply header_deserialize_ok in H. destruct H as (H & _).
  unfold cose_deserialize in E.
  destruct (parse_array_data chk (Some 4) (hb ++ hm)) as [a| |] eqn:P; cbn [map_err bind] in E; try discriminate.
  pose proof (parse_size_unique _ _ _ _ _ _ H P). discriminate.
Qed.

Lemma commitment c chk v1 v2 ps1 ps2 x r1 r2 :
  coherent c chk v1 -> coherent c chk v2 ->
  verify_entries c chk v1 = Ok ps1 -> verify_entries c chk v2 = Ok ps2 ->
  entries_raw v1 = r1 ++ [x] -> entries_raw v2 = r2 ++ [x] ->
  collision c \/
  (r1 = r2 /\ ps1 = ps2 /\ ov_header v1 = ov_header v2 /\
   exists hb1 hm1 hb2 hm2, header_raw v1 hb1 /\ hmac_raw v1 hm1 /\ header_raw v2 hb2 /\ hmac_raw v2 hm2 /\
     hb1 ++ hm1 = hb2 ++ hm2 /\ header_deserialize c chk hb1 = Ok (ov_header v1) /\
     header_deserialize c chk hb2 = Ok (ov_header v2)).
Proof.
  intros HC1 HC2 V1 V2 E1 E2.
  destruct (coherent_raws _ _ _ HC1) as (hb1 & hm1 & HB1 & HM1 & HD1 & _).
  destruct (coherent_raws _ _ _ HC2) as (hb2 & hm2 & HB2 & HM2 & HD2 & _).
  pose proof (proj1 (verify_custody _ _ _ _ _ _ HC1 HB1 HM1) V1) as K1.
  pose proof (proj1 (verify_custody _ _ _ _ _ _ HC2 HB2 HM2) V2) as K2.
  rewrite E1 in K1. rewrite E2 in K2.
  destruct (commit_prefix _ _ _ _ _ _ _ _ _ _ _ _ _ K1 K2) as [C|[(-> & EP & EI)|[E|E]]].
  - auto.
  - right.
    assert (EH : ov_header v1 = ov_header v2).
    { pose proof (header_deserialize_more _ _ _ _ hm1 HD1) as M1. pose proof (header_deserialize_more _ _ _ _ hm2 HD2) as M2.
      rewrite EP in M1. rewrite M1 in M2. congruence. }
    split; [reflexivity|]. split.
    + rewrite EP, EH in K1. exact (custody_fun _ _ _ _ _ _ _ K1 _ K2).
    + split; [exact EH|]. exists hb1, hm1, hb2, hm2. do 6 (split; [assumption|]). assumption.
  - exfalso. exact (header_not_entry _ _ _ _ _ HD1 E).
  - exfalso. exact (header_not_entry _ _ _ _ _ HD2 E).
Qed.


Lemma exact_split chk hb1 hm1 hb2 hm2 a1 a2 :
  parse_array chk (Some 6) hb1 = Ok (a1, []) -> parse_array chk (Some 6) hb2 = Ok (a2, []) ->
  hb1 ++ hm1 = hb2 ++ hm2 -> hb1 = hb2 /\ hm1 = hm2.
Proof.
  intros P1 P2 E. pose proof (parse_more _ _ _ _ _ hm1 P1) as M1. pose proof (parse_more _ _ _ _ _ hm2 P2) as M2.
  rewrite E in M1. rewrite M1 in M2. cbn [app] in M2. inversion M2; subst.
  split; [|reflexivity]. apply app_inv_tail in E. exact E.
Qed.

Lemma raws_fun v hb hb' : header_raw v hb -> header_raw v hb' -> hb = hb'.
Proof. intros (r & N & F) (r' & N' & F'). rewrite N in N'. inversion N'; subst. rewrite F in F'. congruence. Qed.

Lemma hmac_of_raw c chk v hm : coherent c chk v -> hmac_raw v hm -> from_slice as_hash hm = Ok (ov_hmac v).
Proof.
  intros H HM. apply coherent_ok in H. destruct H as (_ & _ & G & _). apply get_ok in G.
  destruct G as (r & N & F). unfold hmac_raw in HM. rewrite N in HM. inversion HM; subst. exact F.
Qed.

(** * Iteration *)

(** After an error or the end: nothing more. *)
Lemma iter_calls_errored c chk v it k : it_errored it = true -> Forall (eq None) (iter_calls c chk v it k).
Proof.
  revert it. induction k as [|k IH]; intros it H; cbn [iter_calls]; [constructor|].
  unfold iter_next. rewrite H. constructor; [reflexivity|]. apply IH. exact H.
Qed.
Lemma iter_calls_done c chk v it k :
  (length (pa_items (ov_entries v)) <= it_index it)%nat -> Forall (eq None) (iter_calls c chk v it k).
Proof.
  revert it. induction k as [|k IH]; intros it H; cbn [iter_calls]; [constructor|].
  unfold iter_next. destruct (Nat.leb_spec (length (pa_items (ov_entries v))) (it_index it)); [|lia].
  destruct (it_errored it); (constructor; [reflexivity|]; apply IH; auto).
Qed.

Lemma iter_calls_stop c chk v : forall k it i j r,
  nth_error (iter_calls c chk v it k) i = Some r -> (r = None \/ exists e, r = Some (Err e)) ->
  (i < j < k)%nat -> nth_error (iter_calls c chk v it k) j = Some None.
Proof.
  induction k as [|k IH]; intros it i j r Hi Hr Hj; [lia|].
  assert (LEN : forall k it, length (iter_calls c chk v it k) = k).
  { clear. induction k as [|k IHk]; intros it; cbn [iter_calls]; [reflexivity|].
    destruct (iter_next c chk v it). cbn. f_equal. apply IHk. }
  assert (ALL : forall it', Forall (eq None) (iter_calls c chk v it' k) -> forall j, (0 < j < S k)%nat ->
      nth_error (r :: iter_calls c chk v it' k) j = Some None).
  { intros it' F [|j'] Hj'; [lia|]. cbn [nth_error]. rewrite Forall_forall in F.
    destruct (nth_error (iter_calls c chk v it' k) j') eqn:E.
    - apply nth_error_In in E. rewrite <- (F _ E). reflexivity.
    - apply nth_error_None in E. rewrite LEN in E. lia. }
  cbn [iter_calls] in *. destruct (iter_next c chk v it) as [r0 it'] eqn:N.
  destruct i as [|i].
  - cbn [nth_error] in Hi. inversion Hi; subst r0. apply ALL; [|lia].
    unfold iter_next in N. destruct (it_errored it) eqn:EE.
    { inversion N; subst. apply iter_calls_errored; auto. }
    destruct (Nat.leb_spec (length (pa_items (ov_entries v))) (it_index it)).
    { inversion N; subst. apply iter_calls_done; auto. }
    destruct (get (cose_deserialize chk) (ov_entries v) (it_index it)).
    + destruct (process_element c v it a); inversion N; subst.
      * destruct Hr as [Hr|[? Hr]]; discriminate.
      * apply iter_calls_errored; reflexivity.
      * destruct Hr as [Hr|[? Hr]]; discriminate.
    + inversion N; subst. apply iter_calls_errored; reflexivity.
    + inversion N; subst. destruct Hr as [Hr|[? Hr]]; discriminate.
  - destruct j as [|j]; [lia|]. cbn [nth_error] in *. eapply IH; eauto. lia.
Qed.

(** The verified entries are what the calls of [next] return. *)
Lemma collect_calls c chk v : forall fuel it ps,
  iter_collect c chk v it fuel = Ok ps -> iter_calls c chk v it (S (length ps)) = map (fun p => Some (Ok p)) ps ++ [None].
Proof.
  induction fuel as [|fuel IH]; intros it ps H; cbn [iter_collect] in H;
    destruct (iter_next c chk v it) as [[[p|e|w]|] it'] eqn:N; try discriminate.
  - inversion H; subst. cbn [length iter_calls]. rewrite N. reflexivity.
  - destruct (iter_collect c chk v it' fuel) as [l| |] eqn:C; cbn [bind] in H; try discriminate.
    inversion H; subst. cbn [length iter_calls map app]. rewrite N. f_equal. apply (IH _ _ C).
  - inversion H; subst. cbn [length iter_calls]. rewrite N. reflexivity.
Qed.

(** * Storing and loading *)





Lemma extend_shape c chk v sk extra next rnd v' :
  extend c chk v sk extra next rnd = (v', Ok tt) ->
  exists a b e raw eb l', extend_check c chk v sk extra = Ok (a, b) /\
    cose_new c chk (enc (payload_val (Payload a b extra next))) [] sk rnd = Ok e /\ cose_serialize e = Ok raw /\
    serialize_array (PA (pa_tag (ov_entries v)) (pa_items (ov_entries v) ++ [raw])) = Ok eb /\
    list_set (pa_items (ov_contents v)) 4 eb = Some l' /\
    v' = Voucher (PA (pa_tag (ov_contents v)) l') (ov_version v) (ov_header v) (ov_hmac v) (ov_chain v)
           (PA (pa_tag (ov_entries v)) (pa_items (ov_entries v) ++ [raw])).
Proof.
  unfold extend. destruct (extend_check c chk v sk extra) as [[a b]| |]; cbn [bind]; try discriminate.
  destruct (cose_new _ _ _ _ _ _) as [e| |] eqn:CN; cbn [bind]; try discriminate.
  destruct (cose_serialize e) as [raw| |] eqn:CS; try discriminate.
  destruct (serialize_array _) as [eb| |] eqn:SA; cbn [bind]; try discriminate.
  unfold set_raw. destruct (list_set (pa_items (ov_contents v)) 4 eb) as [l'|] eqn:LS; try discriminate.
  intros H; inversion H; subst. exists a, b, e, raw, eb, l'. auto 10.
Qed.

Lemma extend_check_hashes c chk v sk extra a b :
  extend_check c chk v sk extra = Ok (a, b) ->
  (exists d, h_value a = c_hash c (h_type a) d) /\ (exists d, h_value b = c_hash c (h_type b) d).
Proof.
  assert (HF : forall t d h, hash_from_data c t d = Ok h -> exists d, h_value h = c_hash c (h_type h) d).
  { intros t d h H. apply hash_from_data_ok in H. destruct H as [_ ->]. cbn. eauto. }
  unfold extend_check. destruct (match extra with Some _ => ov_version v <? V1_1 | None => false end); [discriminate|].
  unfold hdr_info_hash.
  destruct (get (from_slice as_bstr16) (hd_contents (ov_header v)) 1) as [g| |]; cbn [bind]; try discriminate.
  destruct (get (from_slice as_string) (hd_contents (ov_header v)) 3) as [d| |]; cbn [bind]; try discriminate.
  destruct (hash_from_data c (voucher_hash_type v) (g ++ utf8_enc d)) as [hi| |] eqn:HI; cbn [bind]; try discriminate.
  apply HF in HI.
  intros H. apply bind_ok in H. destruct H as ([l o] & RE & H).
  destruct (negb (matches_pkey o (c_pub c sk))); [discriminate|].
  assert (l = a /\ hi = b) as [-> ->] by (inversion H; auto). split; [|exact HI]. clear H.
  destruct (pa_items (ov_entries v)) as [|r0 rs].
  - apply bind_ok in RE. destruct RE as (x & Q & RE). assert (x = a) as -> by (inversion RE; auto).
    unfold hdr_hash in Q. apply bind_ok in Q. destruct Q as (y & _ & Q). apply bind_ok in Q. destruct Q as (z & _ & Q).
    eauto.
  - apply bind_ok in RE. destruct RE as (x & Q & RE). apply bind_ok in RE. destruct RE as (y & _ & RE).
    apply bind_ok in RE. destruct RE as (z & _ & RE). assert (x = a) as -> by (inversion RE; auto).
    unfold get_hash in Q. apply bind_ok in Q. destruct Q as (w & _ & Q). eauto.
Qed.

Lemma cose_new_alg c chk pl u sk rnd e : cose_new c chk pl u sk rnd = Ok e -> exists alg, c_alg c (c_pub c sk) = Some alg.
Proof.
  unfold cose_new, cose_new_with_protected. destruct (c_alg c (c_pub c sk)); cbn [of_option bind]; [eauto|discriminate].
Qed.

Lemma serialize_ok_small a b : serialize_array a = Ok b ->
  tag_small (pa_tag a) /\ nlen (pa_items a) <= 65535.
Proof.
  unfold serialize_array. destruct a as [tag xs]. cbn [pa_tag pa_items].
  assert (K : forall m v h, encode_item_start m v = Ok h -> v <= 65535).
  { intros m v h H. destruct (N.leb_spec v 65535); [auto|]. rewrite encode_item_start_panic in H by lia. discriminate. }
  destruct tag as [t|]; cbn [bind tag_small].
  - destruct (encode_item_start MTag t) eqn:E; cbn [bind]; try discriminate.
    destruct (encode_item_start MArray (nlen xs)) eqn:E2; cbn [bind]; try discriminate. eauto.
  - destruct (encode_item_start MArray (nlen xs)) eqn:E2; cbn [bind]; try discriminate. eauto.
Qed.

Lemma top_array_tag_bytes cnt tag xs b : top_array cnt tag xs b -> nlen (concat xs) <= nlen b.
Proof. intros H; destruct H; rewrite ?nlen_app; lia. Qed.

Lemma serialize_len a b : serialize_array a = Ok b -> nlen (concat (pa_items a)) <= nlen b <= nlen (concat (pa_items a)) + 6.
Proof.
  unfold serialize_array.
  assert (K : forall m v h, encode_item_start m v = Ok h -> nlen h <= 3).
  { intros m v h. unfold encode_item_start. destruct (v <=? 23); [intros H; inversion H; cbn; lia|].
    destruct (v <=? 255); [intros H; inversion H; cbn; lia|]. destruct (v <=? 65535); [|discriminate].
    intros H; inversion H. unfold nlen. cbn. lia. }
  destruct (pa_tag a); cbn [bind].
  - destruct (encode_item_start MTag n) eqn:E; cbn [bind]; try discriminate.
    destruct (encode_item_start MArray _) eqn:E2; cbn [bind]; try discriminate.
    intros H; inversion H. apply K in E, E2. rewrite !nlen_app. lia.
  - destruct (encode_item_start MArray _) eqn:E2; cbn [bind]; try discriminate.
    intros H; inversion H. apply K in E2. rewrite !nlen_app. change (nlen (@nil N)) with 0. lia.
Qed.

Lemma array_item chk a b : items (map_count chk) (pa_items a) -> serialize_array a = Ok b -> item (map_count chk) b.
Proof.
  intros HI HS. destruct (serialize_ok_small _ _ HS) as [HT HN]. destruct a as [tag xs]. cbn [pa_tag pa_items] in *.
  destruct (serialize_loop chk tag xs HN HT HI) as (b' & E & T). rewrite E in HS. inversion HS; subst.
  inversion T; subst; [eapply item_arr; eauto|]. eapply item_tag; eauto. eapply item_arr; eauto.
Qed.

Lemma items_nth cnt (xs : list bytes) : items cnt xs <-> (forall x, In x xs -> item cnt x).
Proof.
  split.
  - intros H. induction H; intros y Hy; destruct Hy; subst; auto.
  - induction xs as [|x xs IH]; intros H; constructor; [apply H; left; auto|]. apply IH. intros y Hy. apply H. right; auto.
Qed.

Lemma list_set_in {A} (l : list A) n x l' : list_set l n x = Some l' -> forall y, In y l' -> y = x \/ In y l.
Proof.
  revert n l'. induction l as [|z l IH]; intros [|n] l' H; cbn [list_set] in H; try discriminate.
  - inversion H; subst. intros y Hy; destruct Hy; cbn; auto.
  - destruct (list_set l n x) eqn:E; cbn [option_map] in H; [|discriminate]. inversion H; subst.
    intros y Hy; destruct Hy as [|Hy]; cbn; auto. destruct (IH _ _ E _ Hy); auto.
Qed.

Lemma list_set_len {A} (l : list A) n x l' : list_set l n x = Some l' -> length l' = length l.
Proof.
  revert n l'. induction l as [|z l IH]; intros [|n] l' H; cbn [list_set] in H; try discriminate.
  - inversion H; reflexivity.
  - destruct (list_set l n x) eqn:E; cbn [option_map] in H; [|discriminate]. inversion H; subst. cbn. f_equal. eauto.
Qed.

(** What the vouchers the program makes have in common. *)
Record kept (c : crypto) (chk : bool) (v : voucher) : Prop := {
  k_len : length (pa_items (ov_contents v)) = 5%nat;
  k_items : items (map_count chk) (pa_items (ov_contents v));
  k_entries : items (map_count chk) (pa_items (ov_entries v));
  k_version : get (from_slice as_version) (ov_contents v) 0 = Ok (ov_version v);
  k_header : exists hb, get (from_slice as_bytebuf) (ov_contents v) 1 = Ok hb /\ header_deserialize c chk hb = Ok (ov_header v);
  k_hmac : get (from_slice as_hash) (ov_contents v) 2 = Ok (ov_hmac v);
  k_chain : get (from_slice (as_option (as_x5chain c))) (ov_contents v) 3 = Ok (ov_chain v);
  k_read : forall i4, nth_error (pa_items (ov_contents v)) 4 = Some i4 -> nlen i4 < two63 ->
    parse_array_data chk None i4 = Ok (ov_entries v)
}.

Lemma nlen_concat_in (l : list bytes) x : In x l -> nlen x <= nlen (concat l).
Proof.
  induction l as [|y l IH]; intros Hx; [destruct Hx|]; destruct Hx as [|H]; cbn [concat]; rewrite nlen_app; subst; [lia|]. apply IH in H. lia.
Qed.

Lemma kept_coherent c chk v : kept c chk v -> nlen (concat (pa_items (ov_contents v))) < two63 -> coherent c chk v.
Proof.
  intros [KL KI KE KV (hb & KH & KH') KM KC KR] HB. unfold coherent, voucher_of_array.
  rewrite KV. cbn [bind]. rewrite KH. cbn [bind]. rewrite KH'. cbn [bind]. rewrite KM. cbn [bind]. rewrite KC. cbn [bind].
  destruct (nth_error (pa_items (ov_contents v)) 4) as [i4|] eqn:N.
  2:{ apply nth_error_None in N. lia. }
  assert (G : get (fun s => map_err FArray (parse_array_data chk None s)) (ov_contents v) 4 = Ok (ov_entries v)).
  { apply get_ok. exists i4. split; [exact N|]. rewrite (KR i4); auto.
    pose proof (nlen_concat_in _ _ (nth_error_In _ _ N)). lia. }
  rewrite G. cbn [bind]. destruct v; reflexivity.
Qed.

Lemma top_items_ok cnt tag xs b : top_array cnt tag xs b -> bytes_ok b -> Forall bytes_ok xs.
Proof.
  intros H Hb. assert (bytes_ok (concat xs)) as Hc.
  { destruct H; repeat (apply bytes_ok_app in Hb; destruct Hb as [? Hb]); auto. }
  clear - Hc. induction xs as [|x xs IH]; constructor; cbn [concat] in Hc; apply bytes_ok_app in Hc; tauto.
Qed.

Lemma voucher_deserialize_ok c chk s v : voucher_deserialize c chk s = Ok v ->
  exists rest, parse_array chk (Some 5) s = Ok (ov_contents v, rest) /\ coherent c chk v.
Proof.
  unfold voucher_deserialize, voucher_read.
  destruct (parse_array chk (Some 5) s) as [[a rest]|e|w] eqn:P; cbn [bind].
  - destruct (voucher_of_array c chk a) as [v'| |] eqn:V; cbn [bind]; try discriminate. intros H; inversion H; subst v'.
    assert (EC : ov_contents v = a).
    { unfold voucher_of_array in V. inv_get V x0. inv_get V hb. inv_get V h. inv_get V x2. inv_get V x3. inv_get V x4.
      inversion V; reflexivity. }
    exists rest. unfold coherent. rewrite EC. auto.
  - intros H. exfalso. revert H.
    destruct e; cbn [bind]; try discriminate.
    repeat match goal with |- context [match ?x with _ => _ end] => is_var x; destruct x; cbn [bind] end; discriminate.
  - discriminate.
Qed.

Lemma loaded_kept c chk s v : bytes_ok s -> voucher_deserialize c chk s = Ok v -> kept c chk v.
Proof.
  intros Hs V. destruct (voucher_deserialize_ok _ _ _ _ V) as (rest & P & COH).
  destruct (parse_sound chk (Some 5) s _ rest ltac:(discriminate) Hs P) as (h & -> & T & [|SZ]); [discriminate|].
  apply bytes_ok_app in Hs. destruct Hs as [Hh _]. pose proof (top_items_ok _ _ _ _ T Hh) as IO.
  assert (ITS : items (map_count chk) (pa_items (ov_contents v))) by (inversion T; auto).
  pose proof (coherent_ok _ _ _ COH) as (G0 & G1 & G2 & G3 & G4). apply get_ok in G4. destruct G4 as (i4 & N4 & F4).
  assert (B4 : bytes_ok i4) by (rewrite Forall_forall in IO; apply IO; eapply nth_error_In; eauto).
  unfold parse_array_data in F4. destruct (parse_array chk None i4) as [[es r4]| |] eqn:P4; cbn [bind map_err] in F4; try discriminate.
  inversion F4; subst es.
  destruct (parse_sound chk None i4 _ r4 ltac:(discriminate) B4 P4) as (h4 & E4 & T4 & _).
  constructor; auto.
  - inversion SZ; unfold nlen in *; lia.
  - inversion T4; auto.
  - intros i4' N4' _. rewrite N4 in N4'. inversion N4'; subst i4'. unfold parse_array_data. rewrite P4. reflexivity.
Qed.

Lemma extended_kept c chk v v' x :
  outputs_ok c -> sign_correct c -> kept c chk v -> ext_ok c x ->
  extend c chk v (x_sk x) (x_extra x) (x_next x) (x_rnd x) = (v', Ok tt) -> kept c chk v'.
Proof.
  intros HO HS K (XK & XL & XE) HX.
  destruct (extend_shape _ _ _ _ _ _ _ _ HX) as (a & b & e & raw & eb & l' & EC & CN & CS & SA & LS & ->).
  destruct (extend_check_hashes _ _ _ _ _ _ _ EC) as [[d1 H1] [d2 H2]].
  pose proof HO as (OH & OS & OA).
  destruct (vok_payload c (Payload a b (x_extra x) (x_next x))) as [PV PL]; cbn [p_prev p_hdr p_extra p_key]; auto;
    try (rewrite H1; apply OH); try (rewrite H2; apply OH).
  destruct (cose_new_alg _ _ _ _ _ _ _ CN) as [alg AL].
  destruct (cose_new_full c chk _ (x_sk x) (x_rnd x) alg HO HS AL (enc_bytes_ok _ _ PV) ltac:(lia)) as
    (e' & raw' & CN' & CS' & _ & _ & _ & CI & _ & CL).
  rewrite CN in CN'. inversion CN'; subst e'. rewrite CS in CS'. inversion CS'; subst raw'.
  assert (RI : item (map_count chk) raw) by (apply std_to_loop; [exact CI|unfold two63; lia]).
  destruct K as [KL KI KE KV KH KM KC KR].
  assert (EI : items (map_count chk) (pa_items (ov_entries v) ++ [raw])) by (apply items_snoc; auto).
  assert (BI : item (map_count chk) eb).
  { eapply array_item; [|exact SA]. exact EI. }
  destruct (list_set_some (pa_items (ov_contents v)) 4 eb) as (l2 & LS2 & LL & LN & LM); [rewrite KL; lia|].
  rewrite LS in LS2. inversion LS2; subst l2. clear LS2.
  assert (G : forall A (rd : bytes -> outcome ferr A) m, (m < 4)%nat ->
     get rd (PA (pa_tag (ov_contents v)) l') m = get rd (ov_contents v) m).
  { intros A rd m Hm. unfold get, get_raw. cbn [pa_items]. rewrite LM by lia. reflexivity. }
  constructor; cbn [ov_contents ov_entries pa_items ov_version ov_header ov_hmac ov_chain]; rewrite ?G by lia; auto.
  - rewrite LL. exact KL.
  - apply items_nth. intros y Hy. destruct (list_set_in _ _ _ _ LS _ Hy) as [->|Hy']; [exact BI|].
    exact (proj1 (items_nth _ _) KI _ Hy').
  - intros i4 N4 HB. rewrite LN in N4. inversion N4; subst i4.
    destruct (serialize_ok_small _ _ SA) as [HT HN]. cbn [pa_tag pa_items] in HT, HN.
    destruct (serialize_loop chk _ _ HN HT EI) as (b' & E & T). rewrite E in SA. inversion SA; subst b'.
    unfold parse_array_data. rewrite <- (app_nil_r eb).
    rewrite (parse_complete chk None _ _ _ [] T); [reflexivity|left; reflexivity|exact HB].
Qed.

Lemma new_kept c chk h hmac ch v :
  header_rt c chk h -> hash_small hmac -> chain_ok c ch -> voucher_new h hmac (Some ch) = Ok v ->
  nlen (concat (pa_items (ov_contents v))) < two63 -> kept c chk v.
Proof.
  intros (hb & HS & HD & HB) [HM1 HM2] HC. unfold voucher_new.
  assert (SA : serialize_array (hd_contents h) = Ok hb).
  { unfold header_serialize in HS. destruct (check_device_info (hd_devinfo h)); cbn [bind] in HS; try discriminate.
    destruct (serialize_array (hd_contents h)); cbn [map_err] in HS; congruence. }
  rewrite SA. cbn [map_err bind]. change (serialize_array (PA None [])) with (@Ok cerr bytes [128]). cbn [map_err bind].
  intros H; inversion H; subst. cbn [ov_contents pa_items option_val]. clear H. intros BIG.
  assert (SM : forall x, In x [enc (VInt (Z.of_N V1_1)); enc (VBytes hb); enc (hash_val hmac); enc (x5chain_val ch); [128]] ->
    nlen x < two63).
  { intros x Hx. eapply N.le_lt_trans; [apply nlen_concat_in; exact Hx|exact BIG]. }
  assert (HL : nlen hb < two64).
  { pose proof (bytes_in_size hb). assert (nlen (enc (VBytes hb)) < two63) by (apply SM; cbn; auto).
    unfold two64, two63 in *. unfold bytes in *. lia. }
  assert (V1 : vok MAX_DEPTH (VBytes hb)) by (unfold MAX_DEPTH; apply vok_bytes; auto).
  assert (V2 : vok MAX_DEPTH (hash_val hmac)) by (apply vok_hash; [unfold MAX_DEPTH; lia|auto|unfold two64; lia]).
  assert (V3 : vok MAX_DEPTH (x5chain_val ch)) by (eapply vok_chain; [unfold MAX_DEPTH; lia|exact HC]).
  assert (V0 : vok MAX_DEPTH (VInt (Z.of_N V1_1))) by (unfold MAX_DEPTH; cbn [vok]; unfold V1_1, two64; lia).
  assert (ST : forall x, cbor_item x -> nlen x < two63 -> item (map_count chk) x) by (apply std_to_loop).
  constructor; cbn [ov_contents ov_entries pa_items ov_version ov_header ov_hmac ov_chain].
  - reflexivity.
  - assert (I0 : cbor_item (enc (VInt (Z.of_N V1_1)))) by (eapply enc_item; [exact V0|reflexivity]).
    assert (I1 : cbor_item (enc (VBytes hb))) by (eapply enc_item; [exact V1|reflexivity]).
    assert (I2 : cbor_item (enc (hash_val hmac))) by (eapply enc_item; [exact V2|reflexivity]).
    assert (I3 : cbor_item (enc (x5chain_val ch))).
    { eapply enc_item; [exact V3|]. cbn [x5chain_val plain]. apply forallb_forall. intros y Hy.
      apply in_map_iff in Hy. destruct Hy as (z & <- & _). reflexivity. }
    assert (I4 : cbor_item [128]).
    { change [128] with ([128] ++ concat (@nil bytes)). apply item_arr; [|constructor].
      change [128] with [4 * 32 + 0]. constructor; lia. }
    constructor; [apply ST; [exact I0|apply SM; cbn; auto]|].
    constructor; [apply ST; [exact I1|apply SM; cbn; auto]|].
    constructor; [apply ST; [exact I2|apply SM; cbn; auto]|].
    constructor; [apply ST; [exact I3|apply SM; cbn; auto]|].
    constructor; [apply ST; [exact I4|reflexivity]|constructor].
  - constructor.
  - apply get_ok. exists (enc (VInt (Z.of_N V1_1))). split; [reflexivity|].
    rewrite from_slice_enc by exact V0. reflexivity.
  - exists hb. split; [|exact HD]. apply get_ok. exists (enc (VBytes hb)). split; [reflexivity|].
    rewrite from_slice_enc by exact V1. reflexivity.
  - apply get_ok. exists (enc (hash_val hmac)). split; [reflexivity|].
    rewrite from_slice_enc by exact V2. rewrite as_hash_val. reflexivity.
  - apply get_ok. exists (enc (x5chain_val ch)). split; [reflexivity|].
    rewrite from_slice_enc by exact V3. unfold x5chain_val at 1. cbn [as_option].
    change (VArr (map VBytes ch)) with (x5chain_val ch). rewrite as_x5chain_val by exact HC. reflexivity.
  - intros i4 N4 _. cbn in N4. inversion N4; subst. reflexivity.
Qed.

Lemma made_kept c chk v : outputs_ok c -> sign_correct c -> made c chk v -> kept c chk v.
Proof.
  intros HO HS H. induction H.
  - eapply new_kept; eauto. unfold fits_memory in *. unfold two63. lia.
  - eapply extended_kept; eauto.
  - eapply loaded_kept; eauto.
Qed.

Lemma store_load c chk v : kept c chk v -> fits_memory v -> tag_small (pa_tag (ov_contents v)) ->
  exists b, voucher_serialize v = Ok b /\ forall rest, voucher_read c chk (b ++ rest) = Ok (v, rest).
Proof.
  intros K F HT. unfold fits_memory in F.
  assert (C : coherent c chk v) by (apply kept_coherent; auto; unfold two63; lia).
  destruct K as [KL KI _ _ _ _ _ _]. destruct (ov_contents v) as [tag xs] eqn:EC. cbn [pa_items pa_tag] in *.
  assert (N5 : nlen xs = 5) by (unfold nlen; rewrite KL; reflexivity).
  destruct (serialize_loop chk tag xs ltac:(lia) HT KI) as (b & SB & TB).
  exists b. unfold voucher_serialize. rewrite EC, SB. split; [reflexivity|].
  intros rest. unfold voucher_read.
  assert (LB : nlen b < two63).
  { pose proof (serialize_len _ _ SB) as L. cbn [pa_items] in L. unfold two63. lia. }
  rewrite (parse_complete chk (Some 5) tag xs b rest TB); [|right; split; [congruence|destruct xs; discriminate]|exact LB].
  unfold coherent in C. rewrite EC in C. rewrite C. reflexivity.
Qed.


Lemma ascii_utf8 s : Forall (fun ch => ch < 128) s -> utf8_enc s = s /\ forallb is_scalar s = true.
Proof.
  induction 1 as [|ch s H _ [IH1 IH2]]; [split; reflexivity|].
  unfold utf8_enc in *. cbn [map concat forallb]. rewrite IH1, IH2. unfold utf8_char, is_scalar.
  destruct (N.ltb_spec ch 128); [|lia]. split; [reflexivity|]. lia.
Qed.

Lemma trim_start_incl s : incl (trim_start s) s.
Proof.
  induction s as [|ch s IH]; cbn [trim_start]; [apply incl_refl|].
  destruct (is_white ch); [apply incl_tl; exact IH|apply incl_refl].
Qed.
Lemma trim_incl s : incl (trim s) s.
Proof.
  unfold trim. intros x Hx. apply in_rev in Hx. apply trim_start_incl in Hx. apply in_rev in Hx. apply trim_start_incl in Hx. exact Hx.
Qed.
Lemma trim_start_len s : (length (trim_start s) <= length s)%nat.
Proof. induction s as [|ch s IH]; cbn [trim_start length]; [lia|]. destruct (is_white ch); cbn; lia. Qed.
Lemma trim_len s : nlen (trim s) <= nlen s.
Proof.
  unfold trim, nlen. rewrite rev_length. pose proof (trim_start_len (rev (trim_start s))). pose proof (trim_start_len s).
  rewrite rev_length in *. lia.
Qed.

Lemma check_ascii s : Forall (fun ch => 32 <= ch < 127) s -> check_device_info s = Ok tt.
Proof.
  intros H. unfold check_device_info.
  replace (forallb (fun ch => (32 <=? ch mod 256) && (ch mod 256 <? 127)) s) with true; [reflexivity|].
  symmetry. apply forallb_forall. intros x Hx. rewrite Forall_forall in H. specialize (H _ Hx).
  rewrite N.mod_small by lia. lia.
Qed.

Lemma header_new_rt c chk version guid rv devinfo mfg ch :
  header_args_ok c version guid rv devinfo mfg ch ->
  (nlen (concat (pa_items (hd_contents (header_new version guid rv devinfo mfg (Some ch))))) < 9223372036854775802) ->
  header_rt c chk (header_new version guid rv devinfo mfg (Some ch)).
Proof.
  intros (Hv & Hg & Hgl & Hrv & Hd & Hdl & Hm & Hml & [Hc1 Hc2]) BIG.
  assert (HT : Forall (fun ch => 32 <= ch < 127) (trim devinfo)).
  { rewrite Forall_forall in *. intros x Hx. apply Hd, trim_incl. exact Hx. }
  assert (HA : utf8_enc (trim devinfo) = trim devinfo /\ forallb is_scalar (trim devinfo) = true).
  { apply ascii_utf8. eapply Forall_impl; [|exact HT]. cbn. intros; lia. }
  destruct HA as [HA1 HA2].
  assert (HB : bytes_ok (trim devinfo)) by (eapply Forall_impl; [|exact HT]; cbn; intros; lia).
  pose proof (trim_len devinfo) as TL.
  assert (D5 : (5 <= MAX_DEPTH)%nat) by (unfold MAX_DEPTH; lia).
  assert (V0 : vok MAX_DEPTH (VInt (Z.of_N version))).
  { unfold MAX_DEPTH; cbn [vok]. unfold V1_0, V1_1, two64 in *. lia. }
  assert (V1 : vok MAX_DEPTH (bstr_val guid)).
  { unfold MAX_DEPTH, bstr_val. apply vok_bytes; [auto|unfold two64; lia]. }
  assert (V2 : vok MAX_DEPTH (rv_info_val rv)) by (apply vok_rv; [lia|exact Hrv]).
  assert (V3 : vok MAX_DEPTH (text_val (trim devinfo))).
  { unfold text_val. apply vok_text; [lia|exact HA2|rewrite HA1; unfold two64; lia]. }
  assert (V4 : vok MAX_DEPTH (pubkey_val mfg)) by (eapply vok_pubkey; [lia|exact Hm|unfold two64; lia]).
  assert (V5 : vok MAX_DEPTH (hash_val ch)) by (apply vok_hash; [lia|exact Hc1|unfold two64; lia]).
  unfold header_rt, header_new in *. cbn [option_val hd_contents pa_items] in *.
  set (its := [enc (VInt (Z.of_N version)); enc (bstr_val guid); enc (rv_info_val rv);
               enc (text_val (trim devinfo)); enc (pubkey_val mfg); enc (hash_val ch)]) in *.
  assert (CI : cbor_items its).
  { unfold its. constructor; [eapply enc_item; [exact V0|reflexivity]|].
    constructor; [eapply enc_item; [exact V1|reflexivity]|].
    constructor; [eapply enc_item; [exact V2|]|].
    { unfold rv_info_val. cbn [plain]. apply forallb_forall. intros y Hy. apply in_map_iff in Hy. destruct Hy as (z & <- & _).
      cbn [plain]. apply forallb_forall. intros y Hy. apply in_map_iff in Hy. destruct Hy as (w & <- & _). reflexivity. }
    constructor; [eapply enc_item; [exact V3|reflexivity]|].
    constructor; [eapply enc_item; [exact V4|reflexivity]|].
    constructor; [eapply enc_item; [exact V5|reflexivity]|]. constructor. }
  destruct (serialize_spec None its) as (hb & SB & CB); [unfold its; unfold nlen; cbn; lia|discriminate|exact CI|].
  exists hb. unfold header_serialize. cbn [hd_devinfo hd_contents]. rewrite (check_ascii _ HT). cbn [bind]. rewrite SB.
  split; [reflexivity|]. split.
  - unfold header_deserialize, parse_array_data.
    pose proof (serialize_len _ _ SB) as SL. cbn [pa_items] in SL.
    rewrite <- (app_nil_r hb). rewrite (parse_std chk (Some 6) None its hb [] CB);
      [|right; split; [reflexivity|discriminate]|unfold two63, bytes in *; lia].
    cbn [bind map_err].
    assert (G : forall A (rd : bytes -> outcome ferr A) n x, nth_error its n = Some x -> get rd (PA None its) n = rd x).
    { intros A rd n x Hn. unfold get, get_raw. cbn [pa_items]. rewrite Hn. reflexivity. }
    rewrite (G _ _ 0%nat _ eq_refl), from_slice_enc by exact V0.
    assert (as_version (VInt (Z.of_N version)) = Some version) as ->.
    { unfold as_version, as_u16, as_int. cbn [untag]. destruct Hv as [-> | ->]; reflexivity. }
    cbn [of_option bind].
    rewrite (G _ _ 1%nat _ eq_refl), from_slice_enc by exact V1.
    assert (as_bstr16 (bstr_val guid) = Some guid) as ->.
    { unfold as_bstr16, bstr_val. cbn [as_bytebuf untag]. rewrite Hgl. reflexivity. }
    cbn [of_option bind].
    rewrite (G _ _ 2%nat _ eq_refl), from_slice_enc by exact V2. rewrite as_rv_info_val by exact Hrv. cbn [of_option bind].
    rewrite (G _ _ 3%nat _ eq_refl), from_slice_enc by exact V3.
    assert (as_string (text_val (trim devinfo)) = Some (trim devinfo)) as ->.
    { unfold as_string, text_val. cbn [untag]. apply utf8_roundtrip. exact HA2. }
    cbn [of_option bind]. rewrite (check_ascii _ HT). cbn [bind].
    rewrite (G _ _ 4%nat _ eq_refl), from_slice_enc by exact V4. rewrite as_pubkey_val by exact Hm. cbn [of_option bind].
    rewrite (G _ _ 5%nat _ eq_refl), from_slice_enc by exact V5.
    change (as_option as_hash (hash_val ch)) with (option_map Some (as_hash (hash_val ch))).
    rewrite as_hash_val. reflexivity.
  - inversion CB; subst. apply bytes_ok_app. split; [eapply head_ok; eauto|].
    assert (forall l, Forall bytes_ok l -> bytes_ok (concat l)) as CO.
    { induction 1; cbn [concat]; [constructor|]. apply bytes_ok_app. auto. }
    apply CO. unfold its. repeat (constructor; [eapply enc_bytes_ok; eassumption|]). constructor.
Qed.

(** * Many extensions *)

(** Versions: extra information needs a 1.1 voucher. *)
Lemma extend_all_ok c chk : outputs_ok c -> sign_correct c -> forall l v ps,
  sound_voucher c chk v -> verify_entries c chk v = Ok ps ->
  (V1_1 <= ov_version v \/ Forall (fun x => x_extra x = None) l) ->
  Forall (ext_ok c) l -> Forall (fun x => c_alg c (c_pub c (x_sk x)) <> None) l ->
  rightful c (pk_key (owner_after v ps)) l ->
  nlen (entries_raw v) + nlen l <= 65535 ->
  nlen (concat (entries_raw v)) + nlen l * 8796093022208 < 2305843009213693952 ->
  exists v' qs, extend_all c chk v l = (v', Ok tt) /\ verify_entries c chk v' = Ok (ps ++ qs) /\
    map p_key qs = map x_next l /\ map p_extra qs = map x_extra l /\
    ov_version v' = ov_version v /\ ov_header v' = ov_header v /\ ov_hmac v' = ov_hmac v /\ ov_chain v' = ov_chain v /\
    sound_voucher c chk v'.
Proof.
  intros HO HS. induction l as [|x l IH]; intros v ps SV HV HX HE HA HR HN HT.
  - exists v, []. rewrite app_nil_r. cbn. auto 10.
  - inversion HE as [|? ? HE1 HE2]; subst. inversion HA as [|? ? HA1 HA2]; subst. destruct HR as [HR1 HR2].
    assert (LN : nlen (x :: l) = nlen l + 1) by (unfold nlen; cbn [length]; lia). rewrite LN in *.
    assert (HX1 : x_extra x = None \/ V1_1 <= ov_version v) by (destruct HX as [|HX]; [auto|inversion HX; auto]).
    destruct (extend_step c chk v ps x HO HS SV HV HX1 HE1 HR1 HA1) as
      (v1 & p & raw & EX & HV1 & PK & PE & SV1 & EV & EH & EM & ECh & _ & ER & _ & _ & RL & _); [lia|lia|].
    destruct (IH v1 (ps ++ [p])) as (v' & qs & EA & HV' & MK & ME & EV' & EH' & EM' & EC' & SV'); auto.
    + destruct HX as [HX|HX]; [left; congruence|right; inversion HX; auto].
    + assert (O : owner_after v1 (ps ++ [p]) = x_next x).
      { unfold owner_after. rewrite map_app. cbn [map]. rewrite PK. apply last_last. }
      rewrite O. exact HR2.
    + rewrite ER, nlen_app. change (nlen [raw]) with 1. lia.
    + rewrite ER, concat_app, nlen_app. cbn [concat]. rewrite app_nil_r. unfold bytes in *. lia.
    + exists v', (p :: qs). cbn [extend_all]. rewrite EX. split; [exact EA|].
      split; [rewrite HV', <- app_assoc; reflexivity|]. cbn [map]. rewrite MK, ME, PK, PE.
      repeat split; try congruence; apply SV'.
Qed.

Lemma kept_sound c chk v : kept c chk v -> fits_memory v -> tag_small (pa_tag (ov_entries v)) -> sound_voucher c chk v.
Proof.
  intros K F T. constructor; [|apply K|exact T|apply K].
  apply kept_coherent; [exact K|]. unfold fits_memory in F. unfold two63. lia.
Qed.

Lemma made_coherent c chk v : outputs_ok c -> sign_correct c -> made c chk v -> fits_memory v -> coherent c chk v.
Proof. intros HO HS HM HF. apply kept_coherent; [apply made_kept; auto|]. unfold fits_memory in HF. unfold two63. lia. Qed.
