(** The owner server: what its runs have in common. *)
From Verif Require Import Base BaseFacts Text Assoc StoreModel StoreSpec StoreRun StoreProofs StoreProofs2 Hex Backend BackendSpec BackendProofs
  CborModel ValueModel ValueProofs TypesModel CryptoSpec TypesProofs VoucherModel
  VoucherSpec VoucherProofs VoucherProofs2 DecFacts CoseFacts KexModel MsgModel SessionModel SessionSpec SessionProofs SessionProofs2 SeqFacts
  RvServerProofs RvServerModel RvServerSpec RvServerRuns SiModel SiApiModel OwnerModel OwnerSpec.
From Coq Require Import ZifyBool ZifyNat ZifyN.
Local Open Scope N_scope.
Local Opaque dec_top.

(** * Marks in the two stores *)
Lemma dir_mark_laws {V} (cd : codec V) : mark_laws (dir_backend cd) dir_marked.
Proof.
  constructor; cbn [dir_backend b_load b_meta].
  - intros now w k w' r _ L k' _ (f & I & X). exists f. split; [|exact X]. unfold dir_load in L.
    destruct (aget (get_path k) w) as [f0|]; [|inversion L; subst; exact I]. destruct (aget (xname Ttl) (f_xattr f0)) as [t|]; [|inversion L; subst; exact I].
    destruct (ttl_from_disk t) as [x| |]; [|inversion L; subst; exact I|inversion L; subst; exact I].
    destruct (x <? now); inversion L; subst; [eapply in_adel; exact I|exact I].
  - intros now w k m x w' r PK S k' PK' (f & I & X). unfold dir_set_meta in S.
    destruct (aget (get_path k) w) as [f0|] eqn:G; inversion S; subst; [|left; exists f; auto].
    apply in_aset in I. destruct I as [I|I]; [|left; exists f; auto]. inversion I as [[E1 E2]]. subst f. cbn [f_xattr] in X.
    apply get_path_inj in E1; [|assumption|assumption]. subst k'. destruct m.
    + left. exists f0. split; [apply aget_in; exact G|]. rewrite aget_aset_ne in X by (vm_compute; discriminate). exact X.
    + change (txt "user.fdo.to2_performed") with (xname To2Performed) in X. rewrite aget_aset_eq in X. right. split; [reflexivity|]. split; [reflexivity|].
      destruct x as [[|]|s]; [reflexivity| |]; exfalso; cbn [to_stored bool_text] in X; [discriminate|].
      assert (LN : length (le_enc 8 (deadline now s)) = length (txt "true")) by (inversion X; congruence). cbn in LN. discriminate.
    + left. exists f0. split; [apply aget_in; exact G|]. rewrite aget_aset_ne in X by (vm_compute; discriminate). exact X.
  - intros now w k w' S (v & L). unfold dir_set_meta in S. unfold dir_load in L. destruct (aget (get_path k) w) as [f0|] eqn:G; [|discriminate].
    inversion S; subst. eexists. split; [apply aget_in; apply aget_aset_eq|]. cbn [f_xattr].
    change (txt "user.fdo.to2_performed") with (xname To2Performed). rewrite aget_aset_eq. reflexivity.
Qed.
Lemma db_mark_laws {V} (cd : codec V) guid_of : mark_laws (db_backend cd guid_of Owner) db_marked.
Proof.
  constructor; cbn [db_backend b_load b_meta].
  - intros now w k w' r _ L. inversion L; subst. intros k' _ X. exact X.
  - intros now w k m x w' r _ S k' _ (row & I & X). unfold db_set_meta in S. destruct m; [inversion S; subst; left; exists row; auto| |].
    + destruct x as [b|]; [|inversion S; subst; left; exists row; auto]. inversion S; subst; clear S. unfold update in I. destruct (aget k w) as [r0|] eqn:G; [|left; exists row; auto].
      apply in_aset in I. destruct I as [I|I]; [|left; exists row; auto]. inversion I; subst. cbn [r_to2] in X. inversion X; subst. right. auto.
    + destruct x as [b|]; [inversion S; subst; left; exists row; auto|]. inversion S; subst; clear S. unfold update in I. destruct (aget k w) as [r0|] eqn:G; [|left; exists row; auto].
      apply in_aset in I. destruct I as [I|I]; [|left; exists row; auto]. inversion I; subst. cbn [r_to2] in X. left. exists r0. split; [apply aget_in; exact G|exact X].
  - intros now w k w' S (v & L). unfold db_set_meta in S. cbn [snd] in L. unfold db_load in L. destruct (aget k w) as [r0|] eqn:G; [|discriminate].
    inversion S; subst. unfold update. rewrite G. eexists. split; [apply aget_in; apply aget_aset_eq|reflexivity].
Qed.

(** * The messages *)
Lemma hello_reads body m : bytes_ok body -> from_slice as_hellodevice body = Ok m -> hello_guid body (hd2_guid m) /\ bytes_ok (hd2_guid m) /\ nlen (hd2_guid m) = 16.
Proof.
  intros B F. apply from_slice_ok in F. destruct F as (v & D & A). pose proof (fields_octets _ (dec_top_octets _ _ B D)) as O.
  unfold as_hellodevice in A. destruct (as_fields v) as [|x0 [|x1 [|x2 [|x3 [|x4 [|x5 [|x6 l]]]]]]] eqn:FV; try discriminate.
  destruct (as_u16 x0); [|discriminate]. destruct (as_bstr16 x1) as [g|] eqn:G; [|discriminate].
  destruct (as_bstr16 x2); [|discriminate]. destruct (as_kexsuite x3); [|discriminate]. destruct (as_cipher x4); [|discriminate]. destruct (as_siginfo x5); inversion A; subst.
  cbn [hd2_guid]. split; [exists v, x0, x1, [x2; x3; x4; x5]; auto|]. inversion O as [|? ? _ O1]; subst. inversion O1 as [|? ? OX _]; subst.
  split; [exact (bstr16_ok _ _ OX G)|]. unfold as_bstr16 in G. destruct (as_bytebuf x1) as [bb|]; [|discriminate]. destruct (N.eqb_spec (nlen bb) 16); inversion G; subst; assumption.
Qed.
Lemma done_reads pt n : from_slice as_done pt = Ok n -> done_nonce pt n.
Proof.
  intros F. apply from_slice_ok in F. destruct F as (v & D & A). unfold as_done in A. destruct (as_fields v) as [|x [|y l]] eqn:FV; try discriminate.
  exists v, x. auto.
Qed.

Section runs.
Context (c : crypto) (chk : bool) (ko : kex_ops) (cf : owconf) {W : Type} (be : backend voucher W) (cd : codec voucher) (keeps : W -> key -> voucher -> Prop) (okv : key -> voucher -> Prop) (marked : W -> key -> Prop).
Context (SL : store_laws be cd keeps okv) (ML : mark_laws be marked) (w0 : W) (A : aead) (idt : str -> option str).
Let sv := ow_server c chk ko cf be.
Let obs := obs (W:=W) (D:=owdata) (M:=owmsg) (E:=owenv).
Notation proved := (proved c chk keeps).

Definition IWo (os : list obs) (w : W) : Prop := forall k, plain_key k -> marked w k -> marked w0 k \/
  exists id g n, guid_text g = Some k /\ proved os id g n /\ finished A os id n.
Definition IDo (os : list obs) (id : str) (s : session owdata) : Prop :=
  (ses_last s = None -> od_proven (ses_data s) = false) /\
  match od_guid (ses_data s), od_nonce6 (ses_data s) with
  | None, None => od_proven (ses_data s) = false
  | Some t, Some n => exists g, guid_text g = Some t /\ bytes_ok g /\ greeted os id g n /\ (od_proven (ses_data s) = true -> proved os id g n)
  | _, _ => False
  end.
Lemma greeted_app os o id g n : greeted os id g n -> greeted (W:=W) (os ++ o) id g n.
Proof. intros (s & b & m & w & e & I & E). exists s, b, m, w, e. split; [apply in_or_app; auto|exact E]. Qed.
Lemma finished_app os o id n : finished A os id n -> finished (W:=W) A (os ++ o) id n.
Proof. intros (s & b & pt & m & w & e & I & E). exists s, b, pt, m, w, e. split; [apply in_or_app; auto|exact E]. Qed.
Lemma proved_app os o id g n : proved os id g n -> proved (os ++ o : list obs) id g n.
Proof.
  intros (pre & s & b & m & w & e & post & k & v & key & -> & H). exists pre, s, b, m, w, e, (post ++ o), k, v, key.
  split; [rewrite <- app_assoc; reflexivity|exact H].
Qed.
Lemma IWo_app os o w : IWo os w -> IWo (os ++ o) w.
Proof. intros H k PK KP. destruct (H k PK KP) as [X|(id & g & n & X1 & X2 & X3)]; [auto|]. right. exists id, g, n. split; [exact X1|]. split; [apply proved_app; exact X2|apply finished_app; exact X3]. Qed.
Lemma IDo_app os o id s : IDo os id s -> IDo (os ++ o) id s.
Proof.
  unfold IDo. intros [L H]. split; [exact L|]. revert H. destruct (od_guid (ses_data s)) as [t|], (od_nonce6 (ses_data s)) as [n|]; auto.
  intros (g & X1 & X2 & X3 & X4). exists g. split; [exact X1|]. split; [exact X2|]. split; [apply greeted_app; exact X3|]. intros P. apply proved_app. auto.
Qed.
Lemma IWo_less os w w' : marks_less marked w w' -> IWo os w -> IWo os w'.
Proof. intros F H k PK KP. apply H; [exact PK|]. apply F; assumption. Qed.

(** Requests that must not be encrypted are read as they are. *)
Lemma ow_plain im s body m : enc_req im = Some MustNot -> parse_request A sv im s body = PMsg m -> ow_parse c chk im body = Ok m.
Proof.
  intros EN P. unfold parse_request in P. destruct (negb _); [discriminate|]. rewrite EN in P. unfold enc_violated in P.
  destruct (ek_is_some (keys_of s)) eqn:K; [discriminate|]. unfold ek_is_some in K. unfold ek_decrypt in P.
  destruct (ek_suite (keys_of s)) as [su|]; [destruct (ek_keys (keys_of s)); discriminate|]. unfold sv, ow_server in P. cbn [sv_parse] in P.
  destruct (ow_parse c chk im body); inversion P; reflexivity.
Qed.
Lemma ow_opened im s body m : parse_request A sv im s body = PMsg m -> exists pt, ek_decrypt A (keys_of s) body = Ok pt /\ ow_parse c chk im pt = Ok m.
Proof.
  intros P. unfold parse_request in P. destruct (negb _); [discriminate|]. destruct (enc_violated _ _); [discriminate|].
  destruct (ek_decrypt A (keys_of s) body) as [pt| |]; try discriminate. exists pt. split; [reflexivity|]. unfold sv, ow_server in P. cbn [sv_parse] in P.
  destruct (ow_parse c chk im pt); inversion P; reflexivity.
Qed.

Lemma load_less now w e k w' r : plain_key k -> oe_now e = now -> ow_load be w e k = (w', r) ->
  marks_less marked w w' /\ (forall v, r = Ok (Some v) -> keeps w k v).
Proof.
  intros PK _ L. unfold ow_load in L. assert (NO : marks_less marked w w) by (intros k' _ X; exact X).
  destruct (match oe_fault e with LoadFails => true | _ => false end) eqn:LF.
  - destruct (oe_fault e); try discriminate. inversion L; subst. split; [exact NO|discriminate].
  - assert (L' : (let '(w', r) := b_load be (oe_now e) w k in (w', code InternalServerError r)) = (w', r)) by (destruct (oe_fault e); try discriminate; exact L).
    clear L. destruct (b_load be (oe_now e) w k) as [w1 r1] eqn:B. inversion L'; subst. split; [eapply ML; eassumption|].
    intros v E. eapply (sl_load _ _ _ _ SL); [exact PK|exact B|]. destruct r1; inversion E; reflexivity.
Qed.

(** A device is accepted *)
Lemma check_proves v nonce6 kx ci body tk e r : cose_deserialize chk body = Ok tk -> prove_check c chk ko cf v nonce6 kx ci tk e = Ok r ->
  exists key, device_key c v key /\ token_proves c chk body key nonce6.
Proof.
  intros RD P. unfold prove_check in P. destruct (ov_chain v) as [[|leaf rest]|] eqn:CH; try discriminate.
  destruct (c_cert_key c leaf) as [key|] eqn:CK; cbn [of_option bind] in P; [|discriminate].
  destruct (cose_get_unprotected as_bstr16 tk EUPH_NONCE) as [n7| |]; cbn [code map_err bind] in P; try discriminate. destruct n7 as [n7|]; [|discriminate].
  destruct (get_eat c tk key) as [t| |] eqn:GE; cbn [code map_err bind] in P; try discriminate. destruct (eat_payload t) as [pv|]; [|discriminate].
  destruct (as_provepayload pv); cbn [of_option bind] in P; [|discriminate].
  destruct (nonce_eq (eat_nonce t) nonce6) as [[|]| |] eqn:NE; cbn [bind negb] in P; try discriminate. apply nonce_eq_ok in NE.
  exists key. split; [exists leaf, rest; auto|]. rewrite <- NE. eapply eat_proves; eassumption.
Qed.

Lemma ow_step os id im om s body m w e w' r : IWo os w -> IDo os id s -> In (im, om) (sv_routes sv) ->
  parse_request A sv im s body = PMsg m -> nlen body <= MAX_BODY -> ow_request_ok body e -> sv_handle sv im w s m e = (w', r) ->
  let os' := os ++ [Ran id im s body m w e] in
  IWo os' w' /\ match r with HReply d ks reply => IDo os' id (Ses (Some om) (match ks with Some _ => ks | None => ses_keys s end) d) | _ => True end.
Proof.
  intros HW HD RI P LB (BB & BN & LN) H. cbn zeta. pose proof (parse_valid _ _ _ _ _ _ P) as VP.
  unfold sv, ow_server in RI, H. cbn [sv_routes sv_handle] in RI, H. unfold ow_routes in RI.
  assert (HW' := IWo_app os [Ran id im s body m w e] w HW). assert (HD' := IDo_app os [Ran id im s body m w e] id s HD).
  assert (LD : forall k w1 r1, plain_key k -> ow_load be w e k = (w1, r1) -> IWo (os ++ [Ran id im s body m w e]) w1).
  { intros k w1 r1 PK L. eapply IWo_less; [|exact HW']. eapply load_less; [exact PK|reflexivity|exact L]. }
  assert (SAME : forall om' ks d, od_guid d = od_guid (ses_data s) -> od_nonce6 d = od_nonce6 (ses_data s) -> od_proven d = od_proven (ses_data s) ->
     IDo (os ++ [Ran id im s body m w e]) id (Ses (Some om') ks d)).
  { intros om' ks d E1 E2 E3. unfold IDo. cbn [ses_last ses_data]. rewrite E1, E2, E3. split; [discriminate|apply HD']. }
  destruct RI as [RI|[RI|[RI|[RI|[RI|[RI|[]]]]]]]; inversion RI; subst im om; clear RI.
  - (* HelloDevice *) pose proof (ow_plain TO2HelloDevice _ _ _ eq_refl P) as RP. clear P. unfold ow_parse in RP.
    destruct (from_slice as_hellodevice body) as [m0| |] eqn:RD; cbn [bind map_err] in RP; try discriminate.
    destruct (hash_from_data c Sha256 body) as [h| |]; cbn [bind map_err] in RP; inversion RP; subst m. clear RP.
    destruct (hello_reads _ _ BB RD) as (HG & BG & LG). cbn [ow_handle] in H. unfold h_hellodevice in H.
    destruct (guid_text (hd2_guid m0)) as [k|] eqn:G; [|inversion H; subst; split; [exact HW'|exact Logic.I]]. pose proof (guid_text_plain _ _ BG G) as PK.
    destruct (ow_load be w e k) as [w1 rl] eqn:L. pose proof (LD _ _ _ PK L) as HW1.
    destruct rl as [[v|]| |]; [|inversion H; subst; split; [exact HW1|exact Logic.I]|inversion H; subst; split; [exact HW1|exact Logic.I]|inversion H; subst; split; [exact HW1|exact Logic.I]].
    destruct (hello_reply c chk ko cf v m0 h e) as [[kx b]| |]; inversion H; subst; (split; [exact HW1|]); try exact Logic.I.
    unfold IDo. cbn [ses_last ses_data od_guid od_nonce6 od_proven]. split; [discriminate|]. exists (hd2_guid m0). split; [exact G|]. split; [exact BG|].
    assert (GR : greeted (os ++ [Ran id TO2HelloDevice s body (MHelloDevice m0 h) w e]) id (hd2_guid m0) (oe_nonce e)).
    { exists s, body, (MHelloDevice m0 h), w, e. split; [apply in_or_app; right; left; reflexivity|]. split; [exact HG|reflexivity]. }
    split; [exact GR|]. intros PV. destruct HD as [HL _]. rewrite HL in PV; [discriminate|].
    destruct (ses_last s) as [la|]; [destruct la; discriminate VP|reflexivity].
  - (* GetOVNextEntry *) destruct m as [m0 h|n|tk| |mo l|n]; cbn [ow_handle] in H;
      pose proof (ow_plain TO2GetOVNextEntry _ _ _ eq_refl P) as RP; unfold ow_parse in RP; (destruct (from_slice as_getentry body) as [n0| |]; cbn [bind map_err] in RP; inversion RP); subst n0; clear RP.
    unfold h_getentry in H.
    destruct (od_guid (ses_data s)) as [gt|] eqn:OG; [|inversion H; subst; split; [exact HW'|exact Logic.I]].
    destruct (guid_parse gt) as [g|] eqn:GP; [|inversion H; subst; split; [exact HW'|exact Logic.I]].
    destruct HD as [_ HD]. rewrite OG in HD. destruct (od_nonce6 (ses_data s)) as [n6|] eqn:ON; [|contradiction].
    destruct HD as (g' & GT & BG & GR & PRV). rewrite (guid_round _ _ BG GT) in GP. inversion GP; subst g'. rewrite GT in H. pose proof (guid_text_plain _ _ BG GT) as PK.
    destruct (ow_load be w e gt) as [w1 rl] eqn:L. pose proof (LD _ _ _ PK L) as HW1.
    destruct rl as [[v|]| |]; [|inversion H; subst; split; [exact HW1|exact Logic.I]|inversion H; subst; split; [exact HW1|exact Logic.I]|inversion H; subst; split; [exact HW1|exact Logic.I]].
    destruct (entry chk v (N.to_nat n)) as [en| |]; [|inversion H; subst; split; [exact HW1|exact Logic.I]|inversion H; subst; split; [exact HW1|exact Logic.I]].
    destruct (ovnextentry n en); inversion H; subst; (split; [exact HW1|]); try exact Logic.I. apply SAME; auto.
  - (* ProveDevice *) pose proof (ow_plain TO2ProveDevice _ _ _ eq_refl P) as RP. unfold ow_parse in RP. destruct (cose_deserialize chk body) as [tk| |] eqn:RD; cbn [bind map_err] in RP; inversion RP; subst m. clear RP.
    cbn [ow_handle] in H. unfold h_prove in H.
    destruct (od_guid (ses_data s)) as [gt|] eqn:OG; [|inversion H; subst; split; [exact HW'|exact Logic.I]].
    destruct (guid_parse gt) as [g|] eqn:GP; [|inversion H; subst; split; [exact HW'|exact Logic.I]].
    destruct HD as [_ HD]. rewrite OG in HD. destruct (od_nonce6 (ses_data s)) as [n6|] eqn:ON; [|contradiction].
    destruct HD as (g' & GT & BG & GR & PRV). rewrite (guid_round _ _ BG GT) in GP. inversion GP; subst g'. rewrite GT in H. pose proof (guid_text_plain _ _ BG GT) as PK.
    destruct (od_kex (ses_data s)) as [kx|]; [|inversion H; subst; split; [exact HW'|exact Logic.I]].
    destruct (od_cipher (ses_data s)) as [ci|]; [|inversion H; subst; split; [exact HW'|exact Logic.I]].
    destruct (ow_load be w e gt) as [w1 rl] eqn:L. pose proof (LD _ _ _ PK L) as HW1. destruct (load_less _ _ _ _ _ _ PK eq_refl L) as [_ KP].
    destruct rl as [[v|]| |]; [|inversion H; subst; split; [exact HW1|exact Logic.I]|inversion H; subst; split; [exact HW1|exact Logic.I]|inversion H; subst; split; [exact HW1|exact Logic.I]].
    destruct (prove_check c chk ko cf v n6 kx ci tk e) as [[[n7 ks] b]| |] eqn:PC; inversion H; subst; (split; [exact HW1|]); try exact Logic.I.
    unfold IDo. cbn [ses_last ses_data od_guid od_nonce6 od_proven]. split; [discriminate|]. exists g. split; [exact GT|]. split; [exact BG|].
    split; [apply greeted_app; exact GR|]. intros _. destruct (check_proves _ _ _ _ _ _ _ _ RD PC) as (key & DK & TP).
    exists os, s, body, (MProveDevice tk), w, e, [], gt, v, key. auto 8.
  - (* ServiceInfoReady *) destruct (ow_opened _ _ _ _ P) as (pt & _ & RP). unfold ow_parse in RP. destruct (from_slice as_dsiready pt) as [[]| |]; cbn [bind map_err] in RP; inversion RP; subst m.
    cbn [ow_handle] in H. unfold h_siready in H. destruct (od_proven (ses_data s)) eqn:PV; inversion H; subst; (split; [exact HW'|]); [|exact Logic.I]. apply SAME; auto.
  - (* ServiceInfo *) destruct (ow_opened _ _ _ _ P) as (pt & _ & RP). unfold ow_parse in RP. destruct (from_slice as_dsi pt) as [[mo l]| |]; cbn [bind map_err] in RP; inversion RP; subst m.
    cbn [ow_handle] in H. unfold h_serviceinfo in H.
    repeat match type of H with (match ?x with _ => _ end) = _ => destruct x eqn:? end; inversion H; subst; (split; [exact HW'|]); try exact Logic.I.
    apply SAME; auto.
  - (* Done *) destruct (ow_opened _ _ _ _ P) as (pt & OP & RP). unfold ow_parse in RP. destruct (from_slice as_done pt) as [n| |] eqn:RD; cbn [bind map_err] in RP; inversion RP; subst m.
    cbn [ow_handle] in H. unfold h_done in H. destruct (od_proven (ses_data s)) eqn:PV; cbn [negb] in H; [|inversion H; subst; split; [exact HW'|exact Logic.I]].
    destruct (od_nonce6 (ses_data s)) as [n6|] eqn:ON; [|inversion H; subst; split; [exact HW'|exact Logic.I]].
    destruct (@nonce_eq unit n6 n) as [[|]| |] eqn:NE; [|inversion H; subst; split; [exact HW'|exact Logic.I]|inversion H; subst; split; [exact HW'|exact Logic.I]|inversion H; subst; split; [exact HW'|exact Logic.I]].
    apply nonce_eq_ok in NE. subst n.
    destruct (od_guid (ses_data s)) as [gt|] eqn:OG; [|inversion H; subst; split; [exact HW'|exact Logic.I]].
    destruct HD as [_ HD]. rewrite OG, ON in HD. destruct HD as (g & GT & BG & GR & PRV). rewrite (guid_round _ _ BG GT), GT in H. pose proof (guid_text_plain _ _ BG GT) as PK.
    destruct (od_nonce7 (ses_data s)) as [n7|]; [|inversion H; subst; split; [exact HW'|exact Logic.I]].
    assert (MK : forall w1 r1, b_meta be (oe_now e) w gt To2Performed (MBool true) = (w1, r1) -> IWo (os ++ [Ran id TO2Done s body (MDone n6) w e]) w1).
    { intros w1 r1 B k PK' KP. destruct (ml_meta _ _ ML _ _ _ _ _ _ _ PK B _ PK' KP) as [X|(-> & _)]; [apply HW'; assumption|].
      right. exists id, g, n6. split; [exact GT|]. split; [apply proved_app; auto|].
      exists s, body, pt, (MDone n6), w, e. split; [apply in_or_app; right; left; reflexivity|]. split; [exact OP|]. apply done_reads. exact RD. }
    destruct (match oe_fault e with MetaFails => true | _ => false end) eqn:MF.
    { destruct (oe_fault e); try discriminate. inversion H; subst. split; [exact HW'|exact Logic.I]. }
    assert (H' : match b_meta be (oe_now e) w gt To2Performed (MBool true) with
      | (w1, Err _) => (w1, HReject InternalServerError) | (w1, Panic _) => (w1, HPanic)
      | (w1, Ok _) => (w1, HReply (OwData (od_guid (ses_data s)) (od_nonce6 (ses_data s)) (od_cipher (ses_data s)) (od_kex (ses_data s)) None (od_proven (ses_data s)) (od_loops (ses_data s))) None (enc (VArr [bstr_val n7])))
      end = (w', r)) by (rewrite OG, ON, PV; destruct (oe_fault e); try discriminate; exact H).
    clear H. destruct (b_meta be (oe_now e) w gt To2Performed (MBool true)) as [w1 [[]| |]] eqn:B; inversion H'; subst; (split; [eapply MK; exact eq_refl|]); try exact Logic.I.
    apply SAME; auto.
Qed.
Lemma ow_routes_ok : routes_ok sv.
Proof. unfold routes_ok, sv, ow_server. cbn [sv_routes]. repeat constructor. Qed.
Lemma IDo_new os id : IDo os id (Ses None None (sv_new sv)).
Proof. split; reflexivity. Qed.
Lemma ow_events_ok es : Forall (ow_event_ok marked) es ->
  Forall (event_allowed (fun f => forall w, marks_less marked w (f w)) ow_request_ok) es.
Proof. intros H. eapply Forall_impl; [|exact H]. intros [rq|n ok|n ok|n|d| |f]; cbn; auto. Qed.
Definition ow_principle now es y o :=
  principle A idt sv ow_routes_ok IWo IDo (fun f => forall w, marks_less marked w (f w)) ow_request_ok IWo_app IDo_app IDo_new ow_step
    (fun os f w F H => IWo_less os w (f w) (F w) H) now w0 es y o.
End runs.
