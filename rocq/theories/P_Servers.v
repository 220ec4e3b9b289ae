(** The owner onboarding server and the manufacturing server satisfy the assumptions of C20-C22 and C53. *)
From Verif Require Import Base BaseFacts Text Assoc RvModel StoreModel StoreSpec Hex Backend BackendSpec
  CborModel ValueModel TypesModel CryptoSpec VoucherModel VoucherSpec VoucherProofs KexModel KexSpec MsgModel SessionModel SessionSpec
  RvServerModel RvServerSpec SiModel SiApiModel OwnerModel OwnerProofs MfgModel MfgProofs ToyCrypto ToySession P_Kex.
Local Open Scope N_scope.

(** The cipher encrypts with every key the key exchange derives. *)
Definition seals_derived (ko : kex_ops) (A : aead) : Prop :=
  forall av role ci kx peer h k, derive_key ko av role ci kx peer h = Ok k -> forall nonce pt, seal A k nonce pt <> None.

Local Opaque from_slice.

Lemma prove_check_keys c chk ko cf v n6 kx ci t e n7 ks b A : seals_derived ko A ->
  prove_check c chk ko cf v n6 kx ci t e = Ok (n7, ks, b) -> usable A ks.
Proof.
  intros SD H. unfold prove_check in H. destruct (ov_chain v) as [[|leaf ch]|]; try discriminate.
  inv_get H k0. inv_get H u. destruct u as [n|]; [|discriminate]. inv_get H ea. destruct (eat_payload ea); [|discriminate].
  inv_get H bk. inv_get H sm. destruct (negb sm); [discriminate|].
  match type of H with code _ ?x = _ => destruct x as [r| |] eqn:EX; try discriminate H end. injection H as ->.
  destruct (derive_key ko (oc_kdf_avail cf) OwnerService ci kx bk (read_kdf_header (oe_kdf e))) as [k| |] eqn:DK; try discriminate EX.
  cbn [bind] in EX. inv_get EX st. inv_get EX b'. inversion EX; subst. exists (Z.to_N (cipher_num ci)), k. split; [reflexivity|]. exact (SD _ _ _ _ _ _ _ DK).
Qed.
Lemma connect_reply_keys c chk ko cf dn m e ks b A : seals_derived ko A -> connect_reply c chk ko cf dn m e = Ok (ks, b) -> usable A ks.
Proof.
  intros SD H. unfold connect_reply in H.
  match type of H with code _ ?x = _ => destruct x as [r| |] eqn:EX; try discriminate H end. injection H as ->.
  inv_get EX k. destruct (derive_key ko (mf_kdf_avail cf) OwnerService (dc_cipher m) k (dc_exchange m) (read_kdf_header (me_kdf e))) as [se| |] eqn:DK; try discriminate EX.
  cbn [bind] in EX. inv_get EX pub. inv_get EX t. inv_get EX b'. inversion EX; subst. eexists _, _. split; [reflexivity|]. exact (SD _ _ _ _ _ _ _ DK).
Qed.

Ltac open_reply H := repeat match type of H with
  | (match ?x with _ => _ end) = _ => let E := fresh "E" in destruct x eqn:E; try discriminate H
  end.
Lemma enc_plain (k : option ekeys) {D} (o : option mtype) (d : D) : (forall x, k = Some x -> ek_is_some x = true) ->
  ek_is_some (keys_of (Ses o k d)) = match k with Some _ => true | None => false end.
Proof. intros H. unfold keys_of. cbn [ses_keys]. destruct k; [apply H|]; reflexivity. Qed.
Lemma usable_some A k : usable A k -> ek_is_some k = true.
Proof. intros (su & x & -> & _). reflexivity. Qed.

Section owner.
Context (c : crypto) (chk : bool) (ko : kex_ops) (cf : owconf) {W : Type} (be : backend voucher W) (A : aead).
Lemma ow_reply_keys im w s m e w' d ks reply : seals_derived ko A -> ow_handle c chk ko cf be im w s m e = (w', HReply d ks reply) ->
  match m with MProveDevice _ => exists k, ks = Some k /\ usable A k | _ => ks = None end.
Proof.
  intros SD H. destruct m; cbn [ow_handle] in H.
  - unfold h_hellodevice in H. open_reply H. inversion H; subst. reflexivity.
  - unfold h_getentry in H. open_reply H. inversion H; subst. reflexivity.
  - unfold h_prove in H. open_reply H. inversion H; subst. eexists. split; [reflexivity|]. eapply prove_check_keys; eassumption.
  - unfold h_siready in H. open_reply H. inversion H; subst. reflexivity.
  - unfold h_serviceinfo in H. open_reply H. inversion H; subst. reflexivity.
  - unfold h_done in H. open_reply H; inversion H; subst; reflexivity.
Qed.
End owner.
(** For every configuration, every store and every session key the exchange can derive. *)
Theorem C20_owner_server c chk ko cf {W} (be : backend voucher W) A : seals_derived ko A ->
  routes_ok (ow_server c chk ko cf be) /\ replies_sendable A (ow_server c chk ko cf be).
Proof.
  intros SD. split; [apply ow_routes_ok|]. exists (fun _ => True). split; [exact Logic.I|].
  intros im om w s pt m e w' d ks reply RI V _ EV K SP HD. split; [exact Logic.I|]. cbn [sv_handle sv_routes sv_parse ow_server] in *.
  pose proof (ow_reply_keys _ _ _ _ _ _ _ _ _ _ _ _ _ _ _ SD HD) as KS. unfold ow_parse in SP.
  assert (KE : ek_is_some (keys_of s) = match ses_keys s with Some _ => true | None => false end).
  { unfold keys_of. destruct (ses_keys s) as [k|]; [exact (usable_some A k (K k eq_refl))|reflexivity]. }
  rewrite KE in EV.
  assert (U : forall k, ks = Some k -> usable A k).
  { intros k ->. destruct m; try discriminate KS. destruct KS as (k' & X & U). inversion X; subst. exact U. }
  split; [exact U|]. rewrite enc_plain.
  - destruct RI as [X|[X|[X|[X|[X|[X|[]]]]]]]; injection X as <- <-; cbn [enc_req enc_violated] in *;
    match type of SP with map_err _ ?x = _ => destruct x eqn:SX; try discriminate SP end; injection SP as <-;
    repeat match type of SX with bind ?x _ = _ => destruct x; try discriminate SX; cbn [bind] in SX end; injection SX as <-;
    try (destruct KS as (k & -> & _)); try rewrite KS in *; destruct (ses_keys s); try discriminate EV; reflexivity.
  - intros x X. destruct ks as [k|]; [inversion X; subst; exact (usable_some A x (U x eq_refl))|exact (usable_some A x (K x X))].
Qed.

Section mfg.
Context (c : crypto) (chk : bool) (ko : kex_ops) (kf : keyfns) (mkcert : bytes -> bytes -> str -> bytes -> bytes -> option bytes) (cf : mfconf)
  {W : Type} (be : backend voucher W) (A : aead).
Definition keeps_usable (d : mfdata) : Prop := forall k, md_keys d = Some k -> usable A k.
Lemma mf_reply_keys im w s m e w' d ks reply : seals_derived ko A -> keeps_usable (ses_data s) ->
  mf_handle c chk ko kf mkcert cf be im w s m e = (w', HReply d ks reply) ->
  keeps_usable d /\ match m with MRequestParams _ => exists k, ks = Some k /\ usable A k | _ => ks = None end.
Proof.
  intros SD P H. destruct m; cbn [mf_handle] in H.
  - unfold h_appstart in H. open_reply H. inversion H; subst. split; [exact P|reflexivity].
  - unfold h_sethmac in H. open_reply H; inversion H; subst; (split; [exact P|reflexivity]).
  - unfold h_connect in H. open_reply H. inversion H; subst. split; [|reflexivity]. intros k X. cbn [md_keys] in X. inversion X; subst. eapply connect_reply_keys; eassumption.
  - unfold h_requestparams in H. open_reply H. inversion H; subst. split; [intros k X; discriminate X|]. eexists. split; [reflexivity|]. apply P. assumption.
  - unfold h_providekey in H. open_reply H. inversion H; subst. split; [exact P|reflexivity].
Qed.
End mfg.
Theorem C20_manufacturing_server c chk ko kf mkcert cf {W} (be : backend voucher W) A : seals_derived ko A ->
  routes_ok (mf_server c chk ko kf mkcert cf be) /\ replies_sendable A (mf_server c chk ko kf mkcert cf be).
Proof.
  intros SD. split; [apply mf_routes_ok|]. exists (keeps_usable A). split; [intros k X; discriminate X|].
  intros im om w s pt m e w' d ks reply RI V P EV K SP HD. cbn [sv_handle sv_routes sv_parse mf_server] in *.
  destruct (mf_reply_keys _ _ _ _ _ _ _ _ _ _ _ _ _ _ _ _ _ SD P HD) as [PD KS]. split; [exact PD|]. unfold mf_parse in SP.
  assert (KE : ek_is_some (keys_of s) = match ses_keys s with Some _ => true | None => false end).
  { unfold keys_of. destruct (ses_keys s) as [k|]; [exact (usable_some A k (K k eq_refl))|reflexivity]. }
  rewrite KE in EV.
  assert (U : forall k, ks = Some k -> usable A k).
  { intros k ->. destruct m; try discriminate KS. destruct KS as (k' & X & U). inversion X; subst. exact U. }
  split; [exact U|]. rewrite enc_plain.
  - destruct RI as [X|[X|[X|[X|[X|[]]]]]]; injection X as <- <-; cbn [enc_req enc_violated] in *; try reflexivity;
    match type of SP with map_err _ ?x = _ => destruct x eqn:SX; try discriminate SP end; injection SP as <-;
    repeat match type of SX with bind ?x _ = _ => destruct x; try discriminate SX; cbn [bind] in SX end; injection SX as <-;
    try (destruct KS as (k & -> & _)); try rewrite KS in *; destruct (ses_keys s); try discriminate EV; reflexivity.
  - intros x X. destruct ks as [k|]; [inversion X; subst; exact (usable_some A x (U x eq_refl))|exact (usable_some A x (K x X))].
Qed.
(** The toy cipher encrypts with anything. *)
Example toy_seals_derived ko : seals_derived ko toy_aead.
Proof. intros av role ci kx peer h k _ n p. discriminate. Qed.

Print Assumptions C20_owner_server.
Print Assumptions C20_manufacturing_server.
