(** Proofs about where the credential is and what becomes of its file. *)
From Coq Require Import Lia ZifyBool ZifyNat ZifyN.
From Verif Require Import Base BaseFacts CborModel ValueModel ValueProofs DecFacts DecSize Text TypesModel TypesProofs VoucherModel CryptoSpec VoucherSpec Assoc KexModel RvModel RvProofs MsgModel SessionModel
  HttpClientModel RvServerModel SiModel SiProofs DevSiModel OwnerModel MfgModel ClientModel ClientSpec MfgClientModel MfgClientSpec MfgClientProofs LocModel LocSpec.
Local Open Scope N_scope.

(** * Writing back a credential that was read *)
Lemma rv_value_ok n v r : octets v -> sized n v -> N.of_nat n < 4294967296 -> as_rv_info v = Some r -> rv_ok r.
Proof.
  intros O Z K E. pose proof (as_rv_info_vars _ _ E) as V. unfold as_rv_info, as_list in E. apply octets_untag in O. apply sized_untag in Z.
  destruct (untag v) as [| | |l| | | |]; try discriminate. inversion O as [| | |? OL| | | |]; subst. inversion Z as [| | |? ZL ZF| | | |]; subst.
  split; [apply all_some_len in E; rewrite map_length in E; unfold nlen; lia|].
  assert (W : Forall (fun d => nlen d < 4294967296 /\ Forall (fun i : rv_instruction => bytes_ok (snd i) /\ nlen (snd i) < 4294967296) d) r).
  { eapply all_some_forall; [exact E|]. intros x d I F. cbv beta in F. rewrite Forall_forall in OL, ZF. specialize (OL x I). specialize (ZF x I). apply octets_untag in OL. apply sized_untag in ZF.
    destruct (untag x) as [| | |m| | | |]; try discriminate. inversion OL as [| | |? OM| | | |]; subst. inversion ZF as [| | |? ZM ZG| | | |]; subst.
    split; [apply all_some_len in F; rewrite map_length in F; unfold nlen; lia|]. eapply all_some_forall; [exact F|]. intros y i J G.
    rewrite Forall_forall in OM, ZG. specialize (OM y J). specialize (ZG y J). apply fields_octets in OM. apply fields_sized in ZG. unfold as_rv_instruction in G.
    destruct (as_fields y) as [|a [|b [|? ?]]]; try discriminate. destruct (as_rv_variable a); [|discriminate]. destruct (as_bytebuf b) as [bb|] eqn:AB; [|discriminate]. inversion G; subst. cbn [snd].
    inversion OM as [|? ? _ O2]; subst. inversion O2 as [|? ? O3 _]; subst. inversion ZG as [|? ? _ Z2]; subst. inversion Z2 as [|? ? Z3 _]; subst.
    split; [eapply bytebuf_ok; eassumption|]. pose proof (bytebuf_size _ _ _ Z3 AB). unfold nlen. lia. }
  rewrite Forall_forall in *. intros d I. specialize (W d I). specialize (V d I). destruct W as [W1 W2]. split; [exact W1|]. rewrite Forall_forall in *. intros i J. auto.
Qed.
Lemma vecu8_value_ok n v b : octets v -> sized n v -> N.of_nat n < 4294967296 -> as_vecu8 v = Some b -> key_bytes b.
Proof.
  intros O Z K E. apply sized_untag in Z. unfold as_vecu8, as_list in E. destruct (untag v) as [| | |l| | | |]; try discriminate. inversion Z as [| | |? ZL ZF| | | |]; subst.
  split; [|apply all_some_len in E; rewrite map_length in E; unfold nlen; lia]. unfold bytes_ok. eapply all_some_forall; [exact E|]. intros x y I F. cbv beta in F.
  unfold as_u8, as_int in F. destruct (untag x); try discriminate. destruct (_ && _)%bool eqn:B in F; inversion F; subst. lia.
Qed.
Lemma field_value (R : cval -> Prop) name m v : Forall (fun kv => R (fst kv) /\ R (snd kv)) m -> field name m = Some v -> R v.
Proof.
  intros F E. unfold field in E. destruct (filter _ m) as [|[k x] [|? ?]] eqn:G; try discriminate. inversion E; subst.
  assert (I : In (k, v) m) by (eapply proj1; apply filter_In; rewrite G; left; reflexivity). rewrite Forall_forall in F. exact (proj2 (F _ I)).
Qed.
Lemma keystore_value_ok n v k : octets v -> sized n v -> N.of_nat n < 4294967296 -> as_keystore v = Some k -> keys_ok k.
Proof.
  intros O Z K E. apply octets_untag in O. apply sized_untag in Z. unfold as_keystore in E. destruct (untag v) as [| | | |[|[a x] [|? ?]]| | |]; try discriminate.
  inversion O as [| | | |? O1| | |]; subst. inversion Z as [| | | |? Z1| | |]; subst. inversion O1 as [|? ? [_ O2] _]; subst. inversion Z1 as [|? ? [_ Z2] _]; subst. cbn [snd] in *.
  destruct (as_string a) as [s|]; [|discriminate]. apply octets_untag in O2. apply sized_untag in Z2. destruct (untag x) as [| | | |m| | |]; try discriminate.
  inversion O2 as [| | | |? OM| | |]; subst. inversion Z2 as [| | | |? ZM| | |]; subst.
  assert (KB : forall nm b, bytes_field nm m = Some b -> key_bytes b).
  { intros nm b F. unfold bytes_field in F. destruct (field nm m) as [y|] eqn:FE; [|discriminate]. exact (vecu8_value_ok n _ _ (field_value octets _ _ _ OM FE) (field_value (sized n) _ _ _ ZM FE) K F). }
  destruct (text_eqb s (txt "Plain")).
  - destruct (bytes_field (txt "hmac_secret") m) as [b1|] eqn:F1; [|discriminate]. destruct (bytes_field (txt "private_key") m) as [b2|] eqn:F2; [|discriminate].
    inversion E; subst. split; eapply KB; eassumption.
  - destruct (text_eqb s (txt "Tpm")); [|discriminate]. destruct (bytes_field (txt "signing_public") m); [|discriminate].
    destruct (bytes_field (txt "signing_private") m) as [b2|] eqn:F2; [|discriminate]. destruct (bytes_field (txt "hmac_public") m) as [h|]; [|discriminate].
    destruct (bytes_field (txt "hmac_private") m) as [b4|] eqn:F4; [|discriminate].
    destruct h as [|[|[[]|[[]|[]|]|]] [|? ?]]; try discriminate; inversion E; subst; (split; [reflexivity|split; eapply KB; eassumption]).
Qed.
(** What was read as a credential and written again, active or not, is read as the same. *)
Lemma rewritten b info dc a : bytes_ok b -> nlen b < 4294967296 -> has_credential b info dc ->
  has_credential (enc (cred_val info (DevCred a (dc_version dc) (dc_guid dc) (dc_rv dc) (dc_mfg dc) (dc_keys dc)))) info (DevCred a (dc_version dc) (dc_guid dc) (dc_rv dc) (dc_mfg dc) (dc_keys dc)).
Proof.
  intros B L H. unfold has_credential in *. apply from_slice_ok in H. destruct H as (v & D & E). pose proof (dec_top_octets _ _ B D) as O. pose proof (dec_top_sized _ _ D) as Z.
  assert (K : N.of_nat (length b) < 4294967296) by exact L. clear D B L. set (n := length b) in *. clearbody n. apply fields_octets in O. apply fields_sized in Z.
  unfold as_cred in E. destruct (as_fields v) as [|x1 [|x2 [|x3 [|x4 [|x5 [|x6 [|x7 [|? ?]]]]]]]]; try discriminate.
  repeat match goal with H : Forall _ (_ :: _) |- _ => inversion H; clear H; subst end.
  destruct (as_bool x1); [|discriminate]. destruct (as_version x2) as [ve|] eqn:E2; [|discriminate]. destruct (as_string x3) as [s|] eqn:E3; [|discriminate]. destruct (as_bstr16 x4) as [g|] eqn:E4; [|discriminate].
  destruct (as_rv_info x5) as [r|] eqn:E5; [|discriminate]. destruct (as_hash x6) as [h|] eqn:E6; [|discriminate]. destruct (as_keystore x7) as [k|] eqn:E7; [|discriminate].
  inversion E; subst. cbn [dc_version dc_guid dc_rv dc_mfg dc_keys].
  apply cred_reads; cbn [dc_version dc_guid dc_rv dc_mfg dc_keys dc_active].
  - unfold as_string in E3. destruct (untag x3); try discriminate; apply utf8_dec_enc in E3; apply E3.
  - assert (sized n (untag x3)) as SZ by (apply sized_untag; assumption). unfold as_string in E3. destruct (untag x3); try discriminate; (apply utf8_dec_enc in E3; destruct E3 as [-> _]; inversion SZ; subst; unfold nlen, two64; lia).
  - unfold as_version in E2. destruct (as_u16 x2) as [z|]; [|discriminate]. unfold V1_0, V1_1.
    destruct (N.eq_dec z 100) as [->|N0]; [inversion E2; auto|]. destruct (N.eq_dec z 101) as [->|N1]; [inversion E2; auto|].
    exfalso. clear - E2 N0 N1. destruct z as [|p]; [discriminate|]. repeat (destruct p as [p|p|]; try discriminate; try (cbn in *; congruence)).
  - unfold as_bstr16 in E4. destruct (as_bytebuf x4) as [bb|] eqn:AB; [|discriminate]. destruct (nlen bb =? 16); [|discriminate]. inversion E4; subst. eapply bytebuf_ok; [|exact AB]; assumption.
  - unfold as_bstr16 in E4. destruct (as_bytebuf x4) as [bb|]; [|discriminate]. destruct (nlen bb =? 16) eqn:NE; [|discriminate]. inversion E4; subst. lia.
  - eapply rv_value_ok; [| |exact K|exact E5]; assumption.
  - unfold as_hash in E6. destruct (as_fields x6) as [|t [|y [|? ?]]] eqn:FX; try discriminate. destruct (as_int (-128) 127 t); [|discriminate]. destruct (hashtype_of z); [|discriminate].
    destruct (as_bytebuf y) as [bb|] eqn:AB; [|discriminate]. inversion E6; subst. cbn [h_value]. assert (OF : Forall octets (as_fields x6)) by (apply fields_octets; assumption). rewrite FX in OF.
    inversion OF as [|? ? _ O2]; subst. inversion O2; subst. eapply bytebuf_ok; [|exact AB]; assumption.
  - unfold as_hash in E6. destruct (as_fields x6) as [|t [|y [|? ?]]] eqn:FX; try discriminate. destruct (as_int (-128) 127 t); [|discriminate]. destruct (hashtype_of z); [|discriminate].
    destruct (as_bytebuf y) as [bb|] eqn:AB; [|discriminate]. inversion E6; subst. cbn [h_value]. assert (OF : Forall (sized n) (as_fields x6)) by (apply fields_sized; assumption). rewrite FX in OF.
    inversion OF as [|? ? _ O2]; subst. inversion O2 as [|? ? O3 _]; subst. pose proof (bytebuf_size _ _ _ O3 AB). unfold nlen, two64. lia.
  - eapply keystore_value_ok; [| |exact K|exact E7]; assumption.
Qed.

(** * The first place *)
Lemma firmware_etc : FIRMWARE <> ETC. Proof. intros H. apply (f_equal (fun x => nth 1 x 0)) in H. vm_compute in H. discriminate. Qed.
Lemma used_find e fs p b m : used e fs p b -> to_be e p m -> find e fs = At p m.
Proof.
  intros (NT & G & l & r & E & A) T. assert (NT' : aget FIRMWARE fs = None -> ev_cred e <> Some ENotText) by (intros X; destruct NT as [->|NT]; [congruence|exact NT]). clear NT. unfold find, resolve_env, resolve. unfold places in E. destruct l as [|q0 l]; cbn [app] in E; injection E as E1 E2.
  - subst p. rewrite G. inversion T; subst; try congruence; try (exfalso; apply firmware_etc; congruence).
  - assert (N0 : aget FIRMWARE fs = None) by (rewrite E1; apply A; left; reflexivity). rewrite N0. specialize (NT' N0).
    destruct (ev_cred e) as [[v|]|] eqn:EC; [|congruence|].
    + cbn [app] in E2. destruct l as [|q1 l]; cbn [app] in E2; injection E2 as E2 E3.
      * subst v. rewrite G. inversion T; subst; try congruence; repeat match goal with H : ?f = true |- context [?f] => rewrite H | H : ?f = false |- context [?f] => rewrite H end; reflexivity.
      * assert (N1 : aget v fs = None) by (rewrite E2; apply A; right; left; reflexivity). rewrite N1.
        destruct l as [|? l]; cbn [app] in E3; [|destruct l; discriminate]. injection E3 as <- _. rewrite G. inversion T; subst; try reflexivity; try congruence; try (exfalso; apply firmware_etc; congruence).
    + cbn [app] in E2. destruct l as [|? l]; cbn [app] in E2; [|destruct l; discriminate]. injection E2 as <- _. rewrite G. inversion T; subst; try reflexivity; try congruence.
Qed.
Lemma used_to_be e fs p b : used e fs p b -> exists m, to_be e p m.
Proof.
  intros (NT & G & l & r & E & A). destruct (name_dec p FIRMWARE) as [->|NF]; [exists KeepIt; constructor|]. destruct NT as [NT|NT]; [congruence|].
  assert (IP : In p (places e)) by (rewrite E; apply in_or_app; right; left; reflexivity). unfold places in IP. destruct IP as [X|IP]; [congruence|]. apply in_app_or in IP.
  destruct (ev_cred e) as [[v|]|] eqn:EC; [|congruence|].
  - destruct (name_dec p v) as [->|NV].
    + destruct (ev_delete e) eqn:ED; [exists DeleteIt; apply tb_delete; auto|]. destruct (ev_deactivate e) eqn:EA; [exists DeactivateIt; apply tb_deactivate; auto|exists KeepIt; apply tb_keep; auto].
    + destruct IP as [[X|[]]|[<-|[]]]; [congruence|]. exists DeactivateIt. apply tb_default. intros X. apply NV. rewrite EC in X. injection X as X. congruence.
  - destruct IP as [[]|[<-|[]]]. exists DeactivateIt. apply tb_default. congruence.
Qed.

Lemma find_used e fs p m : find e fs = At p m -> exists b, used e fs p b /\ to_be e p m.
Proof.
  intros F. assert (X : exists b, used e fs p b).
  { revert F. unfold find, resolve_env, resolve. destruct (aget FIRMWARE fs) as [b0|] eqn:N0.
    { intros E. inversion E; subst. exists b0. split; [left; reflexivity|]. split; [exact N0|]. exists [], (match ev_cred e with Some (EText p) => [p] | _ => [] end ++ [ETC]). split; [reflexivity|intros ? []]. }
    destruct (ev_cred e) as [[v|]|] eqn:EC; [|discriminate|].
    - destruct (aget v fs) as [b1|] eqn:N1.
      + intros E. inversion E; subst. exists b1. split; [right; congruence|]. split; [exact N1|]. exists [FIRMWARE], [ETC]. unfold places. rewrite EC. split; [reflexivity|]. intros q [<-|[]]. exact N0.
      + destruct (aget ETC fs) as [b2|] eqn:N2; [|discriminate]. intros E. inversion E; subst. exists b2. split; [right; congruence|]. split; [exact N2|]. exists [FIRMWARE; v], []. unfold places. rewrite EC.
        split; [reflexivity|]. intros q [<-|[<-|[]]]; assumption.
    - destruct (aget ETC fs) as [b2|] eqn:N2; [|discriminate]. intros E. inversion E; subst. exists b2. split; [right; congruence|]. split; [exact N2|]. exists [FIRMWARE], []. unfold places. rewrite EC.
      split; [reflexivity|]. intros q [<-|[]]. exact N0. }
  destruct X as (b & U). exists b. split; [exact U|]. destruct (used_to_be _ _ _ _ U) as (m' & T). rewrite (used_find _ _ _ _ _ U T) in F. injection F as <-. exact T.
Qed.
Lemma counts_used e fs fs' p b : counts e fs p -> aget p fs' = Some b -> (forall q, q <> p -> aget q fs' = aget q fs) -> used e fs' p b.
Proof.
  intros (R & l & r & E & A) G F. split; [exact R|]. split; [exact G|]. exists l, r. split; [exact E|]. intros q I. destruct (A q I) as [N0 NP]. rewrite F by exact NP. exact N0.
Qed.
Lemma used_content e fs p b : used e fs p b -> content fs p = match from_slice as_cred b with Ok x => Some x | _ => None end.
Proof. intros (_ & G & _). unfold content. rewrite G. reflexivity. Qed.
Lemma used_disk e fs p b m : used e fs p b -> to_be e p m ->
  disk_of e fs = DevDisk (present (marker_path e) fs) (match from_slice as_cred b with Ok (_, dc) => Cred dc | _ => Unreadable end) m.
Proof.
  intros U T. unfold disk_of, credential, method. rewrite (used_find _ _ _ _ _ U T), (used_content _ _ _ _ U). destruct (from_slice as_cred b) as [[info dc]| |]; reflexivity.
Qed.
Lemma unused_disk e fs : unused e fs -> disk_of e fs = DevDisk (present (marker_path e) fs) NoCred KeepIt.
Proof.
  intros (NT & A). unfold disk_of, credential, method. assert (find e fs = Nowhere) as ->; [|reflexivity]. unfold find, resolve_env, resolve.
  assert (N0 : aget FIRMWARE fs = None) by (apply A; left; reflexivity). assert (N2 : aget ETC fs = None) by (apply A; right; apply in_or_app; right; left; reflexivity). rewrite N0, N2.
  destruct (ev_cred e) as [[v|]|] eqn:EC; [|congruence|reflexivity]. assert (aget v fs = None) as -> by (apply A; unfold places; rewrite EC; right; left; reflexivity). reflexivity.
Qed.

(** * The onboarding program's files *)
Section steps.
Context (others : list devent -> files -> files) (e : env) (p info : str) (dc : devcred).
Local Notation steps := (device_steps others e p info dc).
Lemma steps_app l1 : forall l2 h fs, steps h (l1 ++ l2) fs = steps (h ++ l1) l2 (steps h l1 fs).
Proof. induction l1 as [|x l1 IH]; intros l2 h fs; [rewrite app_nil_r; reflexivity|]. cbn [app device_steps]. rewrite IH, <- app_assoc. reflexivity. Qed.
Lemma steps_frame q : q <> p -> q <> marker_path e -> spares others q -> forall l h fs, aget q (steps h l fs) = aget q fs.
Proof.
  intros NP NM SP l. induction l as [|x l IH]; intros h fs; [reflexivity|]. cbn [device_steps]. rewrite IH.
  destruct x as [| |[] |[] |[] |[]]; cbn [device_step]; try reflexivity; try apply SP; try (apply aget_aset_ne; assumption). apply aget_adel_ne. exact NP.
Qed.
Lemma steps_marker : p <> marker_path e -> spares others (marker_path e) -> forall l h fs, In (TMark true) l \/ present (marker_path e) fs = true -> present (marker_path e) (steps h l fs) = true.
Proof.
  intros NP SP l. induction l as [|x l IH]; intros h fs M; [destruct M as [[]|M]; exact M|]. cbn [device_steps]. apply IH. unfold present in *.
  destruct M as [[->|I]|M]; [right; cbn [device_step]; rewrite aget_aset_eq; reflexivity|left; exact I|right].
  destruct x as [| |[] |[] |[] |[]]; cbn [device_step]; try exact M; try (rewrite SP; exact M); try (rewrite aget_aset_ne by congruence; exact M).
  - rewrite aget_aset_eq. reflexivity.
  - rewrite aget_adel_ne by congruence. exact M.
Qed.
(** What there is in the credential's file *)
Definition file_step (x : devent) (o : option bytes) : option bytes :=
  match x with TErase true => Some [] | TOff true => Some (enc (cred_val info (deactivated dc))) | TDelete true => None | _ => o end.
Lemma steps_file : p <> marker_path e -> spares others p -> forall l h fs, aget p (steps h l fs) = fold_left (fun o x => file_step x o) l (aget p fs).
Proof.
  intros NP SP l. induction l as [|x l IH]; intros h fs; [reflexivity|]. cbn [device_steps fold_left]. rewrite IH. f_equal.
  destruct x as [| |[] |[] |[] |[]]; cbn [device_step file_step]; try reflexivity; try apply SP; try apply aget_aset_eq; try (apply aget_aset_ne; assumption). apply aget_adel_eq.
Qed.
End steps.

(** * The manufacturing program's files *)
Lemma mfg_steps_app how p l1 : forall l2 h fs, mfg_steps how p h (l1 ++ l2) fs = mfg_steps how p (h ++ l1) l2 (mfg_steps how p h l1 fs).
Proof. induction l1 as [|x l1 IH]; intros l2 h fs; [rewrite app_nil_r; reflexivity|]. cbn [app mfg_steps]. rewrite IH, <- app_assoc. reflexivity. Qed.
Lemma mfg_steps_frame how p q : q <> p -> forall l h fs, aget q (mfg_steps how p h l fs) = aget q fs.
Proof.
  intros NP l. induction l as [|x l IH]; intros h fs; [reflexivity|]. cbn [mfg_steps]. rewrite IH. destruct x as [|[]| | | |]; try reflexivity.
  unfold write_file. destruct (how _); try reflexivity; apply aget_aset_ne; exact NP.
Qed.
Lemma mfg_steps_wires how p l : Forall (fun x => exists u w, x = TWire u w) l -> forall h fs, mfg_steps how p h l fs = fs.
Proof. induction 1 as [|x l (u & w & ->) F IH]; intros h fs; [reflexivity|]. cbn [mfg_steps]. apply IH. Qed.
Lemma marker_found e p : marker_at e p -> marker_path e = p.
Proof. intros [q E|N0]; unfold marker_path; [rewrite E; reflexivity|]. destruct (ev_marker e) as [[q|]|]; [destruct (N0 q eq_refl)|reflexivity|reflexivity]. Qed.
Lemma told_target e p : told_file e p <-> target e = Some p.
Proof.
  unfold target. split; [intros [q E|E]; rewrite E; reflexivity|]. destruct (ev_file e) as [[q|]|] eqn:E; intros X; [injection X as <-; apply tf_told; exact E|discriminate|injection X as <-; apply tf_default; exact E].
Qed.
