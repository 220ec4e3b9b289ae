(** C64 to C68: the owner tool. *)
From Verif Require Import Base BaseFacts CborModel ValueModel ValueProofs Text Assoc RvSpec Hex TypesModel VoucherModel CryptoSpec VoucherSpec VoucherProofs VoucherProofs2 ToyCrypto P_Voucher
  CborProofs RvModel StoreModel StoreSpec Backend MsgModel SessionModel RvServerModel RvServerSpec P_RvServer OwnerModel MfgModel MfgSpec P_Mfg ClientModel ClientSpec MfgClientModel MfgClientSpec MfgClientProofs2 P_MfgClient
  OtModel OtSpec OtProofs.
From Coq Require Import ZifyBool ZifyNat ZifyN Permutation.
Local Open Scope N_scope.
Local Opaque dec_top from_slice.

(** * C64 *)
Section extend.
Context (pm : pem_codec) (c : crypto) (chk : bool) (kf : keyfns) (rd : readers).
Context (HO : outputs_ok c) (HS : sign_correct c) (HK : keyfns_ok c kf) (HP : pem_ok pm).
Notation run d path keyfile certfile rnd := (extend_cmd pm c chk kf rd d path keyfile certfile rnd).

Lemma run_cases d path keyfile certfile rnd :
  (exists t, extend_text pm c chk kf rd d path keyfile certfile rnd = Ok t /\ run d path keyfile certfile rnd = Cmd (write_file (new_name path) t ++ [ORename (new_name path) path]) (Ok tt)) \/
  (cm_ops (run d path keyfile certfile rnd) = [] /\ cm_result (run d path keyfile certfile rnd) <> Ok tt).
Proof using.
  unfold extend_cmd. destruct (extend_text _ _ _ _ _ _ _ _ _ _) as [t|e|w]; [left; eauto|right; split; [reflexivity|discriminate]..].
Qed.
Lemma written_small d path keyfile certfile rnd t : extend_text pm c chk kf rd d path keyfile certfile rnd = Ok t ->
  files_ok (fs_ops (cm_ops (run d path keyfile certfile rnd)) d) -> file_ok t /\ exists x, aget path (fs_ops (cm_ops (run d path keyfile certfile rnd)) d) = Some (File t x).
Proof using.
  intros E F. unfold extend_cmd in *. rewrite E in *. cbn [cm_ops] in *. rewrite fs_ops_app in *. destruct (write_done (new_name path) t d) as [_ [x W]].
  unfold fs_ops at 1 in F. cbn [fold_left fs_op] in F. unfold fs_ops at 1. cbn [fold_left fs_op]. pose proof (get_rename_to _ path _ _ W) as G. split; [exact (F _ _ G)|eauto].
Qed.

(** Whenever the command is cut short, only the voucher's file and one beside it were touched, and the voucher's file is
    as it was or holds the voucher handed on: one entry more, signed with the key given, for the owner given. *)
Theorem C64_all_or_nothing : forall d path keyfile certfile rnd d',
  files_ok d -> files_ok (fs_ops (cm_ops (run d path keyfile certfile rnd)) d) ->
  cut d (cm_ops (run d path keyfile certfile rnd)) d' ->
  (forall m, m <> path -> m <> path ++ txt ".new" -> aget m d' = aget m d) /\
  (aget path d' = aget path d \/
   exists v v' sk next, holds_voucher pm c chk d path v /\ holds_key rd d keyfile sk /\ names_owner c rd d certfile next /\
     holds_voucher pm c chk d' path v' /\ handed_on c chk sk next v v').
Proof.
  intros d path keyfile certfile rnd d' F F' C. destruct (run_cases d path keyfile certfile rnd) as [(t & T & E)|[E _]].
  - destruct (written_small _ _ _ _ _ _ T F') as [FT _]. rewrite E in C. cbn [cm_ops] in C. destruct (cut_replace path (new_name path) t d d' (new_name_ne path) C) as [O [P|[x P]]]; (split; [exact O|]); [left; exact P|].
    right. destruct (extend_text_ok pm c chk kf rd d path keyfile certfile rnd t HO HS HK HP F T FT) as (v & v' & sk & next & H1 & H2 & H3 & H4 & H5).
    exists v, v', sk, next. split; [exact H1|]. split; [exact H2|]. split; [exact H3|]. split; [exists (File t x); auto|exact H5].
  - rewrite E in C. inversion C; subst. auto.
Qed.
(** If it reports success, it is the latter; if it refuses, nothing was touched. *)
Theorem C64_success : forall d path keyfile certfile rnd,
  files_ok d -> files_ok (fs_ops (cm_ops (run d path keyfile certfile rnd)) d) -> cm_result (run d path keyfile certfile rnd) = Ok tt ->
  exists v v' sk next, holds_voucher pm c chk d path v /\ holds_key rd d keyfile sk /\ names_owner c rd d certfile next /\
    holds_voucher pm c chk (fs_ops (cm_ops (run d path keyfile certfile rnd)) d) path v' /\ handed_on c chk sk next v v'.
Proof.
  intros d path keyfile certfile rnd F F' R. destruct (run_cases d path keyfile certfile rnd) as [(t & T & E)|[_ E]]; [|contradiction].
  destruct (written_small _ _ _ _ _ _ T F') as [FT [x G]].
  destruct (extend_text_ok pm c chk kf rd d path keyfile certfile rnd t HO HS HK HP F T FT) as (v & v' & sk & next & H1 & H2 & H3 & H4 & H5).
  exists v, v', sk, next. split; [exact H1|]. split; [exact H2|]. split; [exact H3|]. split; [exists (File t x); auto|exact H5].
Qed.
Theorem C64_refused : forall d path keyfile certfile rnd, cm_result (run d path keyfile certfile rnd) <> Ok tt -> cm_ops (run d path keyfile certfile rnd) = [].
Proof using. intros d path keyfile certfile rnd R. destruct (run_cases d path keyfile certfile rnd) as [(t & T & E)|[E _]]; [rewrite E in R; exfalso; apply R; reflexivity|exact E]. Qed.
(** The owner of a voucher whose entries verify can hand it on, to any holder of a certificate with a supported key. *)
Theorem C64_owner_can : forall d path keyfile certfile rnd v ps sk next,
  files_ok d -> holds_voucher pm c chk d path v -> hd_version (ov_header v) = V1_1 -> verify_entries c chk v = Ok ps -> nlen (entries_raw v) < 65535 ->
  tag_small (pa_tag (ov_contents v)) -> tag_small (pa_tag (ov_entries v)) ->
  holds_key rd d keyfile sk -> c_pub c sk = pk_key (owner_after v ps) -> c_alg c (c_pub c sk) <> None ->
  (exists cert, load_x509 rd d certfile = Ok cert /\ pubkey_of_cert c (kf_type kf) (kf_der kf) cert = Ok next) ->
  cm_result (run d path keyfile certfile rnd) = Ok tt /\
  exists v', holds_voucher pm c chk (fs_ops (cm_ops (run d path keyfile certfile rnd)) d) path v' /\ handed_on c chk sk next v v'.
Proof.
  intros d path keyfile certfile rnd v ps sk next F HV VV VE NE T1 T2 HKy OW AL CE.
  destruct (owner_extends pm c chk kf rd d path keyfile certfile rnd v ps sk next HO HS HK HP F HV VV VE NE T1 T2 HKy OW AL CE) as (v' & b & ET & _ & FV & HD).
  unfold extend_cmd. rewrite ET. cbn [cm_result cm_ops]. split; [reflexivity|]. exists v'. split; [|exact HD].
  rewrite fs_ops_app. destruct (write_done (new_name path) (pem_encode pm PEM_TAG b) d) as [_ [x W]]. unfold fs_ops at 1. cbn [fold_left fs_op].
  exists (File (pem_encode pm PEM_TAG b) x). split; [apply get_rename_to; exact W|exact FV].
Qed.
(** Run again after it was cut short while the voucher's file was as before, the command does what it would have done. *)
Theorem C64_can_be_repeated : forall d path keyfile certfile rnd d',
  keyfile <> path ++ txt ".new" -> certfile <> path ++ txt ".new" -> keyfile <> path -> certfile <> path ->
  cut d (cm_ops (run d path keyfile certfile rnd)) d' -> aget path d' = aget path d ->
  run d' path keyfile certfile rnd = run d path keyfile certfile rnd.
Proof using.
  intros d path keyfile certfile rnd d' K C K2 C2 CT P.
  assert (O : forall m, m <> path -> m <> new_name path -> aget m d' = aget m d).
  { destruct (run_cases d path keyfile certfile rnd) as [(t & T & E)|[E _]].
    - rewrite E in CT. cbn [cm_ops] in CT. apply (cut_replace path (new_name path) t d d' (new_name_ne path) CT).
    - rewrite E in CT. inversion CT; subst. auto. }
  assert (EQ : extend_text pm c chk kf rd d' path keyfile certfile rnd = extend_text pm c chk kf rd d path keyfile certfile rnd).
  { unfold extend_text, load_private_key, load_x509, read_path. rewrite P, (O keyfile) by auto. rewrite (O certfile) by auto. reflexivity. }
  unfold extend_cmd. rewrite EQ. reflexivity.
Qed.
(** Run again after it was done, it does nothing, unless the new owner has the key that the old one had. *)
Theorem C64_not_twice : forall d path keyfile certfile rnd v v' sk next ps,
  files_ok d -> holds_key rd d keyfile sk -> verify_entries c chk v = Ok ps -> handed_on c chk sk next v v' ->
  holds_voucher pm c chk d path v' -> c_pub c sk <> pk_key next ->
  cm_ops (run d path keyfile certfile rnd) = [].
Proof.
  intros d path keyfile certfile r v v' sk next ps F (fk & AK & RK) VE HD (f & AF & FV) NK.
  destruct (run_cases d path keyfile certfile r) as [(t & T & _)|[E _]]; [|exact E]. exfalso.
  destruct HD as (_ & _ & _ & _ & _ & HD). destruct (HD _ VE) as (_ & p & VE' & PK & _).
  destruct (read_file pm c chk _ _ HP (F _ _ AF) FV) as (s & BS & LS & DV). destruct (F _ _ AF) as [_ LF].
  destruct (loaded_fits c chk s v' BS ltac:(lia) DV) as (K & FM & _).
  unfold extend_text, load_private_key, read_path in T. rewrite AF in T. cbn [bind] in T. rewrite FV in T. cbn [plain_err map_err bind] in T.
  destruct (negb (hd_version (ov_header v') =? V1_1)); [discriminate|]. rewrite AK in T. cbn [bind] in T. rewrite RK in T. cbn [of_option bind] in T.
  apply bind_ok in T. destruct T as (cert & _ & T). apply bind_ok in T. destruct T as (nx & _ & T).
  assert (CO : coherent c chk v') by (apply kept_coherent; [exact K|unfold fits_memory in FM; unfold two63; lia]).
  rewrite (extend_nonowner c chk v' sk None nx r _ CO VE') in T; [discriminate| |left; reflexivity].
  unfold owner_after. rewrite map_app. cbn [map]. rewrite last_last, PK. exact NK.
Qed.
End extend.

(** * C65 *)
Section init.
Context (pm : pem_codec) (c : crypto) (chk : bool) (kf : keyfns) (rd : readers) (mkcert : bytes -> bytes -> str -> bytes -> bytes -> option bytes).
Context (HO : outputs_ok c) (HB : hmac_bytes c) (HK : keyfns_ok c kf) (HC : certifies c mkcert) (HP : pem_ok pm) (HR : readers_ok c rd).
Notation run d a dr := (init_cmd pm c kf rd mkcert d a dr).

Lemma init_cases d a dr :
  (exists mcert mfg ca_sk ca rvb rv ov dc, load_x509 rd d (ia_mfg a) = Ok mcert /\ pubkey_of_cert c (kf_type kf) (kf_der kf) mcert = Ok mfg /\ load_x509s rd d (ia_cachain a) = Ok ca /\
     read_path d (ia_rv a) = Ok rvb /\ rd_rv rd rvb = Ok rv /\ aget (ia_dc a) d = None /\ aget (ia_ov a) d = None /\
     init_files pm c mkcert a dr mfg ca_sk ca rv = Ok (ov, dc) /\ run d a dr = Cmd (write_file (ia_ov a) ov ++ write_file (ia_dc a) dc) (Ok tt)) \/
  (cm_ops (run d a dr) = [] /\ cm_result (run d a dr) <> Ok tt).
Proof using.
  clear. unfold init_cmd. destruct (bind _ _) as [[ov dc]|e|w] eqn:E; [left|right; split; [reflexivity|discriminate]..].
  apply bind_ok in E. destruct E as (mcert & E1 & E). apply bind_ok in E. destruct E as (mfg & E2 & E). apply plain_ok in E2. apply bind_ok in E. destruct E as (ca_sk & E3 & E).
  apply bind_ok in E. destruct E as (ca & E4 & E). apply bind_ok in E. destruct E as (rvb & E5 & E). apply bind_ok in E. destruct E as (rv & E6 & E).
  unfold exists_path in E. destruct (aget (ia_dc a) d) eqn:A1; [discriminate|]. destruct (aget (ia_ov a) d) eqn:A2; [discriminate|].
  exists mcert, mfg, ca_sk, ca, rvb, rv, ov, dc. repeat (split; [assumption || reflexivity|]). reflexivity.
Qed.

(** Whenever the command is cut short, every file that was there is as it was, and only the two outputs can be new. *)
Theorem C65_never_overwrites : forall d a dr d', cut d (cm_ops (run d a dr)) d' ->
  (forall n f, aget n d = Some f -> aget n d' = Some f) /\ (forall n, n <> ia_ov a -> n <> ia_dc a -> aget n d' = aget n d).
Proof using.
  clear. intros d a dr d' C. assert (K : forall n, n <> ia_ov a -> n <> ia_dc a -> aget n d' = aget n d).
  { intros n N1 N2. destruct (init_cases d a dr) as [(mcert & mfg & ca_sk & ca & rvb & rv & ov & dc & _ & _ & _ & _ & _ & A1 & A2 & _ & E)|[E _]]; rewrite E in C; [|inversion C; reflexivity].
    cbn [cm_ops] in C. apply cut_write in C. destruct C as [->|[(p & q & _ & O & _)|C]]; [reflexivity|apply O; exact N1|].
    destruct (write_done (ia_ov a) ov d) as [W _]. rewrite <- (app_nil_r (write_file (ia_dc a) dc)) in C. apply cut_write in C. destruct C as [->|[(p & q & _ & O & _)|C]]; [apply W; exact N1|rewrite O by exact N2; apply W; exact N1|].
    inversion C; subst. destruct (write_done (ia_dc a) dc (fs_ops (write_file (ia_ov a) ov) d)) as [W2 _]. rewrite W2 by exact N2. apply W. exact N1. }
  split; [|exact K]. intros n f G. destruct (init_cases d a dr) as [(mcert & mfg & ca_sk & ca & rvb & rv & ov & dc & _ & _ & _ & _ & _ & A1 & A2 & _ & E)|[E _]].
  - rewrite K; [exact G|intros ->; congruence..].
  - rewrite E in C. inversion C; subst. exact G.
Qed.
Theorem C65_refused : forall d a dr, cm_result (run d a dr) <> Ok tt -> cm_ops (run d a dr) = [].
Proof using. clear. intros d a dr R. destruct (init_cases d a dr) as [(mcert & mfg & ca_sk & ca & rvb & rv & ov & dc & _ & _ & _ & _ & _ & A1 & A2 & _ & E)|[E _]]; [rewrite E in R; exfalso; apply R; reflexivity|exact E]. Qed.

(** The two outputs were made for each other and for the inputs: the GUID drawn, the manufacturer of the certificate
    given, the keys drawn. *)
Definition outputs_for (d : dir) (a : initargs) (dr : draws) (v : voucher) (dc : devcred) : Prop :=
  belong_together c chk v (ia_id a) dc /\ hd_guid (ov_header v) = dr_guid dr /\ dc_keys dc = Plain (dr_secret dr) (dr_sk dr) /\
  (exists f cert, aget (ia_mfg a) d = Some f /\ rd_cert rd (f_data f) = Some cert /\ c_cert_key c cert = Some (pk_key (hd_mfg (ov_header v)))) /\
  (exists f, aget (ia_rv a) d = Some f /\ rd_rv rd (f_data f) = Ok (hd_rv (ov_header v))).
Lemma init_outputs d a dr mcert mfg ca_sk ca rvb rv ov dcb : inputs_small d a -> id_ok (ia_id a) -> draws_ok dr ->
  load_x509 rd d (ia_mfg a) = Ok mcert -> pubkey_of_cert c (kf_type kf) (kf_der kf) mcert = Ok mfg -> load_x509s rd d (ia_cachain a) = Ok ca ->
  read_path d (ia_rv a) = Ok rvb -> rd_rv rd rvb = Ok rv -> init_files pm c mkcert a dr mfg ca_sk ca rv = Ok (ov, dcb) ->
  exists v dc, from_pem_or_raw pm c chk ov = Ok v /\ from_slice as_cred dcb = Ok (ia_id a, dc) /\ outputs_for d a dr v dc /\
    hd_version (ov_header v) = V1_1 /\ pa_tag (ov_contents v) = None /\ pa_tag (ov_entries v) = None.
Proof.
  intros IS IO DO E1 E2 E4 E5 E6 EF. destruct HR as [HR1 HR2].
  unfold load_x509s in E4. apply bind_ok in E4. destruct E4 as (cb & E4 & E4'). apply of_option_ok in E4'. apply read_path_ok in E4. destruct E4 as (fc & AC & <-).
  apply read_path_ok in E5. destruct E5 as (fr & AR & <-).
  destruct (HR1 _ _ (IS _ _ (or_introl eq_refl) AC) E4') as (CO & CN & CZ). destruct (HR2 _ _ (IS _ _ (or_intror eq_refl) AR) E6) as (RO & RZ).
  destruct (of_cert _ _ _ _ HK E2) as (CK & MV & ML).
  destruct (init_made pm c chk mkcert a dr mfg ca_sk ca rv ov dcb HO HB HC HP MV ML CO CN CZ RO RZ IO DO EF) as (v & dc & F1 & F2 & BT & VV & GV & RV & MK & DK & T1 & T2).
  exists v, dc. split; [exact F1|]. split; [exact F2|]. split; [|auto]. split; [exact BT|]. split; [exact GV|]. split; [exact DK|]. split.
  - unfold load_x509 in E1. apply bind_ok in E1. destruct E1 as (mb & E1 & E1'). apply of_option_ok in E1'. apply read_path_ok in E1. destruct E1 as (fm & AM & <-). exists fm, mcert. rewrite MK. auto.
  - exists fr. rewrite RV. auto.
Qed.
Theorem C65_made_for_each_other : forall d a dr, inputs_small d a -> id_ok (ia_id a) -> draws_ok dr -> ia_ov a <> ia_dc a ->
  cm_result (run d a dr) = Ok tt ->
  exists v f dc, holds_voucher pm c chk (fs_ops (cm_ops (run d a dr)) d) (ia_ov a) v /\
    aget (ia_dc a) (fs_ops (cm_ops (run d a dr)) d) = Some f /\ from_slice as_cred (f_data f) = Ok (ia_id a, dc) /\ outputs_for d a dr v dc.
Proof.
  intros d a dr IS IO DO NE R. destruct (init_cases d a dr) as [(mcert & mfg & ca_sk & ca & rvb & rv & ov & dcb & E1 & E2 & E4 & E5 & E6 & A1 & A2 & EF & E)|[_ E]]; [|contradiction].
  rewrite E. cbn [cm_ops]. clear R E. destruct (init_outputs d a dr mcert mfg ca_sk ca rvb rv ov dcb IS IO DO E1 E2 E4 E5 E6 EF) as (v & dc & F1 & F2 & OF & _).
  rewrite fs_ops_app. destruct (write_done (ia_ov a) ov d) as [_ [x W1]]. destruct (write_done (ia_dc a) dcb (fs_ops (write_file (ia_ov a) ov) d)) as [O2 [y W2]].
  exists v, (File dcb y), dc. split; [exists (File ov x); split; [rewrite O2 by exact NE; exact W1|exact F1]|]. split; [exact W2|]. split; [exact F2|exact OF].
Qed.
(** The credential is the last to be written: whenever there is a file for it, the voucher is there, complete. *)
Theorem C65_credential_last : forall d a dr d', inputs_small d a -> id_ok (ia_id a) -> draws_ok dr -> ia_ov a <> ia_dc a ->
  cut d (cm_ops (run d a dr)) d' -> aget (ia_dc a) d' <> aget (ia_dc a) d ->
  exists v dc, holds_voucher pm c chk d' (ia_ov a) v /\ outputs_for d a dr v dc.
Proof.
  intros d a dr d' IS IO DO NE C CH. destruct (init_cases d a dr) as [(mcert & mfg & ca_sk & ca & rvb & rv & ov & dcb & E1 & E2 & E4 & E5 & E6 & A1 & A2 & EF & E)|[E _]];
    rewrite E in C; [|inversion C; subst; contradiction].
  cbn [cm_ops] in C. clear E. destruct (init_outputs d a dr mcert mfg ca_sk ca rvb rv ov dcb IS IO DO E1 E2 E4 E5 E6 EF) as (v & dc & F1 & F2 & OF & _). exists v, dc. split; [|exact OF].
  apply cut_write in C. destruct C as [->|[(p & q & _ & O & _)|C]]; [contradiction|rewrite O in CH by auto; contradiction|].
  destruct (write_done (ia_ov a) ov d) as [W [x W1]]. rewrite <- (app_nil_r (write_file (ia_dc a) dcb)) in C. apply cut_write in C. exists (File ov x). split; [|exact F1].
  destruct C as [->|[(p & q & _ & O & _)|C]]; [exact W1|rewrite O by exact NE; exact W1|].
  inversion C; subst. destruct (write_done (ia_dc a) dcb (fs_ops (write_file (ia_ov a) ov) d)) as [W2 _]. rewrite W2 by exact NE. exact W1.
Qed.
End init.

(** The device with that credential recognises that voucher: it accepts a first answer of an owner who shows its header
    and HMAC (whose signature it checks later, C14). *)
Theorem C65_recognised : forall c chk v info dc hb n5 tok ph,
  belong_together c chk v info dc -> header_raw v hb -> nlen (c_hmac c Sha384 (match dc_keys dc with Plain s _ => s | _ => [] end) hb) = 48 ->
  read_provehdr chk (cs_payload tok) = Ok ph -> ph_header ph = hb -> ph_hmac ph = ov_hmac v -> ph_nonce5 ph = n5 -> ph_sig ph = (ES384, []) ->
  check_hello c chk dc n5 tok = Ok ph.
Proof.
  intros c chk v info dc hb n5 tok ph (hb' & secret & sk & leaf & rest & HR & HD & _ & _ & _ & _ & _ & (kraw & NK & MH) & DK & EM & _) HR' HL RP EH EMM E5 ES.
  assert (hb' = hb) as -> by (destruct HR as (r1 & N1 & F1), HR' as (r2 & N2 & F2); congruence). rewrite DK in HL.
  assert (R : forall l, bytes_eqb l l = true) by (intros l; apply bytes_eqb_spec; reflexivity).
  unfold check_hello, cose_get_payload_unverified. rewrite RP. cbn [bind]. rewrite E5. unfold nonce_eq, memcmp_eq. rewrite N.eqb_refl. cbn [negb bind].
  rewrite R. cbn [negb]. rewrite ES. cbn [fst snd]. rewrite Z.eqb_refl. cbn [negb]. change (nlen (@nil N)) with 0. cbn [N.eqb negb].
  assert (VH : verify_hmac c dc (ph_header ph) (ph_hmac ph) = Ok tt).
  { rewrite EH, EMM, EM. unfold verify_hmac, perform_hmac. rewrite DK. cbn [h_type inner_hash]. unfold hash_from_digest. rewrite HL. change (digest_size HmacSha384) with 48. cbn [N.eqb negb Pos.eqb bind].
    unfold hash_compare, hash_eq, memcmp_eq. cbn [h_value h_type]. rewrite N.eqb_refl. cbn [negb bind]. rewrite R. reflexivity. }
  rewrite VH. cbn [bind]. rewrite EH, HD. cbn [bind]. rewrite MH. cbn [h_type]. unfold mfg_key_hash, get_hash, get_raw. rewrite NK. cbn [map_err bind]. unfold hash_from_data. cbn [digestible bind].
  unfold hash_compare, hash_eq, memcmp_eq. cbn [h_value]. rewrite N.eqb_refl. cbn [negb h_type bind]. rewrite R. reflexivity.
Qed.
(** And whoever has the manufacturer's key can hand the device on. *)
Theorem C65_can_be_handed_on : forall pm c chk kf rd mkcert d a dr d1 keyfile certfile rnd sk next fm mcert,
  outputs_ok c -> sign_correct c -> hmac_bytes c -> keyfns_ok c kf -> certifies c mkcert -> pem_ok pm -> readers_ok c rd ->
  inputs_small d a -> id_ok (ia_id a) -> draws_ok dr -> ia_ov a <> ia_dc a ->
  cm_result (init_cmd pm c kf rd mkcert d a dr) = Ok tt -> d1 = fs_ops (cm_ops (init_cmd pm c kf rd mkcert d a dr)) d -> files_ok d1 ->
  aget (ia_mfg a) d = Some fm -> rd_cert rd (f_data fm) = Some mcert -> c_cert_key c mcert = Some (c_pub c sk) ->
  holds_key rd d1 keyfile sk -> c_alg c (c_pub c sk) <> None ->
  (exists cert, load_x509 rd d1 certfile = Ok cert /\ pubkey_of_cert c (kf_type kf) (kf_der kf) cert = Ok next) ->
  exists v v', holds_voucher pm c chk d1 (ia_ov a) v /\ hd_guid (ov_header v) = dr_guid dr /\
    cm_result (extend_cmd pm c chk kf rd d1 (ia_ov a) keyfile certfile rnd) = Ok tt /\
    holds_voucher pm c chk (fs_ops (cm_ops (extend_cmd pm c chk kf rd d1 (ia_ov a) keyfile certfile rnd)) d1) (ia_ov a) v' /\ handed_on c chk sk next v v'.
Proof.
  intros pm c chk kf rd mkcert d a dr d1 keyfile certfile rnd sk next fm mcert HO HS HB HK HC HP HR IS IO DO NE R D1 F1 AM RM CM HKy AL NX.
  destruct (init_cases pm c kf rd mkcert d a dr) as [(mc & mfg & ca_sk & ca & rvb & rv & ov & dcb & E1 & E2 & E4 & E5 & E6 & A1 & A2 & EF & E)|[_ E]]; [|contradiction].
  rewrite E in D1. cbn [cm_ops] in D1. destruct (init_outputs pm c chk kf rd mkcert HO HB HK HC HP HR d a dr mc mfg ca_sk ca rvb rv ov dcb IS IO DO E1 E2 E4 E5 E6 EF) as (v & dc & FV & _ & OF & VV & T1 & T2).
  rewrite fs_ops_app in D1. destruct (write_done (ia_ov a) ov d) as [_ [x W1]]. destruct (write_done (ia_dc a) dcb (fs_ops (write_file (ia_ov a) ov) d)) as [O2 _].
  assert (HV : holds_voucher pm c chk d1 (ia_ov a) v) by (exists (File ov x); split; [rewrite D1, O2 by exact NE; exact W1|exact FV]).
  destruct OF as (BT & GV & _ & (f & ct & AF & RF & CF) & _). destruct BT as (hb & secret & dk & leaf & rest & _ & _ & _ & _ & _ & _ & _ & _ & _ & _ & _ & _ & _ & ER).
  assert (OW : c_pub c sk = pk_key (owner_after v [])) by (unfold owner_after; cbn [map last]; congruence).
  assert (VE : verify_entries c chk v = Ok []).
  { unfold entries_raw in ER. unfold verify_entries, iter_entries. rewrite ER. cbn [length iter_collect]. unfold iter_next. rewrite ER. reflexivity. }
  destruct (C64_owner_can pm c chk kf rd HO HS HK HP d1 (ia_ov a) keyfile certfile rnd v [] sk next F1 HV VV VE) as (RO & v' & HV' & HD); auto.
  { rewrite ER. reflexivity. } { rewrite T1. exact Logic.I. } { rewrite T2. exact Logic.I. }
  exists v, v'. auto.
Qed.

(** * C66 *)
Section import.
Context (pm : pem_codec) (c : crypto) (chk : bool).
Notation run t l := (import_dir pm c chk t 0 l).
(** Whatever happens, nothing in the database is changed or removed. *)
Theorem C66_adds_only : forall t l t' r, run t l = (t', r) -> exists new, t' = t ++ new.
Proof using. intros t l t' r H. eapply import_keeps. exact H. Qed.
(** If the tool runs to its end, every file is in the list of errors or its voucher was added, under its GUID, which was
    not there before, as a device that is neither registered nor onboarded; nothing else was added. *)
Theorem C66_accounted_partial : pem_ok pm -> forall t l t' errs, (forall b s, In (Contents b, s) l -> file_ok b) -> run t l = (t', Ok errs) ->
  exists new, t' = t ++ new /\ (length new + length errs = length l)%nat /\ NoDup errs /\ (forall e, In e errs -> (e < length l)%nat) /\
    (forall i, (i < length l)%nat -> ~ In i errs -> exists b v k r, nth_error l i = Some (Contents b, Works) /\ from_pem_or_raw pm c chk b = Ok v /\
       guid_text (hd_guid (ov_header v)) = Some k /\ aget k t = None /\ aget k t' = Some r /\ row_for c chk v r) /\
    (forall k r, In (k, r) new -> exists i b v, ~ In i errs /\ nth_error l i = Some (Contents b, Works) /\ from_pem_or_raw pm c chk b = Ok v /\
       guid_text (hd_guid (ov_header v)) = Some k /\ row_for c chk v r).
Proof using.
  intros HP t l t' errs HF H. destruct (import_accounts pm c chk HP l t 0 t' errs HF H) as (new & E & L & B & ND & A1 & A2). exists new. split; [exact E|]. split; [exact L|]. split; [exact ND|].
  split; [intros e I; apply B in I; lia|]. split.
  - intros i LI NI. destruct (A1 i LI NI) as (k & r & _ & G & N & b & v & X1 & X2 & X3 & X4). exists b, v, k, r. auto 10.
  - intros k r I. destruct (A2 k r I) as (_ & _ & j & NJ & b & v & X1 & X2 & X3 & X4). exists j, b, v. auto 10.
Qed.
(** A readable voucher is in the list of errors only if the database failed it or its GUID was there already, before or
    from an earlier file. *)
Theorem C66_errors : forall t l t' errs i b s v k, run t l = (t', Ok errs) -> In i errs -> nth_error l i = Some (Contents b, s) ->
  from_pem_or_raw pm c chk b = Ok v -> guid_text (hd_guid (ov_header v)) = Some k ->
  s <> Works \/ (exists r, aget k t = Some r) \/
  exists j b2 v2 s2, (j < i)%nat /\ nth_error l j = Some (Contents b2, s2) /\ from_pem_or_raw pm c chk b2 = Ok v2 /\ guid_text (hd_guid (ov_header v2)) = Some k.
Proof using.
  intros t l t' errs i b s v k H IE NI FV GT. destruct s; try (left; discriminate). right. exact (import_refused pm c chk l t 0 t' errs i b v k H NI FV GT IE).
Qed.
(** A single file: success says that it was added. *)
Theorem C66_single : forall t f s t' x, import_file pm c chk t f s = (t', x) ->
  match x with
  | Ok _ => exists b v k d, f = Contents b /\ from_pem_or_raw pm c chk b = Ok v /\ guid_text (hd_guid (ov_header v)) = Some k /\ aget k t = None /\
      voucher_serialize v = Ok d /\ t' = t ++ [(k, Row d None None None)]
  | _ => t' = t
  end.
Proof using.
  intros t f s t' x H. destruct f as [| |b]; cbn [import_file] in H; [inversion H; reflexivity..|]. apply import_one_cases in H. destruct x; [|exact H..].
  destruct H as (v & k & d & X1 & X2 & X3 & _ & X4 & X5). exists b, v, k, d. auto 10.
Qed.
End import.
(** What was added is due for registration with a rendezvous server, at any time. *)
Theorem C66_due : forall c chk v r now, row_for c chk v r -> db_selects false now r = true.
Proof. intros c chk v r now (_ & T2 & T0). unfold db_selects. rewrite T0, T2. reflexivity. Qed.

(** What one would like: one bad file does not keep the others out.  It is false. *)
Definition C66_statement : Prop := forall pm c chk t l, pem_ok pm -> (forall b s, In (Contents b, s) l -> file_ok b) -> (forall f s, In (f, s) l -> s = Works) ->
  exists t' errs, import_dir pm c chk t 0 l = (t', Ok errs).

(** * C67 *)
(** A voucher that the manufacturing server has can be fetched; the file then holds it. *)
Theorem C67_one : forall pm c chk {W} (be : backend voucher W) page now w w1 guid g k s v d file,
  pem_ok pm -> guid_parse guid = Some g -> guid_text g = Some k -> b_load be now w k = (w1, Ok (Some v)) ->
  bytes_ok s -> nlen s < 1152921504606846976 -> voucher_deserialize c chk s = Ok v -> tag_small (pa_tag (ov_contents v)) ->
  exists t, get_ov pm be page now w guid = (w1, Some (200, t)) /\ cm_result (export_cmd file (Some (200, t))) = Ok tt /\
    holds_voucher pm c chk (fs_ops (cm_ops (export_cmd file (Some (200, t)))) d) file v.
Proof.
  intros pm c chk W be page now w w1 guid g k s v d file HP GP GT BL BS LS DV TS. destruct (loaded_written c chk s v BS LS DV TS) as (b & SV & DV' & _).
  exists (pem_encode pm PEM_TAG b). assert (TP : to_pem pm v = Ok (pem_encode pm PEM_TAG b)) by (unfold to_pem; rewrite SV; reflexivity).
  split; [unfold get_ov; rewrite GP, GT, BL, TP; reflexivity|]. split; [reflexivity|]. cbn [export_cmd cm_ops].
  destruct (write_done file (pem_encode pm PEM_TAG b) d) as [_ [x G]]. exists (File (pem_encode pm PEM_TAG b) x). split; [exact G|]. eapply pem_reads; eassumption.
Qed.

(** Everything at once: from the manufacturer's database into an archive, and from its files, in any order, into the
    owner's: every voucher arrives, and nothing else does. *)
Theorem C67_transfer : forall pm c chk page pack tm, pem_ok pm -> issued_table c chk tm -> tm <> [] ->
  exists fs, post_export pack page (db_load_all (voucher_codec c chk) tm) = Some (200, pack fs) /\
    (forall k b, In (k, b) fs -> exists r v, In (k, r) tm /\ voucher_deserialize c chk (r_contents r) = Ok v /\ from_pem_or_raw pm c chk b = Ok v) /\
    forall files, Permutation files (map snd fs) ->
    exists to, import_dir pm c chk [] 0 (map (fun b => (Contents b, Works)) files) = (to, Ok []) /\
      (forall k r v, In (k, r) tm -> voucher_deserialize c chk (r_contents r) = Ok v -> exists r', aget k to = Some r' /\ row_for c chk v r') /\
      (forall k r', In (k, r') to -> exists r v, In (k, r) tm /\ voucher_deserialize c chk (r_contents r) = Ok v /\ row_for c chk v r').
Proof.
  intros pm c chk page pack tm HP [ND HT] NE.
  assert (LA : forall t, (forall k r, In (k, r) t -> In (k, r) tm) -> exists ovs, db_load_all (voucher_codec c chk) t = Ok ovs /\
    (forall v, In v ovs <-> exists k r, In (k, r) t /\ voucher_deserialize c chk (r_contents r) = Ok v) /\ (t <> [] -> ovs <> [])).
  { induction t as [|[k r] t IH]; intros S.
    - exists []. split; [reflexivity|]. split; [split; [intros []|intros (k & r & [] & _)]|auto].
    - destruct IH as (ovs & E & I & _); [intros k2 r2 I2; apply S; right; exact I2|]. destruct (HT k r (S k r (or_introl eq_refl))) as (_ & _ & v & DV & _).
      exists (v :: ovs). split; [unfold db_load_all in *; cbn [map de_all snd voucher_codec de]; rewrite DV, E; reflexivity|]. split; [|discriminate].
      intros v2. split.
      + intros [<-|J]; [exists k, r; split; [left; reflexivity|exact DV]|]. apply I in J. destruct J as (k2 & r2 & J & D2). exists k2, r2. split; [right; exact J|exact D2].
      + intros (k2 & r2 & [EQ|J] & D2); [inversion EQ; subst; left; congruence|]. right. apply I. eauto. }
  destruct (LA tm ltac:(auto)) as (ovs & EL & IL & NL). specialize (NL NE).
  (* every voucher of the table, written *)
  assert (HW : forall k r v, In (k, r) tm -> voucher_deserialize c chk (r_contents r) = Ok v -> exists b, voucher_serialize v = Ok b /\ voucher_deserialize c chk b = Ok v /\ file_ok b /\ guid_text (hd_guid (ov_header v)) = Some k).
  { intros k r v I DV. destruct (HT k r I) as (BR & LR & v2 & DV2 & GT & TS). assert (v2 = v) as -> by congruence. destruct (loaded_written c chk _ v BR ltac:(lia) DV TS) as (b & S1 & S2 & S3 & S4).
    exists b. split; [exact S1|]. split; [exact S2|]. split; [split; [exact S3|lia]|exact GT]. }
  destruct (export_works ovs []) as [fs EF].
  { intros v I. apply IL in I. destruct I as (k & r & I & DV). destruct (HW k r v I DV) as (b & S1 & _ & _ & GT). eauto. }
  destruct (export_some ovs [] fs EF (NoDup_nil _)) as (NF & A1 & _ & A3).
  assert (HF : forall k b, In (k, b) fs -> exists r v, In (k, r) tm /\ voucher_deserialize c chk (r_contents r) = Ok v /\ voucher_serialize v = Ok b /\ from_pem_or_raw pm c chk b = Ok v /\ file_ok b /\ guid_text (hd_guid (ov_header v)) = Some k).
  { intros k b I. apply (in_aget k b fs NF) in I. destruct (A1 k b I) as [X|(v & J & GT & SV)]; [discriminate|]. apply IL in J. destruct J as (k2 & r & J & DV).
    destruct (HW k2 r v J DV) as (b2 & S1 & S2 & S3 & GT2). assert (b2 = b) as -> by congruence. assert (k2 = k) as -> by congruence. exists r, v. split; [exact J|]. split; [exact DV|]. split; [exact S1|].
    split; [eapply C12_raw_or_pem; eassumption|]. split; [exact S3|exact GT]. }
  exists fs. split. { rewrite EL. unfold post_export. destruct ovs as [|o os] eqn:EO; [contradiction|]. rewrite EF. reflexivity. }
  split. { intros k b I. destruct (HF k b I) as (r & v & X1 & X2 & _ & X3 & _). eauto. }
  intros files P.
  (* the keys of the files, in their order *)
  assert (KS : exists pairs, files = map snd pairs /\ Permutation pairs fs).
  { destruct (Permutation_map_inv _ _ P) as (l & -> & Q). exists l. split; [reflexivity|]. apply Permutation_sym. exact Q. }
  destruct KS as (pairs & -> & Q).
  assert (NP : NoDup (map fst pairs)) by (eapply Permutation_NoDup; [apply Permutation_map, Permutation_sym; exact Q|exact NF]).
  assert (IP : forall k b, In (k, b) pairs -> In (k, b) fs) by (intros k b I; eapply Permutation_in; eassumption).
  destruct (import_all pm c chk (map snd pairs) (map fst pairs) [] 0) as [to ET]; [|exact NP|reflexivity|].
  { clear -HF IP. induction pairs as [|[k b] ps IH]; [constructor|]. cbn [map fst snd]. constructor; [|apply IH; intros k2 b2 I2; apply IP; right; exact I2].
    destruct (HF k b (IP k b (or_introl eq_refl))) as (r & v & _ & _ & X3 & X4 & _ & X5). exists v, b. auto. }
  exists to. split; [exact ET|].
  assert (FO : forall b s, In (Contents b, s) (map (fun b => (Contents b, Works)) (map snd pairs)) -> file_ok b).
  { intros b s I. apply in_map_iff in I. destruct I as (b1 & EQ & I). inversion EQ; subst b1. apply in_map_iff in I. destruct I as ([k b2] & EB & I). cbn [snd] in EB. subst b2.
    destruct (HF k b (IP _ _ I)) as (r & v & _ & _ & _ & _ & X & _). exact X. }
  destruct (import_accounts pm c chk HP _ [] 0 to [] FO ET)
    as (new & EN & LN & _ & _ & B1 & B2). cbn [app] in EN. subst new.
  split.
  - intros k r v I DV. destruct (HW k r v I DV) as (b & S1 & S2 & S3 & GT). assert (IO : In v ovs) by (apply IL; eauto).
    destruct (A3 v k IO GT) as [b1 G1]. apply aget_in in G1. assert (IB : In (k, b1) pairs) by (eapply Permutation_in; [apply Permutation_sym; exact Q|exact G1]).
    destruct (HF k b1 G1) as (r1 & v1 & J1 & D1 & _ & F1 & _ & _).
    assert (r1 = r) as -> by (pose proof (in_aget k r tm ND I); pose proof (in_aget k r1 tm ND J1); congruence). assert (v1 = v) as -> by congruence.
    destruct (In_nth_error _ _ IB) as [n NN].
    destruct (B1 n) as (k2 & r2 & _ & G2 & _ & b2 & v2 & N2 & F2 & GT2 & RF2); [rewrite !map_length; apply nth_error_Some; rewrite NN; discriminate|intros []|].
    rewrite !nth_error_map, NN in N2. cbn [option_map snd] in N2. inversion N2; subst b2. assert (v2 = v) as -> by congruence. assert (k2 = k) as -> by congruence. eauto.
  - intros k r' I. destruct (B2 k r' I) as (_ & _ & j & _ & b & v & N2 & F2 & GT2 & RF2). rewrite !nth_error_map in N2. destruct (nth_error pairs j) as [[k1 b1]|] eqn:NJ; [|discriminate].
    cbn [option_map snd] in N2. inversion N2; subst b1. apply nth_error_In in NJ. destruct (HF k1 b (IP _ _ NJ)) as (r1 & v1 & J1 & D1 & _ & F1 & _ & GT1). assert (v1 = v) as -> by congruence. assert (k1 = k) as -> by congruence. eauto.
Qed.

(** * C68 *)
(** What one would like: an export that is reported as done left a voucher, and one that failed left the file as it was.
    Both are false. *)
Definition C68_statement : Prop := forall pm c chk d file reply, pem_ok pm ->
  (cm_result (export_cmd file reply) = Ok tt -> exists v, holds_voucher pm c chk (fs_ops (cm_ops (export_cmd file reply)) d) file v) /\
  (cm_result (export_cmd file reply) <> Ok tt -> fs_ops (cm_ops (export_cmd file reply)) d = d).
(** What remains: other files are not touched, and what was answered is what is written; so it holds a voucher if and only
    if the answer does, and nothing looked at the answer. *)
Theorem C68_answer_partial : forall pm c chk d d' file reply, cut d (cm_ops (export_cmd file reply)) d' ->
  (forall n, n <> file -> aget n d' = aget n d) /\
  forall code body, reply = Some (code, body) -> d' = fs_ops (cm_ops (export_cmd file reply)) d -> forall v, holds_voucher pm c chk d' file v <-> from_pem_or_raw pm c chk body = Ok v.
Proof.
  intros pm c chk d d' file reply C. split.
  - intros n NE. destruct reply as [[code body]|]; cbn [export_cmd cm_ops] in C.
    + rewrite <- (app_nil_r (write_file file body)) in C. apply cut_write in C. destruct C as [->|[(p & q & _ & O & _)|C]]; [reflexivity|apply O; exact NE|]. inversion C; subst. apply write_done. exact NE.
    + inversion C; subst; [reflexivity|]. match goal with X : cut _ [] _ |- _ => inversion X; subst end. cbn [fs_op]. apply get_create_ne. exact NE.
  - intros code body -> -> v. cbn [export_cmd cm_ops]. destruct (write_done file body d) as [_ [x W]]. split.
    + intros (f & G & F). rewrite W in G. inversion G; subst f. exact F.
    + intros F. exists (File body x). auto.
Qed.

(** * Examples *)
(** A toy PEM: two dashes, the tag with its length, the contents *)
Definition pm_toy : pem_codec := Pem (fun tag d => 45 :: 45 :: nlen tag :: tag ++ d)
  (fun b => match b with x :: y :: n :: r => if (x =? 45) && (y =? 45) && (n <=? nlen r) then Some (firstn (N.to_nat n) r, skipn (N.to_nat n) r) else None | _ => None end).
Lemma pm_toy_ok : pem_ok pm_toy.
Proof.
  split; [|split; [|split]].
  - intros tag d. cbn [pm_toy pem_parse pem_encode N.eqb Pos.eqb andb]. rewrite nlen_app. replace (nlen tag <=? nlen tag + nlen d) with true by lia.
    replace (N.to_nat (nlen tag)) with (length tag) by (unfold nlen; lia). rewrite firstn_app, firstn_all, skipn_app, skipn_all, Nat.sub_diag. cbn [firstn skipn app]. rewrite app_nil_r. reflexivity.
  - intros tag d. cbn [pm_toy pem_encode]. eauto.
  - intros tag d. cbn [pm_toy pem_encode]. unfold nlen. cbn [length]. rewrite app_length. lia.
  - intros b tag d B H. cbn [pm_toy pem_parse] in H. destruct b as [|x [|y [|n r]]]; try discriminate. destruct ((x =? 45) && (y =? 45) && (n <=? nlen r)); [|discriminate]. inversion H; subst. clear H.
    apply bytes_ok_cons in B. destruct B as [_ B]. apply bytes_ok_cons in B. destruct B as [_ B]. apply bytes_ok_cons in B. destruct B as [_ B].
    split; [unfold bytes_ok in *; rewrite <- (firstn_skipn (N.to_nat n)) in B; apply Forall_app in B; apply B|]. unfold nlen. cbn [length]. rewrite skipn_length. lia.
Qed.
Definition rd_toy : readers := Readers Some Some (fun b => if bytes_eqb b [43; 43] then Some [[43; 43]] else None) (fun _ => Ok ex_rv).
Lemma rd_toy_ok : readers_ok toy rd_toy.
Proof.
  pose proof (mcf_ok true true true) as X. unfold mfconf_ok, mcf in X. cbn [mf_rv mf_ca mf_owner] in X. destruct X as (X1 & X2 & X3 & X4 & X5 & _). split.
  - intros b ch _ H. cbn [rd_toy rd_certs] in H. destruct (bytes_eqb b [43; 43]); inversion H; subst. split; [exact X3|]. split; [vm_compute; reflexivity|exact X5].
  - intros b rv _ H. cbn [rd_toy rd_rv] in H. inversion H; subst. auto.
Qed.
(** A manufacturer's workplace: certificates and keys of the manufacturer (7), the CA for devices (43) and an owner (8) *)
Definition n_mfg := txt "mfg.crt". Definition n_mkey := txt "mfg.key". Definition n_ca := txt "ca.crt". Definition n_cakey := txt "ca.key". Definition n_rv := txt "rv.yml".
Definition n_own := txt "owner.crt". Definition n_ov := txt "a.ov". Definition n_dc := txt "a.dc".
Definition fl (b : bytes) : file := File b [].
Definition d_toy : dir := [(n_mfg, fl [7; 7]); (n_mkey, fl [7]); (n_ca, fl [43; 43]); (n_cakey, fl [43]); (n_rv, fl []); (n_own, fl [8; 8])].
Definition ia_toy := InitArgs (txt " pi ") n_ov n_dc n_mfg n_cakey n_ca n_rv.
Definition dr_toy := Draws [42] [1; 2; 3] [1; 2; 3; 4; 5; 6; 7; 8; 9; 10; 11; 12; 13; 14; 15; 16] [].
Definition i_toy := init_cmd pm_toy toy kf_toy rd_toy mk_toy d_toy ia_toy dr_toy.
Definition d1_toy : dir := fs_ops (cm_ops i_toy) d_toy.
Definition e_toy (d : dir) := extend_cmd pm_toy toy true kf_toy rd_toy d n_ov n_mkey n_own [].
Definition d2_toy : dir := fs_ops (cm_ops (e_toy d1_toy)) d1_toy.
(** What can be said of a file: its GUID, device information and the keys of its owners *)
Definition shown (d : dir) (n : name) : option (bytes * str * outcome ferr (list bytes)) :=
  match aget n d with
  | Some f => match from_pem_or_raw pm_toy toy true (f_data f) with
      | Ok v => Some (hd_guid (ov_header v), hd_devinfo (ov_header v), match verify_entries toy true v with Ok ps => Ok (map (fun p => pk_key (p_key p)) ps) | Err e => Err e | Panic w => Panic w end)
      | _ => None end
  | None => None end.
Definition dir_ok (d : dir) : bool := forallb (fun e => forallb (fun b => b <? 256) (f_data (snd e)) && (nlen (f_data (snd e)) <? 1073741824)) d.
Lemma dir_ok_files d : dir_ok d = true -> files_ok d.
Proof.
  intros H n f G. apply aget_in in G. unfold dir_ok in H. rewrite forallb_forall in H. specialize (H _ G). cbn [snd] in H. apply andb_prop in H. destruct H as [H1 H2]. split; [|lia].
  unfold bytes_ok. rewrite forallb_forall in H1. apply Forall_forall. intros x I. specialize (H1 x I). lia.
Qed.
Example C64_C65_run :
  cm_result i_toy = Ok tt /\ shown d1_toy n_ov = Some (dr_guid dr_toy, txt "pi", Ok []) /\
  cm_result (e_toy d1_toy) = Ok tt /\ shown d2_toy n_ov = Some (dr_guid dr_toy, txt "pi", Ok [[8]]) /\ map fst d2_toy = [n_mfg; n_mkey; n_ca; n_cakey; n_rv; n_own; n_ov; n_dc] /\
  (* run again: the manufacturer is not the owner any more; and initialising again would overwrite *)
  cm_result (e_toy d2_toy) = Err tt /\ cm_result (init_cmd pm_toy toy kf_toy rd_toy mk_toy d2_toy ia_toy dr_toy) = Err tt.
Proof. vm_compute. repeat split. Qed.
Lemma dirs_ok : dir_ok d1_toy && dir_ok d2_toy = true.
Proof. vm_compute. reflexivity. Qed.
Example C64_hypotheses : outputs_ok toy /\ sign_correct toy /\ keyfns_ok toy kf_toy /\ pem_ok pm_toy /\ files_ok d1_toy /\ files_ok (fs_ops (cm_ops (e_toy d1_toy)) d1_toy) /\
  exists v v' sk next, holds_voucher pm_toy toy true d1_toy n_ov v /\ holds_key rd_toy d1_toy n_mkey sk /\ names_owner toy rd_toy d1_toy n_own next /\
    holds_voucher pm_toy toy true d2_toy n_ov v' /\ handed_on toy true sk next v v'.
Proof.
  pose proof dirs_ok as D. apply andb_prop in D. destruct D as [D1 D2]. apply dir_ok_files in D1, D2.
  split; [exact toy_outputs_ok|]. split; [exact toy_sign_correct|]. split; [exact kf_toy_ok|]. split; [exact pm_toy_ok|]. split; [exact D1|]. split; [exact D2|].
  apply (C64_success pm_toy toy true kf_toy rd_toy toy_outputs_ok toy_sign_correct kf_toy_ok pm_toy_ok d1_toy n_ov n_mkey n_own [] D1 D2). apply C64_C65_run.
Qed.
Lemma ia_toy_ok : inputs_small d_toy ia_toy /\ id_ok (ia_id ia_toy) /\ draws_ok dr_toy /\ ia_ov ia_toy <> ia_dc ia_toy.
Proof.
  split; [|split; [|split]].
  - intros n f [-> | ->] G; vm_compute in G; inversion G; subst; reflexivity.
  - split; [vm_compute; reflexivity|vm_compute; discriminate].
  - unfold draws_ok, key_bytes, bytes_ok. cbn [dr_toy dr_sk dr_secret dr_guid]. repeat split; repeat constructor.
  - vm_compute. discriminate.
Qed.
Example C65_hypotheses : exists v f dc, holds_voucher pm_toy toy true d1_toy n_ov v /\ aget n_dc d1_toy = Some f /\ from_slice as_cred (f_data f) = Ok (txt " pi ", dc) /\
  outputs_for toy true rd_toy d_toy ia_toy dr_toy v dc.
Proof.
  destruct ia_toy_ok as (I1 & I2 & I3 & I4).
  apply (C65_made_for_each_other pm_toy toy true kf_toy rd_toy mk_toy toy_outputs_ok toy_hmac_bytes kf_toy_ok mk_toy_ok pm_toy_ok rd_toy_ok d_toy ia_toy dr_toy I1 I2 I3 I4). apply C64_C65_run.
Qed.
(** Both outputs in one file: the credential replaces the voucher, and the tool reports success. *)
Example C65_same_path : cm_result (init_cmd pm_toy toy kf_toy rd_toy mk_toy d_toy (InitArgs (txt "pi") n_ov n_ov n_mfg n_cakey n_ca n_rv) dr_toy) = Ok tt /\
  shown (fs_ops (cm_ops (init_cmd pm_toy toy kf_toy rd_toy mk_toy d_toy (InitArgs (txt "pi") n_ov n_ov n_mfg n_cakey n_ca n_rv) dr_toy)) d_toy) n_ov = None.
Proof. vm_compute. split; reflexivity. Qed.

(** Two vouchers as files, the new one and the handed-on one, with the same GUID *)
Definition ov_bytes (d : dir) : bytes := match aget n_ov d with Some f => f_data f | None => [] end.
Example C66_run :
  match import_dir pm_toy toy true [] 0 [(NoRead, Works); (Contents (ov_bytes d2_toy), Works); (Contents (ov_bytes d1_toy), Works); (Contents [130; 1], Works)] with
  | (t, Ok errs) => length t = 1%nat /\ errs = [0; 2; 3]%nat
  | _ => False
  end.
Proof. vm_compute. split; reflexivity. Qed.
Theorem C66_refuted : ~ C66_statement.
Proof.
  intros H. destruct (H pm_toy toy true [] [(Contents [45], Works)] pm_toy_ok) as (t' & errs & E).
  - intros b s [EQ|[]]. inversion EQ; subst. split; [repeat constructor|reflexivity].
  - intros f s [EQ|[]]. inversion EQ; reflexivity.
  - discriminate.
Qed.
(** The file of one byte stops the import: the voucher after it does not come in. *)
Example C66_stopped : import_dir pm_toy toy true [] 0 [(Contents [45], Works); (Contents (ov_bytes d2_toy), Works)] = ([], Panic P_INDEX).
Proof. vm_compute. reflexivity. Qed.

Definition tm_toy : table := match import_dir pm_toy toy true [] 0 [(Contents (ov_bytes d2_toy), Works)] with (t, _) => t end.
Definition tm_check : bool := match tm_toy with
  | [(k, r)] => forallb (fun b => b <? 256) (r_contents r) && (nlen (r_contents r) <? 1000000) &&
      match voucher_deserialize toy true (r_contents r) with
      | Ok v => match guid_text (hd_guid (ov_header v)), pa_tag (ov_contents v) with Some k', None => bytes_eqb k k' | _, _ => false end
      | _ => false end
  | _ => false end.
Lemma tm_checked : tm_check = true.
Proof. vm_compute. reflexivity. Qed.
Example C67_hypotheses : issued_table toy true tm_toy /\ tm_toy <> [].
Proof.
  pose proof tm_checked as H. unfold tm_check in H. destruct tm_toy as [|[k r] [|? ?]]; try discriminate. split; [|discriminate]. split; [repeat constructor; intros []|].
  intros k' r' [EQ|[]]. inversion EQ; subst k' r'. apply andb_prop in H. destruct H as [H H3]. apply andb_prop in H. destruct H as [H1 H2].
  split; [unfold bytes_ok; rewrite forallb_forall in H1; apply Forall_forall; intros x I; specialize (H1 x I); lia|]. split; [lia|].
  destruct (voucher_deserialize toy true (r_contents r)) as [v| |]; try discriminate. exists v. split; [reflexivity|].
  destruct (guid_text (hd_guid (ov_header v))) as [k'|]; [|discriminate]. destruct (pa_tag (ov_contents v)); [discriminate|]. apply bytes_eqb_spec in H3. subst k'. split; [reflexivity|exact Logic.I].
Qed.
Theorem C68_refuted : ~ C68_statement.
Proof.
  intros H. destruct (H pm_toy toy true [] n_ov (Some (500, [])) pm_toy_ok) as [H1 _]. destruct (H1 eq_refl) as (v & f & G & F). vm_compute in G. inversion G; subst f. discriminate.
Qed.
(** A request that fails leaves an empty file where the voucher was; a voucher that is not there closes the connection,
    and an error page is saved as a voucher. *)
Example C68_findings :
  shown (fs_ops (cm_ops (export_cmd n_ov None)) d2_toy) n_ov = None /\ shown d2_toy n_ov <> None /\ cm_result (export_cmd n_ov None) = Err tt /\
  get_ov pm_toy (dir_backend (voucher_codec toy true)) (txt "oops") 0 [] (txt "01020304-0506-0708-090a-0b0c0d0e0f10") = ([], None) /\
  get_ov pm_toy (dir_backend (voucher_codec toy true)) (txt "oops") 0 [] (txt "nobody") = ([], Some (500, txt "oops")) /\
  cm_result (export_cmd n_ov (Some (500, txt "oops"))) = Ok tt.
Proof. vm_compute. repeat split. discriminate. Qed.

Print Assumptions C64_all_or_nothing.
Print Assumptions C64_success.
Print Assumptions C64_refused.
Print Assumptions C64_owner_can.
Print Assumptions C64_can_be_repeated.
Print Assumptions C64_not_twice.
Print Assumptions C65_never_overwrites.
Print Assumptions C65_refused.
Print Assumptions C65_made_for_each_other.
Print Assumptions C65_credential_last.
Print Assumptions C65_recognised.
Print Assumptions C65_can_be_handed_on.
Print Assumptions C66_adds_only.
Print Assumptions C66_accounted_partial.
Print Assumptions C66_errors.
Print Assumptions C66_single.
Print Assumptions C66_due.
Print Assumptions C66_refuted.
Print Assumptions C67_one.
Print Assumptions C67_transfer.
Print Assumptions C68_answer_partial.
Print Assumptions C68_refuted.
