(** Proofs about the all-in-one: the servers it starts. *)
From Verif Require Import Base BaseFacts CborModel ValueModel ValueProofs Text TypesModel TypesProofs CryptoSpec Assoc RvModel RvYamlModel RvServerModel RvServerSpec SiApiModel OwnerModel To0Model To0Spec MfgModel MfgSpec FactorySpec LifeSpec SiProofs OnboardSi AioModel AioSpec AioProofs.
From Coq Require Import ZifyBool ZifyNat ZifyN.
Local Open Scope N_scope.
Local Opaque dec_top.

(** * Addresses *)
Lemma valid_address ip : address ip -> (is_valid_address ip = true <-> reachable_at ip).
Proof.
  intros (_ & L). unfold reachable_at, loopback, unspecified, multicast, is_valid_address.
  destruct ip as [|a [|b [|x [|d [|e r]]]]]; try (exfalso; unfold nlen in L; cbn [length] in L; lia).
  - cbn [repeat app]. split.
    + intros H. repeat split.
      * intros [(b' & x' & d' & E)|E]; [injection E as -> -> -> ->|discriminate]. rewrite N.eqb_refl in H. rewrite andb_false_r in H. discriminate.
      * intros [E|E]; [injection E as -> -> -> ->; discriminate|discriminate].
      * intros [(a' & b' & x' & d' & E & R)|(E & _)]; [injection E as -> -> -> ->; lia|discriminate].
    + intros (N1 & N2 & N3). apply andb_true_intro. split; [apply andb_true_intro; split|].
      * destruct ((a =? 0) && (b =? 0) && (x =? 0) && (d =? 0)) eqn:E; [|reflexivity]. exfalso. apply N2. left. repeat f_equal; lia.
      * destruct (a =? 127) eqn:E; [|reflexivity]. exfalso. apply N1. left. exists b, x, d. f_equal. lia.
      * destruct ((224 <=? a) && (a <=? 239)) eqn:E; [|reflexivity]. exfalso. apply N3. left. exists a, b, x, d. split; [reflexivity|lia].
  - assert (L16 : nlen (a :: b :: x :: d :: e :: r) = 16) by (unfold nlen in *; cbn [length] in *; lia).
    set (ip := a :: b :: x :: d :: e :: r) in *. split.
    + intros H. apply andb_true_iff in H. destruct H as (H & H3). apply andb_true_iff in H. destruct H as (H1 & H2). repeat split.
      * intros [(b' & x' & d' & E)|E]; [discriminate|]. rewrite E, bytes_eqb_refl in H2. discriminate.
      * intros [E|E]; [discriminate|]. rewrite E, bytes_eqb_refl in H1. discriminate.
      * intros [(a' & b' & x' & d' & E & R)|(_ & r' & E)]; [discriminate|]. injection E as -> _. discriminate.
    + intros (N1 & N2 & N3). apply andb_true_intro. split; [apply andb_true_intro; split|].
      * destruct (bytes_eqb ip (repeat 0 16)) eqn:E; [|reflexivity]. apply bytes_eqb_spec in E. exfalso. apply N2. right. exact E.
      * destruct (bytes_eqb ip (repeat 0 15 ++ [1])) eqn:E; [|reflexivity]. apply bytes_eqb_spec in E. exfalso. apply N1. right. exact E.
      * destruct (a =? 255) eqn:E; [|reflexivity]. exfalso. apply N3. right. split; [exact L16|]. exists (b :: x :: d :: e :: r). unfold ip. f_equal. lia.
Qed.
Lemma contacts_are o dr : draws_ok dr -> contacts_for o dr (contact_addresses o (dr_ifs dr)).
Proof.
  intros [IF _]. unfold contacts_for, contact_addresses. destruct (ao_hostname o); [reflexivity|].
  induction IF as [|ip l A IF IH]; [constructor|]. cbn [filter]. destruct (is_valid_address ip) eqn:E; cbn [map].
  - apply ro_keep; [apply valid_address; assumption|exact IH].
  - apply ro_skip; [|exact IH]. intros R. apply valid_address in R; [congruence|exact A].
Qed.
Definition contact_ok (a : contact) : Prop := match a with CIp ip => address ip | CHost h => text_ok h end.
Lemma contacts_ok o dr : opts_ok o -> draws_ok dr -> Forall contact_ok (contact_addresses o (dr_ifs dr)) /\ nlen (contact_addresses o (dr_ifs dr)) <= 65535.
Proof.
  intros [_ _ H] [IF F]. unfold contact_addresses. destruct (ao_hostname o) as [h|]; [split; [constructor; [apply H; reflexivity|constructor]|unfold nlen; cbn [length]; lia]|].
  split.
  - apply Forall_map, Forall_forall. intros ip I'. apply filter_In in I'. rewrite Forall_forall in IF. apply IF, I'.
  - unfold nlen in *. rewrite map_length. assert (L : (length (filter is_valid_address (dr_ifs dr)) <= length (dr_ifs dr))%nat) by (clear; induction (dr_ifs dr) as [|x l IH]; cbn [filter length]; [lia|destruct (is_valid_address x); cbn [length]; lia]). lia.
Qed.

(** * Rendezvous information *)
Section Rv.
Context (show_ip : bytes -> str) (parse_ip : str -> option bytes) (IT : ip_texts show_ip parse_ip).
Definition where_val (a : contact) : N * cval := match a with CIp ip => (RV_IPAddress, VBytes ip) | CHost h => (RV_Dns, VText (utf8_enc h)) end.
Definition directive (port : N) (a : contact) : rv_directive :=
  [(RV_DevicePort, enc (VInt (Z.of_N port))); (fst (where_val a), enc (snd (where_val a))); (RV_OwnerPort, enc (VInt (Z.of_N port))); (RV_Protocol, enc (VInt 1))].
Lemma load_one port a : contact_ok a -> load_entry parse_ip (rendezvous_entry show_ip port a) =
  Ok [(RV_DevicePort, VInt (Z.of_N port)); where_val a; (RV_OwnerPort, VInt (Z.of_N port)); (RV_Protocol, VInt 1)].
Proof using IT.
  intros OKA. unfold rendezvous_entry. destruct a as [ip|h]; cbn [contact_ok where_val] in *; cbn [load_entry].
  - change (var_of_str (txt "deviceport")) with (Some RV_DevicePort). change (var_of_str (txt "ip_address")) with (Some RV_IPAddress).
    change (var_of_str (txt "ownerport")) with (Some RV_OwnerPort). change (var_of_str (txt "protocol")) with (Some RV_Protocol).
    cbn [of_option bind yaml_to_cbor]. unfold value_from_human_to_machine. cbn [N.eqb orb RV_DeviceOnly RV_OwnerOnly RV_UserInput RV_Bypass RV_DevicePort RV_OwnerPort RV_Delaysec RV_Dns RV_WifiSsid RV_WifiPw RV_Protocol RV_IPAddress Pos.eqb].
    rewrite (proj1 (IT ip OKA)). reflexivity.
  - change (var_of_str (txt "deviceport")) with (Some RV_DevicePort). change (var_of_str (txt "dns")) with (Some RV_Dns).
    change (var_of_str (txt "ownerport")) with (Some RV_OwnerPort). change (var_of_str (txt "protocol")) with (Some RV_Protocol). reflexivity.
Qed.
Lemma load_all port l : Forall contact_ok l -> load_settings parse_ip (map (rendezvous_entry show_ip port) l) = Ok (map (directive port) l).
Proof using IT.
  intros H. unfold load_settings.
  assert (E : load_entries parse_ip (map (rendezvous_entry show_ip port) l) = Ok (map (fun a => [(RV_DevicePort, VInt (Z.of_N port)); where_val a; (RV_OwnerPort, VInt (Z.of_N port)); (RV_Protocol, VInt 1)]) l)).
  { induction H as [|a l OKA H IH]; [reflexivity|]. cbn [map load_entries]. rewrite load_one by exact OKA. cbn [bind]. rewrite IH. reflexivity. }
  rewrite E. cbn [bind]. unfold rv_info_new. rewrite map_map. reflexivity.
Qed.

Definition interp (port : N) (a : contact) : rv_interp :=
  Interp (match a with CIp ip => [ip] | CHost _ => [] end) (match a with CIp _ => None | CHost h => Some h end) port None None false None None None PR_Http 0 false.
Lemma int_read {A} (f : cval -> option A) n : n <= 4294967295 -> from_slice f (enc (VInt (Z.of_N n))) = of_option FSerde (f (VInt (Z.of_N n))).
Proof. intros L. apply from_slice_enc. change MAX_DEPTH with (S 127). cbn [vok]. unfold two64. lia. Qed.
Lemma u32_read n : n <= 4294967295 -> as_u32 (VInt (Z.of_N n)) = Some n.
Proof. intros L. unfold as_u32, as_int. cbn [untag]. replace ((0 <=? Z.of_N n) && (Z.of_N n <=? 4294967295))%Z with true by lia. cbn [option_map]. rewrite N2Z.id. reflexivity. Qed.
Lemma where_read a : contact_ok a -> from_slice Some (enc (snd (where_val a))) = Ok (snd (where_val a)).
Proof.
  intros OKA. rewrite from_slice_enc; [reflexivity|]. change MAX_DEPTH with (S 127). destruct a as [ip|h]; cbn [where_val snd vok contact_ok] in *.
  - destruct OKA as (B & L). split; [exact B|]. unfold two64. lia.
  - destruct OKA as (S1 & S2). split; [apply utf8_enc_ok; exact S1|]. unfold two64. lia.
Qed.
Lemma step_where sd acc a : contact_ok a -> rv_step sd acc (fst (where_val a), enc (snd (where_val a))) =
  Ok (Some (match a with
            | CIp ip => Acc (ac_ips acc ++ [ip]) (ac_dns acc) (ac_port acc) (ac_sch acc) (ac_cch acc) (ac_ui acc) (ac_ssid acc) (ac_pw acc) (ac_med acc) (ac_proto acc) (ac_delay acc) (ac_bypass acc)
            | CHost h => Acc (ac_ips acc) (Some h) (ac_port acc) (ac_sch acc) (ac_cch acc) (ac_ui acc) (ac_ssid acc) (ac_pw acc) (ac_med acc) (ac_proto acc) (ac_delay acc) (ac_bypass acc) end)).
Proof.
  intros OKA. unfold rv_step. destruct acc as [ips dns port sch cch ui ssid pw med proto delay byp]. rewrite where_read by exact OKA. cbn [bind].
  destruct a as [ip|h]; cbn [where_val fst snd contact_ok] in *.
  - change (RV_IPAddress =? RV_DeviceOnly) with false. change (RV_IPAddress =? RV_OwnerOnly) with false. change (RV_IPAddress =? RV_IPAddress) with true. cbv iota.
    unfold from_value, as_ip. cbn [untag]. replace ((nlen ip =? 4) || (nlen ip =? 16)) with true by (destruct OKA as (_ & L); lia). reflexivity.
  - change (RV_Dns =? RV_DeviceOnly) with false. change (RV_Dns =? RV_OwnerOnly) with false. change (RV_Dns =? RV_IPAddress) with false.
    change (RV_Dns =? RV_DevicePort) with false. change (RV_Dns =? RV_OwnerPort) with false. change (RV_Dns =? RV_Dns) with true. cbv iota.
    unfold from_value, as_string. cbn [untag]. rewrite utf8_roundtrip by apply OKA. reflexivity.
Qed.
Lemma read_one port a sd : contact_ok a -> port <= 65535 -> from_rv_directive (directive port a) sd = Ok (Some (interp port a)).
Proof.
  intros OKA P. unfold from_rv_directive, directive. cbn [rv_loop].
  assert (DP : forall acc, rv_step sd acc (RV_DevicePort, enc (VInt (Z.of_N port))) = Ok (Some (if side_eqb sd Device then
      Acc (ac_ips acc) (ac_dns acc) (Some port) (ac_sch acc) (ac_cch acc) (ac_ui acc) (ac_ssid acc) (ac_pw acc) (ac_med acc) (ac_proto acc) (ac_delay acc) (ac_bypass acc) else acc))).
  { intros [ips dns po sch cch ui ssid pw med proto delay byp]. unfold rv_step. rewrite int_read by lia. cbn [of_option bind].
    change (RV_DevicePort =? RV_DeviceOnly) with false. change (RV_DevicePort =? RV_OwnerOnly) with false. change (RV_DevicePort =? RV_IPAddress) with false. change (RV_DevicePort =? RV_DevicePort) with true. cbv iota.
    unfold from_value. rewrite u32_read by lia. destruct (side_eqb sd Device); reflexivity. }
  assert (OP : forall acc, rv_step sd acc (RV_OwnerPort, enc (VInt (Z.of_N port))) = Ok (Some (if side_eqb sd RvModel.Owner then
      Acc (ac_ips acc) (ac_dns acc) (Some port) (ac_sch acc) (ac_cch acc) (ac_ui acc) (ac_ssid acc) (ac_pw acc) (ac_med acc) (ac_proto acc) (ac_delay acc) (ac_bypass acc) else acc))).
  { intros [ips dns po sch cch ui ssid pw med proto delay byp]. unfold rv_step. rewrite int_read by lia. cbn [of_option bind].
    change (RV_OwnerPort =? RV_DeviceOnly) with false. change (RV_OwnerPort =? RV_OwnerOnly) with false. change (RV_OwnerPort =? RV_IPAddress) with false. change (RV_OwnerPort =? RV_DevicePort) with false. change (RV_OwnerPort =? RV_OwnerPort) with true. cbv iota.
    unfold from_value. rewrite u32_read by lia. destruct (side_eqb sd RvModel.Owner); reflexivity. }
  assert (PR : forall acc, rv_step sd acc (RV_Protocol, enc (VInt 1)) = Ok (Some
      (Acc (ac_ips acc) (ac_dns acc) (ac_port acc) (ac_sch acc) (ac_cch acc) (ac_ui acc) (ac_ssid acc) (ac_pw acc) (ac_med acc) 1 (ac_delay acc) (ac_bypass acc)))).
  { intros [ips dns po sch cch ui ssid pw med proto delay byp]. unfold rv_step. change (VInt 1) with (VInt (Z.of_N 1)). rewrite int_read by lia. cbn [of_option bind].
    repeat (match goal with |- context [RV_Protocol =? ?x] => let b := eval vm_compute in (RV_Protocol =? x) in change (RV_Protocol =? x) with b end; cbv iota). reflexivity. }
  rewrite DP. cbn [bind]. rewrite step_where by exact OKA. cbn [bind]. rewrite OP. cbn [bind]. rewrite PR. cbn [bind].
  destruct sd, a; reflexivity.
Qed.
Lemma read_all port sd l : Forall contact_ok l -> port <= 65535 -> to_interpreted (map (directive port) l) sd = Ok (map (interp port) l).
Proof.
  intros H P. induction H as [|a l OKA H IH]; [reflexivity|]. cbn [map to_interpreted]. rewrite read_one by assumption. cbn [bind]. rewrite IH. reflexivity.
Qed.
Lemma urls_one port a : get_urls show_ip (interp port a) = [url show_ip port a].
Proof using Type. clear. destruct a; reflexivity. Qed.
Lemma clients_one port a : get_client_list show_ip (interp port a) = Some [url show_ip port a].
Proof using Type. clear. destruct a; reflexivity. Qed.
Lemma rv_fine port l : Forall contact_ok l -> port <= 65535 -> nlen l <= 65535 -> rv_ok (map (directive port) l).
Proof.
  intros H P L. split; [unfold nlen in *; rewrite map_length; lia|]. apply Forall_map. eapply Forall_impl; [|exact H]. intros a OKA. cbv beta.
  split; [unfold directive, nlen; cbn [length]; lia|].
  assert (HI : forall n, bytes_ok (enc (VInt (Z.of_N n))) /\ nlen (enc (VInt (Z.of_N n))) <= 9).
  { intros n. cbn [enc]. unfold enc_int. replace (0 <=? Z.of_N n)%Z with true by lia. split; [apply head_ok; lia|]. apply enc_head_nlen. }
  unfold directive. repeat constructor; cbn [fst snd].
  - unfold RV_DevicePort. lia.
  - apply HI.
  - destruct (HI port). lia.
  - destruct a; cbn [where_val fst]; unfold RV_IPAddress, RV_Dns; lia.
  - destruct a as [ip|h]; cbn [where_val snd contact_ok] in *; [apply bytes_enc_ok, OKA|apply text_enc_ok, OKA].
  - destruct a as [ip|h]; cbn [where_val snd contact_ok] in *.
    + cbn [enc]. rewrite nlen_app. pose proof (enc_head_nlen 2 (nlen ip)). destruct OKA as (_ & OKA). lia.
    + cbn [enc]. rewrite nlen_app. pose proof (enc_head_nlen 3 (nlen (utf8_enc h))). destruct OKA as (_ & OKA). lia.
  - unfold RV_OwnerPort. lia.
  - apply HI.
  - destruct (HI port). lia.
  - unfold RV_Protocol. lia.
Qed.

(** The directives are not too long for a header *)
Lemma arr_nlen B vs : (forall v, In v vs -> nlen (enc v) <= B) -> nlen (enc (VArr vs)) <= 9 + B * nlen vs.
Proof.
  intros H. cbn [enc]. rewrite nlen_app. assert (nlen (concat (map enc vs)) <= B * nlen vs).
  { induction vs as [|v vs IH]; [unfold nlen; cbn [map concat length]; lia|]. cbn [map concat]. rewrite nlen_app. specialize (IH (fun w I' => H w (or_intror I'))). pose proof (H v (or_introl eq_refl)).
    assert (nlen (v :: vs) = 1 + nlen vs) by (unfold nlen; cbn [length]; lia). nia. }
  pose proof (enc_head_nlen 4 (nlen vs)). lia.
Qed.
Definition size_of (a : contact) : N := match a with CIp _ => 16 | CHost _ => 65535 end.
Lemma directive_nlen port a : contact_ok a ->
  nlen (enc (VArr (map (fun i : rv_instruction => VArr [VInt (Z.of_N (fst i)); VBytes (snd i)]) (directive port a)))) <= 9 + (36 + size_of a) * 4.
Proof.
  intros OKA. match goal with |- nlen (enc (VArr ?l)) <= _ => pose proof (arr_nlen (36 + size_of a) l) as X; change (nlen l) with 4 in X end. apply X. clear X.
  assert (HI : forall n, nlen (enc (VInt (Z.of_N n))) <= 9).
  { intros n. cbn [enc]. unfold enc_int. replace (0 <=? Z.of_N n)%Z with true by lia. apply enc_head_nlen. }
  assert (HB : forall t b, nlen b <= 9 + size_of a -> nlen (enc (VArr [VInt (Z.of_N t); VBytes b])) <= 36 + size_of a).
  { intros t b L. cbn [enc map concat]. rewrite !nlen_app. change (nlen []) with 0. match goal with |- nlen (enc_head 4 ?n) + _ <= _ => pose proof (enc_head_nlen 4 n) end.
    pose proof (HI t) as X. cbn [enc] in X. pose proof (enc_head_nlen 2 (nlen b)). lia. }
  intros v I'. apply in_map_iff in I'. destruct I' as ((t & b) & <- & I'). cbn [fst snd]. apply HB. unfold directive in I'. cbn [In] in I'.
  repeat (destruct I' as [E|I']; [injection E as <- <-|]); try contradiction.
  - specialize (HI port). cbn [enc] in HI. lia.
  - destruct a as [ip|h]; cbn [where_val snd contact_ok size_of] in *; cbn [enc]; rewrite nlen_app.
    + pose proof (enc_head_nlen 2 (nlen ip)). destruct OKA as (_ & OKA). lia.
    + pose proof (enc_head_nlen 3 (nlen (utf8_enc h))). destruct OKA as (_ & OKA). lia.
  - specialize (HI port). cbn [enc] in HI. lia.
  - specialize (HI 1). cbn [enc] in HI. change (Z.of_N 1) with 1%Z in HI. lia.
Qed.
Lemma rv_small o dr port : opts_ok o -> draws_ok dr -> nlen (enc (rv_info_val (map (directive port) (contact_addresses o (dr_ifs dr))))) < 1073741824.
Proof.
  intros OO DO. destruct (contacts_ok o dr OO DO) as (CO & CN). unfold rv_info_val. rewrite map_map.
  unfold contact_addresses in *. destruct (ao_hostname o) as [h|].
  - match goal with |- nlen (enc (VArr ?l)) < _ => pose proof (arr_nlen 262293 l) as X; assert (LN : nlen l = 1) by reflexivity; rewrite LN in X; assert (Y : nlen (enc (VArr l)) <= 9 + 262293 * 1) end; [|lia].
    apply X. intros v [<-|[]]. inversion CO; subst. etransitivity; [apply directive_nlen; assumption|]. cbn [size_of]. lia.
  - match goal with |- nlen (enc (VArr ?l)) < _ => pose proof (arr_nlen 217 l) as X; assert (LN : nlen l <= 65535) by (unfold nlen in *; rewrite map_length; exact CN); assert (Y : nlen (enc (VArr l)) <= 9 + 217 * nlen l) end; [|lia].
    apply X. intros v I'. apply in_map_iff in I'. destruct I' as (a & <- & I'). rewrite Forall_forall in CO. specialize (CO a I'). etransitivity; [apply directive_nlen; exact CO|].
    apply in_map_iff in I'. destruct I' as (ip & <- & _). cbn [size_of]. lia.
Qed.

(** * The owner's addresses *)
Definition owner_entry (port : N) (a : contact) : to2_addr :=
  match a with CIp ip => Addr (Some ip) None port TP_Http | CHost h => Addr None (Some h) port TP_Http end.
Lemma addresses port l : Forall contact_ok l ->
  addresses_of parse_ip [RConn TP_Http (map (fun x => match x with CIp ip => RIp (show_ip ip) | CHost h => RDns h end) l) port] = Some (map (owner_entry port) l).
Proof using IT.
  intros H. cbn [addresses_of rc_port rc_transport rc_addrs].
  assert (E : entries_of parse_ip port TP_Http (map (fun x => match x with CIp ip => RIp (show_ip ip) | CHost h => RDns h end) l) = Some (map (owner_entry port) l)).
  { induction H as [|a l OKA H IH]; [reflexivity|]. cbn [map]. destruct a as [ip|h]; cbn [entries_of opt contact_ok owner_entry] in *.
    - rewrite (proj1 (IT ip OKA)). cbn [opt]. rewrite IH. reflexivity.
    - rewrite IH. reflexivity. }
  rewrite E. cbn [opt]. rewrite app_nil_r. reflexivity.
Qed.
Lemma to2_urls port l : get_to2_urls show_ip (map (owner_entry port) l) = map (url show_ip port) l.
Proof using Type. clear. induction l as [|a l IH]; [reflexivity|]. cbn [map get_to2_urls]. rewrite IH. destruct a; reflexivity. Qed.
Lemma addrs_ok port l : Forall contact_ok l -> port <= 65535 -> Forall addr_ok (map (owner_entry port) l).
Proof.
  intros H P. apply Forall_map. eapply Forall_impl; [|exact H]. intros [ip|h] OKA; unfold addr_ok; cbn [owner_entry ta_ip ta_dns ta_port ta_protocol contact_ok] in *; unfold TP_Http.
  - split; [exact OKA|]. split; [exact Logic.I|]. lia.
  - split; [exact Logic.I|]. split; [exact OKA|]. lia.
Qed.
End Rv.

(** * All servers *)
Section All.
Context (c : crypto) (kf : keyfns) (show_ip : bytes -> str) (parse_ip : str -> option bytes)
  (mk_key : subject -> str -> str -> bytes -> option (bytes * bytes)) (mkcert : bytes -> bytes -> str -> bytes -> bytes -> option bytes).
Hypotheses (IT : ip_texts show_ip parse_ip) (MK : makes_keys c kf mk_key).

(** The four keys with their certificates *)
Record made (o : aopts) (dr : draws) (s : subject) (sk cert : bytes) (t : N) : Prop := {
  md_of : keys_of mk_key o dr s = Some (sk, cert);
  md_key : c_cert_key c cert = Some (c_pub c sk);
  md_type : kf_type kf (c_pub c sk) = Some t }.
Lemma made_all o dr d s : complete show_ip mk_key o dr d -> exists sk cert t, made o dr s sk cert t /\ read_key d (key_path s) = Some sk /\ read_cert d (cert_path s) = Some cert.
Proof using MK.
  intros CP. destruct (cp_keys _ _ _ _ _ CP s) as (sk & cert & K & R1 & R2). destruct (MK _ _ _ _ _ _ K) as (K1 & _ & _ & _ & K2 & _).
  destruct (kf_type kf (c_pub c sk)) as [t|] eqn:T; [|congruence]. exists sk, cert, t. split; [constructor; assumption|]. unfold read_key, read_cert. rewrite R1, R2. split; reflexivity.
Qed.
Definition cert_pub (sk : bytes) (t : N) : pubkey := Pubkey t ENC_X509 (kf_der kf (c_pub c sk)) (c_pub c sk) None.
Lemma made_pub o dr s sk cert t : made o dr s sk cert t -> pubkey_of_cert c (kf_type kf) (kf_der kf) cert = Ok (cert_pub sk t).
Proof. intros [_ K T]. unfold pubkey_of_cert. rewrite K. cbn [of_option bind]. rewrite T. reflexivity. Qed.
Lemma made_chain o dr s sk cert t : made o dr s sk cert t -> pubkey_of_chain c (kf_type kf) [cert] = Ok (Pubkey t ENC_X5CHAIN (enc (x5chain_val [cert])) (c_pub c sk) (Some [cert])).
Proof. intros [_ K T]. unfold pubkey_of_chain. rewrite K. cbn [of_option bind]. rewrite T. reflexivity. Qed.

Definition all_servers (kdf : bool) (sk2 : bytes) (pub2 : pubkey) (o : aopts) (dr : draws) (key cert : subject -> bytes) (type : subject -> N) (times : N * N) : servers :=
  let contacts := contact_addresses o (dr_ifs dr) in
  Servers
    (MfgUp (Listen (txt "0.0.0.0") (ao_mfg_port o))
       (MfConf (cert SManufacturer) (Some (key SManufacturer, cert_pub (key SOwner) (type SOwner))) (key SDeviceCA) [cert SDeviceCA] (map (directive (ao_rv_port o)) contacts)
          (ao_plain_di o)
          (Some (DiunConf 0 (if ao_p256 o then 10 else 11) ((if ao_no_tpm o then [] else [1]) ++ (if ao_no_fs o then [] else [0])) (key SDiun)
             (Pubkey (type SDiun) ENC_X5CHAIN (enc (x5chain_val [cert SDiun])) (c_pub c (key SDiun)) (Some [cert SDiun])))) kdf)
       (if ao_separate o then txt "stores/manufacturing_vouchers" else txt "stores/owner_vouchers") (txt "stores/manufacturing_sessions") (Some (txt "stores/manufacturer_keys")))
    (OwnUp (Listen (txt "0.0.0.0") (ao_own_port o)) (OwConf (key SOwner) (cert_pub (key SOwner) (type SOwner)) sk2 pub2 kdf)
       (To0Conf (Some [cert SDeviceCA]) (map (owner_entry (ao_own_port o)) contacts) (key SOwner) (fst times) (snd times))
       (txt "http://localhost:" ++ dec_str (ao_api_port o) ++ txt "/device_info") (txt "Bearer " ++ dr_token dr)
       (txt "stores/owner_vouchers") (txt "stores/owner_onboarding_sessions"))
    (RvUp (Listen (txt "0.0.0.0") (ao_rv_port o)) (RvConf 2592000 (Some [cert SManufacturer]) (Some [cert SDeviceCA])) (txt "stores/rendezvous_registered") (txt "stores/rendezvous_sessions"))
    (ApiUp (Listen (txt "0.0.0.0") (ao_api_port o)) (tokens_of (Some (dr_token dr)) (Some (dr_admin dr))) (Settings None None None None None (Some false)) (txt "stores/serviceinfo_api_devices")).

Lemma started kdf sk2 pub2 o dr d : complete show_ip mk_key o dr d -> opts_ok o -> draws_ok dr ->
  exists key cert type, (forall s, made o dr s (key s) (cert s) (type s)) /\
    start_all c kf parse_ip kdf sk2 pub2 d =
    match registration_times (ao_period o) (ao_window o) with
    | Some t => if distinct [ao_mfg_port o; ao_own_port o; ao_rv_port o; ao_api_port o] then Some (all_servers kdf sk2 pub2 o dr key cert type t) else None
    | None => None
    end.
Proof using IT MK.
  intros CP OO DO. destruct (contacts_ok o dr OO DO) as (CO & _).
  destruct (made_all o dr d SDiun CP) as (k1 & c1 & t1 & M1 & R1 & S1). destruct (made_all o dr d SManufacturer CP) as (k2 & c2 & t2 & M2 & R2 & S2).
  destruct (made_all o dr d SDeviceCA CP) as (k3 & c3 & t3 & M3 & R3 & S3). destruct (made_all o dr d SOwner CP) as (k4 & c4 & t4 & M4 & R4 & S4).
  exists (fun s => match s with SDiun => k1 | SManufacturer => k2 | SDeviceCA => k3 | SOwner => k4 end),
    (fun s => match s with SDiun => c1 | SManufacturer => c2 | SDeviceCA => c3 | SOwner => c4 end),
    (fun s => match s with SDiun => t1 | SManufacturer => t2 | SDeviceCA => t3 | SOwner => t4 end).
  split; [intros [| | |]; assumption|].
  assert (EM : start_mfg c kf parse_ip kdf d = Some (sv_mfg (all_servers kdf sk2 pub2 o dr
     (fun s => match s with SDiun => k1 | SManufacturer => k2 | SDeviceCA => k3 | SOwner => k4 end)
     (fun s => match s with SDiun => c1 | SManufacturer => c2 | SDeviceCA => c3 | SOwner => c4 end)
     (fun s => match s with SDiun => t1 | SManufacturer => t2 | SDeviceCA => t3 | SOwner => t4 end) (0, 0)))).
  { unfold start_mfg. rewrite (cp_mfg _ _ _ _ _ CP). cbn [opt mfg_config ms_ca_key ms_ca_chain ms_cert ms_key ms_owner ms_diun ms_rv]. rewrite R3. cbn [opt]. unfold read_certs at 1. rewrite S3. cbn [option_map opt].
    rewrite S2. cbn [opt each]. rewrite R2. cbn [option_map opt]. rewrite S4. cbn [opt]. rewrite (made_pub _ _ _ _ _ _ M4). cbn [oks option_map opt].
    unfold load_diun. cbn [ds_key ds_cert]. rewrite R1. cbn [opt]. unfold read_certs. rewrite S1. cbn [option_map opt]. rewrite (made_chain _ _ _ _ _ _ M1). cbn [oks opt option_map].
    unfold generate_rendezvous_info. rewrite (load_all show_ip parse_ip IT) by exact CO. reflexivity. }
  assert (ER : start_rv d = Some (sv_rv (all_servers kdf sk2 pub2 o dr
     (fun s => match s with SDiun => k1 | SManufacturer => k2 | SDeviceCA => k3 | SOwner => k4 end)
     (fun s => match s with SDiun => c1 | SManufacturer => c2 | SDeviceCA => c3 | SOwner => c4 end)
     (fun s => match s with SDiun => t1 | SManufacturer => t2 | SDeviceCA => t3 | SOwner => t4 end) (0, 0)))).
  { unfold start_rv. rewrite (cp_rv _ _ _ _ _ CP). cbn [opt rv_config rs_mfg rs_dev each]. unfold read_certs. rewrite S2. cbn [option_map opt]. rewrite S3. reflexivity. }
  assert (EA : start_api c d = Some (sv_api (all_servers kdf sk2 pub2 o dr
     (fun s => match s with SDiun => k1 | SManufacturer => k2 | SDeviceCA => k3 | SOwner => k4 end)
     (fun s => match s with SDiun => c1 | SManufacturer => c2 | SDeviceCA => c3 | SOwner => c4 end)
     (fun s => match s with SDiun => t1 | SManufacturer => t2 | SDeviceCA => t3 | SOwner => t4 end) (0, 0)))).
  { unfold start_api. rewrite (cp_api _ _ _ _ _ CP). reflexivity. }
  unfold start_all. rewrite EM. cbn [opt]. unfold start_own. rewrite (cp_own _ _ _ _ _ CP). cbn [opt own_config os_dev os_key os_pub os_period os_window os_addrs each].
  unfold read_certs. rewrite S3. cbn [option_map opt]. rewrite R4. cbn [opt]. rewrite S4. cbn [opt]. rewrite (made_pub _ _ _ _ _ _ M4). cbn [oks opt filled_in ac_opts].
  destruct (registration_times (ao_period o) (ao_window o)) as [[p w]|]; [|reflexivity]. cbn [opt].
  unfold generate_owner_addresses. rewrite (addresses show_ip parse_ip IT) by exact CO. cbn [opt]. rewrite ER, EA. reflexivity.
Qed.

Hypotheses (IS : issues c mkcert) (KF : keyfns_ok c kf) (LAW : outputs_ok c).

Lemma distinct_nodup l : distinct l = true <-> NoDup l.
Proof.
  induction l as [|x l IH]; cbn [distinct]; [split; [constructor|reflexivity]|]. rewrite andb_true_iff, IH, negb_true_iff. split.
  - intros (H & N). constructor; [|exact N]. intros I'. assert (E : existsb (N.eqb x) l = true) by (apply existsb_exists; exists x; split; [exact I'|apply N.eqb_refl]). congruence.
  - intros N. inversion N as [|? ? N1 N2]; subst. split; [|exact N2]. destruct (existsb (N.eqb x) l) eqn:E; [|reflexivity]. apply existsb_exists in E. destruct E as (y & I' & E). apply N.eqb_eq in E. subst y. contradiction.
Qed.
Lemma period_small o t : opts_ok o -> registration_times (ao_period o) (ao_window o) = Some t -> fst t < 2 ^ 32.
Proof.
  intros [_ (T & _) _] H. unfold registration_times in H.
  assert (Q : exists p, fst t = p /\ (ao_period o = Some p \/ p = 600)).
  { destruct (ao_period o) as [[|p]|]; [discriminate| |];
    (destruct (match ao_window o with Some _ => _ | None => _ end) as [w|]; [|discriminate]; destruct (_ <=? w); [discriminate|]; injection H as <-; eexists; split; [reflexivity|]; auto). }
  destruct Q as (p & -> & [Q| ->]); [apply T, Q|reflexivity].
Qed.
Lemma times_iff o : registration_times (ao_period o) (ao_window o) <> None <->
  ((forall n, ao_period o = Some n -> n <> 0) /\
  60 < match ao_window o with Some n => n | None => 61 end < match ao_period o with Some n => n | None => 600 end).
Proof.
  unfold registration_times, DEFAULT_REGISTRATION_PERIOD, DEFAULT_RE_REGISTRATION_WINDOW, MAINTENANCE_INTERVAL.
  destruct (ao_period o) as [[|p]|]; destruct (ao_window o) as [w|];
  repeat match goal with |- context [if ?b then _ else _] => destruct b eqn:? end; (split; [intros H|intros (H1 & H2)]); try congruence; try lia;
  try (split; [intros n E; injection E as <-; lia|lia]); try (split; [discriminate|lia]); try (exfalso; apply (H1 0); reflexivity).
Qed.

Lemma all_together kdf sk2 pub2 o dr key cert type t :
  (forall s, made o dr s (key s) (cert s) (type s)) -> opts_ok o -> draws_ok dr -> registration_times (ao_period o) (ao_window o) = Some t -> NoDup [ao_mfg_port o; ao_own_port o; ao_rv_port o; ao_api_port o] ->
  together c kf show_ip mkcert o (contact_addresses o (dr_ifs dr)) (all_servers kdf sk2 pub2 o dr key cert type t).
Proof using All.
  intros M OO DO RT ND. destruct (contacts_ok o dr OO DO) as (CO & CN). destruct (ok_ports o OO) as (P1 & P2 & P3 & P4).
  assert (TR : trusts_authority c mkcert (mu_conf (sv_mfg (all_servers kdf sk2 pub2 o dr key cert type t))) (Some [cert SDeviceCA])).
  { intros leaf k (signer & rest & info & rnd & E & MC). cbn [all_servers sv_mfg mu_conf mf_ca mf_ca_sk] in *. injection E as <- <-.
    destruct (IS _ _ _ _ _ _ (md_key _ _ _ _ _ _ (M SDeviceCA)) MC) as (I1 & I2).
    unfold verify_from_x5bag, chain_verify. cbn [chain_loop]. rewrite I1. cbn [negb]. rewrite (md_key _ _ _ _ _ _ (M SDeviceCA)). cbn [unwrap bind]. rewrite I2. cbn [bind].
    unfold bag_contains. cbn [existsb]. rewrite bytes_eqb_refl. reflexivity. }
  constructor; cbn [all_servers sv_mfg sv_own sv_rv sv_api mu_conf mu_bind ou_bind ru_bind au_bind ls_port ou_to0 ou_conf tc_addrs tc_sk tc_trusted oc_sk oc_pub ru_conf cf_dev cf_mfg mf_rv mf_owner mf_cert mf_diun mf_di mu_vouchers ou_vouchers mu_sessions ou_sessions ru_sessions ru_store au_store mu_keys ou_api ou_auth au_tokens au_info].
  - repeat split.
  - exact ND.
  - exists (map (interp (ao_rv_port o)) (contact_addresses o (dr_ifs dr))). split; [apply read_all; assumption|]. rewrite map_map. apply map_ext. intros a. apply clients_one.
  - exists (map (interp (ao_rv_port o)) (contact_addresses o (dr_ifs dr))). split; [apply read_all; assumption|].
    induction (contact_addresses o (dr_ifs dr)) as [|a l IH]; [reflexivity|]. cbn [map flat_map]. rewrite urls_one. cbn [app]. f_equal. apply IH; [inversion CO; assumption|unfold nlen in *; cbn [length] in *; lia].
  - apply to2_urls.
  - split; [apply addrs_ok; assumption|]. cbn [tc_addrs tc_period tc_sk]. split; [unfold nlen in *; rewrite map_length; exact CN|]. split; [apply (period_small o); assumption|].
    destruct (MK _ _ _ _ _ _ (md_of _ _ _ _ _ _ (M SOwner))) as (_ & _ & _ & _ & _ & AL). exact AL.
  - exists (key SManufacturer), (cert_pub (key SOwner) (type SOwner)). split; [reflexivity|]. split; [exact (md_key _ _ _ _ _ _ (M SManufacturer))|]. repeat split.
  - split; [discriminate|exact TR].
  - split; [discriminate|exact TR].
  - split; [discriminate|]. unfold allows_manufacturer. cbn [cf_mfg mf_cert]. intros k K. cbn [bag_contains_key]. rewrite K. cbn [unwrap bind]. rewrite bytes_eqb_refl. reflexivity.
  - destruct (MK _ _ _ _ _ _ (md_of _ _ _ _ _ _ (M SDeviceCA))) as (_ & DER & BO & NL & _ & _).
    destruct (MK _ _ _ _ _ _ (md_of _ _ _ _ _ _ (M SManufacturer))) as (_ & _ & _ & _ & _ & AL).
    destruct (KF _ _ (md_key _ _ _ _ _ _ (M SOwner))) as (KT & KB & KL & KD).
    constructor; cbn [mf_rv mf_ca mf_cert mf_owner].
    + unfold mfconf_ok. cbn [mf_rv mf_ca mf_owner]. split; [apply rv_fine; assumption|]. split; [pose proof (rv_small o dr (ao_rv_port o) OO DO); lia|]. split.
      { split; [unfold nlen; cbn [length]; lia|]. constructor; [|constructor]. split; [exact BO|]. split; [lia|exact DER]. }
      split; [unfold nlen; cbn [length]; lia|]. split.
      { unfold x5chain_val. cbn [enc map concat]. rewrite !nlen_app. match goal with |- nlen (enc_head 4 ?n) + _ < _ => pose proof (enc_head_nlen 4 n) end.
        pose proof (enc_head_nlen 2 (nlen (cert SDeviceCA))). change (nlen []) with 0. lia. }
      split; [|cbn [cert_pub pk_data]; lia]. unfold pubkey_valid, cert_pub. cbn [pk_type pk_enc pk_data]. split; [apply KT, (md_type _ _ _ _ _ _ (M SOwner))|].
      split; [reflexivity|]. split; [exact KB|]. unfold pubkey_new. cbn. rewrite KD. reflexivity.
    + apply rv_small; assumption.
    + discriminate.
    + exists (c_pub c (key SManufacturer)), (type SManufacturer). split; [exact (md_key _ _ _ _ _ _ (M SManufacturer))|]. split; [exact (md_type _ _ _ _ _ _ (M SManufacturer))|]. split; [reflexivity|exact AL].
  - destruct (KF _ _ (md_key _ _ _ _ _ _ (M SOwner))) as (KT & KB & KL & KD). destruct (MK _ _ _ _ _ _ (md_of _ _ _ _ _ _ (M SOwner))) as (_ & _ & _ & _ & _ & AL). split; [exact AL|].
    split; [|cbn [cert_pub pk_data]; lia]. unfold pubkey_valid, cert_pub. cbn [pk_type pk_enc pk_data]. split; [apply KT, (md_type _ _ _ _ _ _ (M SOwner))|].
    split; [reflexivity|]. split; [exact KB|]. unfold pubkey_new. cbn. rewrite KD. reflexivity.
  - eexists. split; [reflexivity|]. cbn [dn_pub pk_key dn_sk dn_key_type dn_storage]. split; [reflexivity|]. split; [reflexivity|].
    destruct (ao_no_tpm o), (ao_no_fs o); cbn [app In]; split; split; try congruence; try tauto; intros [H|H]; try discriminate; try tauto; try (destruct H; [discriminate|tauto]).
  - reflexivity.
  - destruct (ao_separate o); split; try discriminate; reflexivity.
  - repeat (constructor; [cbn [In]; intros H; repeat (destruct H as [H|H]; [discriminate|]); exact H|]). constructor.
  - destruct (ao_separate o); cbn [In]; intros H; repeat (destruct H as [H|H]; [discriminate|]); exact H.
  - reflexivity.
  - intros h. unfold info_auth, tokens_of. cbn [option_map tk_info]. unfold bearer. match goal with |- ?f ?a ?b = true <-> _ => assert (E : f a b = true <-> a = b) by apply SiProofs.text_eqb_eq; rewrite E end. split; congruence.
  - reflexivity.
Qed.
End All.
