(** Specification for the all-in-one: what may happen to its directory, and what it means that its servers belong together. *)
From Verif Require Import Base CborModel ValueModel Text TypesModel CryptoSpec Assoc RvModel RvYamlModel RvServerModel SiApiModel OwnerModel To0Model To0Spec MfgModel OnboardSpec FactorySpec LifeSpec AioModel.
Local Open Scope N_scope.

(** * What is assumed of the libraries *)
(** A key made by the tool can be used (it is on P-256) and the certificate made with it holds its public half. *)
Definition makes_keys (c : crypto) (kf : keyfns) (mk_key : subject -> str -> str -> bytes -> option (bytes * bytes)) : Prop :=
  forall s org country rnd sk cert, mk_key s org country rnd = Some (sk, cert) ->
    c_cert_key c cert = Some (c_pub c sk) /\ c_cert_of_der c cert = Some cert /\ bytes_ok cert /\ nlen cert < 1048576 /\
    kf_type kf (c_pub c sk) <> None /\ c_alg c (c_pub c sk) <> None.
(** A certificate made with the key of [signer]'s certificate is issued by it, and verifies. *)
Definition issues (c : crypto) (mkcert : bytes -> bytes -> str -> bytes -> bytes -> option bytes) : Prop :=
  forall signer sk info key rnd cert, c_cert_key c signer = Some (c_pub c sk) -> mkcert signer sk info key rnd = Some cert ->
    c_issued c signer cert = true /\ c_cert_verify c cert (c_pub c sk) = Some true.
(** The octets of an address *)
Definition address (ip : bytes) : Prop := bytes_ok ip /\ (nlen ip = 4 \/ nlen ip = 16).
(** A text YAML and CBOR can hold *)
Definition text_ok (s : str) : Prop := forallb is_scalar s = true /\ nlen (utf8_enc s) <= 65535.
(** Addresses are written as text and read back. *)
Definition ip_texts (show_ip : bytes -> str) (parse_ip : str -> option bytes) : Prop :=
  forall ip, address ip -> parse_ip (show_ip ip) = Some ip /\ text_ok (show_ip ip).

(** * Commands *)
(** The options' types (u16, u32, text); what the system has drawn *)
Record opts_ok (o : aopts) : Prop := {
  ok_ports : ao_mfg_port o <= 65535 /\ ao_own_port o <= 65535 /\ ao_rv_port o <= 65535 /\ ao_api_port o <= 65535;
  ok_times : (forall n, ao_period o = Some n -> n < 2 ^ 32) /\ (forall n, ao_window o = Some n -> n < 2 ^ 32);
  ok_host : forall h, ao_hostname o = Some h -> text_ok h }.
Record draws_ok (dr : draws) : Prop := { ok_ifs : Forall address (dr_ifs dr); ok_few : nlen (dr_ifs dr) <= 65535 }.
Definition cmd_ok (k : cmd) : Prop := match k with Generate o dr _ => opts_ok o /\ draws_ok dr | Run dr _ => draws_ok dr end.
(** A command configures with these options (those of a run are the default ones). *)
Definition configures (k : cmd) (o : aopts) (dr : draws) (e : ending) : Prop := k = Generate o dr e \/ (k = Run dr e /\ o = default_opts).

(** * The addresses to be contacted at: the host name, or all addresses that lead here from elsewhere *)
Definition loopback (ip : bytes) : Prop := (exists b x d, ip = [127; b; x; d]) \/ ip = repeat 0 15 ++ [1].
Definition unspecified (ip : bytes) : Prop := ip = repeat 0 4 \/ ip = repeat 0 16.
Definition multicast (ip : bytes) : Prop := (exists a b x d, ip = [a; b; x; d] /\ 224 <= a <= 239) \/ (nlen ip = 16 /\ exists r, ip = 255 :: r).
Definition reachable_at (ip : bytes) : Prop := ~ loopback ip /\ ~ unspecified ip /\ ~ multicast ip.
Inductive reachable_of : list bytes -> list contact -> Prop :=
| ro_nil : reachable_of [] []
| ro_keep ip l r : reachable_at ip -> reachable_of l r -> reachable_of (ip :: l) (CIp ip :: r)
| ro_skip ip l r : ~ reachable_at ip -> reachable_of l r -> reachable_of (ip :: l) r.
Definition contacts_for (o : aopts) (dr : draws) (l : list contact) : Prop :=
  match ao_hostname o with Some h => l = [CHost h] | None => reachable_of (dr_ifs dr) l end.
Definition url (show_ip : bytes -> str) (port : N) (a : contact) : str :=
  txt "http://" ++ match a with CIp ip => show_ip ip | CHost h => h end ++ txt ":" ++ dec_str port.

(** * The servers belong together *)
Section Together.
Context (c : crypto) (kf : keyfns) (show_ip : bytes -> str) (mkcert : bytes -> bytes -> str -> bytes -> bytes -> option bytes).
(** The servers listen on the ports that were asked for. *)
Definition ports_asked (o : aopts) (u : servers) : Prop :=
  ls_port (mu_bind (sv_mfg u)) = ao_mfg_port o /\ ls_port (ou_bind (sv_own u)) = ao_own_port o /\
  ls_port (ru_bind (sv_rv u)) = ao_rv_port o /\ ls_port (au_bind (sv_api u)) = ao_api_port o.

(** The hypotheses of C87 (P_Life.v) that are about how the servers are set up *)
Record together (o : aopts) (contacts : list contact) (u : servers) : Prop := {
  tg_ports : ports_asked o u;
  tg_distinct : NoDup (map ls_port [mu_bind (sv_mfg u); ou_bind (sv_own u); ru_bind (sv_rv u); au_bind (sv_api u)]);
  (* a device is led to the rendezvous server, and so is the owner's server *)
  tg_device : exists il, to_interpreted (mf_rv (mu_conf (sv_mfg u))) Device = Ok il /\
    map (get_client_list show_ip) il = map (fun a => Some [url show_ip (ls_port (ru_bind (sv_rv u))) a]) contacts;
  tg_owner : exists il, to_interpreted (mf_rv (mu_conf (sv_mfg u))) RvModel.Owner = Ok il /\
    flat_map (get_urls show_ip) il = map (url show_ip (ls_port (ru_bind (sv_rv u)))) contacts;
  (* from there to the owner's server *)
  tg_to2 : get_to2_urls show_ip (tc_addrs (ou_to0 (sv_own u))) = map (url show_ip (ls_port (ou_bind (sv_own u)))) contacts;
  tg_tellable : tellable c (ou_to0 (sv_own u));
  (* the manufacturer extends vouchers to the key that the owner's server has *)
  tg_extends : exists sk owner, mf_owner (mu_conf (sv_mfg u)) = Some (sk, owner) /\ c_cert_key c (mf_cert (mu_conf (sv_mfg u))) = Some (c_pub c sk) /\
    pk_key owner = c_pub c (oc_sk (ou_conf (sv_own u))) /\ pk_key owner = c_pub c (tc_sk (ou_to0 (sv_own u))) /\
    pk_key owner = pk_key (oc_pub (ou_conf (sv_own u)));
  (* its devices are trusted *)
  tg_trusts_owner : tc_trusted (ou_to0 (sv_own u)) <> None /\ trusts_authority c mkcert (mu_conf (sv_mfg u)) (tc_trusted (ou_to0 (sv_own u)));
  tg_trusts_rv : cf_dev (ru_conf (sv_rv u)) <> None /\ trusts_authority c mkcert (mu_conf (sv_mfg u)) (cf_dev (ru_conf (sv_rv u)));
  tg_allows : cf_mfg (ru_conf (sv_rv u)) <> None /\ allows_manufacturer c (mu_conf (sv_mfg u)) (ru_conf (sv_rv u));
  tg_issues : can_issue c kf (mu_conf (sv_mfg u));
  (* the owner's key can be used and sent *)
  tg_owner_key : c_alg c (c_pub c (oc_sk (ou_conf (sv_own u)))) <> None /\ writable c (oc_pub (ou_conf (sv_own u)));
  (* DIUN is on, with a key the client can check *)
  tg_diun : exists dn, mf_diun (mu_conf (sv_mfg u)) = Some dn /\ pk_key (dn_pub dn) = c_pub c (dn_sk dn) /\
    dn_key_type dn = (if ao_p256 o then 10 else 11) /\ (In 1 (dn_storage dn) <-> ao_no_tpm o = false) /\ (In 0 (dn_storage dn) <-> ao_no_fs o = false);
  tg_di : mf_di (mu_conf (sv_mfg u)) = ao_plain_di o;
  (* vouchers go from the manufacturer to the owner by themselves, unless this was not wanted *)
  tg_vouchers : mu_vouchers (sv_mfg u) = ou_vouchers (sv_own u) <-> ao_separate o = false;
  (* no two other stores are the same *)
  tg_stores : NoDup (mu_sessions (sv_mfg u) :: ou_sessions (sv_own u) :: ru_sessions (sv_rv u) :: ru_store (sv_rv u) :: au_store (sv_api u) ::
    ou_vouchers (sv_own u) :: match mu_keys (sv_mfg u) with Some k => [k] | None => [] end);
  tg_stores_mfg : ~ In (mu_vouchers (sv_mfg u)) (mu_sessions (sv_mfg u) :: ou_sessions (sv_own u) :: ru_sessions (sv_rv u) :: ru_store (sv_rv u) :: au_store (sv_api u) ::
    match mu_keys (sv_mfg u) with Some k => [k] | None => [] end);
  (* the owner's server asks the service info server, which lets it in; nobody else is let in without the token *)
  tg_api : ou_api (sv_own u) = txt "http://localhost:" ++ dec_str (ls_port (au_bind (sv_api u))) ++ txt "/device_info";
  tg_auth : forall h, info_auth (au_tokens (sv_api u)) h = true <-> h = ou_auth (sv_own u);
  tg_info : au_info (sv_api u) = Settings None None None None None (Some false) }.
End Together.

(** Options with which the servers can run *)
Definition workable (o : aopts) : Prop :=
  NoDup [ao_mfg_port o; ao_own_port o; ao_rv_port o; ao_api_port o] /\
  (forall n, ao_period o = Some n -> n <> 0) /\
  let period := match ao_period o with Some n => n | None => 600 end in
  let window := match ao_window o with Some n => n | None => 61 end in
  60 < window < period.
