(** Model of how rendezvous information written by hand becomes directives: the YAML conversion
    (util/src/servers/mod.rs:123-150, owner-tool/src/main.rs:171-199), the names and values of variables
    (data-formats/src/constants/mod.rs:187-339) and the two loaders (manufacturing-server/src/main.rs:124-145,
    owner-tool/src/main.rs:201-239).  The YAML parser itself is not modelled: a document is its value. *)
From Verif Require Import Base ValueModel TypesModel Text RvModel.
Local Open Scope N_scope.

(** serde_yaml::Value.  A number is an integer between -2^63 and 2^64, or a float (whose value plays no part). *)
Inductive yaml :=
| YNull
| YBool (b : bool)
| YInt (z : Z)
| YFloat
| YStr (s : str)
| YSeq (l : list yaml)
| YMap (l : list (yaml * yaml))
| YTagged (y : yaml).

(** serde_cbor::Value.  Simplification: a map keeps the order and the repetitions of the YAML mapping. *)
Inductive hval :=
| HNull
| HBool (b : bool)
| HInt (z : Z)
| HFloat
| HText (s : str)
| HArr (l : list hval)
| HMap (l : list (hval * hval)).

Definition P_YAML : N := 90.

(** [Result::unwrap] *)
Definition unwrapped {E A} (m : outcome E A) : outcome E A := match m with Err _ => Panic P_YAML | x => x end.

(** util/src/servers/mod.rs:123-150 and owner-tool/src/main.rs:171-199: the conversions inside a mapping are
    unwrapped (:146, :194), a tag is an error (:149, :197).  "Invalid number" (:135) cannot occur. *)
Fixpoint yaml_to_cbor (y : yaml) : outcome unit hval :=
  match y with
  | YNull => Ok HNull
  | YBool b => Ok (HBool b)
  | YInt z => Ok (HInt z)
  | YFloat => Ok HFloat
  | YStr s => Ok (HText s)
  | YSeq l =>
    let! r := (fix go (l : list yaml) : outcome unit (list hval) :=
      match l with
      | [] => Ok []
      | x :: r => let! a := yaml_to_cbor x in let! b := go r in Ok (a :: b)
      end) l in
    Ok (HArr r)
  | YMap l =>
    let! r := (fix go (l : list (yaml * yaml)) : outcome unit (list (hval * hval)) :=
      match l with
      | [] => Ok []
      | (k, x) :: r =>
        let! a := unwrapped (yaml_to_cbor k) in
        let! b := unwrapped (yaml_to_cbor x) in
        let! c := go r in
        Ok ((a, b) :: c)
      end) l in
    Ok (HMap r)
  | YTagged _ => Err tt
  end.

(** [str::to_lowercase], as far as it matters here: the only other characters whose lower case is in ASCII are the
    Kelvin sign ('k', in none of the names) and the dotted capital I (followed by a combining dot). *)
Definition lower_char (c : N) : N := if (65 <=? c) && (c <=? 90) then c + 32 else c.
Definition lower (s : str) : str := map lower_char s.

Definition is (s : str) (names : list str) : bool := existsb (bytes_eqb s) names.

(** constants/mod.rs:283-303 *)
Definition var_of_str (k : str) : option N :=
  let s := lower k in
  if is s [txt "deviceonly"; txt "device_only"] then Some RV_DeviceOnly
  else if is s [txt "owneronly"; txt "owner_only"] then Some RV_OwnerOnly
  else if is s [txt "ipaddress"; txt "ip_address"; txt "ip"] then Some RV_IPAddress
  else if is s [txt "deviceport"; txt "device_port"] then Some RV_DevicePort
  else if is s [txt "ownerport"; txt "owner_port"] then Some RV_OwnerPort
  else if is s [txt "dns"] then Some RV_Dns
  else if is s [txt "servercerthash"; txt "server_cert_hash"] then Some RV_ServerCertHash
  else if is s [txt "cacerthash"; txt "ca_cert_hash"] then Some RV_CaCertHash
  else if is s [txt "userinput"; txt "user_input"] then Some RV_UserInput
  else if is s [txt "wifissid"; txt "wifi_ssid"] then Some RV_WifiSsid
  else if is s [txt "wifipw"; txt "wifi_pw"] then Some RV_WifiPw
  else if is s [txt "medium"] then Some RV_Medium
  else if is s [txt "protocol"] then Some RV_Protocol
  else if is s [txt "delaysec"; txt "delay_sec"; txt "delay"] then Some RV_Delaysec
  else if is s [txt "bypass"] then Some RV_Bypass
  else None.

(** constants/mod.rs:319-339 *)
Definition protocol_of_str (k : str) : option N :=
  let s := lower k in
  if is s [txt "rest"] then Some 0
  else if is s [txt "http"] then Some 1
  else if is s [txt "https"] then Some 2
  else if is s [txt "tcp"] then Some 3
  else if is s [txt "tls"] then Some 4
  else if is s [txt "coaptcp"] then Some 5
  else if is s [txt "coapudp"] then Some 6
  else None.

Section Loader.
  (** [std::net::IpAddr::from_str], as the octets. *)
  Context (parse_ip : str -> option bytes).

  (** constants/mod.rs:230-280 *)
  Definition value_from_human_to_machine (var : N) (v : hval) : outcome unit cval :=
    if (var =? RV_DeviceOnly) || (var =? RV_OwnerOnly) || (var =? RV_UserInput) || (var =? RV_Bypass) then Ok VNull
    else if (var =? RV_DevicePort) || (var =? RV_OwnerPort) || (var =? RV_Delaysec) then
      match v with HInt z => Ok (VInt z) | _ => Err tt end
    else if (var =? RV_Dns) || (var =? RV_WifiSsid) || (var =? RV_WifiPw) then
      match v with HText s => Ok (VText (utf8_enc s)) | _ => Err tt end
    else if var =? RV_Protocol then
      match v with
      | HText s => let! p := of_option tt (protocol_of_str s) in Ok (VInt (Z.of_N p))
      | _ => Err tt
      end
    else if var =? RV_IPAddress then
      match v with
      | HText s => let! b := of_option tt (parse_ip s) in Ok (VBytes b)
      | _ => Err tt
      end
    else Err tt. (* ServerCertHash, CaCertHash, Medium: not implemented (:274-278) *)

  (** One entry: manufacturing-server/src/main.rs:127-139; the mapping in the order of its iteration (a BTreeMap, so
      the order of the keys). *)
  Fixpoint load_entry (e : list (str * yaml)) : outcome unit (list (N * cval)) :=
    match e with
    | [] => Ok []
    | (k, y) :: r =>
      let! var := of_option tt (var_of_str k) in
      let! h := yaml_to_cbor y in
      let! v := value_from_human_to_machine var h in
      let! rest := load_entry r in
      Ok ((var, v) :: rest)
    end.

  (** manufacturing-server/src/main.rs:126-142 *)
  Fixpoint load_entries (l : list (list (str * yaml))) : outcome unit (list (list (N * cval))) :=
    match l with
    | [] => Ok []
    | e :: r => let! a := load_entry e in let! b := load_entries r in Ok (a :: b)
    end.

  (** types.rs:432-451 RendezvousInfo::new *)
  Definition rv_info_new (l : list (list (N * cval))) : rv_info := map (map (fun i => (fst i, enc (snd i)))) l.

  (** manufacturing-server/src/main.rs:124-145 *)
  Definition load_settings (l : list (list (str * yaml))) : outcome unit rv_info :=
    let! x := load_entries l in Ok (rv_info_new x).

  (** owner-tool/src/main.rs:216-236, one entry: the keys must be strings. *)
  Fixpoint load_map (m : list (yaml * yaml)) : outcome unit (list (N * cval)) :=
    match m with
    | [] => Ok []
    | (k, y) :: r =>
      match k with
      | YStr k =>
        let! var := of_option tt (var_of_str k) in
        let! h := yaml_to_cbor y in
        let! v := value_from_human_to_machine var h in
        let! rest := load_map r in
        Ok ((var, v) :: rest)
      | _ => Err tt
      end
    end.

  (** owner-tool/src/main.rs:212-237 *)
  Fixpoint load_maps (l : list yaml) : outcome unit (list (list (N * cval))) :=
    match l with
    | [] => Ok []
    | y :: r =>
      match y with
      | YMap m => let! a := load_map m in let! b := load_maps r in Ok (a :: b)
      | _ => Err tt
      end
    end.

  (** owner-tool/src/main.rs:201-239, after the file is read and parsed *)
  Definition load_document (y : yaml) : outcome unit rv_info :=
    match y with
    | YSeq l => let! x := load_maps l in Ok (rv_info_new x)
    | _ => Err tt
    end.
End Loader.
