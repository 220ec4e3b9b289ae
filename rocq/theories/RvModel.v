(** Model of data-formats/src/enhanced_types.rs:13-206: interpretation of rendezvous directives. *)
From Verif Require Import Base ValueModel TypesModel Text.
Local Open Scope N_scope.

(** enhanced_types.rs:13-17 *)
Inductive side := Device | Owner.
Definition side_eqb (a b : side) : bool := match a, b with Device, Device | Owner, Owner => true | _, _ => false end.

(** constants/mod.rs:187-207 RendezvousVariable, by number *)
Definition RV_DeviceOnly : N := 0.
Definition RV_OwnerOnly : N := 1.
Definition RV_IPAddress : N := 2.
Definition RV_DevicePort : N := 3.
Definition RV_OwnerPort : N := 4.
Definition RV_Dns : N := 5.
Definition RV_ServerCertHash : N := 6.
Definition RV_CaCertHash : N := 7.
Definition RV_UserInput : N := 8.
Definition RV_WifiSsid : N := 9.
Definition RV_WifiPw : N := 10.
Definition RV_Medium : N := 11.
Definition RV_Protocol : N := 12.
Definition RV_Delaysec : N := 13.
Definition RV_Bypass : N := 14.

(** constants/mod.rs:305-317 RendezvousProtocolValue, by number (0..6) *)
Definition PR_Http : N := 1.
Definition PR_Https : N := 2.
Definition PR_Tls : N := 4.

(** constants/mod.rs:341-349 *)
Definition default_port (p : N) : option N :=
  if p =? PR_Http then Some 80 else if p =? PR_Https then Some 443 else None.

(** types.rs:384-421: a byte string of 4 or 16 bytes. *)
Definition as_ip (v : cval) : option bytes :=
  match untag v with
  | VBytes b => if (nlen b =? 4) || (nlen b =? 16) then Some b else None
  | _ => None
  end.

(** Deserialize_repr of the protocol (repr u8). *)
Definition as_protocol (v : cval) : option N := option_map Z.to_N (as_int 0 6 v).

(** enhanced_types.rs:19-39 *)
Record rv_interp := Interp {
  ri_ips : list bytes;               (* None is the empty list *)
  ri_dns : option str;
  ri_port : N;
  ri_server_hash : option hash;
  ri_ca_hash : option hash;
  ri_user_input : bool;
  ri_ssid : option str;
  ri_pw : option str;
  ri_medium : option N;
  ri_protocol : N;
  ri_delay : N;
  ri_bypass : bool
}.

(** The local variables of the loop, enhanced_types.rs:69-80. *)
Record rv_acc := Acc {
  ac_ips : list bytes; ac_dns : option str; ac_port : option N; ac_sch : option hash; ac_cch : option hash;
  ac_ui : bool; ac_ssid : option str; ac_pw : option str; ac_med : option N; ac_proto : N; ac_delay : N; ac_bypass : bool
}.
Definition acc0 : rv_acc := Acc [] None None None None false None None None PR_Tls 0 false.

(** from_value: the error is a serde error (FSerde) *)
Definition from_value {A} (f : cval -> option A) (v : cval) : outcome ferr A := of_option FSerde (f v).

(** One round, enhanced_types.rs:82-155: [None] is the early [return Ok(None)]. *)
Definition rv_step (sd : side) (a : rv_acc) (i : rv_instruction) : outcome ferr (option rv_acc) :=
  let '(var, raw) := i in
  let '(Acc ips dns port sch cch ui ssid pw med proto delay byp) := a in
  let! value := from_slice Some raw in
  let device := side_eqb sd Device in
  let owner := side_eqb sd Owner in
  if var =? RV_DeviceOnly then
    if negb device then Ok None else Ok (Some a)
  else if var =? RV_OwnerOnly then
    if negb owner then Ok None else Ok (Some a)
  else if var =? RV_IPAddress then
    let! ip := from_value as_ip value in
    Ok (Some (Acc (ips ++ [ip]) dns port sch cch ui ssid pw med proto delay byp))
  else if var =? RV_DevicePort then
    if device then
      let! p := from_value as_u32 value in
      Ok (Some (Acc ips dns (Some p) sch cch ui ssid pw med proto delay byp))
    else Ok (Some a)
  else if var =? RV_OwnerPort then
    if owner then
      let! p := from_value as_u32 value in
      Ok (Some (Acc ips dns (Some p) sch cch ui ssid pw med proto delay byp))
    else Ok (Some a)
  else if var =? RV_Dns then
    let! d := from_value as_string value in
    Ok (Some (Acc ips (Some d) port sch cch ui ssid pw med proto delay byp))
  else if var =? RV_ServerCertHash then
    if device then
      let! h := from_value as_hash value in
      Ok (Some (Acc ips dns port (Some h) cch ui ssid pw med proto delay byp))
    else Ok (Some a)
  else if var =? RV_CaCertHash then
    if device then
      let! h := from_value as_hash value in
      Ok (Some (Acc ips dns port sch (Some h) ui ssid pw med proto delay byp))
    else Ok (Some a)
  else if var =? RV_UserInput then
    if device then Ok (Some (Acc ips dns port sch cch true ssid pw med proto delay byp)) else Ok (Some a)
  else if var =? RV_WifiSsid then
    if device then
      let! x := from_value as_string value in
      Ok (Some (Acc ips dns port sch cch ui (Some x) pw med proto delay byp))
    else Ok (Some a)
  else if var =? RV_WifiPw then
    if device then
      let! x := from_value as_string value in
      Ok (Some (Acc ips dns port sch cch ui ssid (Some x) med proto delay byp))
    else Ok (Some a)
  else if var =? RV_Medium then
    if device then
      let! x := from_value as_u8 value in
      Ok (Some (Acc ips dns port sch cch ui ssid pw (Some x) proto delay byp))
    else Ok (Some a)
  else if var =? RV_Protocol then
    let! x := from_value as_protocol value in
    Ok (Some (Acc ips dns port sch cch ui ssid pw med x delay byp))
  else if var =? RV_Delaysec then
    let! x := from_value as_u32 value in
    Ok (Some (Acc ips dns port sch cch ui ssid pw med proto x byp))
  else (* Bypass; no other variable is read from the wire (as_rv_variable) *)
    if device then Ok (Some (Acc ips dns port sch cch ui ssid pw med proto delay true))
    else Ok None.

Fixpoint rv_loop (sd : side) (a : rv_acc) (d : rv_directive) : outcome ferr (option rv_acc) :=
  match d with
  | [] => Ok (Some a)
  | i :: r =>
    let! o := rv_step sd a i in
    match o with
    | None => Ok None
    | Some a' => rv_loop sd a' r
    end
  end.

(** enhanced_types.rs:64-187.  serde's missing_field error is FSerde. *)
Definition from_rv_directive (d : rv_directive) (sd : side) : outcome ferr (option rv_interp) :=
  let! o := rv_loop sd acc0 d in
  match o with
  | None => Ok None
  | Some (Acc ips dns port sch cch ui ssid pw med proto delay byp) =>
    let! p := (match port with
               | Some v => Ok v
               | None => match default_port proto with Some v => Ok v | None => Err FSerde end
               end) in
    Ok (Some (Interp ips dns p sch cch ui ssid pw med proto delay byp))
  end.

(** enhanced_types.rs:190-205: the first error wins. *)
Fixpoint to_interpreted (r : rv_info) (sd : side) : outcome ferr (list rv_interp) :=
  match r with
  | [] => Ok []
  | d :: r' =>
    let! o := from_rv_directive d sd in
    let! l := to_interpreted r' sd in
    Ok (match o with Some x => x :: l | None => l end)
  end.

(** enhanced_types.rs:42-62; [show_ip] is the [Display] of std::net::IpAddr. *)
Definition get_urls (show_ip : bytes -> str) (x : rv_interp) : list str :=
  match (if ri_protocol x =? PR_Http then Some (txt "http") else if ri_protocol x =? PR_Https then Some (txt "https") else None) with
  | None => []
  | Some p =>
    match ri_dns x with Some d => [p ++ txt "://" ++ d ++ txt ":" ++ dec_str (ri_port x)] | None => [] end
    ++ map (fun ip => p ++ txt "://" ++ show_ip ip ++ txt ":" ++ dec_str (ri_port x)) (ri_ips x)
  end.

(** types.rs:544-550 TO2AddressEntry *)
Record to2_addr := Addr { ta_ip : option bytes; ta_dns : option str; ta_port : N; ta_protocol : N }.

(** constants/mod.rs:176-185 TransportProtocol, by number (1..6) *)
Definition TP_Http : N := 3.
Definition TP_Https : N := 5.

(** client-linuxapp/src/main.rs:93-122 *)
Fixpoint get_to2_urls (show_ip : bytes -> str) (l : list to2_addr) : list str :=
  match l with
  | [] => []
  | a :: r =>
    match (if ta_protocol a =? TP_Http then Some (txt "http") else if ta_protocol a =? TP_Https then Some (txt "https") else None) with
    | None => []
    | Some p =>
      match ta_dns a with Some d => [p ++ txt "://" ++ d ++ txt ":" ++ dec_str (ta_port a)] | None => [] end
      ++ match ta_ip a with Some i => [p ++ txt "://" ++ show_ip i ++ txt ":" ++ dec_str (ta_port a)] | None => [] end
    end ++ get_to2_urls show_ip r
  end.

(** client-linuxapp/src/main.rs:124-155: the URLs the device will contact for a directive; [None] is
    an error ("not implemented").  The entry is then skipped by the caller. *)
Definition get_client_list (show_ip : bytes -> str) (x : rv_interp) : option (list str) :=
  let urls := get_urls show_ip x in
  if ri_bypass x then None
  else if match ri_ssid x with Some _ => true | None => false end then None
  else if ri_user_input x then None
  else if negb (ri_protocol x =? PR_Http) && negb (ri_protocol x =? PR_Https) then None
  else Some urls.
