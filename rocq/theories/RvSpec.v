(** Specification for rendezvous directives: what a side reads from a directive. *)
From Verif Require Import Base ValueModel TypesModel Text RvModel.
Local Open Scope N_scope.

(** The directive is not for this side: it carries the other side's marker, or, for the owner, a bypass. *)
Definition not_for (sd : side) (i : rv_instruction) : bool :=
  match sd with
  | Device => fst i =? RV_OwnerOnly
  | Owner => (fst i =? RV_DeviceOnly) || (fst i =? RV_Bypass)
  end.
Definition hidden (sd : side) (d : rv_directive) : Prop := exists i, In i d /\ not_for sd i = true.

(** The values given for a variable, in order. *)
Definition given (var : N) (d : rv_directive) : list bytes := map snd (filter (fun i => fst i =? var) d).

(** [o] is the last value given for [var], read with [f]; [None] if there is none. *)
Definition last_given {A} (f : cval -> option A) (var : N) (d : rv_directive) (o : option A) : Prop :=
  match rev (given var d) with
  | [] => o = None
  | raw :: _ => exists v x, dec_top raw = Some v /\ f v = Some x /\ o = Some x
  end.

Definition port_var (sd : side) : N := match sd with Device => RV_DevicePort | Owner => RV_OwnerPort end.

(** A variable only the device reads. *)
Definition device_reads {A} (sd : side) (f : cval -> option A) (var : N) (d : rv_directive) (o : option A) : Prop :=
  match sd with Device => last_given f var d o | Owner => o = None end.

(** The values are readable: every instruction holds CBOR of the type its variable has for this side. *)
Definition readable_as (sd : side) (var : N) (v : cval) : Prop :=
  let device := sd = Device in
  (var = RV_IPAddress -> as_ip v <> None) /\
  (var = port_var sd -> as_u32 v <> None) /\
  (var = RV_Dns -> as_string v <> None) /\
  (device -> var = RV_ServerCertHash -> as_hash v <> None) /\
  (device -> var = RV_CaCertHash -> as_hash v <> None) /\
  (device -> var = RV_WifiSsid -> as_string v <> None) /\
  (device -> var = RV_WifiPw -> as_string v <> None) /\
  (device -> var = RV_Medium -> as_u8 v <> None) /\
  (var = RV_Protocol -> as_protocol v <> None) /\
  (var = RV_Delaysec -> as_u32 v <> None).
Definition readable (sd : side) (i : rv_instruction) : Prop :=
  exists v, dec_top (snd i) = Some v /\ readable_as sd (fst i) v.

(** What the interpreted directive [x] must hold. *)
Record interprets (sd : side) (d : rv_directive) (x : rv_interp) : Prop := {
  in_ips : Forall2 (fun raw ip => exists v, dec_top raw = Some v /\ as_ip v = Some ip) (given RV_IPAddress d) (ri_ips x);
  in_dns : last_given as_string RV_Dns d (ri_dns x);
  in_protocol : exists o, last_given as_protocol RV_Protocol d o /\ ri_protocol x = match o with Some p => p | None => PR_Tls end;
  in_port : exists o, last_given as_u32 (port_var sd) d o /\
      match o with
      | Some p => ri_port x = p
      | None => (ri_protocol x = PR_Http /\ ri_port x = 80) \/ (ri_protocol x = PR_Https /\ ri_port x = 443)
      end;
  in_delay : exists o, last_given as_u32 RV_Delaysec d o /\ ri_delay x = match o with Some p => p | None => 0 end;
  in_sch : device_reads sd as_hash RV_ServerCertHash d (ri_server_hash x);
  in_cch : device_reads sd as_hash RV_CaCertHash d (ri_ca_hash x);
  in_ssid : device_reads sd as_string RV_WifiSsid d (ri_ssid x);
  in_pw : device_reads sd as_string RV_WifiPw d (ri_pw x);
  in_med : device_reads sd as_u8 RV_Medium d (ri_medium x);
  in_ui : ri_user_input x = true <-> sd = Device /\ given RV_UserInput d <> [];
  in_bypass : ri_bypass x = true <-> sd = Device /\ given RV_Bypass d <> []
}.

(** * URLs *)
Definition url (scheme host : str) (port : N) : str := scheme ++ txt "://" ++ host ++ txt ":" ++ dec_str port.

(** The endpoints a directive advertises: its name, then its addresses. *)
Definition endpoints (show_ip : bytes -> str) (x : rv_interp) : list str :=
  match ri_dns x with Some d => [d] | None => [] end ++ map show_ip (ri_ips x).

(** The same for an entry of the owner's address list. *)
Definition to2_endpoints (show_ip : bytes -> str) (a : to2_addr) : list str :=
  match ta_dns a with Some d => [d] | None => [] end ++ match ta_ip a with Some i => [show_ip i] | None => [] end.
