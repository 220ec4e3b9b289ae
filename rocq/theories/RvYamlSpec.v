(** Specification for hand-written rendezvous information: what each entry says, read off the document. *)
From Verif Require Import Base ValueModel TypesModel Text RvModel RvYamlModel.
Local Open Scope N_scope.

(** * The vocabulary *)
Definition var_names : list (str * N) :=
  [(txt "deviceonly", 0); (txt "device_only", 0); (txt "owneronly", 1); (txt "owner_only", 1);
   (txt "ipaddress", 2); (txt "ip_address", 2); (txt "ip", 2); (txt "deviceport", 3); (txt "device_port", 3);
   (txt "ownerport", 4); (txt "owner_port", 4); (txt "dns", 5); (txt "servercerthash", 6); (txt "server_cert_hash", 6);
   (txt "cacerthash", 7); (txt "ca_cert_hash", 7); (txt "userinput", 8); (txt "user_input", 8);
   (txt "wifissid", 9); (txt "wifi_ssid", 9); (txt "wifipw", 10); (txt "wifi_pw", 10); (txt "medium", 11);
   (txt "protocol", 12); (txt "delaysec", 13); (txt "delay_sec", 13); (txt "delay", 13); (txt "bypass", 14)].
Definition protocol_names : list (str * N) :=
  [(txt "rest", 0); (txt "http", 1); (txt "https", 2); (txt "tcp", 3); (txt "tls", 4); (txt "coaptcp", 5); (txt "coapudp", 6)].

(** Two texts that differ at most in the case of ASCII letters. *)
Definition same_letter (a b : N) : Prop := a = b \/ (65 <= a <= 90 /\ b = a + 32) \/ (65 <= b <= 90 /\ a = b + 32).
Definition same_name (a b : str) : Prop := Forall2 same_letter a b.
(** [k], in any case, is one of the names of [n]. *)
Definition called (names : list (str * N)) (k : str) (n : N) : Prop := exists s, In (s, n) names /\ same_name k s.

(** * Documents *)
Definition entry := list (str * yaml).

(** Numbers and texts as a YAML document can hold them. *)
Fixpoint yaml_fits (y : yaml) : Prop :=
  match y with
  | YInt z => (- 9223372036854775808 <= z < 18446744073709551616)%Z
  | YStr s => forallb is_scalar s = true /\ nlen (utf8_enc s) < 18446744073709551616
  | YSeq l => (fix go l := match l with [] => True | x :: r => yaml_fits x /\ go r end) l
  | YMap l => (fix go l := match l with [] => True | (k, x) :: r => yaml_fits k /\ yaml_fits x /\ go r end) l
  | _ => True
  end.

(** No tag anywhere; and: no tag inside a mapping. *)
Fixpoint untagged (y : yaml) : Prop :=
  match y with
  | YSeq l => (fix go l := match l with [] => True | x :: r => untagged x /\ go r end) l
  | YMap l => (fix go l := match l with [] => True | (k, x) :: r => untagged k /\ untagged x /\ go r end) l
  | YTagged _ => False
  | _ => True
  end.
Fixpoint maps_untagged (y : yaml) : Prop :=
  match y with
  | YSeq l => (fix go l := match l with [] => True | x :: r => maps_untagged x /\ go r end) l
  | YMap l => (fix go l := match l with [] => True | (k, x) :: r => untagged k /\ untagged x /\ go r end) l
  | _ => True
  end.

Section Said.
  Context (parse_ip : str -> option bytes).

  (** The value is one the variable can have. *)
  Definition proper (var : N) (y : yaml) : Prop :=
    match var with
    | 0 | 1 | 8 | 14 => untagged y
    | 3 | 4 | 13 => exists z, y = YInt z
    | 5 | 9 | 10 => exists s, y = YStr s
    | 12 => exists s p, y = YStr s /\ called protocol_names s p
    | 2 => exists s b, y = YStr s /\ parse_ip s = Some b
    | _ => False
    end.
  Definition well_said (e : entry) : Prop := Forall (fun kv => exists var, called var_names (fst kv) var /\ proper var (snd kv)) e.

  (** The values said of a variable, in order. *)
  Inductive said (var : N) : entry -> list yaml -> Prop :=
  | said_nil : said var [] []
  | said_this k y e l : called var_names k var -> said var e l -> said var ((k, y) :: e) (y :: l)
  | said_other k y e l : ~ called var_names k var -> said var e l -> said var ((k, y) :: e) l.
  Definition mentions (var : N) (e : entry) : Prop := exists k y, In (k, y) e /\ called var_names k var.

  (** [o] is the meaning, under [f], of the last value said of [var]. *)
  Definition last_said {A} (f : yaml -> A -> Prop) (var : N) (e : entry) (o : option A) : Prop :=
    exists l, said var e l /\
    match rev l with
    | [] => o = None
    | y :: _ => exists x, f y x /\ o = Some x
    end.
  Definition is_text (y : yaml) (s : str) : Prop := y = YStr s.
  Definition is_number (y : yaml) (n : N) : Prop := y = YInt (Z.of_N n).
  Definition is_protocol (y : yaml) (p : N) : Prop := exists s, y = YStr s /\ called protocol_names s p.
  Definition is_address (y : yaml) (b : bytes) : Prop := exists s, y = YStr s /\ parse_ip s = Some b.

  Definition own_port (sd : side) : N := match sd with Device => 3 | Owner => 4 end.
  Definition for_device {A} (sd : side) (f : yaml -> A -> Prop) (var : N) (e : entry) (o : option A) : Prop :=
    match sd with Device => last_said f var e o | Owner => o = None end.

  (** The entry is not for this side. *)
  Definition not_meant (sd : side) (e : entry) : Prop :=
    match sd with Device => mentions 1 e | Owner => mentions 0 e \/ mentions 14 e end.

  (** What a directive read by [sd] holds, against the entry it was written as. *)
  Record as_written (sd : side) (e : entry) (x : rv_interp) : Prop := {
    aw_ips : exists l, said 2 e l /\ Forall2 is_address l (ri_ips x);
    aw_dns : last_said is_text 5 e (ri_dns x);
    aw_protocol : exists o, last_said is_protocol 12 e o /\ ri_protocol x = match o with Some p => p | None => 4 end;
    aw_port : exists o, last_said is_number (own_port sd) e o /\
        match o with
        | Some p => ri_port x = p
        | None => (ri_protocol x = 1 /\ ri_port x = 80) \/ (ri_protocol x = 2 /\ ri_port x = 443)
        end;
    aw_delay : exists o, last_said is_number 13 e o /\ ri_delay x = match o with Some n => n | None => 0 end;
    aw_ssid : for_device sd is_text 9 e (ri_ssid x);
    aw_pw : for_device sd is_text 10 e (ri_pw x);
    aw_input : ri_user_input x = true <-> sd = Device /\ mentions 8 e;
    aw_bypass : ri_bypass x = true <-> sd = Device /\ mentions 14 e;
    aw_rest : ri_server_hash x = None /\ ri_ca_hash x = None /\ ri_medium x = None
  }.

  (** The directives a side reads, in order: one for each entry meant for it. *)
  Inductive written (sd : side) : list entry -> list rv_interp -> Prop :=
  | wr_nil : written sd [] []
  | wr_keep e r x l : ~ not_meant sd e -> as_written sd e x -> written sd r l -> written sd (e :: r) (x :: l)
  | wr_skip e r l : not_meant sd e -> written sd r l -> written sd (e :: r) l.

  (** The numbers are ports or seconds: they fit 32 bits. *)
  Definition in_range (sd : side) (e : entry) : Prop :=
    forall k y z, In (k, y) e -> (called var_names k (own_port sd) \/ called var_names k 13) -> y = YInt z -> (0 <= z <= 4294967295)%Z.
  (** The port is known: it is given, or the protocol (the last one given) is HTTP or HTTPS. *)
  Definition has_port (sd : side) (e : entry) : Prop :=
    mentions (own_port sd) e \/ exists p, last_said is_protocol 12 e (Some p) /\ (p = 1 \/ p = 2).
End Said.
