(** C15: rendezvous directives; C16: URLs. *)
From Verif Require Import Base BaseFacts ValueModel TypesModel Text RvModel RvSpec RvProofs.
From Coq Require Import ZifyBool ZifyNat ZifyN.
Local Open Scope N_scope.
Local Opaque dec_top.

(** Directives as they come from the wire hold variables 0 to 14 (see [C15_wire]). *)
Definition wire (d : rv_directive) : Prop := Forall (fun i => fst i <= 14) d.

Theorem C15_wire : forall s r, from_slice as_rv_info s = Ok r -> Forall wire r.
Proof.
  intros s r H. unfold from_slice in H. destruct (dec_top s) as [v|]; [|discriminate].
  destruct (as_rv_info v) as [x|] eqn:E; [|discriminate]. inversion H; subst. apply as_rv_info_vars in E. exact E.
Qed.

(** A directive returned for a side is not marked for the other side (nor a bypass, for the owner),
    every value in it was readable, and the result holds the values given for that side. *)
Theorem C15_directive : forall sd d x, wire d -> from_rv_directive d sd = Ok (Some x) ->
  ~ hidden sd d /\ Forall (readable sd) d /\ interprets sd d x.
Proof.
  intros sd d x W H. pose proof (from_rv_directive_cases sd d W) as C. rewrite H in C. destruct C as [F I].
  rewrite Forall_forall in F. split; [|split; [|exact I]].
  - intros (i & Hi & N). destruct (F i Hi). congruence.
  - apply Forall_forall. intros i Hi. apply F; exact Hi.
Qed.

(** Conversely: a directive for this side whose values are readable and that has a port (its own or
    the default of HTTP and HTTPS) is returned. *)
Theorem C15_visible : forall sd d, wire d -> ~ hidden sd d -> Forall (readable sd) d ->
  (given (port_var sd) d <> [] \/ exists p, last_given as_protocol RV_Protocol d (Some p) /\ (p = PR_Http \/ p = PR_Https)) ->
  exists x, from_rv_directive d sd = Ok (Some x).
Proof.
  intros sd d W NH R P. pose proof (from_rv_directive_cases sd d W) as C.
  destruct (from_rv_directive d sd) as [[x|]|e|w]; [eauto| | |destruct C].
  - destruct C as (d1 & i & d2 & -> & _ & N & _). destruct NH. exists i. split; [apply in_or_app; right; left; reflexivity|exact N].
  - destruct C as (_ & [(d1 & i & d2 & -> & _ & N & _)|(_ & G & o & L & N1 & N2)]).
    + destruct N. apply Forall_app in R. destruct R as [_ R]. inversion R; assumption.
    + destruct P as [P|(p & L2 & P)]; [congruence|]. exfalso. unfold last_given in L, L2.
      destruct (rev (given RV_Protocol d)); [discriminate|]. destruct L as (v & y & D & F & ->), L2 as (v2 & y2 & D2 & F2 & E2).
      inversion E2; subst. assert (y2 = y) as -> by congruence. destruct P as [-> | ->]; congruence.
Qed.

(** A readable directive meant for the other side is left out, silently. *)
Theorem C15_hidden : forall sd d, wire d -> hidden sd d -> Forall (readable sd) d -> from_rv_directive d sd = Ok None.
Proof.
  intros sd d W H R. pose proof (from_rv_directive_cases sd d W) as C.
  destruct (from_rv_directive d sd) as [[x|]|e|w]; [|reflexivity| |destruct C].
  - destruct C as [F _]. destruct H as (i & Hi & N). rewrite Forall_forall in F. destruct (F i Hi). congruence.
  - destruct C as (_ & [(d1 & i & d2 & -> & _ & N & _)|(F & _)]).
    + destruct N. apply Forall_app in R. destruct R as [_ R]. inversion R; assumption.
    + destruct H as (i & Hi & N). rewrite Forall_forall in F. destruct (F i Hi). congruence.
Qed.

(** The errors: a value that is not readable, before any marker of the other side; or no port. *)
Theorem C15_errors : forall sd d e, wire d -> from_rv_directive d sd = Err e ->
  (exists d1 i d2, d = d1 ++ i :: d2 /\ ~ hidden sd d1 /\ Forall (readable sd) d1 /\ ~ readable sd i) \/
  (~ hidden sd d /\ given (port_var sd) d = [] /\
   forall p, last_given as_protocol RV_Protocol d (Some p) -> p <> PR_Http /\ p <> PR_Https).
Proof.
  intros sd d e W H. pose proof (from_rv_directive_cases sd d W) as C. rewrite H in C.
  assert (V : forall l, Forall (fun i => not_for sd i = false /\ readable sd i) l -> ~ hidden sd l /\ Forall (readable sd) l).
  { intros l F. rewrite Forall_forall in F. split; [intros (i & Hi & N); destruct (F i Hi); congruence|].
    apply Forall_forall. intros i Hi. apply F; exact Hi. }
  destruct C as (_ & [(d1 & i & d2 & -> & F & N & _)|(F & G & o & L & N1 & N2)]).
  - left. exists d1, i, d2. apply V in F. tauto.
  - right. apply V in F. split; [tauto|]. split; [exact G|]. intros p L2. unfold last_given in L, L2.
    destruct (rev (given RV_Protocol d)); [discriminate|]. destruct L as (v & y & D & Fy & ->), L2 as (v2 & y2 & D2 & F2 & E2).
    inversion E2; subst. assert (y2 = y) as -> by congruence. split; congruence.
Qed.

(** No panic. *)
Theorem C15_no_panic : forall sd d w, wire d -> from_rv_directive d sd <> Panic w.
Proof. intros sd d w W H. pose proof (from_rv_directive_cases sd d W) as C. rewrite H in C. exact C. Qed.

(** The list: the interpretations, in order, of exactly the directives meant for this side. *)
Inductive selected (sd : side) : rv_info -> list rv_interp -> Prop :=
| sel_nil : selected sd [] []
| sel_keep d r x l : ~ hidden sd d -> interprets sd d x -> selected sd r l -> selected sd (d :: r) (x :: l)
| sel_skip d r l : hidden sd d -> selected sd r l -> selected sd (d :: r) l.

Theorem C15_list : forall sd r l, Forall wire r -> to_interpreted r sd = Ok l -> selected sd r l.
Proof.
  induction r as [|d r IH]; intros l W H; cbn [to_interpreted] in H; [inversion H; constructor|].
  inversion W as [|? ? W1 W2]; subst. destruct (from_rv_directive d sd) as [o|e|w] eqn:F; cbn [bind] in H; try discriminate.
  destruct (to_interpreted r sd) as [l'|e|w]; cbn [bind] in H; try discriminate.
  pose proof (from_rv_directive_cases sd d W1) as C. rewrite F in C.
  destruct o as [x|]; inversion H; subst.
  - destruct C as [FA I]. constructor; [|exact I|apply IH; auto]. rewrite Forall_forall in FA. intros (i & Hi & N). destruct (FA i Hi); congruence.
  - apply sel_skip; [|apply IH; auto]. destruct C as (d1 & i & d2 & -> & _ & N & _). exists i. split; [apply in_or_app; right; left; reflexivity|exact N].
Qed.

(** The list is an error exactly when one directive is. *)
Theorem C15_list_ok_iff : forall sd r,
  (exists l, to_interpreted r sd = Ok l) <-> Forall (fun d => exists o, from_rv_directive d sd = Ok o) r.
Proof.
  intros sd. induction r as [|d r IH]; cbn [to_interpreted]; [split; intros; [constructor|eauto]|]. split.
  - intros (l & H). destruct (from_rv_directive d sd) as [o|e|w] eqn:F; cbn [bind] in H; try discriminate.
    destruct (to_interpreted r sd) as [l'|e|w]; cbn [bind] in H; try discriminate. constructor; [eauto|]. apply IH. eauto.
  - intros H. inversion H as [|? ? (o & F) H2]; subst. apply IH in H2. destruct H2 as (l & L). rewrite F. cbn [bind]. rewrite L. cbn [bind]. eauto.
Qed.

(** ** Examples: a directive for everybody, one for the owner, one for the device with its own port. *)
Definition ex_dns : bytes := [99; 114; 118; 49].                  (* "rv1" *)
Definition ex_d1 : rv_directive := [(RV_Dns, ex_dns); (RV_IPAddress, [68; 192; 168; 1; 2]); (RV_Protocol, [1])].
Definition ex_d2 : rv_directive := [(RV_OwnerOnly, [246]); (RV_Dns, ex_dns); (RV_Protocol, [2]); (RV_OwnerPort, [25; 31; 144])].
Definition ex_d3 : rv_directive := [(RV_DeviceOnly, [246]); (RV_DevicePort, [25; 31; 144]); (RV_OwnerPort, [24; 80]); (RV_Protocol, [2])].
Definition ex_info : rv_info := [ex_d1; ex_d2; ex_d3].

Definition ex_x1 : rv_interp := Interp [[192; 168; 1; 2]] (Some (txt "rv1")) 80 None None false None None None PR_Http 0 false.
Definition ex_x2 : rv_interp := Interp [] (Some (txt "rv1")) 8080 None None false None None None PR_Https 0 false.
Definition ex_x3 : rv_interp := Interp [] None 8080 None None false None None None PR_Https 0 false.

Example C15_ex_wire : Forall wire ex_info.
Proof. unfold wire, ex_info. repeat first [apply Forall_cons|apply Forall_nil]; vm_compute; discriminate. Qed.
Example C15_ex_device : to_interpreted ex_info Device = Ok [ex_x1; ex_x3].
Proof. vm_compute. reflexivity. Qed.
Example C15_ex_owner : to_interpreted ex_info Owner = Ok [ex_x1; ex_x2].
Proof. vm_compute. reflexivity. Qed.
Example C15_ex_hidden : hidden Device ex_d2.
Proof. exists (RV_OwnerOnly, [246]). split; [left; reflexivity|reflexivity]. Qed.
Example C15_ex_no_port : from_rv_directive [(RV_Dns, ex_dns)] Device = Err FSerde.
Proof. vm_compute. reflexivity. Qed.
Example C15_ex_unreadable : from_rv_directive [(RV_Protocol, [24; 99])] Device = Err FSerde.
Proof. vm_compute. reflexivity. Qed.
Example C15_ex_wire_bytes : from_slice as_rv_info [129; 129; 130; 5; 68; 99; 114; 118; 49] = Ok [[(RV_Dns, ex_dns)]].
Proof. vm_compute. reflexivity. Qed.

(** * C16 *)
Definition scheme (http https p : N) : option str :=
  if p =? http then Some (txt "http") else if p =? https then Some (txt "https") else None.

(** The URL list of a directive: its endpoints in order, each with the scheme and the port. *)
Theorem C16_directive_urls : forall show_ip x,
  get_urls show_ip x =
  match scheme 1 2 (ri_protocol x) with
  | Some s => map (fun host => url s host (ri_port x)) (endpoints show_ip x)
  | None => []
  end.
Proof.
  intros show_ip x. unfold get_urls, scheme, endpoints, PR_Http, PR_Https.
  destruct (ri_protocol x =? 1); [|destruct (ri_protocol x =? 2); [|reflexivity]];
    (rewrite map_app, map_map; destruct (ri_dns x); reflexivity).
Qed.

(** From the directive itself: a URL is in the list exactly when the directive says HTTP or HTTPS and
    gives the host, as the last name or as one of the addresses, and the port for this side. *)
Theorem C16_directive_urls_from_wire : forall show_ip sd d x u, wire d -> from_rv_directive d sd = Ok (Some x) ->
  (In u (get_urls show_ip x) <->
   exists p s host port, last_given as_protocol RV_Protocol d (Some p) /\ scheme 1 2 p = Some s /\ u = url s host port /\
     ((exists name, last_given as_string RV_Dns d (Some name) /\ host = name) \/
      (exists raw v ip, In raw (given RV_IPAddress d) /\ dec_top raw = Some v /\ as_ip v = Some ip /\ host = show_ip ip)) /\
     (last_given as_u32 (port_var sd) d (Some port) \/
      (given (port_var sd) d = [] /\ ((p = 1 /\ port = 80) \/ (p = 2 /\ port = 443))))).
Proof.
  intros show_ip sd d x u W H. destruct (C15_directive sd d x W H) as (_ & _ & I).
  rewrite C16_directive_urls. destruct I as [I1 I2 (po & P1 & P2) (qo & Q1 & Q2) _ _ _ _ _ _ _ _].
  assert (LG : forall A (f : cval -> option A) var o1 o2, last_given f var d o1 -> last_given f var d o2 -> o1 = o2).
  { intros A f var o1 o2 L1 L2. unfold last_given in *. destruct (rev (given var d)); [congruence|].
    destruct L1 as (v & y & D & F & ->), L2 as (v2 & y2 & D2 & F2 & ->). congruence. }
  assert (LN : forall A (f : cval -> option A) var, last_given f var d None -> given var d = []).
  { intros A f var L. unfold last_given in L. destruct (rev (given var d)) eqn:R.
    - rewrite <- (rev_involutive (given var d)), R. reflexivity.
    - destruct L as (? & ? & _ & _ & E). discriminate. }
  assert (IPS : forall ip, In ip (ri_ips x) <-> exists raw v, In raw (given RV_IPAddress d) /\ dec_top raw = Some v /\ as_ip v = Some ip).
  { clear -I1. induction I1 as [|raw i l1 l2 (v & D & A) F IH]; intros ip.
    - split; [intros []|intros (? & ? & [] & _)].
    - split.
      + intros [->|Hi]; [exists raw, v; split; [left; reflexivity|auto]|]. apply IH in Hi. destruct Hi as (r & w & R & Q). exists r, w. split; [right; exact R|exact Q].
      + intros (r & w & [->|R] & D2 & A2); [left; congruence|right; apply IH; eauto]. }
  split.
  - destruct (scheme 1 2 (ri_protocol x)) as [s|] eqn:S; [|intros []]. intros Hu. apply in_map_iff in Hu. destruct Hu as (host & <- & Hh).
    assert (po = Some (ri_protocol x)).
    { destruct po as [p|]; [congruence|]. rewrite P2 in S. discriminate. }
    subst po. exists (ri_protocol x), s, host, (ri_port x). split; [exact P1|]. split; [exact S|]. split; [reflexivity|]. split.
    + unfold endpoints in Hh. apply in_app_or in Hh. destruct Hh as [Hh|Hh].
      * left. destruct (ri_dns x) as [n|]; [|destruct Hh]. destruct Hh as [->|[]]. eauto.
      * right. apply in_map_iff in Hh. destruct Hh as (ip & <- & Hi). apply IPS in Hi. destruct Hi as (raw & v & R & D & A). exists raw, v, ip. auto.
    + destruct qo as [q|]; [left; rewrite Q2; exact Q1|]. right. split; [eapply LN; exact Q1|].
      unfold PR_Http, PR_Https in Q2. tauto.
  - intros (p & s & host & port & L1 & S & -> & Hh & Hp). pose proof (LG _ _ _ _ _ P1 L1) as ->. rewrite P2, S.
    assert (port = ri_port x) as ->.
    { destruct Hp as [Hp|[G Hp]].
      - pose proof (LG _ _ _ _ _ Q1 Hp) as ->. congruence.
      - destruct qo as [q|]. { unfold last_given in Q1. rewrite G in Q1. discriminate. }
        unfold PR_Http, PR_Https in Q2. rewrite P2 in Q2. destruct Hp as [[-> ->]|[-> ->]]; destruct Q2 as [[A B]|[A B]]; congruence. }
    apply (in_map (fun host => url s host (ri_port x))). unfold endpoints. apply in_or_app. destruct Hh as [(n & L & ->)|(raw & v & ip & R & D & A & ->)].
    + left. pose proof (LG _ _ _ _ _ I2 L) as ->. left; reflexivity.
    + right. apply in_map. apply IPS. eauto.
Qed.

(** The owner's address list: the endpoints of the HTTP and HTTPS entries, in order. *)
Theorem C16_owner_urls : forall show_ip l,
  get_to2_urls show_ip l =
  flat_map (fun a => match scheme 3 5 (ta_protocol a) with
                     | Some s => map (fun host => url s host (ta_port a)) (to2_endpoints show_ip a)
                     | None => []
                     end) l.
Proof.
  intros show_ip. induction l as [|a l IH]; [reflexivity|]. cbn [get_to2_urls flat_map]. rewrite IH. f_equal.
  unfold scheme, to2_endpoints, TP_Http, TP_Https.
  destruct (ta_protocol a =? 3); [|destruct (ta_protocol a =? 5); [|reflexivity]];
    (destruct (ta_dns a), (ta_ip a); reflexivity).
Qed.

(** The device contacts a directive only if it is plain HTTP(S): no bypass, wifi or user input. *)
Theorem C16_device_contacts : forall show_ip d x us, wire d -> from_rv_directive d Device = Ok (Some x) ->
  (get_client_list show_ip x = Some us <->
   us = get_urls show_ip x /\ given RV_Bypass d = [] /\ given RV_WifiSsid d = [] /\ given RV_UserInput d = [] /\
   (ri_protocol x = 1 \/ ri_protocol x = 2)).
Proof.
  intros show_ip d x us W H. destruct (C15_directive Device d x W H) as (_ & _ & I).
  destruct I as [_ _ _ _ _ _ _ I9 _ _ I11 I12]. cbn [device_reads] in I9. unfold last_given in I9.
  assert (B : ri_bypass x = false <-> given RV_Bypass d = []).
  { destruct (ri_bypass x) eqn:E; split; intros K; try discriminate; try reflexivity.
    - destruct I12 as [I12 _]. destruct (I12 eq_refl). contradiction.
    - destruct (given RV_Bypass d); [reflexivity|]. destruct I12 as [_ I12]. discriminate I12. split; [reflexivity|discriminate]. }
  assert (U : ri_user_input x = false <-> given RV_UserInput d = []).
  { destruct (ri_user_input x) eqn:E; split; intros K; try discriminate; try reflexivity.
    - destruct I11 as [I11 _]. destruct (I11 eq_refl). contradiction.
    - destruct (given RV_UserInput d); [reflexivity|]. destruct I11 as [_ I11]. discriminate I11. split; [reflexivity|discriminate]. }
  assert (SS : ri_ssid x = None <-> given RV_WifiSsid d = []).
  { destruct (rev (given RV_WifiSsid d)) eqn:R.
    - split; [intros _; rewrite <- (rev_involutive (given RV_WifiSsid d)), R; reflexivity|intros _; exact I9].
    - destruct I9 as (? & ? & _ & _ & E). split; intros K; [congruence|]. rewrite K in R. discriminate. }
  rewrite <- B, <- U, <- SS. unfold get_client_list, PR_Http, PR_Https.
  destruct (ri_bypass x); [split; [discriminate|intros (_ & ? & _); discriminate]|].
  destruct (ri_ssid x); [split; [discriminate|intros (_ & _ & ? & _); discriminate]|].
  destruct (ri_user_input x); [split; [discriminate|intros (_ & _ & _ & ? & _); discriminate]|].
  destruct (N.eqb_spec (ri_protocol x) 1) as [E|E], (N.eqb_spec (ri_protocol x) 2) as [E2|E2]; cbn [negb andb];
    split; try (intros K; inversion K; subst; auto 6); try (intros (-> & _); reflexivity).
  destruct K as (_ & _ & _ & _ & [?|?]); congruence.
Qed.

(** Finding: an IPv6 address is not put in brackets, as the URL syntax (RFC 3986) demands. *)
Definition C16_ipv6_statement : Prop := forall (show_ip : bytes -> str) x ip,
  In ip (ri_ips x) -> nlen ip = 16 -> ri_protocol x = 1 ->
  In (url (txt "http") (txt "[" ++ show_ip ip ++ txt "]") (ri_port x)) (get_urls show_ip x).
Theorem C16_ipv6_refuted : ~ C16_ipv6_statement.
Proof.
  intros H. specialize (H (fun _ => txt "::1") (Interp [repeat 0 15 ++ [1]] None 80 None None false None None None 1 0 false) (repeat 0 15 ++ [1])).
  specialize (H (or_introl eq_refl) eq_refl eq_refl). vm_compute in H. destruct H as [H|[]]. discriminate.
Qed.

Example C16_ex : get_urls (fun _ => txt "192.168.1.2") ex_x1 = [txt "http://rv1:80"; txt "http://192.168.1.2:80"].
Proof. vm_compute. reflexivity. Qed.
Example C16_ex_contact : get_client_list (fun _ => txt "192.168.1.2") ex_x1 = Some [txt "http://rv1:80"; txt "http://192.168.1.2:80"].
Proof. vm_compute. reflexivity. Qed.
Example C16_ex_directive : from_rv_directive ex_d1 Device = Ok (Some ex_x1).
Proof. vm_compute. reflexivity. Qed.
Example C16_ex_owner : get_to2_urls (fun _ => txt "192.168.1.2")
  [Addr (Some [192; 168; 1; 2]) (Some (txt "own")) 8081 3; Addr None (Some (txt "x")) 1 4; Addr None (Some (txt "own")) 443 5]
  = [txt "http://own:8081"; txt "http://192.168.1.2:8081"; txt "https://own:443"].
Proof. vm_compute. reflexivity. Qed.

Print Assumptions C15_wire.
Print Assumptions C15_directive.
Print Assumptions C15_visible.
Print Assumptions C15_hidden.
Print Assumptions C15_errors.
Print Assumptions C15_no_panic.
Print Assumptions C15_list.
Print Assumptions C15_list_ok_iff.
Print Assumptions C16_directive_urls.
Print Assumptions C16_directive_urls_from_wire.
Print Assumptions C16_owner_urls.
Print Assumptions C16_device_contacts.
Print Assumptions C16_ipv6_refuted.
