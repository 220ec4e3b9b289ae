(** C83: hand-written rendezvous information is read as written; C84: which documents are accepted. *)
From Verif Require Import Base BaseFacts ValueModel TypesModel Text RvModel RvSpec RvProofs RvYamlModel RvYamlSpec RvYamlProofs P_Rv.
From Coq Require Import ZifyBool ZifyNat ZifyN.
Local Open Scope N_scope.
Local Opaque dec_top.

(** What is assumed of [std::net::IpAddr::from_str]: an address has 4 or 16 octets. *)
Definition ip_law (parse_ip : str -> option bytes) : Prop := forall s b, parse_ip s = Some b -> bytes_ok b /\ (nlen b = 4 \/ nlen b = 16).
Definition doc_fits (doc : list entry) : Prop := Forall (Forall (fun kv => yaml_fits (snd kv))) doc.

(** Every accepted configuration can be read by both sides, and reads as it was written. *)
Definition C83_statement : Prop := forall parse_ip sd doc r, ip_law parse_ip -> doc_fits doc ->
  load_settings parse_ip doc = Ok r -> exists l, to_interpreted r sd = Ok l /\ written parse_ip sd doc l.

(** Proved for entries that are not for this side or whose port is known, with ports and delays that fit 32 bits. *)
Theorem C83_as_written_partial : forall parse_ip sd doc r, ip_law parse_ip -> doc_fits doc ->
  load_settings parse_ip doc = Ok r ->
  Forall (fun e => in_range sd e /\ (not_meant sd e \/ has_port sd e)) doc ->
  exists l, to_interpreted r sd = Ok l /\ written parse_ip sd doc l.
Proof.
  intros parse_ip sd doc r IP DF H C. unfold load_settings in H. destruct (load_entries parse_ip doc) as [x|x|w] eqn:E; cbn [bind] in H; try discriminate.
  injection H as <-. apply load_entries_iff in E. revert DF C. induction E as [|e d doc x L E IH]; intros DF C.
  - exists []. split; [reflexivity|constructor].
  - inversion DF as [|? ? D1 D2]; subst. inversion C as [|? ? (R & M) C2]; subst. destruct (IH D2 C2) as (l & T & W). clear IH.
    unfold rv_info_new in *. cbn [map to_interpreted]. fold (directive_of d).
    pose proof (wire_loaded parse_ip e d L) as WI. pose proof (readable_loaded parse_ip IP sd e d D1 R L) as RE.
    pose proof (hidden_loaded parse_ip sd e d L) as HI.
    assert (DEC : not_meant sd e \/ ~ not_meant sd e).
    { rewrite <- HI. pose proof (from_rv_directive_cases sd (directive_of d) WI) as K.
      destruct (from_rv_directive (directive_of d) sd) as [[y|]|f|w].
      - right. intros (i & I & N). destruct K as (F & _). rewrite Forall_forall in F. destruct (F i I). congruence.
      - left. destruct K as (d1 & i & d2 & -> & _ & N & _). exists i. split; [apply in_elt|exact N].
      - destruct K as (_ & [(d1 & i & d2 & E1 & _ & N & _)|(F & _)]).
        + rewrite E1 in RE. apply Forall_elt in RE. contradiction.
        + right. intros (i & I & N). rewrite Forall_forall in F. destruct (F i I). congruence.
      - destruct K. }
    destruct DEC as [NM|ME].
    + rewrite (C15_hidden sd _ WI (proj2 HI NM) RE). cbn [bind]. rewrite T. cbn [bind]. exists l. split; [reflexivity|]. apply wr_skip; assumption.
    + destruct M as [M|M]; [contradiction|].
      destruct (C15_visible sd (directive_of d) WI) as (y & Y); [intros K; apply ME; apply HI; exact K|exact RE| |].
      { destruct M as [M|(p & LS & P)].
        - left. rewrite <- (given_mentions parse_ip (own_port sd) e d L) in M. destruct sd; exact M.
        - right. exists p. split; [|exact P]. apply (last_said_given parse_ip IP as_protocol is_protocol RV_Protocol e d (Some p)); [unfold RV_Protocol; lia|exact D1|exact L| |exact LS]. intros z v q FZ MZ GZ. exact (protocol_read parse_ip IP z v q FZ MZ GZ). }
      rewrite Y. cbn [bind]. rewrite T. cbn [bind]. exists (y :: l). split; [reflexivity|].
      apply wr_keep; [exact ME| |exact W]. destruct (C15_directive sd _ y WI Y) as (_ & _ & I). eapply interprets_loaded; eassumption.
Qed.

(** The owner's tool reads a file of the same form: a sequence of mappings with texts as keys. *)
Definition as_document (doc : list entry) : yaml := YSeq (map (fun e => YMap (map (fun kv => (YStr (fst kv), snd kv)) e)) doc).
Theorem C83_tool : forall parse_ip y r, load_document parse_ip y = Ok r <->
  exists doc, y = as_document doc /\ load_settings parse_ip doc = Ok r.
Proof.
  intros parse_ip y r. split.
  - intros H. apply load_document_ok in H. exact H.
  - intros (doc & -> & H). unfold as_document. cbn [load_document]. fold map_of. change (fun e => YMap (map (fun kv : str * yaml => (YStr (fst kv), snd kv)) e)) with map_of.
    rewrite load_maps_entries. exact H.
Qed.

(** * The addresses a device contacts *)
(** The hosts, in order: the name (the last one given), then the addresses. *)
Definition hosts (parse_ip : str -> option bytes) (show_ip : bytes -> str) (e : entry) (hs : list str) : Prop :=
  exists names addrs l, hs = names ++ addrs /\
    ((exists n, last_said is_text 5 e (Some n) /\ names = [n]) \/ (~ mentions 5 e /\ names = [])) /\
    said 2 e l /\ Forall2 (fun y a => exists s b, y = YStr s /\ parse_ip s = Some b /\ a = show_ip b) l addrs.
Definition contact_urls (parse_ip : str -> option bytes) (show_ip : bytes -> str) (e : entry) (us : list str) : Prop :=
  exists p s port hs, last_said is_protocol 12 e (Some p) /\ ((p = 1 /\ s = txt "http") \/ (p = 2 /\ s = txt "https")) /\
    (last_said is_number 3 e (Some port) \/ (~ mentions 3 e /\ ((p = 1 /\ port = 80) \/ (p = 2 /\ port = 443)))) /\
    hosts parse_ip show_ip e hs /\ us = map (fun h => url s h port) hs.

Lemma last_said_none {A} (f : yaml -> A -> Prop) var e : last_said f var e None -> ~ mentions var e.
Proof.
  intros (l & S & H) M. apply said_eq in S. subst l. apply mentions_iff in M.
  destruct (rev (said_of var e)) eqn:R; [|destruct H as (x & _ & E); discriminate].
  apply M. rewrite <- (rev_involutive (said_of var e)), R. reflexivity.
Qed.
Lemma last_said_some {A} (f : yaml -> A -> Prop) var e x : last_said f var e (Some x) -> mentions var e.
Proof.
  intros (l & S & H). apply said_eq in S. subst l. apply mentions_iff. intros E. rewrite E in H. discriminate.
Qed.
Lemma last_said_det {A} (f : yaml -> A -> Prop) var e o o2 : (forall y a b, f y a -> f y b -> a = b) ->
  last_said f var e o -> last_said f var e o2 -> o = o2.
Proof.
  intros D (l & S & H) (l2 & S2 & H2). apply said_eq in S. apply said_eq in S2. subst l l2.
  destruct (rev (said_of var e)) as [|y r]; [congruence|]. destruct H as (x & F & ->), H2 as (x2 & F2 & ->). f_equal. eapply D; eassumption.
Qed.
Lemma is_text_det y a b : is_text y a -> is_text y b -> a = b.
Proof. unfold is_text. intros -> H. injection H as ->. reflexivity. Qed.
Lemma is_number_det y a b : is_number y a -> is_number y b -> a = b.
Proof. unfold is_number. intros -> H. injection H as H. lia. Qed.
Lemma is_protocol_det y a b : is_protocol y a -> is_protocol y b -> a = b.
Proof.
  intros (s & -> & C) (s2 & E & C2). injection E as <-. apply protocol_called in C. apply protocol_called in C2. congruence.
Qed.

Lemma addresses (parse_ip : str -> option bytes) (show_ip : bytes -> str) l ips : Forall2 (is_address parse_ip) l ips ->
  Forall2 (fun y a => exists s b, y = YStr s /\ parse_ip s = Some b /\ a = show_ip b) l (map show_ip ips).
Proof. induction 1 as [|y b l ips (s & -> & P) F IH]; [constructor|]. cbn [map]. constructor; [eauto 6|exact IH]. Qed.
Lemma addresses_det (parse_ip : str -> option bytes) (show_ip : bytes -> str) l ips addrs : Forall2 (is_address parse_ip) l ips ->
  Forall2 (fun y a => exists s b, y = YStr s /\ parse_ip s = Some b /\ a = show_ip b) l addrs -> addrs = map show_ip ips.
Proof.
  intros F. revert addrs. induction F as [|y b l ips (s & -> & P) F IH]; intros addrs G; inversion G as [|? a ? l2 (s2 & b2 & E & P2 & ->) G2]; subst; [reflexivity|].
  cbn [map]. injection E as <-. assert (b2 = b) as -> by congruence. f_equal. apply IH. exact G2.
Qed.

(** For an entry read as written: the device contacts it exactly when it asks for no bypass, wireless network or
    input and names HTTP or HTTPS; the URLs are those the entry spells out. *)
Theorem C83_contacted : forall parse_ip show_ip e x us, as_written parse_ip Device e x ->
  (get_client_list show_ip x = Some us <->
   ~ mentions 14 e /\ ~ mentions 9 e /\ ~ mentions 8 e /\ contact_urls parse_ip show_ip e us).
Proof.
  intros parse_ip show_ip e x us [A1 A2 (po & P1 & P2) (qo & Q1 & Q2) _ A6 _ A8 A9 _].
  assert (B : ri_bypass x = false <-> ~ mentions 14 e) by (destruct (ri_bypass x); split; [discriminate|intros K; destruct K; apply A9; reflexivity|intros _ K; assert (false = true) by (apply A9; auto); discriminate|reflexivity]).
  assert (U : ri_user_input x = false <-> ~ mentions 8 e) by (destruct (ri_user_input x); split; [discriminate|intros K; destruct K; apply A8; reflexivity|intros _ K; assert (false = true) by (apply A8; auto); discriminate|reflexivity]).
  assert (S : ri_ssid x = None <-> ~ mentions 9 e).
  { cbn [for_device] in A6. destruct (ri_ssid x) as [s|].
    - split; [discriminate|]. intros K. destruct K. apply last_said_some in A6. exact A6.
    - split; [|reflexivity]. intros _. apply last_said_none in A6. exact A6. }
  assert (GC : get_client_list show_ip x = Some us <-> ri_bypass x = false /\ ri_ssid x = None /\ ri_user_input x = false /\ (ri_protocol x = 1 \/ ri_protocol x = 2) /\ us = get_urls show_ip x).
  { unfold get_client_list, PR_Http, PR_Https. destruct (ri_bypass x); [split; [discriminate|intros (? & _); discriminate]|].
    destruct (ri_ssid x); [split; [discriminate|intros (_ & ? & _); discriminate]|].
    destruct (ri_user_input x); [split; [discriminate|intros (_ & _ & ? & _); discriminate]|].
    destruct (N.eqb_spec (ri_protocol x) 1), (N.eqb_spec (ri_protocol x) 2); cbn [negb andb]; split; try (intros K; injection K as <-; auto 6; fail);
      try (intros (_ & _ & _ & _ & ->); reflexivity); try discriminate. intros (_ & _ & _ & [?|?] & _); contradiction. }
  rewrite GC, B, S, U, C16_directive_urls.
  destruct A1 as (l & L1 & L2). cbn [own_port] in Q1.
  assert (HOSTS : hosts parse_ip show_ip e (endpoints show_ip x)).
  { exists (match ri_dns x with Some d => [d] | None => [] end), (map show_ip (ri_ips x)), l. split; [reflexivity|]. split; [|split; [exact L1|apply addresses; exact L2]].
    destruct (ri_dns x) as [n|]; [left; eauto|right]. split; [apply last_said_none in A2; exact A2|reflexivity]. }
  assert (HOSTS_DET : forall hs, hosts parse_ip show_ip e hs -> hs = endpoints show_ip x).
  { intros hs (names & addrs & l2 & -> & HN & L3 & L4). unfold endpoints. f_equal.
    - destruct HN as [(n & N1 & ->)|(N1 & ->)].
      + rewrite (last_said_det is_text 5 e _ _ is_text_det A2 N1). reflexivity.
      + destruct (ri_dns x); [|reflexivity]. apply last_said_some in A2. contradiction.
    - apply said_eq in L1. apply said_eq in L3. subst l l2. eapply addresses_det; eassumption. }
  split.
  - intros (NB & NS & NU & PR & ->). split; [exact NB|]. split; [exact NS|]. split; [exact NU|].
    assert (po = Some (ri_protocol x)). { destruct po as [p|]; [congruence|]. rewrite P2 in PR. destruct PR; discriminate. }
    subst po. unfold contact_urls.
    assert (PO : last_said is_number 3 e (Some (ri_port x)) \/ (~ mentions 3 e /\ ((ri_protocol x = 1 /\ ri_port x = 80) \/ (ri_protocol x = 2 /\ ri_port x = 443)))).
    { destruct qo as [q|]; [left; rewrite Q2; exact Q1|right]. split; [apply last_said_none in Q1; exact Q1|exact Q2]. }
    destruct PR as [PR|PR].
    + exists (ri_protocol x), (txt "http"), (ri_port x), (endpoints show_ip x). repeat split; auto. rewrite PR. reflexivity.
    + exists (ri_protocol x), (txt "https"), (ri_port x), (endpoints show_ip x). repeat split; auto. rewrite PR. reflexivity.
  - intros (NB & NS & NU & p & s & port & hs & LP & PS & PO & HO & ->). split; [exact NB|]. split; [exact NS|]. split; [exact NU|].
    pose proof (last_said_det is_protocol 12 e _ _ is_protocol_det P1 LP) as ->. rewrite P2. split; [destruct PS as [(-> & _)|(-> & _)]; auto|].
    rewrite (HOSTS_DET hs HO).
    assert (port = ri_port x) as ->.
    { destruct PO as [PO|(PO & PD)].
      - pose proof (last_said_det is_number 3 e _ _ is_number_det Q1 PO) as ->. congruence.
      - destruct qo as [q|]; [apply last_said_some in Q1; contradiction|]. rewrite P2 in Q2. destruct PD as [(-> & ->)|(-> & ->)], Q2 as [(E & E2)|(E & E2)]; congruence. }
    destruct PS as [(-> & ->)|(-> & ->)]; reflexivity.
Qed.

(** * C84 *)
(** Accepted are exactly the documents in which each key is a name of a variable, in any case of letters, and
    each value is one the variable can have. *)
Theorem C84_accepted : forall parse_ip doc, (exists r, load_settings parse_ip doc = Ok r) <-> Forall (well_said parse_ip) doc.
Proof.
  intros parse_ip doc. unfold load_settings.
  assert (E : forall e, (exists l, Forall2 (loaded parse_ip) e l) <-> well_said parse_ip e).
  { unfold well_said. induction e as [|(k, y) e IH]; [split; intros; [constructor|exists []; constructor]|]. split.
    - intros (l & L). inversion L as [|? (n, v) ? l2 (V & M) L2]; subst. cbn [fst snd] in V, M. constructor; [|apply IH; eauto].
      exists n. cbn [fst snd]. split; [apply var_called; exact V|]. apply means_proper; [apply (var_le _ _ V)|eauto].
    - intros W. inversion W as [|? ? (n & C & P) W2]; subst. cbn [fst snd] in C, P. apply var_called in C. apply means_proper in P; [|apply (var_le _ _ C)].
      destruct P as (v & M). apply IH in W2. destruct W2 as (l & L). exists ((n, v) :: l). constructor; [split; assumption|exact L]. }
  assert (K : (exists x, load_entries parse_ip doc = Ok x) <-> Forall (well_said parse_ip) doc).
  { induction doc as [|e doc IH]; [split; intros; [constructor|exists []; reflexivity]|]. split.
    - intros (x & X). apply load_entries_iff in X. inversion X as [|? d ? x2 L X2]; subst. constructor; [apply E; eauto|].
      apply IH. exists x2. apply load_entries_iff. exact X2.
    - intros W. inversion W as [|? ? W1 W2]; subst. apply E in W1. destruct W1 as (l & L). apply IH in W2. destruct W2 as (x & X). apply load_entries_iff in X.
      exists (l :: x). apply load_entries_iff. constructor; assumption. }
  rewrite <- K. destruct (load_entries parse_ip doc) as [x|x|w]; cbn [bind]; split; intros (r & H); try discriminate; eauto.
Qed.

(** Any other document is refused with an error. *)
Definition C84_statement : Prop := forall parse_ip doc, (exists r, load_settings parse_ip doc = Ok r) \/ load_settings parse_ip doc = Err tt.

(** Proved when no value has a mapping with a tag in it. *)
Theorem C84_refused_partial : forall parse_ip doc, Forall (Forall (fun kv => maps_untagged (snd kv))) doc ->
  (exists r, load_settings parse_ip doc = Ok r) \/ load_settings parse_ip doc = Err tt.
Proof.
  intros parse_ip doc M. unfold load_settings.
  assert (V : forall n h w, value_from_human_to_machine parse_ip n h <> Panic w).
  { intros n h w. unfold value_from_human_to_machine.
    repeat (match goal with |- (if ?b then _ else _) <> _ => destruct b end; [destruct h; try discriminate|]); try discriminate.
    - destruct (protocol_of_str s); discriminate.
    - destruct (parse_ip s); discriminate. }
  assert (E : forall e, Forall (fun kv => maps_untagged (snd kv)) e -> forall w, load_entry parse_ip e <> Panic w).
  { intros e. induction e as [|(k, y) e IH]; intros F w; [discriminate|]. inversion F as [|? ? F1 F2]; subst. cbn [snd] in F1. cbn [load_entry].
    destruct (var_of_str k) as [n|]; cbn [of_option bind]; [|discriminate].
    destruct (conv_cases y) as (_ & C & _). destruct (C F1) as (o & -> & O). destruct o as [h|x|q]; cbn [bind]; [|discriminate|contradiction].
    specialize (V n h). destruct (value_from_human_to_machine parse_ip n h) as [v|x|q]; cbn [bind]; [|discriminate|destruct (V q eq_refl)].
    specialize (IH F2). destruct (load_entry parse_ip e) as [r|x|q]; cbn [bind]; [discriminate|discriminate|]. intros H. injection H as ->. apply (IH w). reflexivity. }
  assert (D : forall w, load_entries parse_ip doc <> Panic w).
  { induction M as [|e doc F M IH]; intros w; [discriminate|]. cbn [load_entries]. specialize (E e F).
    destruct (load_entry parse_ip e) as [a|x|q]; cbn [bind]; [|discriminate|destruct (E q eq_refl)].
    destruct (load_entries parse_ip doc) as [r|x|q]; cbn [bind]; [discriminate|discriminate|]. intros H. injection H as ->. apply (IH w). reflexivity. }
  destruct (load_entries parse_ip doc) as [x|[]|w]; cbn [bind]; [left; eauto|right; reflexivity|destruct (D w eq_refl)].
Qed.
Theorem C84_refuted : ~ C84_statement.
Proof.
  intros H. specialize (H (fun _ => None) [[(txt "dns", YMap [(YStr (txt "a"), YTagged YNull)])]]).
  destruct H as [(r & H)|H]; discriminate.
Qed.

(** * Findings *)
(** "dns: rv" alone is accepted, but neither side can read it: the default protocol (TLS) has no default port. *)
Definition toy_ip (s : str) : option bytes := if bytes_eqb s (txt "192.168.1.2") then Some [192; 168; 1; 2] else None.
Lemma toy_ip_law : ip_law toy_ip.
Proof.
  intros s b. unfold toy_ip. destruct (bytes_eqb s (txt "192.168.1.2")); [|discriminate]. intros H. injection H as <-.
  split; [repeat constructor; lia|left; reflexivity].
Qed.
Definition ex_bare : list entry := [[(txt "dns", YStr (txt "rv"))]].
Theorem C83_refuted : ~ C83_statement.
Proof.
  intros H. assert (F : doc_fits ex_bare). { repeat constructor. }
  destruct (H toy_ip Device ex_bare [[(5, [98; 114; 118])]] toy_ip_law F) as (l & L & _); [vm_compute; reflexivity|].
  assert (E : to_interpreted [[(5, [98; 114; 118])]] Device = Err FSerde) by (vm_compute; reflexivity). rewrite E in L. discriminate.
Qed.
(** One entry the device cannot read makes it lose all of them: here a port beyond 32 bits in the second entry. *)
Definition ex_poison : list entry :=
  [[(txt "dns", YStr (txt "rv")); (txt "protocol", YStr (txt "http"))];
   [(txt "device_port", YInt 4294967296); (txt "dns", YStr (txt "rv2")); (txt "protocol", YStr (txt "http"))]].
Example C83_poison : exists r, load_settings toy_ip ex_poison = Ok r /\ to_interpreted r Device = Err FSerde.
Proof.
  exists [[(5, [98; 114; 118]); (12, [1])]; [(3, [27; 0; 0; 0; 1; 0; 0; 0; 0]); (5, [99; 114; 118; 50]); (12, [1])]].
  split; vm_compute; reflexivity.
Qed.
(** A marker set to false counts as set. *)
Definition C83_marker_statement : Prop := forall parse_ip sd e r r2 var, (var = 0 \/ var = 1 \/ var = 8 \/ var = 14) ->
  ip_law parse_ip -> doc_fits [e] -> (forall k, called var_names k var -> load_settings parse_ip [(k, YBool false) :: e] = Ok r ->
  load_settings parse_ip [e] = Ok r2 -> to_interpreted r sd = to_interpreted r2 sd).
Theorem C83_marker_refuted : ~ C83_marker_statement.
Proof.
  intros H. assert (F : doc_fits [[(txt "dns", YStr (txt "rv")); (txt "protocol", YStr (txt "http"))]]). { repeat constructor. }
  assert (C : called var_names (txt "owner_only") 1). { apply var_called. vm_compute. reflexivity. }
  specialize (H toy_ip Device [(txt "dns", YStr (txt "rv")); (txt "protocol", YStr (txt "http"))]
    [[(1, [246]); (5, [98; 114; 118]); (12, [1])]] [[(5, [98; 114; 118]); (12, [1])]] 1 (or_intror (or_introl eq_refl)) toy_ip_law F (txt "owner_only") C).
  assert (E1 : load_settings toy_ip [[(txt "owner_only", YBool false); (txt "dns", YStr (txt "rv")); (txt "protocol", YStr (txt "http"))]]
    = Ok [[(1, [246]); (5, [98; 114; 118]); (12, [1])]]) by (vm_compute; reflexivity).
  assert (E2 : load_settings toy_ip [[(txt "dns", YStr (txt "rv")); (txt "protocol", YStr (txt "http"))]] = Ok [[(5, [98; 114; 118]); (12, [1])]]) by (vm_compute; reflexivity).
  specialize (H E1 E2).
  assert (E3 : to_interpreted [[(1, [246]); (5, [98; 114; 118]); (12, [1])]] Device = Ok []) by (vm_compute; reflexivity).
  assert (E4 : to_interpreted [[(5, [98; 114; 118]); (12, [1])]] Device = Ok [Interp [] (Some (txt "rv")) 80 None None false None None None 1 0 false]) by (vm_compute; reflexivity).
  rewrite E3, E4 in H. discriminate.
Qed.

(** * A case: an entry for both sides, one for the owner, one for the device with its own port. *)
Definition ex_doc : list entry :=
  [[(txt "DNS", YStr (txt "rv1")); (txt "ip_address", YStr (txt "192.168.1.2")); (txt "protocol", YStr (txt "HTTP"))];
   [(txt "owner_only", YNull); (txt "dns", YStr (txt "rv1")); (txt "owner_port", YInt 8080); (txt "protocol", YStr (txt "https"))];
   [(txt "DeviceOnly", YBool true); (txt "DevicePort", YInt 8080); (txt "dns", YStr (txt "rv2")); (txt "delay", YInt 5); (txt "protocol", YStr (txt "https"))]].
Definition ex_rv : rv_info :=
  [[(5, [99; 114; 118; 49]); (2, [68; 192; 168; 1; 2]); (12, [1])];
   [(1, [246]); (5, [99; 114; 118; 49]); (4, [25; 31; 144]); (12, [2])];
   [(0, [246]); (3, [25; 31; 144]); (5, [99; 114; 118; 50]); (13, [5]); (12, [2])]].
Example C83_case_loads : load_settings toy_ip ex_doc = Ok ex_rv /\ load_document toy_ip (as_document ex_doc) = Ok ex_rv.
Proof. split; vm_compute; reflexivity. Qed.
Example C83_case_hyps : doc_fits ex_doc /\ Forall (fun e => in_range Device e /\ (not_meant Device e \/ has_port Device e)) ex_doc.
Proof.
  assert (R : forall e, forallb (fun kv => match snd kv with YInt z => ((0 <=? z) && (z <=? 4294967295))%Z | _ => true end) e = true -> in_range Device e).
  { intros e F k y z I _ ->. rewrite forallb_forall in F. specialize (F _ I). cbn [snd] in F. lia. }
  split; [repeat constructor; cbn; lia|].
  constructor; [|constructor; [|constructor; [|constructor]]]; (split; [apply R; reflexivity|]).
  - right. right. exists 1. split; [|auto]. exists (said_of 12 (nth 0 ex_doc [])). split; [apply said_said|].
    exists 1. split; [|reflexivity]. exists (txt "HTTP"). split; [reflexivity|]. apply protocol_called. reflexivity.
  - left. exists (txt "owner_only"), YNull. split; [left; reflexivity|]. apply var_called. reflexivity.
  - right. left. exists (txt "DevicePort"), (YInt 8080). split; [right; left; reflexivity|]. apply var_called. reflexivity.
Qed.
Example C83_case_device : to_interpreted ex_rv Device =
  Ok [Interp [[192; 168; 1; 2]] (Some (txt "rv1")) 80 None None false None None None 1 0 false;
      Interp [] (Some (txt "rv2")) 8080 None None false None None None 2 5 false].
Proof. vm_compute. reflexivity. Qed.
Example C83_case_contacts : map (get_client_list (fun _ => txt "192.168.1.2"))
  [Interp [[192; 168; 1; 2]] (Some (txt "rv1")) 80 None None false None None None 1 0 false;
   Interp [] (Some (txt "rv2")) 8080 None None false None None None 2 5 false] =
  [Some [txt "http://rv1:80"; txt "http://192.168.1.2:80"]; Some [txt "https://rv2:8080"]].
Proof. vm_compute. reflexivity. Qed.
Example C84_case : Forall (well_said toy_ip) ex_doc.
Proof. apply C84_accepted. exists ex_rv. apply C83_case_loads. Qed.
Example C84_case_refused : load_settings toy_ip [[(txt "medium", YInt 1)]] = Err tt /\ load_settings toy_ip [[(txt "dns", YInt 1)]] = Err tt.
Proof. split; reflexivity. Qed.

Print Assumptions C83_as_written_partial.
Print Assumptions C83_tool.
Print Assumptions C83_contacted.
Print Assumptions C84_accepted.
Print Assumptions C84_refused_partial.
Print Assumptions C84_refuted.
Print Assumptions C83_refuted.
Print Assumptions C83_marker_refuted.
