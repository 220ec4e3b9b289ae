(** Lemmas about the device's client: what it sends, and after what. *)
From Verif Require Import Base BaseFacts CborSpec CborModel CborProofs ValueModel ValueProofs TypesModel CryptoSpec TypesProofs Text VoucherModel
  VoucherSpec VoucherProofs VoucherProofs2 DecFacts DecSize CoseFacts KexModel RvModel MsgModel SessionModel HttpClientModel RvServerModel
  SiModel DevSiModel OwnerModel ClientModel ClientSpec.
From Verif Require To0Accept.
From Coq Require Import ZifyBool ZifyNat ZifyN.
Local Open Scope N_scope.
Local Opaque dec_top any_value.

(** * Histories grow *)
(** From [h] to [h'] the events were appended one by one, each allowed after those before it. *)
Definition grows (P : list devent -> devent -> Prop) (h h' : list devent) : Prop :=
  exists l, h' = h ++ l /\ forall p e q, l = p ++ e :: q -> P (h ++ p) e.
Definition gr (P : list devent -> devent -> Prop) {B} (m : dm B) (s : st) : Prop :=
  forall s' r, m s = (s', r) -> grows P (s_hist s) (s_hist s').
Definition emits (Q : devent -> Prop) {B} (m : dm B) : Prop := forall s, gr (fun _ => Q) m s.

Implicit Types (P : list devent -> devent -> Prop) (Q : devent -> Prop).
Lemma grows_refl P h : grows P h h.
Proof. exists []. split; [symmetry; apply app_nil_r|]. intros p e q E. destruct p; discriminate. Qed.
Lemma grows_one P h e : P h e -> grows P h (h ++ [e]).
Proof. intros H. exists [e]. split; [reflexivity|]. intros p x q E. destruct p as [|? [|? ?]]; inversion E; subst. rewrite app_nil_r. exact H. Qed.
Lemma grows_trans P a b c : grows P a b -> grows P b c -> grows P a c.
Proof.
  intros (l1 & -> & H1) (l2 & -> & H2). exists (l1 ++ l2). split; [symmetry; apply app_assoc|]. intros p e q E.
  destruct (le_lt_dec (length p) (length l1)) as [L|L].
  - apply app_eq_app in E. destruct E as (m & [[-> E]|[-> E]]).
    + destruct m as [|x m]; [|inversion E; subst; apply (H1 _ _ m); reflexivity].
      cbn [app] in E. rewrite app_nil_r in *. specialize (H2 [] e q ltac:(rewrite E; reflexivity)). rewrite app_nil_r in H2. exact H2.
    + rewrite app_length in L. destruct m as [|x m]; [|cbn [length] in L; lia]. cbn [app] in E. specialize (H2 [] e q ltac:(rewrite <- E; reflexivity)).
      rewrite app_nil_r in *. exact H2.
  - apply app_eq_app in E. destruct E as (m & [[-> E]|[-> E]]).
    + rewrite app_length in L. lia.
    + rewrite app_assoc. apply (H2 _ _ q). exact E.
Qed.
Lemma grows_weaken (P Q : list devent -> devent -> Prop) h h' : (forall p e, P (h ++ p) e -> Q (h ++ p) e) -> grows P h h' -> grows Q h h'.
Proof. intros W (l & -> & H). exists l. split; [reflexivity|]. intros p e q E. apply W. eapply H; eassumption. Qed.
Lemma grows_prefix P h h' : grows P h h' -> exists l, h' = h ++ l.
Proof. intros (l & E & _). eauto. Qed.
Lemma grows_forall Q h h' : grows (fun _ => Q) h h' -> exists l, h' = h ++ l /\ Forall Q l.
Proof.
  intros (l & -> & H). exists l. split; [reflexivity|]. apply Forall_forall. intros x I. apply in_split in I. destruct I as (p & q & ->).
  apply (H p x q). reflexivity.
Qed.
Lemma emits_gr (Q : devent -> Prop) P {B} (m : dm B) s : emits Q m -> (forall p e, Q e -> P (s_hist s ++ p) e) -> gr P m s.
Proof. intros E W s' r M. eapply grows_weaken; [|apply (E s s' r M)]. intros p e. apply W. Qed.
Lemma emits_weaken (Q R : devent -> Prop) {B} (m : dm B) : emits Q m -> (forall e, Q e -> R e) -> emits R m.
Proof. intros E W s. eapply emits_gr; [exact E|]. intros _ e. apply W. Qed.

Lemma gr_dbind P {B C} (m : dm B) (f : B -> dm C) s : gr P m s -> (forall s1 a, m s = (s1, Ok a) -> gr P (f a) s1) -> gr P (dbind m f) s.
Proof.
  intros G F s' r M. unfold dbind in M. destruct (m s) as [s1 [a|e|w]] eqn:E.
  - eapply grows_trans; [exact (G _ _ E)|]. exact (F s1 a eq_refl _ _ M).
  - inversion M; subst. exact (G _ _ E).
  - inversion M; subst. exact (G _ _ E).
Qed.
Lemma emits_dbind Q {B C} (m : dm B) (f : B -> dm C) : emits Q m -> (forall a, emits Q (f a)) -> emits Q (dbind m f).
Proof. intros G F s. apply gr_dbind; [apply G|]. intros s1 a _. apply F. Qed.
Lemma emits_ret Q {B} (a : B) : emits Q (ret a).
Proof. intros s s' r M. inversion M; subst. apply grows_refl. Qed.
Lemma emits_fail Q {B} : emits Q (@fail B).
Proof. intros s s' r M. inversion M; subst. apply grows_refl. Qed.
Lemma emits_lift Q {E B} (o : outcome E B) : emits Q (lift o).
Proof. intros s s' r M. inversion M; subst. apply grows_refl. Qed.
Lemma dbind_ok {B C} (m : dm B) (f : B -> dm C) s s' x : dbind m f s = (s', Ok x) -> exists s1 a, m s = (s1, Ok a) /\ f a s1 = (s', Ok x).
Proof. unfold dbind. destruct (m s) as [s1 [a|e|w]]; intros H; [eauto|discriminate|discriminate]. Qed.
Lemma lift_ok {E B} (o : outcome E B) s s' x : lift o s = (s', Ok x) -> s' = s /\ o = Ok x.
Proof. unfold lift. destruct o; cbn [map_err]; intros H; inversion H; auto. Qed.
Lemma ret_ok {B} (a : B) s s' x : ret a s = (s', Ok x) -> s' = s /\ a = x.
Proof. unfold ret. intros H. inversion H; auto. Qed.

Lemma cose_payload_facts chk s t : bytes_ok s -> nlen s < 2 ^ 62 -> cose_deserialize chk s = Ok t -> bytes_ok (cs_payload t) /\ nlen (cs_payload t) <= nlen s + 6.
Proof.
  intros B L D. unfold cose_deserialize in D. destruct (parse_array_data chk (Some 4) s) as [a| |] eqn:P; cbn [map_err bind] in D; try discriminate.
  destruct (array_facts chk 4 s a B ltac:(lia) P) as (rest & h & PA0 & ES & T & N4 & IO & ITS & LC).
  destruct a as [tag xs]. cbn [CborModel.pa_items CborModel.pa_tag] in *.
  destruct tag as [tg|]; [|discriminate]. destruct (N.eqb_spec tg COSESIGN_TAG) as [ET|]; cbn [negb] in D; [|discriminate].
  destruct (serialize_array (PA (Some tg) xs)) as [data| |] eqn:S; cbn [map_err bind] in D; try discriminate.
  destruct (cose_inner_of_bytes data) as [[[[p u] pl] sg]| |] eqn:CI; cbn [bind] in D; try discriminate. inversion D; subst t; clear D. cbn [cs_payload].
  pose proof (serialize_len _ _ S) as SL. cbn [CborModel.pa_items] in SL.
  assert (BD : bytes_ok data).
  { eapply (To0Accept.array_bytes chk (Some tg) xs); [lia| |exact ITS|exact IO|exact S]. cbn. unfold COSESIGN_TAG in ET. lia. }
  unfold cose_inner_of_bytes in CI. destruct (dec_top data) as [v|] eqn:DT; [|discriminate]. pose proof (dec_top_octets _ _ BD DT) as O. pose proof (dec_top_sized _ _ DT) as Z.
  assert (K : exists p0 u0 pl0 sg0, octets (VArr [p0; u0; pl0; sg0]) /\ sized (length data) (VArr [p0; u0; pl0; sg0]) /\ as_bytebuf pl0 = Some pl).
  { assert (KK : forall body, octets body -> sized (length data) body ->
      match body with
      | VArr [p; u; pl; sg] =>
        match as_bytebuf p, as_map u, as_bytebuf pl, as_bytebuf sg with
        | Some p, Some u, Some pl, Some sg =>
          match dec_top p with Some pv => match as_map pv with Some _ => Ok (p, u, pl, sg) | None => Err FCose end | None => Err FCose end
        | _, _, _, _ => Err FCose end
      | _ => Err FCose end = Ok (p, u, pl, sg) ->
      exists p0 u0 pl0 sg0, octets (VArr [p0; u0; pl0; sg0]) /\ sized (length data) (VArr [p0; u0; pl0; sg0]) /\ as_bytebuf pl0 = Some pl).
    { clear. intros body O Z H. destruct body as [| | |l| | | |]; try discriminate. destruct l as [|p0 [|u0 [|pl0 [|sg0 [|? ?]]]]]; try discriminate.
      destruct (as_bytebuf p0); [|discriminate]. destruct (as_map u0); [|discriminate]. destruct (as_bytebuf pl0) eqn:E; [|discriminate].
      destruct (as_bytebuf sg0); [|discriminate]. destruct (dec_top b); [|discriminate]. destruct (as_map c); [|discriminate]. inversion H; subst. exists p0, u0, pl0, sg0. auto. }
    destruct v as [z|b|b|l|l|n v|b|]; try discriminate; [apply (KK _ O Z CI)|].
    assert (O1 : octets v) by (inversion O; assumption). assert (Z1 : sized (length data) v) by (inversion Z; assumption).
    destruct n as [|n]; [discriminate|]. do 6 (try (destruct n as [n|n|]; try discriminate)); apply (KK _ O1 Z1 CI). }
  destruct K as (p0 & u0 & pl0 & sg0 & O2 & Z2 & E). inversion O2 as [| | |? O3| | | |]; subst. inversion Z2 as [| | |? _ Z3| | | |]; subst.
  assert (OP : octets pl0) by (inversion O3 as [|? ? _ H3]; inversion H3 as [|? ? _ H4]; inversion H4; assumption).
  assert (ZP : sized (length data) pl0) by (inversion Z3 as [|? ? _ H3']; inversion H3' as [|? ? _ H4']; inversion H4'; assumption).
  split; [eapply bytebuf_ok; eassumption|]. pose proof (bytebuf_size _ _ _ ZP E). unfold nlen in *. lia.
Qed.

Set Default Proof Using "Type".
Section device.
Context (A : aead) (c : crypto) (chk : bool) (ko : kex_ops) (avail : bool) (wo : world).
Notation ask := (ask A avail wo). Notation draw := (draw wo).

(** A request of one of these types *)
Definition sent_type (l : list N) (e : devent) : Prop := exists url w, e = TWire url w /\ In (wr_type w) l.
Lemma sent_one n l url w : wr_type w = n -> In n l -> sent_type l (TWire url w).
Proof. intros <- H. exists url, w. auto. Qed.

Lemma prepare_wire hc om sm b new nonce hc' w : prepare A avail hc om sm b new nonce = (hc', Ok w) ->
  wr_type w = mtype_num om /\ hc_keys hc' = match new with Some k => k | None => hc_keys hc end /\
  exists bd, b = Some bd /\ ek_encrypt A (hc_keys hc) nonce bd = Ok (wr_body w).
Proof.
  unfold prepare. destruct (negb _); [discriminate|]. destruct (negb _); [discriminate|]. cbn [hc_keys hc_token hc_last hc_kdf].
  destruct (enc_violated _ _); [discriminate|]. destruct (enc_violated _ _); [discriminate|]. destruct b as [bd|]; [|discriminate].
  destruct (ek_encrypt A (hc_keys hc) nonce bd) as [b'| |] eqn:E; intros H; inversion H; subst. cbn [wr_type wr_body hc_keys]. eauto 10.
Qed.
Lemma receive_ok hc sm resp hc' b : receive A raw_parse hc sm resp = (hc', Ok b) ->
  hc_keys hc' = hc_keys hc /\ exists r ct, resp = Some r /\ hr_success r = true /\ hr_body r = Some ct /\ ek_decrypt A (hc_keys hc) ct = Ok b.
Proof.
  unfold receive. destruct resp as [r|]; [|discriminate]. destruct (response_type r); try discriminate.
  assert (K : forall cc, hc_keys cc = hc_keys hc ->
    (if negb (mtype_eqb a (if hr_success r then sm else MError)) then (cc, Err CWrongType) else
     match hr_body r with
     | None => (cc, Err CNetwork)
     | Some body => if hr_success r then match ek_decrypt A (hc_keys cc) body with
         | Panic p => (cc, Panic p) | Err _ => (cc, Err CCrypto)
         | Ok pt => (cc, match raw_parse sm pt with Ok m => Ok m | Err _ => Err CParse | Panic p => Panic p end) end
       else (cc, Err (CServerError body)) end) = (hc', Ok b) ->
    hc_keys hc' = hc_keys hc /\ exists r0 ct, Some r = Some r0 /\ hr_success r0 = true /\ hr_body r0 = Some ct /\ ek_decrypt A (hc_keys hc) ct = Ok b).
  { intros cc EK. destruct (negb _); [discriminate|]. destruct (hr_body r) as [body|] eqn:HB; [|discriminate]. destruct (hr_success r) eqn:HS; [|discriminate].
    rewrite EK. destruct (ek_decrypt A (hc_keys hc) body) as [pt| |] eqn:D; try discriminate. unfold raw_parse. intros H. inversion H; subst.
    split; [exact EK|]. exists r, body. auto. }
  destruct (hr_auth r) as [[s|]|]; try discriminate; apply K; reflexivity.
Qed.
Lemma ask_emits om sm body new : emits (sent_type [mtype_num om]) (ask om sm body new).
Proof.
  intros s s' r M. unfold ClientModel.ask in M.
  destruct (prepare A avail (s_hc s) om sm _ new (wo_rand wo (s_hist s) 1)) as [hc [w|e|p]] eqn:P.
  - destruct (receive A raw_parse hc sm _) as [hc2 o]. inversion M; subst. cbn [s_hist]. apply grows_one. apply prepare_wire in P. destruct P as (T & _).
    eapply sent_one; [exact T|left; reflexivity].
  - inversion M; subst. apply grows_refl.
  - inversion M; subst. apply grows_refl.
Qed.
Lemma ask_ok om sm body new s s' b : ask om sm body new s = (s', Ok b) -> exists bd w ct,
  body = Ok bd /\ s_hist s' = s_hist s ++ [TWire (s_url s) w] /\ s_url s' = s_url s /\ wr_type w = mtype_num om /\
  ek_encrypt A (hc_keys (s_hc s)) (wo_rand wo (s_hist s) 1) bd = Ok (wr_body w) /\ came_back wo (s_hist s) (s_url s) w ct /\
  hc_keys (s_hc s') = match new with Some k => k | None => hc_keys (s_hc s) end /\ ek_decrypt A (hc_keys (s_hc s')) ct = Ok b.
Proof.
  intros M. unfold ClientModel.ask in M.
  destruct (prepare A avail (s_hc s) om sm _ new (wo_rand wo (s_hist s) 1)) as [hc [w|e|p]] eqn:P; try discriminate.
  destruct (receive A raw_parse hc sm _) as [hc2 o] eqn:R. inversion M; subst. cbn [s_hist s_url s_hc].
  destruct o as [x| |]; try discriminate. cbn [map_err] in H1. inversion H1; subst x.
  apply prepare_wire in P. destruct P as (T & K & bd & EB & E). apply receive_ok in R. destruct R as (K2 & r & ct & ER & RS & RB & D).
  exists bd, w, ct. destruct body as [bd'| |]; try discriminate. inversion EB; subst bd'. rewrite K2, K in *.
  split; [reflexivity|]. split; [reflexivity|]. split; [reflexivity|]. split; [exact T|]. split; [exact E|]. split; [exists r; auto|]. split; [reflexivity|exact D].
Qed.
(** Without keys nothing is encrypted. *)
Lemma ask_plain om sm body s s' b : hc_keys (s_hc s) = unencrypted -> ask om sm body None s = (s', Ok b) -> exists bd w,
  body = Ok bd /\ s_hist s' = s_hist s ++ [TWire (s_url s) w] /\ s_url s' = s_url s /\ wr_type w = mtype_num om /\
  wr_body w = bd /\ came_back wo (s_hist s) (s_url s) w b /\ hc_keys (s_hc s') = unencrypted.
Proof.
  intros K M. apply ask_ok in M. destruct M as (bd & w & ct & EB & H & U & T & E & CB & K2 & D). rewrite K in *. rewrite K2 in D.
  cbn [ek_encrypt ek_decrypt unencrypted ek_suite] in E, D. inversion E; inversion D; subst. exists (wr_body w), w. auto 10.
Qed.

Lemma emits_draw Q n : emits Q (draw n).
Proof. intros s s' r M. inversion M; subst. apply grows_refl. Qed.
Lemma emits_complain : emits (sent_type [255]) (complain A avail wo).
Proof.
  intros s s' r M. unfold complain in M.
  destruct ((dbind (draw 3) (fun b => ask MError MError (Ok b) None)) s) as [s1 o] eqn:E.
  assert (grows (fun _ => sent_type [255]) (s_hist s) (s_hist s1)) as G.
  { refine (emits_dbind (sent_type [255]) _ _ (emits_draw _ _) _ s s1 o E). intros b. exact (ask_emits MError MError _ None). }
  destruct o; inversion M; subst; exact G.
Qed.
Lemma reporting_ok {B} (m : dm B) s s' a : reporting A avail wo m s = (s', Ok a) -> m s = (s', Ok a).
Proof. unfold reporting. destruct (m s) as [s1 [x|e|w]]; intros M; try exact M. destruct (complain A avail wo s1) as [s2 [y|y|y]]; discriminate. Qed.
Lemma gr_reporting P {B} (m : dm B) s : gr P m s -> (forall p url w, wr_type w = 255 -> P (s_hist s ++ p) (TWire url w)) -> gr P (reporting A avail wo m) s.
Proof.
  intros G W s' r M. unfold reporting in M. destruct (m s) as [s1 [x|e|w]] eqn:E; [inversion M; subst; exact (G _ _ E)| |inversion M; subst; exact (G _ _ E)].
  pose proof (G _ _ E) as G1. destruct (complain A avail wo s1) as [s2 o] eqn:C. pose proof (emits_complain s1 s2 o C) as G2.
  assert (s' = s2) as -> by (destruct o; inversion M; reflexivity). eapply grows_trans; [exact G1|]. eapply grows_weaken; [|exact G2].
  apply grows_prefix in G1. destruct G1 as (l & ->). intros p x (url & w & -> & [T|[]]). rewrite <- app_assoc. apply W. symmetry. exact T.
Qed.
Lemma emits_reporting (Q : devent -> Prop) {B} (m : dm B) : emits Q m -> (forall e, sent_type [255] e -> Q e) -> emits Q (reporting A avail wo m).
Proof. intros G W s. apply gr_reporting; [apply G|]. intros p url w T. apply W. eapply sent_one; [exact T|left; reflexivity]. Qed.

Definition fine (l : list N) : devent -> Prop := sent_type (255 :: l).
Lemma fine_sub l l' e : sent_type l e -> (forall n, In n l -> In n l') -> sent_type l' e.
Proof. intros (url & w & -> & I) S. exists url, w. auto. Qed.
Lemma fine_255 l e : sent_type [255] e -> fine l e.
Proof. intros H. eapply fine_sub; [exact H|]. intros n [<-|[]]. left. reflexivity. Qed.
Lemma ask_fine om sm body new l : In (mtype_num om) (255 :: l) -> emits (fine l) (ask om sm body new).
Proof. intros I. eapply emits_weaken; [apply ask_emits|]. intros e H. eapply fine_sub; [exact H|]. intros n [<-|[]]. exact I. Qed.

Ltac em := repeat match goal with
  | |- emits _ (dbind _ _) => apply emits_dbind; [|intros ?]
  | |- emits _ (ret _) => apply emits_ret
  | |- emits _ fail => apply emits_fail
  | |- emits _ (lift _) => apply emits_lift
  | |- emits _ (ClientModel.draw _ _) => apply emits_draw
  | |- emits _ (reporting _ _ _ _) => apply emits_reporting; [|apply fine_255]
  | |- emits (fine _) (ClientModel.ask _ _ _ _ _ _ _) => apply ask_fine; cbn [mtype_num In]; auto 10
  | |- emits _ (let '(_, _) := ?x in _) => destruct x
  | |- emits _ (if ?b then _ else _) => destruct b
  | |- emits _ (match ?o with _ => _ end) => destruct o
  end.
Lemma emits_to1 dc : emits (fine [30; 32]) (perform_to1 A c chk avail wo dc).
Proof. unfold perform_to1, perform_hellorv, perform_provetorv. em. Qed.
Lemma emits_client Q {B} url (m : dm B) : emits Q m -> emits Q (with_client url m).
Proof. intros G s s' r M. exact (G (St (s_hist s) url client_new) s' r M). Qed.
Lemma emits_get_to1d dc urls : emits (fine [30; 32]) (get_to1d A c chk avail wo dc urls).
Proof.
  induction urls as [|u r IH]; cbn [get_to1d]; [apply emits_fail|]. intros s s' o M.
  pose proof (emits_client _ u _ (emits_to1 dc)) as G. destruct (with_client u _ s) as [s1 [a|e|w]] eqn:E; [inversion M; subst; exact (G _ _ _ E)| |inversion M; subst; exact (G _ _ _ E)].
  eapply grows_trans; [exact (G _ _ _ E)|exact (IH _ _ _ M)].
Qed.
Lemma emits_entries : forall n i es, emits (fine [62]) (get_entries A chk avail wo i n es).
Proof. induction n as [|n IH]; intros i es; cbn [get_entries]; em. apply IH. Qed.
Lemma emits_hellodevice dc n5 : emits (fine [60]) (perform_hellodevice A c chk avail wo dc n5).
Proof. unfold perform_hellodevice. em. Qed.
Lemma emits_nonce6 Q tok : emits Q (get_nonce6 tok).
Proof. unfold get_nonce6. em. Qed.
Lemma emits_verify tok p to1d : emits (fine [62]) (get_and_verify A c chk avail wo tok p to1d).
Proof. unfold get_and_verify. apply emits_dbind; [apply emits_entries|]. intros es. em. Qed.
Lemma emits_kd Q p : emits Q (key_derivation ko avail wo p).
Proof. intros s s' r M. unfold key_derivation in M. destruct (hc_kdf (s_hc s)); [exact (emits_lift Q _ s s' r M)|inversion M; subst; apply grows_refl]. Qed.
Lemma kd_ok p s s' x : key_derivation ko avail wo p s = (s', Ok x) -> s' = s /\ exists nonint raw,
  derive_key ko avail KDevice A256Gcm (fst x) (ph_kex p) nonint = Ok raw /\ snd x = from_derived 3 (Combined raw).
Proof.
  unfold key_derivation. destruct (hc_kdf (s_hc s)) as [b|]; [|discriminate]. intros M. apply lift_ok in M. destruct M as [-> M]. split; [reflexivity|].
  destruct (wo_kex wo (s_hist s) Ecdh384); cbn [of_option bind] in M; [|discriminate]. destruct (derive_key ko avail KDevice A256Gcm k (ph_kex p) b) eqn:D; cbn [bind] in M; try discriminate.
  inversion M; subst. exists b, a. auto.
Qed.
Lemma emits_prove dc k n6 n7 keys : emits (fine [64]) (perform_provedevice A c chk ko avail wo dc k n6 n7 keys).
Proof. unfold perform_provedevice. em. Qed.
Lemma emits_siready : emits (fine [66]) (perform_siready A avail wo).
Proof. unfold perform_siready. em. Qed.
Lemma emits_done n6 n7 : emits (fine [70]) (perform_done A avail wo n6 n7).
Proof. unfold perform_done. em. Qed.

(** * Owner authentication *)
(** What comes back from the network are bytes, and not impossibly many. *)
Definition sane : Prop := forall h r b, wo_resp wo h = Some r -> hr_body r = Some b -> bytes_ok b /\ nlen b < 2 ^ 62.

Lemma provehdr_says s p : read_provehdr chk s = Ok p -> proof_says chk s (ph_header p) (ph_num p) (ph_hmac p) (ph_nonce5 p).
Proof.
  unfold read_provehdr. intros R. destruct (parse_array_data chk (Some 8) s) as [[tag its]| |] eqn:P; cbn [map_err bind] in R; try discriminate.
  inv_get R x0. inv_get R x1. inv_get R x2. inv_get R x3. inv_get R x4. inv_get R x5. inv_get R x6. inv_get R x7. inversion R; subst. cbn [ph_header ph_num ph_hmac ph_nonce5].
  apply get_ok in G, G0, G1, G2. destruct G as (r0 & N0 & F0), G0 as (r1 & N1 & F1), G1 as (r2 & N2 & F2), G2 as (r3 & N3 & F3).
  cbn [CborModel.pa_items] in *. destruct its as [|a0 [|a1 [|a2 [|a3 rest]]]]; try discriminate. cbn [nth_error] in *. inversion N0; inversion N1; inversion N2; inversion N3; subst.
  exists tag, r0, r1, r2, r3, rest. auto.
Qed.
Lemma provehdr_sizes s p : bytes_ok s -> nlen s < 2 ^ 63 -> read_provehdr chk s = Ok p ->
  bytes_ok (ph_header p) /\ nlen (ph_header p) <= nlen s /\ bytes_ok (h_value (ph_hmac p)) /\ nlen (h_value (ph_hmac p)) <= nlen s.
Proof.
  intros B L R. apply provehdr_says in R. destruct R as (tag & r0 & r1 & r2 & r3 & rest & P & F0 & _ & F2 & _).
  destruct (array_facts chk 8 s _ B ltac:(lia) P) as (? & ? & _ & _ & _ & _ & IO & _ & LC). cbn [CborModel.pa_items concat] in *. rewrite !nlen_app in LC.
  inversion IO as [|? ? B0 I1]; subst. inversion I1 as [|? ? _ I2]; subst. inversion I2 as [|? ? B2 _]; subst.
  split; [exact (from_slice_bytebuf_ok _ _ B0 F0)|]. split; [apply read_bytebuf_size in F0; lia|]. split; [exact (read_hash_ok _ _ B2 F2)|apply read_hash_size in F2; lia].
Qed.
Lemma verify_hmac_ok dc data hmac : verify_hmac c dc data hmac = Ok tt -> own_hmac c dc data hmac.
Proof.
  unfold verify_hmac, perform_hmac. intros V.
  assert (K : forall t t' s, match hash_from_digest t (c_hmac c t' s data) with Ok a => let! same := hash_eq hmac a in if same : bool then Ok tt else Err FIncorrectHash | Err e => Err e | Panic w => Panic w end = Ok tt -> h_value hmac = c_hmac c t' s data).
  { intros t t' s H. unfold hash_from_digest in H. destruct (negb _); [discriminate|]. unfold hash_eq in H. cbn [h_value] in H.
    destruct (memcmp_eq _ _) as [[]| |] eqn:M in H; try discriminate. apply (proj1 (@nonce_eq_ok ferr _ _)) in M. exact M. }
  destruct (dc_keys dc) as [s sk|t' s sk] eqn:KS.
  - exists (inner_hash (h_type hmac)), s, sk. split; [apply inner_digestible|]. split; [left; exact KS|]. eapply K. exact V.
  - destruct (digestible t') eqn:DG; [|discriminate]. exists t', s, sk. split; [destruct t'; try discriminate; auto|]. split; [right; exact KS|]. eapply K. exact V.
Qed.
Lemma check_hello_ok dc n5 tok p : check_hello c chk dc n5 tok = Ok p ->
  read_provehdr chk (cs_payload tok) = Ok p /\ ph_nonce5 p = n5 /\ own_hmac c dc (ph_header p) (ph_hmac p) /\
  exists hd kraw, header_deserialize c chk (ph_header p) = Ok hd /\ nth_error (pa_items (hd_contents hd)) 4 = Some kraw /\ digest_of c (dc_mfg dc) kraw.
Proof.
  unfold check_hello, cose_get_payload_unverified. intros H. inv_get H q. destruct (nonce_eq n5 (ph_nonce5 q)) as [[]| |] eqn:NE; cbn [bind] in H; try discriminate.
  cbn [negb] in H. destruct (negb (fst _ =? _)%Z); [discriminate|]. destruct (negb (nlen _ =? 0)); [discriminate|].
  destruct (verify_hmac c dc (ph_header q) (ph_hmac q)) as [[]| |] eqn:VH; cbn [bind] in H; try discriminate. inv_get H hdv. inv_get H kh.
  destruct (hash_compare (dc_mfg dc) kh) as [[]| |] eqn:HC; cbn [bind] in H; try discriminate. inversion H; subst q.
  split; [reflexivity|]. split; [apply nonce_eq_ok in NE; symmetry; exact NE|]. split; [apply verify_hmac_ok; exact VH|].
  unfold mfg_key_hash, get_hash, get_raw in G1. destruct (nth_error (pa_items (hd_contents hdv)) 4) as [kraw|] eqn:NK; cbn [map_err bind] in G1; [|discriminate].
  exists hdv, kraw. split; [exact G0|]. split; [exact NK|]. apply hash_from_data_ok in G1. destruct G1 as [T ->]. apply hash_compare_ok in HC. split; [exact T|exact HC].
Qed.
Lemma check_owner_ok tok p to1d es p' : bytes_ok (ph_header p) -> nlen (ph_header p) < two64 -> check_owner c chk tok p to1d es = Ok p' ->
  exists hd ps q, header_deserialize c chk (ph_header p) = Ok hd /\
    custody c chk (device_identity hd) (ph_header p ++ enc (hash_val (ph_hmac p))) (pk_key (hd_mfg hd)) es (ps ++ [q]) /\
    signed_by c (pk_key (p_key q)) tok /\ signed_by c (pk_key (p_key q)) to1d /\ read_provehdr chk (cs_payload tok) = Ok p'.
Proof.
  intros BH LH H. unfold check_owner in H. inv_get H v. destruct (iter_last c chk v (iter_entries v) (length es) None) as [[q| |]|] eqn:IL; cbn [bind] in H; try discriminate.
  inv_get H p2. destruct (cose_verify c to1d (pk_key (p_key q))) as [[]| |] eqn:CV; cbn [bind] in H; try discriminate. inversion H; subst p2.
  apply cose_payload_signed in G0. destruct G0 as [ST RT].
  apply last_collect in IL. destruct IL as (ps & IC & [[_ X]|(qs & ->)]); [discriminate|].
  unfold voucher_from_parts in G. destruct (serialize_array (PA None es)) as [eb| |]; cbn [map_err bind] in G; try discriminate. inv_get G hdv. inversion G; subst v; clear G.
  exists hdv, qs, q. split; [reflexivity|]. split; [|split; [exact ST|split; [|exact RT]]].
  - set (v := Voucher _ _ _ _ _ _) in IC. assert (V : verify_entries c chk v = Ok (qs ++ [q])) by exact IC. rewrite verify_walk in V. rewrite <- walk_custody.
    rewrite <- V. apply walk_ext; intros t.
    + unfold hdr_hash. assert (GB : get (from_slice as_bytebuf) (ov_contents v) 1 = Ok (ph_header p)).
      { apply get_ok. exists (enc (VBytes (ph_header p))). split; [reflexivity|]. rewrite from_slice_enc; [reflexivity|]. unfold MAX_DEPTH. cbn [vok]. split; [exact BH|exact LH]. }
      rewrite GB. reflexivity.
    + cbn [v ov_header]. apply header_deserialize_ok in G0. destruct G0 as (_ & _ & GG & _ & GD & _). unfold hdr_info_hash. rewrite GG. cbn [bind]. rewrite GD. reflexivity.
  - unfold cose_verify in CV. destruct (cose_check c to1d (pk_key (p_key q))) as [[]| |] eqn:CC; cbn [bind] in CV; try discriminate. apply cose_check_ok. exact CC.
Qed.

Lemma hellodevice_ok dc n5 s s' tok p : hc_keys (s_hc s) = unencrypted -> perform_hellodevice A c chk avail wo dc n5 s = (s', Ok (tok, p)) ->
  exists w b, s_hist s' = s_hist s ++ [TWire (s_url s) w] /\ s_url s' = s_url s /\ hc_keys (s_hc s') = unencrypted /\ wr_type w = 60 /\
    wr_body w = enc (hello_val (dc_guid dc) n5) /\ came_back wo (s_hist s) (s_url s) w b /\ cose_deserialize chk b = Ok tok /\ check_hello c chk dc n5 tok = Ok p.
Proof.
  intros K M. unfold perform_hellodevice in M. apply dbind_ok in M. destruct M as (s1 & b & M1 & M). apply ask_plain in M1; [|exact K].
  destruct M1 as (bd & w & EB & H & U & T & WB & CB & K2). apply dbind_ok in M. destruct M as (s2 & tok' & M2 & M). apply lift_ok in M2. destruct M2 as [-> D].
  apply dbind_ok in M. destruct M as (s3 & p' & M3 & M). apply lift_ok in M3. destruct M3 as [-> CH]. apply ret_ok in M. destruct M as [-> E]. inversion E; subst tok' p'.
  inversion EB; subst bd. exists w, b. auto 10.
Qed.
Lemma nonce6_ok tok s s' n : get_nonce6 tok s = (s', Ok n) -> s' = s /\ cose_get_unprotected as_bstr16 tok CUPH_NONCE = Ok (Some n).
Proof.
  unfold get_nonce6. intros M. apply dbind_ok in M. destruct M as (s1 & o & M1 & M). apply lift_ok in M1. destruct M1 as [-> E].
  destruct o as [x|]; [|discriminate]. apply ret_ok in M. destruct M as [-> ->]. auto.
Qed.
Lemma entries_ok : forall n i es s s' r, hc_keys (s_hc s) = unencrypted -> get_entries A chk avail wo i n es s = (s', Ok r) ->
  exists raws, r = es ++ raws /\ length raws = n /\ fetched chk wo (s_url s) (s_hist s) i raws (s_hist s') /\ s_url s' = s_url s /\ hc_keys (s_hc s') = unencrypted.
Proof.
  induction n as [|n IH]; intros i es s s' r K M; cbn [get_entries] in M.
  - apply ret_ok in M. destruct M as [-> ->]. exists []. rewrite app_nil_r. split; [reflexivity|]. split; [reflexivity|]. split; [constructor|auto].
  - apply dbind_ok in M. destruct M as (s1 & b & M1 & M). apply ask_plain in M1; [|exact K]. destruct M1 as (bd & w & EB & H & U & T & WB & CB & K2).
    apply dbind_ok in M. destruct M as (s2 & [num e] & M2 & M). apply lift_ok in M2. destruct M2 as [-> RO].
    destruct (N.eqb_spec num i) as [->|]; cbn [negb] in M; [|discriminate]. apply dbind_ok in M. destruct M as (s3 & raw & M3 & M). apply lift_ok in M3. destruct M3 as [-> CS].
    destruct (IH _ _ _ _ _ K2 M) as (raws & -> & L & F & U2 & K3). exists (raw :: raws). rewrite <- app_assoc. split; [reflexivity|]. split; [cbn [length]; lia|].
    rewrite U2, U. split; [|auto]. rewrite U, H in F. econstructor; eassumption.
Qed.
Lemma verify_ok tok p to1d s s' p' : hc_keys (s_hc s) = unencrypted -> get_and_verify A c chk avail wo tok p to1d s = (s', Ok p') ->
  exists raws, length raws = N.to_nat (ph_num p) /\ fetched chk wo (s_url s) (s_hist s) 0 raws (s_hist s') /\ s_url s' = s_url s /\ hc_keys (s_hc s') = unencrypted /\
    check_owner c chk tok p to1d raws = Ok p'.
Proof.
  intros K M. unfold get_and_verify in M. apply dbind_ok in M. destruct M as (s1 & es & M1 & M). apply lift_ok in M. destruct M as [-> CO].
  destruct (entries_ok _ _ _ _ _ _ K M1) as (raws & E & L & F & U & K2). cbn [app] in E. subst es. exists raws. auto.
Qed.

(** The first steps of a session, when they succeed, authenticate the owner. *)
Lemma session_auth dc n5 to1d s s1 s2 s3 tok p n6 p' : sane -> hc_keys (s_hc s) = unencrypted -> n5 = wo_rand wo (s_hist s) 0 ->
  perform_hellodevice A c chk avail wo dc n5 s = (s1, Ok (tok, p)) -> get_nonce6 tok s1 = (s2, Ok n6) -> get_and_verify A c chk avail wo tok p to1d s2 = (s3, Ok p') ->
  owner_authenticated c chk wo dc to1d (s_hist s) (s_hist s3) /\ hc_keys (s_hc s3) = unencrypted /\
  exists w l, s_hist s3 = (s_hist s ++ [TWire (s_url s) w]) ++ l /\ wr_type w = 60 /\ Forall (sent_type [62]) l.
Proof.
  intros SA K EN M1 M2 M3. destruct (hellodevice_ok _ _ _ _ _ _ K M1) as (w & b & H1 & U1 & K1 & T1 & WB & CB & CD & CH).
  apply nonce6_ok in M2. destruct M2 as [-> _]. destruct (verify_ok _ _ _ _ _ _ K1 M3) as (raws & L & F & U3 & K3 & CO). rewrite U1 in F.
  destruct (check_hello_ok _ _ _ _ CH) as (RP & N5 & OH & hd & kraw & HD & NK & DG).
  assert (BB : bytes_ok b /\ nlen b < 2 ^ 62) by (destruct CB as (r & ER & _ & EB); eapply SA; eassumption). destruct BB as [BB LB].
  destruct (cose_payload_facts _ _ _ BB LB CD) as [BP LP]. change (2 ^ 62) with 4611686018427387904 in LB.
  destruct (provehdr_sizes _ _ BP ltac:(change (2 ^ 63) with 9223372036854775808; lia) RP) as (BH & LH & _).
  destruct (check_owner_ok _ _ _ _ _ BH ltac:(unfold two64; lia) CO) as (hd' & ps & q & HD' & CU & SG & SG2 & _). rewrite HD in HD'. inversion HD'; subst hd'.
  split; [|split; [exact K3|]].
  - unfold owner_authenticated. exists (s_url s), w, b, tok, (VInt (Z.of_N MAX_MESSAGE_SIZE)), n5.
    exists [text_val (kexsuite_name Ecdh384); VInt (cipher_num A256Gcm); siginfo_val (ES384, [])], (ph_header p), (ph_num p), (ph_hmac p), hd, kraw, raws, ps, q.
    split; [exact T1|]. split; [exact WB|]. split; [exact EN|]. split; [exact CB|]. split; [exact CD|].
    split; [rewrite <- N5; apply provehdr_says; exact RP|]. split; [exact OH|]. split; [exact HD|]. split; [exact NK|]. split; [exact DG|].
    split; [rewrite <- H1; exact F|]. split; [unfold nlen; lia|]. auto.
  - assert (W : forall h i rs h', fetched chk wo (s_url s) h i rs h' -> exists l, h' = h ++ l /\ Forall (sent_type [62]) l).
    { clear. induction 1 as [h i|h i w b e raw raws h' T CB RO CS F IH]; [exists []; rewrite app_nil_r; auto|]. destruct IH as (l & -> & FL).
      exists (TWire (s_url s) w :: l). split; [rewrite <- app_assoc; reflexivity|]. constructor; [|exact FL]. exists (s_url s), w. split; [reflexivity|left; auto]. }
    destruct (W _ _ _ _ F) as (l & E & FL). exists w, l. rewrite E, H1. auto.
Qed.
End device.
