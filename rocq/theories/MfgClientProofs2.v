(** Runs of the manufacturing client. *)
From Verif Require Import Base BaseFacts CborModel ValueModel ValueProofs TypesModel CryptoSpec TypesProofs Text VoucherModel ChainSpec
  VoucherSpec VoucherProofs DecFacts DecSize CoseFacts KexModel RvModel MsgModel SessionModel HttpClientModel RvServerModel
  SiModel DevSiModel OwnerModel MfgModel MfgSpec ClientModel ClientSpec ClientProofs ClientProofs2 MfgClientModel MfgClientSpec MfgClientProofs.
From Coq Require Import ZifyBool ZifyNat ZifyN.
Local Open Scope N_scope.
Local Opaque dec_top any_value.
Implicit Types (P : list devent -> devent -> Prop).
Lemma providekey_names der n : key_bytes der -> n <= 1 -> names_key (enc (VArr [vecu8_val der; VInt (Z.of_N n)])) der.
Proof.
  intros [B L] N1. exists (VArr [vecu8_val der; VInt (Z.of_N n)]), (vecu8_val der), (VInt (Z.of_N n)), (map (fun x => VInt (Z.of_N x)) der).
  split; [|split; [reflexivity|split; [reflexivity|apply all_u8; exact B]]]. apply dec_top_enc. unfold MAX_DEPTH. apply vok_arr; [cbn; unfold two64; lia|].
  constructor; [apply vok_vecu8; [exact B|unfold two64; lia]|]. constructor; [cbn [vok]; unfold two64; lia|constructor].
Qed.
Set Default Proof Using "Type".

Section client.
Context (A : aead) (c : crypto) (chk : bool) (ko : kex_ops) (avail : bool) (to_der : bytes -> bytes) (wo : world).
Context (newkey : list devent -> N -> N -> option (bytes * bytes)).
Notation ask := (ask A avail wo). Notation draw := (draw wo).
Notation server_authenticated := (server_authenticated c chk ko avail wo).

Lemma gr_ask_body P om sm body new s :
  (forall url w bd nonce, wr_type w = mtype_num om -> body = Ok bd -> ek_encrypt A (hc_keys (s_hc s)) nonce bd = Ok (wr_body w) -> P (s_hist s) (TWire url w)) -> gr P (ask om sm body new) s.
Proof.
  intros W s' r M. unfold ClientModel.ask in M.
  destruct (prepare A avail (s_hc s) om sm _ new (wo_rand wo (s_hist s) 1)) as [hc [w|e|p]] eqn:E.
  - destruct (receive A raw_parse hc sm _) as [hc2 o]. inversion M; subst. cbn [s_hist]. apply grows_one. apply prepare_wire in E. destruct E as (T & _ & bd & EB & EN).
    destruct body as [bd'| |]; inversion EB; subst. eapply W; [exact T|reflexivity|exact EN].
  - inversion M; subst. apply grows_refl.
  - inversion M; subst. apply grows_refl.
Qed.
Lemma emits_first_new Q kt l : emits Q (first_new newkey kt l).
Proof.
  induction l as [|stg l IH]; cbn [first_new]; [apply emits_fail|]. apply emits_dbind; [intros s s' r M; inversion M; subst; apply grows_refl|]. intros [k|]; [apply emits_ret|exact IH].
Qed.
Lemma emits_new_key Q kt al : emits Q (get_new_key newkey kt al).
Proof. unfold get_new_key. destruct al as [[|? ?]|]; [apply emits_fail|apply emits_first_new|apply emits_first_new]. Qed.
Lemma first_new_ok kt : forall l s s' k, (forall h kt st x y, newkey h kt st = Some (x, y) -> key_bytes x /\ key_bytes y) -> first_new newkey kt l s = (s', Ok k) -> s' = s /\ keys_ok k.
Proof.
  intros l. induction l as [|stg l IH]; intros s s' k G M; cbn [first_new] in M; [discriminate|]. apply dbind_ok in M. destruct M as (s1 & o & M1 & M). unfold new_in in M1. inversion M1; subst s1; clear M1.
  destruct o as [k'|]; [|apply IH in M; assumption]. apply ret_ok in M. destruct M as [-> ->]. split; [reflexivity|].
  destruct ((kt =? 10) || (kt =? 11)); [|discriminate]. destruct (newkey (s_hist s) kt stg) as [[x y]|] eqn:E; [|discriminate]. apply G in E. inversion H1; subst.
  destruct (stg =? 0); [exact E|]. cbn [keys_ok]. destruct (kt =? 10); (split; [reflexivity|exact E]).
Qed.
Lemma new_key_ok kt al s s' k : (forall h kt st x y, newkey h kt st = Some (x, y) -> key_bytes x /\ key_bytes y) -> get_new_key newkey kt al s = (s', Ok k) -> s' = s /\ keys_ok k.
Proof. unfold get_new_key. destruct al as [[|? ?]|]; intros G M; [discriminate| |]; eapply first_new_ok; eassumption. Qed.

(** Where a new key is *)
Definition permitted (kt : N) (al : option (list N)) (k : keystore) : Prop := (kt = 10 \/ kt = 11) /\
  match k with
  | Plain _ _ => match al with Some l => In 0 l | None => True end
  | Tpm t _ _ => (exists l n, al = Some l /\ In n l /\ n <> 0) /\ t = (if kt =? 10 then Sha256 else Sha384)
  end.
Lemma first_new_permitted kt : forall l s s' k, first_new newkey kt l s = (s', Ok k) -> permitted kt (Some l) k.
Proof.
  induction l as [|stg l IH]; intros s s' k M; cbn [first_new] in M; [discriminate|]. apply dbind_ok in M. destruct M as (s1 & o & M1 & M). unfold new_in in M1. inversion M1; subst s1; clear M1.
  destruct o as [k'|].
  - apply ret_ok in M. destruct M as [_ ->]. destruct ((kt =? 10) || (kt =? 11)) eqn:K; [|discriminate]. destruct (newkey (s_hist s) kt stg) as [[x y]|]; [|discriminate]. inversion H1; subst k.
    split; [clear -K; lia|]. destruct (N.eqb_spec stg 0) as [->|NZ]; [left; reflexivity|]. split; [|reflexivity]. exists (stg :: l), stg. split; [reflexivity|]. split; [left; reflexivity|exact NZ].
  - apply IH in M. destruct M as [K P]. split; [exact K|]. destruct k as [? ?|t ? ?]; [right; exact P|]. destruct P as [(l' & n & E & I & NZ) T]. inversion E; subst l'. split; [|exact T]. exists (stg :: l), n. split; [reflexivity|]. split; [right; exact I|exact NZ].
Qed.
Lemma new_key_permitted kt al s s' k : get_new_key newkey kt al s = (s', Ok k) -> permitted kt al k.
Proof.
  unfold get_new_key. destruct al as [[|n l]|]; intros M; [discriminate|eapply first_new_permitted; exact M|]. apply first_new_permitted in M. destruct M as [K P]. split; [exact K|].
  destruct k as [? ?|t ? ?]; [exact Logic.I|]. destruct P as [(l' & n & E & I & NZ) _]. inversion E; subst l'. destruct I as [<-|[]]. contradiction.
Qed.
Lemma first_new_still kt : forall l s s' x, first_new newkey kt l s = (s', Ok x) -> s' = s.
Proof.
  induction l as [|stg l IH]; intros s s' x M; cbn [first_new] in M; [discriminate|]. apply dbind_ok in M. destruct M as (s1 & o & M1 & M). inversion M1; subst s1.
  destruct o; [apply ret_ok in M; destruct M as [-> _]; reflexivity|apply IH in M; exact M].
Qed.
Lemma new_key_still kt al s s' x : get_new_key newkey kt al s = (s', Ok x) -> s' = s.
Proof. unfold get_new_key. destruct al as [[|? ?]|]; [discriminate|apply first_new_still|apply first_new_still]. Qed.

Lemma auth_app m h l keys : server_authenticated m h keys -> server_authenticated m (h ++ l) keys.
Proof.
  intros (url & w & rest & kx & pub & b & tok & x & p & ch & leaf & key & other & ni & raw & -> & R). exists url, w, (rest ++ l), kx, pub, b, tok, x, p, ch, leaf, key, other, ni, raw.
  split; [reflexivity|exact R].
Qed.
(** The first exchange *)
Lemma diun_auth m url k pub s1 b tok nonint other raw : wo_kex wo [] Ecdh384 = Some k -> get_public ko k = Ok pub ->
  ask DIUNConnect DIUNAccept (Ok (enc (VArr [bstr_val (wo_rand wo [] 0); text_val (kexsuite_name Ecdh384); VInt (cipher_num A256Gcm); vecu8_val pub]))) None (St [] url client_new) = (s1, Ok b) ->
  cose_deserialize chk b = Ok tok -> check_accept c m (wo_rand wo [] 0) tok = Ok other -> derive_key ko avail KDevice A256Gcm k other nonint = Ok raw ->
  server_authenticated m (s_hist s1) (EKeys (Some 3) (Some (Combined raw))) /\ hc_keys (s_hc s1) = unencrypted.
Proof.
  intros KX GP M CD CA DK. apply ask_plain in M; [|reflexivity]. destruct M as (bd & w & EB & H & U & T & WB & CB & K2). inversion EB as [EB']. cbn [s_hist s_url] in H, CB.
  split; [|exact K2]. apply check_accept_ok in CA. destruct CA as (x & p & ch & leaf & key & HX & AP & PC & TR & CK & SG & PR & EX).
  exists url, w, [], k, pub, b, tok, x, p, ch, leaf, key, other, nonint, raw. split; [exact H|]. split; [exact T|]. split; [rewrite WB, <- EB'; reflexivity|].
  split; [exact KX|]. split; [exact GP|]. split; [exact CB|]. split; [exact CD|]. split; [exact HX|]. split; [exact AP|]. split; [exact PC|]. split; [exact TR|]. split; [exact CK|].
  split; [exact SG|]. split; [exact PR|]. split; [exact EX|]. split; [exact DK|reflexivity].
Qed.

Definition auth_ev (m : vmode) (h : list devent) (e : devent) : Prop :=
  (h = [] /\ first_contact e) \/ exists keys, server_authenticated m h keys /\ confidential A keys e.
Lemma diun_gr m url : gr (auth_ev m) (perform_diun A c chk ko avail to_der wo newkey m) (St [] url client_new).
Proof.
  unfold perform_diun. apply gr_dbind; [apply gr_still; apply emits_draw|]. intros s0 nonce E0. inversion E0; subst s0 nonce; clear E0. cbn [s_hist].
  apply gr_dbind; [intros s' r M; inversion M; subst; apply grows_refl|]. intros s0 k E0. apply lift_ok in E0. destruct E0 as [-> E0]. cbn [s_hist] in E0.
  destruct (wo_kex wo [] Ecdh384) as [k'|] eqn:KX; [|discriminate]. inversion E0; subst k'; clear E0.
  apply gr_dbind; [apply gr_still; apply emits_lift|]. intros s0 pub E0. apply lift_ok in E0. destruct E0 as [-> GP].
  apply gr_dbind. { apply gr_ask_body. intros u w bd n T _ _. left. split; [reflexivity|]. exists u, w. auto. }
  intros s1 b M1. apply gr_dbind; [apply gr_still; apply emits_lift|]. intros s2 tok M2. apply lift_ok in M2. destruct M2 as [-> CD].
  apply gr_dbind; [intros s' r M; inversion M; subst; apply grows_refl|]. intros s2 ni M2. apply lift_ok in M2. destruct M2 as [-> _].
  apply gr_dbind; [apply gr_still; apply emits_lift|]. intros s2 other M2. apply lift_ok in M2. destruct M2 as [-> CA].
  apply gr_dbind; [apply gr_still; apply emits_lift|]. intros s2 raw M2. apply lift_ok in M2. destruct M2 as [-> DK].
  destruct (diun_auth _ _ _ _ _ _ _ _ _ _ KX GP M1 CD CA DK) as [AU KE]. change (from_derived (Z.to_N (cipher_num A256Gcm)) (Combined raw)) with (EKeys (Some 3) (Some (Combined raw))).
  apply gr_dbind. { apply gr_ask_body. intros u w bd n T EB EN. right. eexists. split; [exact AU|]. left. split; [exact T|]. inversion EB; subst bd. rewrite KE in EN. cbn in EN. inversion EN. reflexivity. }
  intros s2 b2 M2. apply ask_ok in M2. destruct M2 as (_ & w2 & _ & _ & H2 & _ & _ & _ & _ & K2 & _).
  apply gr_dbind; [apply gr_still; apply emits_lift|]. intros s3 [kt al] M3. apply lift_ok in M3. destruct M3 as [-> _].
  apply gr_dbind; [apply gr_still; apply emits_new_key|]. intros s3 key M3. apply new_key_still in M3. subst s3.
  apply gr_dbind. { apply gr_ask_body. intros u w bd n T EB EN. right. eexists. split; [rewrite H2; apply auth_app; exact AU|]. right. exists n, bd. rewrite K2 in EN. exact EN. }
  intros s4 b4 M4. apply gr_dbind; [apply gr_still; apply emits_lift|]. intros s5 st M5. apply gr_still; apply emits_ret.
Qed.
Lemma diun_end m url s' k st : perform_diun A c chk ko avail to_der wo newkey m (St [] url client_new) = (s', Ok (k, st)) ->
  exists keys, server_authenticated m (s_hist s') keys /\ hc_keys (s_hc s') = keys /\ (exists s2 kt al, get_new_key newkey kt al s2 = (s2, Ok k)) /\ storage_allowed A wo keys (s_hist s') k /\
    exists url w nonce, In (TWire url w) (s_hist s') /\ wr_type w = 214 /\
      ek_encrypt A keys nonce (enc (VArr [vecu8_val (public_der c to_der k); VInt (Z.of_N (storage_of k))])) = Ok (wr_body w).
Proof.
  intros M. unfold perform_diun in M. apply dbind_ok in M. destruct M as (s0 & nonce & E0 & M). inversion E0; subst s0 nonce; clear E0. cbn [s_hist] in M.
  apply dbind_ok in M. destruct M as (s0 & kx & E0 & M). apply lift_ok in E0. destruct E0 as [-> E0]. cbn [s_hist] in E0.
  destruct (wo_kex wo [] Ecdh384) as [k'|] eqn:KX; [|discriminate]. inversion E0; subst k'; clear E0.
  apply dbind_ok in M. destruct M as (s0 & pub & E0 & M). apply lift_ok in E0. destruct E0 as [-> GP].
  apply dbind_ok in M. destruct M as (s1 & b & M1 & M). apply dbind_ok in M. destruct M as (s2 & tok & M2 & M). apply lift_ok in M2. destruct M2 as [-> CD].
  apply dbind_ok in M. destruct M as (s2 & ni & M2 & M). apply lift_ok in M2. destruct M2 as [-> _].
  apply dbind_ok in M. destruct M as (s2 & other & M2 & M). apply lift_ok in M2. destruct M2 as [-> CA].
  apply dbind_ok in M. destruct M as (s2 & raw & M2 & M). apply lift_ok in M2. destruct M2 as [-> DK].
  destruct (diun_auth _ _ _ _ _ _ _ _ _ _ KX GP M1 CD CA DK) as [AU KE]. change (from_derived (Z.to_N (cipher_num A256Gcm)) (Combined raw)) with (EKeys (Some 3) (Some (Combined raw))) in M.
  apply dbind_ok in M. destruct M as (s2 & b2 & M2 & M). apply ask_ok in M2. destruct M2 as (_ & w2 & ct2 & _ & H2 & _ & T2 & _ & CB2 & K2 & D2).
  apply dbind_ok in M. destruct M as (s3 & [kt al] & M3 & M). apply lift_ok in M3. destruct M3 as [-> KP].
  apply dbind_ok in M. destruct M as (s3 & key & M3 & M). pose proof (new_key_still _ _ _ _ _ M3) as ->. pose proof (new_key_permitted _ _ _ _ _ M3) as PE.
  apply dbind_ok in M. destruct M as (s4 & b4 & M4 & M). apply ask_ok in M4. destruct M4 as (bd & w4 & ct & EB & H4 & _ & T4 & EN & _ & K4 & _).
  apply dbind_ok in M. destruct M as (s5 & sty & M5 & M). apply lift_ok in M5. destruct M5 as [-> _]. apply ret_ok in M. destruct M as [-> E]. inversion E; subst key sty.
  exists (EKeys (Some 3) (Some (Combined raw))). split; [rewrite H4, H2; apply auth_app, auth_app; exact AU|]. split; [rewrite K4; exact K2|]. split; [eauto|]. split.
  - exists (s_hist s1), (s_url s1), w2, [TWire (s_url s2) w4], b2, kt, al. split; [rewrite H4, H2, <- app_assoc; reflexivity|]. split; [exact T2|]. split; [exists ct2; rewrite <- K2; auto|].
    split; [exact KP|exact PE].
  - exists (s_url s2), w4, (wo_rand wo (s_hist s2) 1). split; [rewrite H4; apply in_or_app; right; left; reflexivity|]. split; [exact T4|]. rewrite <- K2. inversion EB; subst bd. exact EN.
Qed.
Lemma diun_ok m url su s' k st : good_keys c to_der newkey su -> perform_diun A c chk ko avail to_der wo newkey m (St [] url client_new) = (s', Ok (k, st)) ->
  exists keys, server_authenticated m (s_hist s') keys /\ hc_keys (s_hc s') = keys /\ keys_ok k /\ keys_known A c to_der wo (WithDiun m) keys (s_hist s') k.
Proof.
  intros (GD & GN & _) M. apply diun_end in M. destruct M as (keys & AU & KE & (s2 & kt & al & NK) & SA & u & w & n & I & T & EN). exists keys. split; [exact AU|]. split; [exact KE|].
  apply new_key_ok in NK; [|exact GN]. split; [apply NK|]. exists u, w, n. eexists. split; [exact I|]. split; [exact T|]. split; [exact EN|]. split; [apply providekey_names; [apply GD|destruct k; cbn; lia]|exact SA].
Qed.

(** * DI *)
Definition hmac_bytes : Prop := forall t s d, bytes_ok (c_hmac c t s d).
Lemma save_gr P k h kh s : P (s_hist s) (TFx (EWrite CRED_PATH (enc (cred_val (hd_devinfo h) (new_cred k h kh))) 438)) -> gr P (save wo k h kh) s.
Proof. intros W s' r M. unfold save in M. inversion M; subst. cbn [s_hist]. apply grows_one. exact W. Qed.
Lemma save_ok k h kh s s' : save wo k h kh s = (s', Ok tt) -> s_hist s' = s_hist s ++ [TFx (EWrite CRED_PATH (enc (cred_val (hd_devinfo h) (new_cred k h kh))) 438)] /\
  s_url s' = s_url s /\ s_hc s' = s_hc s /\ wo_fx wo (s_hist s') = Fine.
Proof. unfold save. destruct (wo_fx wo _) eqn:E; intros M; inversion M; subst. cbn [s_hist s_url s_hc]. auto. Qed.

Lemma make_hmac_ok k data hmac dc : make_hmac c k data = Ok hmac -> dc_keys dc = k -> own_hmac c dc data hmac /\ verify_hmac c dc data hmac = Ok tt.
Proof.
  unfold make_hmac. intros M E. assert (R : forall x, hash_eq x x = Ok true).
  { intros x. unfold hash_eq, memcmp_eq. rewrite N.eqb_refl. cbn [negb]. f_equal. apply bytes_eqb_spec. reflexivity. }
  destruct k as [s sk|t s sk].
  - pose proof M as M'. unfold hash_from_digest in M'. destruct (negb _) eqn:Z in M'; [discriminate|]. inversion M'; subst hmac. split.
    + exists Sha384, s, sk. auto.
    + unfold verify_hmac, perform_hmac. rewrite E. cbn [h_type inner_hash]. rewrite M. cbn [bind]. rewrite R. reflexivity.
  - destruct (digestible t) eqn:D; [|discriminate]. pose proof M as M'. unfold hash_from_digest in M'. destruct (negb _) eqn:Z in M'; [discriminate|]. inversion M'; subst hmac. split.
    + exists t, s, sk. split; [destruct t; try discriminate; auto|]. auto.
    + unfold verify_hmac, perform_hmac. rewrite E, D. cbn [h_type]. rewrite M. cbn [bind]. rewrite R. reflexivity.
Qed.
Lemma make_hmac_size k data hmac : hmac_bytes -> make_hmac c k data = Ok hmac -> bytes_ok (h_value hmac) /\ nlen (h_value hmac) <= 512.
Proof.
  intros HB. clear -HB. unfold make_hmac, hash_from_digest. destruct k as [s sk|t s sk].
  - destruct (negb _) eqn:Z; [discriminate|]. intros M. inversion M; subst. cbn [h_value]. split; [apply HB|]. apply negb_false_iff, N.eqb_eq in Z. rewrite Z. cbn. lia.
  - destruct (digestible t); [|discriminate]. destruct (negb _) eqn:Z; [discriminate|]. intros M. inversion M; subst. cbn [h_value]. split; [apply HB|].
    apply negb_false_iff, N.eqb_eq in Z. rewrite Z. destruct t; cbn; lia.
Qed.

Definition di_ev (su : setup) (h : list devent) (e : devent) : Prop :=
  match e with
  | TWire _ w => wr_type w = 12 -> exists h1 data keys hd info dc nonce pt hb hmac, h = h1 ++ [TFx (EWrite CRED_PATH data 438)] /\ wo_fx wo h = Fine /\
      initialised A c chk ko avail to_der wo su h1 data keys hd info dc /\ ek_encrypt A keys nonce pt = Ok (wr_body w) /\ names_hmac pt hmac /\
      header_serialize hd = Ok hb /\ own_hmac c dc hb hmac /\ verify_hmac c dc hb hmac = Ok tt
  | _ => exists data keys hd info dc, writes_credential e data /\ initialised A c chk ko avail to_der wo su h data keys hd info dc
  end.
(** Where DI starts: keys agreed on where they are to be, and the device's keys there *)
Definition di_start (su : setup) (k : keystore) (s : st) : Prop :=
  session_keys c chk ko avail wo su (s_hist s) (hc_keys (s_hc s)) /\ keys_ok k /\ keys_known A c to_der wo su (hc_keys (s_hc s)) (s_hist s) k.
Lemma session_keys_app su h l keys : session_keys c chk ko avail wo su h keys -> session_keys c chk ko avail wo su (h ++ l) keys.
Proof. destruct su; cbn [session_keys]; [auto|apply auth_app]. Qed.
Lemma keys_known_app su keys h l k : keys_known A c to_der wo su keys h k -> keys_known A c to_der wo su keys (h ++ l) k.
Proof.
  destruct su; cbn [keys_known]; [auto|]. intros (url & w & n & pt & I & T & E & N & h1 & u' & w' & rest & R). exists url, w, n, pt. split; [apply in_or_app; left; exact I|].
  split; [exact T|]. split; [exact E|]. split; [exact N|]. destruct R as (b & kt & al & -> & R). exists h1, u', w', (rest ++ l), b, kt, al. split; [rewrite <- app_assoc; reflexivity|exact R].
Qed.
Lemma conf_ev su s e : session_keys c chk ko avail wo su (s_hist s) (hc_keys (s_hc s)) -> confidential A (hc_keys (s_hc s)) e ->
  match su with WithDiun m => auth_ev m (s_hist s) e | PlainDI _ _ => True end.
Proof. destruct su; [auto|]. cbn [session_keys]. intros AU C. right. eauto. Qed.
Definition run_ev (su : setup) (h : list devent) (e : devent) : Prop :=
  match su with WithDiun m => auth_ev m h e | PlainDI _ _ => True end /\ di_ev su h e.

(** The saved credential is one for the header. *)
Lemma saved_initialised su k s s1 b hd hb hmac kh w ct : sane_small wo -> opens_bytes A -> outputs_ok c -> di_start su k s ->
  s_hist s1 = s_hist s ++ [TWire (s_url s) w] -> wr_type w = 10 -> came_back wo (s_hist s) (s_url s) w ct -> hc_keys (s_hc s1) = hc_keys (s_hc s) -> ek_decrypt A (hc_keys (s_hc s1)) ct = Ok b ->
  header_deserialize c chk b = Ok hd -> header_serialize hd = Ok hb -> make_hmac c k hb = Ok hmac -> mfg_key_hash c hd Sha384 = Ok kh ->
  initialised A c chk ko avail to_der wo su (s_hist s1) (enc (cred_val (hd_devinfo hd) (new_cred k hd kh))) (hc_keys (s_hc s1)) hd (hd_devinfo hd) (new_cred k hd kh).
Proof.
  intros SA OB (OH & _) (SK & KO & KK) H T CB K D HD HS MH MK.
  assert (BB : bytes_ok b /\ nlen b < 4294967296).
  { destruct CB as (r & ER & _ & EB). destruct (SA _ _ _ ER EB) as [B1 L1]. clear -OB B1 L1 D. unfold ek_decrypt in D.
    destruct (ek_suite _) as [su|]; [|inversion D; subst; auto]. destruct (ek_keys _) as [[sevk|]|]; try discriminate. destruct (unseal A sevk ct) as [p|] eqn:U; cbn [of_option] in D; [|discriminate].
    inversion D; subst. destruct (OB _ _ _ B1 U). split; [assumption|lia]. }
  destruct BB as [BB LB]. destruct (header_parts _ _ _ _ BB LB HD) as (BG & LG & RV & SC & LD).
  unfold mfg_key_hash, get_hash, get_raw in MK. destruct (nth_error (pa_items (hd_contents hd)) 4) as [kraw|] eqn:NK; cbn [map_err bind] in MK; [|discriminate].
  apply hash_from_data_ok in MK. destruct MK as [_ ->]. destruct (OH Sha384 kraw) as [OH1 OH2].
  exists (s_hist s), (s_url s), w, b. split; [exact H|]. split; [exact T|]. rewrite K. split; [rewrite H; apply session_keys_app; exact SK|]. split; [exists ct; rewrite <- K; auto|]. split; [exact HD|].
  split.
  - apply cred_reads; cbn [new_cred dc_version dc_guid dc_rv dc_mfg dc_keys h_value]; auto. unfold two64. lia.
  - split; [|rewrite H; apply keys_known_app; exact KK]. repeat (split; [reflexivity|]). exists kraw. auto.
Qed.
Lemma sethmac_names hmac : bytes_ok (h_value hmac) -> nlen (h_value hmac) <= 512 -> names_hmac (enc (VArr [hash_val hmac])) hmac.
Proof using.
  clear. intros B L. exists (VArr [hash_val hmac]), (hash_val hmac). split; [|split; [reflexivity|apply as_hash_val]]. apply dec_top_enc. unfold MAX_DEPTH.
  apply vok_arr; [cbn; unfold two64; lia|]. constructor; [apply vok_hash; [lia|exact B|unfold two64; lia]|constructor].
Qed.
Lemma di_gr su mi k stype s : sane_small wo -> opens_bytes A -> outputs_ok c -> hmac_bytes -> di_start su k s -> gr (run_ev su) (perform_di A c chk avail wo mi k stype) s.
Proof.
  intros SA OB OC HB DS. pose proof DS as (SK & KO & KK). unfold perform_di. apply gr_dbind; [apply gr_still; apply emits_lift|]. intros s0 info M0. apply lift_ok in M0. destruct M0 as [-> _].
  apply gr_dbind.
  { apply gr_ask_body. intros u w bd n T EB EN. split; [apply conf_ev; [exact SK|]; right; eauto|]. cbn [di_ev]. intros X. rewrite X in T. discriminate. }
  intros s1 b M1. apply ask_ok in M1. destruct M1 as (bd & w & ct & EB & H1 & U1 & T1 & EN & CB & K1 & D1). cbn match in K1.
  apply gr_dbind; [apply gr_still; apply emits_lift|]. intros s2 hd M2. apply lift_ok in M2. destruct M2 as [-> HD].
  apply gr_dbind; [apply gr_still; apply emits_lift|]. intros s2 hb M2. apply lift_ok in M2. destruct M2 as [-> HS].
  apply gr_dbind; [apply gr_still; apply emits_lift|]. intros s2 hmac M2. apply lift_ok in M2. destruct M2 as [-> MH].
  apply gr_dbind; [apply gr_still; apply emits_lift|]. intros s2 kh M2. apply lift_ok in M2. destruct M2 as [-> MK].
  pose proof (saved_initialised su k s s1 b hd hb hmac kh w ct SA OB OC DS H1 T1 CB K1 D1 HD HS MH MK) as IN.
  assert (SK1 : session_keys c chk ko avail wo su (s_hist s1) (hc_keys (s_hc s1))) by (rewrite H1, K1; apply session_keys_app; exact SK).
  apply gr_dbind.
  { apply save_gr. split; [apply conf_ev; [exact SK1|exact Logic.I]|]. cbn [di_ev]. do 5 eexists. split; [reflexivity|exact IN]. }
  intros s2 [] M2. apply save_ok in M2. destruct M2 as (H2 & U2 & C2 & FX).
  apply gr_dbind; [|intros s3 b3 M3; apply gr_dbind; [apply gr_still; apply emits_lift|intros ? ? ?; apply gr_still; apply emits_ret]].
  apply gr_ask_body. intros u w2 bd2 n T2 EB2 EN2. split; [apply conf_ev; [rewrite H2, C2; apply session_keys_app; exact SK1|right; eauto]|]. cbn [di_ev]. intros _.
  destruct (make_hmac_ok k hb hmac (new_cred k hd kh) MH eq_refl) as [OW VF]. destruct (make_hmac_size _ _ _ HB MH) as [B3 L3].
  exists (s_hist s1), (enc (cred_val (hd_devinfo hd) (new_cred k hd kh))), (hc_keys (s_hc s1)), hd, (hd_devinfo hd), (new_cred k hd kh), n, bd2, hb, hmac.
  split; [exact H2|]. split; [exact FX|]. split; [exact IN|]. split; [rewrite <- C2; exact EN2|]. split; [inversion EB2; apply sethmac_names; assumption|]. auto.
Qed.
(** Without any assumption: whatever is sent is encrypted with the keys agreed on. *)
Lemma di_auth m keys mi k stype s : server_authenticated m (s_hist s) keys -> hc_keys (s_hc s) = keys -> gr (auth_ev m) (perform_di A c chk avail wo mi k stype) s.
Proof.
  intros AU KE. unfold perform_di. apply gr_dbind; [apply gr_still; apply emits_lift|]. intros s0 info M0. apply lift_ok in M0. destruct M0 as [-> _].
  apply gr_dbind. { apply gr_ask_body. intros u w bd n T EB EN. right. exists keys. split; [exact AU|]. right. rewrite <- KE. eauto. }
  intros s1 b M1. apply ask_ok in M1. destruct M1 as (bd & w & ct & EB & H1 & U1 & T1 & EN & CB & K1 & D1). cbn match in K1.
  apply gr_dbind; [apply gr_still; apply emits_lift|]. intros s2 hd M2. apply lift_ok in M2. destruct M2 as [-> HD].
  apply gr_dbind; [apply gr_still; apply emits_lift|]. intros s2 hb M2. apply lift_ok in M2. destruct M2 as [-> HS].
  apply gr_dbind; [apply gr_still; apply emits_lift|]. intros s2 hmac M2. apply lift_ok in M2. destruct M2 as [-> MH].
  apply gr_dbind; [apply gr_still; apply emits_lift|]. intros s2 kh M2. apply lift_ok in M2. destruct M2 as [-> MK].
  apply gr_dbind. { apply save_gr. right. exists keys. split; [rewrite H1; apply auth_app; exact AU|exact Logic.I]. }
  intros s2 [] M2. apply save_ok in M2. destruct M2 as (H2 & U2 & C2 & FX).
  apply gr_dbind; [|intros s3 b3 M3; apply gr_dbind; [apply gr_still; apply emits_lift|intros ? ? ?; apply gr_still; apply emits_ret]].
  apply gr_ask_body. intros u w2 bd2 n T2 EB2 EN2. right. exists keys. split; [rewrite H2, H1; apply auth_app, auth_app; exact AU|]. right. rewrite <- KE, <- K1, <- C2. eauto.
Qed.
(** The shape of a run: messages, then the credential, then the HMAC *)
Definition is_wire (e : devent) : Prop := exists url w, e = TWire url w.
Definition shape (h : list devent) (e : devent) : Prop :=
  match e with
  | TWire _ w => (wr_type w = 12 /\ exists p data, h = p ++ [TFx (EWrite CRED_PATH data 438)] /\ Forall is_wire p /\ wo_fx wo h = Fine) \/ (wr_type w <> 12 /\ Forall is_wire h)
  | _ => (exists data, writes_credential e data) /\ Forall is_wire h
  end.
Lemma emits_diun m : emits (sent_type [210; 212; 214]) (perform_diun A c chk ko avail to_der wo newkey m).
Proof.
  assert (K : forall om sm bd new, In (mtype_num om) [210; 212; 214] -> emits (sent_type [210; 212; 214]) (ask om sm bd new)).
  { intros om sm bd new I. eapply emits_weaken; [apply ask_emits|]. intros e (u & w & -> & [E|[]]). exists u, w. rewrite <- E. auto. }
  unfold perform_diun. apply emits_dbind; [apply emits_draw|intros nonce]. apply emits_dbind; [intros s s' r M; inversion M; subst; apply grows_refl|intros k].
  apply emits_dbind; [apply emits_lift|intros pub]. apply emits_dbind; [apply K; cbn; auto|intros b]. apply emits_dbind; [apply emits_lift|intros tok].
  apply emits_dbind; [intros s s' r M; inversion M; subst; apply grows_refl|intros ni]. apply emits_dbind; [apply emits_lift|intros other]. apply emits_dbind; [apply emits_lift|intros raw].
  apply emits_dbind; [apply K; cbn; auto|intros b2]. apply emits_dbind; [apply emits_lift|intros [kt al]]. apply emits_dbind; [apply emits_new_key|intros key].
  apply emits_dbind; [apply K; cbn; auto|intros b4]. apply emits_dbind; [apply emits_lift|intros st]. apply emits_ret.
Qed.
Lemma diun_events m url s' r : perform_diun A c chk ko avail to_der wo newkey m (St [] url client_new) = (s', r) -> Forall (sent_type [210; 212; 214]) (s_hist s').
Proof.
  intros M. pose proof (emits_diun m _ _ _ M) as (l & E & H). cbn [s_hist app] in E, H. rewrite E. apply Forall_forall. intros e I. apply in_split in I. destruct I as (p & q & EQ). exact (H _ _ _ EQ).
Qed.
Lemma sent_wires l h : Forall (sent_type l) h -> Forall is_wire h.
Proof using. clear. apply Forall_impl. intros e (u & w & -> & _). exists u, w. reflexivity. Qed.
Lemma diun_wires m url s' r : perform_diun A c chk ko avail to_der wo newkey m (St [] url client_new) = (s', r) -> Forall is_wire (s_hist s').
Proof. intros M. apply diun_events in M. eapply sent_wires. exact M. Qed.
(** Nothing of DI is done in DIUN. *)
Lemma diun_sends P m url : (forall p u w, Forall is_wire p -> wr_type w <> 12 -> P p (TWire u w)) -> gr P (perform_diun A c chk ko avail to_der wo newkey m) (St [] url client_new).
Proof.
  intros W s' r M. pose proof (diun_events _ _ _ _ M) as F. exists (s_hist s'). split; [reflexivity|]. intros p e q E. cbn [s_hist app]. rewrite E in F. rewrite Forall_app in F. destruct F as [F1 F2].
  inversion F2 as [|? ? S _]; subst. destruct S as (u & w & -> & S). apply W; [eapply sent_wires; exact F1|]. intros X. rewrite X in S. destruct S as [S|[S|[S|[]]]]; discriminate.
Qed.
Lemma diun_shape m url : gr shape (perform_diun A c chk ko avail to_der wo newkey m) (St [] url client_new).
Proof. apply diun_sends. intros p u w F T. right. auto. Qed.
Lemma di_shape mi k stype s : Forall is_wire (s_hist s) -> gr shape (perform_di A c chk avail wo mi k stype) s.
Proof.
  intros F. unfold perform_di. apply gr_dbind; [apply gr_still; apply emits_lift|]. intros s0 info M0. apply lift_ok in M0. destruct M0 as [-> _].
  apply gr_dbind. { apply gr_ask_body. intros u w bd n T EB EN. right. split; [rewrite T; discriminate|exact F]. }
  intros s1 b M1. apply ask_ok in M1. destruct M1 as (bd & w & ct & EB & H1 & U1 & T1 & EN & CB & K1 & D1). cbn match in K1.
  assert (F1 : Forall is_wire (s_hist s1)). { rewrite H1. apply Forall_app. split; [exact F|]. constructor; [eexists _, _; reflexivity|constructor]. }
  apply gr_dbind; [apply gr_still; apply emits_lift|]. intros s2 hd M2. apply lift_ok in M2. destruct M2 as [-> HD].
  apply gr_dbind; [apply gr_still; apply emits_lift|]. intros s2 hb M2. apply lift_ok in M2. destruct M2 as [-> HS].
  apply gr_dbind; [apply gr_still; apply emits_lift|]. intros s2 hmac M2. apply lift_ok in M2. destruct M2 as [-> MH].
  apply gr_dbind; [apply gr_still; apply emits_lift|]. intros s2 kh M2. apply lift_ok in M2. destruct M2 as [-> MK].
  apply gr_dbind. { apply save_gr. split; [eexists; reflexivity|exact F1]. }
  intros s2 [] M2. apply save_ok in M2. destruct M2 as (H2 & U2 & C2 & FX).
  apply gr_dbind; [|intros s3 b3 M3; apply gr_dbind; [apply gr_still; apply emits_lift|intros ? ? ?; apply gr_still; apply emits_ret]].
  apply gr_ask_body. intros u w2 bd2 n T2 EB2 EN2. left. split; [exact T2|]. exists (s_hist s1). eexists. split; [exact H2|]. split; [exact F1|exact FX].
Qed.
(** Success *)
Lemma di_ok mi k stype s s' : perform_di A c chk avail wo mi k stype s = (s', Ok tt) ->
  exists h1 data url w ct pt, s_hist s' = (h1 ++ [TFx (EWrite CRED_PATH data 438)]) ++ [TWire url w] /\ wo_fx wo (h1 ++ [TFx (EWrite CRED_PATH data 438)]) = Fine /\
    wr_type w = 12 /\ came_back wo (h1 ++ [TFx (EWrite CRED_PATH data 438)]) url w ct /\ ek_decrypt A (hc_keys (s_hc s)) ct = Ok pt /\ from_slice as_unit_struct pt = Ok tt.
Proof.
  unfold perform_di. intros M. apply dbind_ok in M. destruct M as (s0 & info & M0 & M). apply lift_ok in M0. destruct M0 as [-> _].
  apply dbind_ok in M. destruct M as (s1 & b & M1 & M). apply ask_ok in M1. destruct M1 as (bd & w & ct & EB & H1 & U1 & T1 & EN & CB & K1 & D1). cbn match in K1.
  apply dbind_ok in M. destruct M as (s2 & hd & M2 & M). apply lift_ok in M2. destruct M2 as [-> HD].
  apply dbind_ok in M. destruct M as (s2 & hb & M2 & M). apply lift_ok in M2. destruct M2 as [-> HS].
  apply dbind_ok in M. destruct M as (s2 & hmac & M2 & M). apply lift_ok in M2. destruct M2 as [-> MH].
  apply dbind_ok in M. destruct M as (s2 & kh & M2 & M). apply lift_ok in M2. destruct M2 as [-> MK].
  apply dbind_ok in M. destruct M as (s2 & [] & M2 & M). apply save_ok in M2. destruct M2 as (H2 & U2 & C2 & FX).
  apply dbind_ok in M. destruct M as (s3 & b3 & M3 & M). apply ask_ok in M3. destruct M3 as (bd3 & w3 & ct3 & EB3 & H3 & U3 & T3 & EN3 & CB3 & K3 & D3). cbn match in K3.
  apply dbind_ok in M. destruct M as (s4 & [] & M4 & M). apply lift_ok in M4. destruct M4 as [-> RU]. apply ret_ok in M. destruct M as [-> _].
  exists (s_hist s1). eexists. exists (s_url s2), w3, ct3, b3. rewrite H3, H2. split; [reflexivity|]. rewrite H2 in *. split; [exact FX|]. split; [exact T3|]. split; [exact CB3|].
  split; [|exact RU]. rewrite K3, C2, K1 in D3. exact D3.
Qed.
End client.
