(** The device's client from the owner's proof to the end. *)
From Verif Require Import Base BaseFacts CborModel ValueModel TypesModel Text VoucherModel VoucherSpec CoseFacts KexModel RvModel MsgModel
  SessionModel HttpClientModel RvServerModel SiModel DevSiModel OwnerModel ClientModel ClientSpec ClientProofs.
From Coq Require Import ZifyBool ZifyNat ZifyN.
Local Open Scope N_scope.
Local Opaque dec_top any_value.
Implicit Types (P : list devent -> devent -> Prop) (Q : devent -> Prop).

Lemma gr_emits Q P {B} (m : dm B) s : emits Q m -> (forall p e, Forall Q p -> Q e -> P (s_hist s ++ p) e) -> gr P m s.
Proof.
  intros E W s' r M. destruct (grows_forall _ _ _ (E s s' r M)) as (l & EL & F). exists l. split; [exact EL|]. intros p e q X. rewrite X in F.
  apply Forall_app in F. destruct F as [Fp Fq]. inversion Fq; subst. auto.
Qed.
Lemma gr_still P {B} (m : dm B) s : emits (fun _ => False) m -> gr P m s.
Proof. intros E. eapply emits_gr; [exact E|]. intros p e []. Qed.
Lemma gr_weaken P P' {B} (m : dm B) s : (forall p e, P (s_hist s ++ p) e -> P' (s_hist s ++ p) e) -> gr P m s -> gr P' m s.
Proof. intros W G s' r M. eapply grows_weaken; [exact W|exact (G _ _ M)]. Qed.

Set Default Proof Using "Type".
Section device.
Context (A : aead) (c : crypto) (chk : bool) (ko : kex_ops) (avail : bool) (prefix : option str) (wo : world).
Notation ask := (ask A avail wo). Notation draw := (draw wo).

Lemma gr_ask P om sm body new s : (forall url w, wr_type w = mtype_num om -> P (s_hist s) (TWire url w)) -> gr P (ask om sm body new) s.
Proof.
  intros W s' r M. unfold ClientModel.ask in M.
  destruct (prepare A avail (s_hc s) om sm _ new (wo_rand wo (s_hist s) 1)) as [hc [w|e|p]] eqn:E.
  - destruct (receive A raw_parse hc sm _) as [hc2 o]. inversion M; subst. cbn [s_hist]. apply grows_one. apply prepare_wire in E. destruct E as (T & _). apply W. exact T.
  - inversion M; subst. apply grows_refl.
  - inversion M; subst. apply grows_refl.
Qed.
Lemma gr_io P ev s : (forall ok, P (s_hist s) (ev ok)) -> gr P (io wo ev) s.
Proof. intros W s' r M. unfold io in M. inversion M; subst. cbn [s_hist]. apply grows_one. apply W. Qed.
Lemma io_ok ev s s' : io wo ev s = (s', Ok tt) -> s_hist s' = s_hist s ++ [ev true] /\ s_url s' = s_url s /\ s_hc s' = s_hc s.
Proof. unfold io. intros M. destruct (wo_io wo (s_hist s)); inversion M; subst. auto. Qed.

Definition busy (e : devent) : Prop := fine [68] e \/ exists x, e = TFx x.
Lemma emits_handle l : emits busy (handle_info c prefix wo l).
Proof.
  intros s s' r M. unfold handle_info in M. destruct (process c _ prefix l []) as [d o]. inversion M; subst. cbn [s_hist].
  exists (map TFx (effects (d_log d))). split; [reflexivity|]. intros p e q E. right.
  assert (In e (map TFx (effects (d_log d)))) as X by (rewrite E; apply in_or_app; right; left; reflexivity). apply in_map_iff in X. destruct X as (x & <- & _). eauto.
Qed.
Lemma emits_loop : forall n out rb, emits busy (info_loop A c avail prefix wo n out rb).
Proof.
  induction n as [|n IH]; intros out rb; cbn [info_loop]; [apply emits_fail|].
  apply emits_dbind. { eapply emits_weaken; [apply (ask_fine A avail wo _ _ _ _ [68]); cbn [mtype_num In]; auto 10|]. intros e H. left. exact H. }
  intros b. apply emits_dbind; [apply emits_lift|]. intros [[more dn] l]. destruct dn; [apply emits_ret|]. destruct more; [apply emits_fail|].
  apply emits_dbind; [apply emits_handle|]. intros [r out']. apply IH.
Qed.
Lemma emits_info : emits busy (perform_info A c avail prefix wo).
Proof. unfold perform_info. apply emits_dbind; [apply emits_lift|]. intros out. apply emits_loop. Qed.

(** Keys the device agreed on *)
Definition agreed_keys (keys : ekeys) : Prop :=
  exists k other nonint raw, derive_key ko avail KDevice A256Gcm k other nonint = Ok raw /\ keys = from_derived 3 (Combined raw).
Lemma agreed_says keys ct pt : agreed_keys keys -> ek_decrypt A keys ct = Ok pt -> says A ko avail ct pt.
Proof. intros (k & o & ni & raw & D & ->) E. exists k, o, ni, raw. auto. Qed.

Lemma loop_ok keys : agreed_keys keys -> forall n out rb s s' r, hc_keys (s_hc s) = keys -> info_loop A c avail prefix wo n out rb s = (s', Ok r) ->
  info_done A ko avail wo (s_hist s') /\ hc_keys (s_hc s') = keys.
Proof.
  intros AK. induction n as [|n IH]; intros out rb s s' r K M; cbn [info_loop] in M; [discriminate|].
  apply dbind_ok in M. destruct M as (s1 & b & M1 & M). apply ask_ok in M1. destruct M1 as (bd & w & ct & EB & H & U & T & E & CB & K2 & D). rewrite K in *. rewrite K2 in D.
  apply dbind_ok in M. destruct M as (s2 & [[more dn] l] & M2 & M). apply lift_ok in M2. destruct M2 as [-> RO]. destruct dn.
  - apply ret_ok in M. destruct M as [-> _]. split; [|exact K2]. exists (s_hist s), (s_url s), w, ct, b, more, l.
    split; [exact H|]. split; [exact T|]. split; [exact CB|]. split; [eapply agreed_says; eassumption|exact RO].
  - destruct more; [discriminate|]. apply dbind_ok in M. destruct M as (s3 & [r3 out'] & M3 & M). refine (IH _ _ _ _ _ _ M).
    unfold handle_info in M3. destruct (process c _ prefix l []) as [d o]. inversion M3; subst. exact K2.
Qed.
Lemma info_ok keys s s' r : agreed_keys keys -> hc_keys (s_hc s) = keys -> perform_info A c avail prefix wo s = (s', Ok r) ->
  info_done A ko avail wo (s_hist s') /\ hc_keys (s_hc s') = keys.
Proof.
  intros AK K M. unfold perform_info in M. apply dbind_ok in M. destruct M as (s1 & out & M1 & M). apply lift_ok in M1. destruct M1 as [-> _].
  eapply loop_ok; eassumption.
Qed.
Lemma prove_ok dc k n6 n7 keys s s' : perform_provedevice A c chk ko avail wo dc k n6 n7 keys s = (s', Ok tt) -> hc_keys (s_hc s') = keys.
Proof.
  intros M. unfold perform_provedevice in M. apply dbind_ok in M. destruct M as (s1 & rnd & M1 & M). apply dbind_ok in M. destruct M as (s2 & t & M2 & M).
  apply dbind_ok in M. destruct M as (s3 & b & M3 & M). apply ask_ok in M3. destruct M3 as (_ & _ & _ & _ & _ & _ & _ & _ & _ & K & _).
  apply dbind_ok in M. destruct M as (s4 & x & M4 & M). apply lift_ok in M4. destruct M4 as [-> _]. apply ret_ok in M. destruct M as [-> _]. exact K.
Qed.
Lemma siready_ok s s' x : perform_siready A avail wo s = (s', Ok x) -> hc_keys (s_hc s') = hc_keys (s_hc s).
Proof.
  intros M. unfold perform_siready in M. apply dbind_ok in M. destruct M as (s3 & b & M3 & M). apply ask_ok in M3. destruct M3 as (_ & _ & _ & _ & _ & _ & _ & _ & _ & K & _).
  apply dbind_ok in M. destruct M as (s4 & y & M4 & M). apply lift_ok in M4. destruct M4 as [-> _]. apply ret_ok in M. destruct M as [-> _]. exact K.
Qed.
Lemma done_ok n6 n7 s s' : perform_done A avail wo n6 n7 s = (s', Ok tt) -> exists w ct pt,
  s_hist s' = s_hist s ++ [TWire (s_url s) w] /\ wr_type w = 70 /\ came_back wo (s_hist s) (s_url s) w ct /\ ek_decrypt A (hc_keys (s_hc s)) ct = Ok pt /\ from_slice as_done pt = Ok n7.
Proof.
  intros M. unfold perform_done in M. apply dbind_ok in M. destruct M as (s1 & b & M1 & M). apply ask_ok in M1. destruct M1 as (bd & w & ct & EB & H & U & T & E & CB & K2 & D).
  apply dbind_ok in M. destruct M as (s2 & n & M2 & M). apply lift_ok in M2. destruct M2 as [-> RD]. apply dbind_ok in M. destruct M as (s3 & same & M3 & M).
  apply lift_ok in M3. destruct M3 as [-> NE]. destruct same; [|discriminate]. apply ret_ok in M. destruct M as [-> _]. apply nonce_eq_ok in NE. subst n.
  rewrite K2 in D. exists w, ct, b. auto.
Qed.
Lemma deactivate_ok m s s' : deactivate wo m s = (s', Ok tt) -> s_hist s' = s_hist s ++ put_away m /\ s_url s' = s_url s /\ s_hc s' = s_hc s.
Proof.
  destruct m; cbn [deactivate put_away]; intros M.
  - apply ret_ok in M. destruct M as [-> _]. rewrite app_nil_r. auto.
  - apply io_ok in M. exact M.
  - apply dbind_ok in M. destruct M as (s1 & [] & M1 & M). apply io_ok in M1, M. destruct M1 as (H1 & U1 & C1), M as (H2 & U2 & C2).
    rewrite H2, H1, U2, C2, <- app_assoc. auto.
Qed.

(** What the events of a session with an owner are *)
Definition session_event (m : deactivation) (dc : devcred) (to1d : cose) (h0 h : list devent) (e : devent) : Prop :=
  (past_authentication e -> exists h1 h2, h = h1 ++ h2 /\ no_hello h2 /\ owner_authenticated c chk wo dc to1d h0 h1) /\
  in_order A ko avail wo m h e.
Lemma plain_event m dc to1d h0 h e l : fine l e -> (forall n, In n l -> n = 60 \/ n = 62 \/ n = 30 \/ n = 32) -> session_event m dc to1d h0 h e.
Proof.
  intros (url & w & -> & I) S. assert (T : wr_type w = 255 \/ wr_type w = 60 \/ wr_type w = 62 \/ wr_type w = 30 \/ wr_type w = 32) by (destruct I as [I|I]; [auto|right; apply S; exact I]).
  split; [intros X; exfalso|cbn [in_order]; intros X; lia]. cbn in X. lia.
Qed.
Lemma report_event m dc to1d h0 h url w : wr_type w = 255 -> session_event m dc to1d h0 h (TWire url w).
Proof. intros T. eapply (plain_event _ _ _ _ _ _ []); [exists url, w; split; [reflexivity|left; auto]|intros n []]. Qed.
Lemma no_hello_app a b : no_hello a -> no_hello b -> no_hello (a ++ b).
Proof. intros H1 H2 url w I. apply in_app_or in I. destruct I; eauto. Qed.
Lemma no_hello_fine l p : Forall (fine l) p -> ~ In 60 l -> no_hello p.
Proof.
  intros F N url w I. rewrite Forall_forall in F. destruct (F _ I) as (u & w' & E & T). inversion E; subst. intros X. rewrite X in T. destruct T as [T|T]; [discriminate|auto].
Qed.
Lemma no_hello_busy p : Forall busy p -> no_hello p.
Proof.
  intros F url w I. rewrite Forall_forall in F. destruct (F _ I) as [(u & w' & E & T)|(x & E)]; [|discriminate]. inversion E; subst. intros X. rewrite X in T. cbn in T. intuition discriminate.
Qed.
(** In a session whose owner is authenticated *)
Definition open_session (dc : devcred) (to1d : cose) (h0 h : list devent) : Prop :=
  exists h1 h2, h = h1 ++ h2 /\ no_hello h2 /\ owner_authenticated c chk wo dc to1d h0 h1.
Lemma open_app dc to1d h0 h p : open_session dc to1d h0 h -> no_hello p -> open_session dc to1d h0 (h ++ p).
Proof. intros (h1 & h2 & -> & N & O) NP. exists h1, (h2 ++ p). rewrite app_assoc. split; [reflexivity|]. split; [apply no_hello_app; assumption|exact O]. Qed.
Lemma quiet_event m dc to1d h0 h e l : open_session dc to1d h0 h -> fine l e -> ~ In 70 l -> session_event m dc to1d h0 h e.
Proof.
  intros O (url & w & -> & I) N. split; [intros _; exact O|]. cbn [in_order]. intros X. rewrite X in I. destruct I as [I|I]; [discriminate|contradiction].
Qed.
(** A step that sends requests of other types than HelloDevice and Done *)
Lemma gr_fine m dc to1d h0 s {B} (x : dm B) l : open_session dc to1d h0 (s_hist s) -> emits (fine l) x -> ~ In 60 l -> ~ In 70 l -> gr (session_event m dc to1d h0) x s.
Proof.
  intros O E N6 N7. eapply gr_emits; [exact E|]. intros p e F Q. eapply quiet_event; [|exact Q|exact N7]. apply open_app; [exact O|]. eapply no_hello_fine; eassumption.
Qed.
Lemma open_after dc to1d h0 s s' {B} (x : dm B) r l : open_session dc to1d h0 (s_hist s) -> emits (fine l) x -> ~ In 60 l -> x s = (s', r) -> open_session dc to1d h0 (s_hist s').
Proof. intros O E N6 M. destruct (grows_forall _ _ _ (E s s' r M)) as (p & -> & F). apply open_app; [exact O|]. eapply no_hello_fine; eassumption. Qed.

Lemma to2_events m dc to1d s : sane wo -> hc_keys (s_hc s) = unencrypted -> gr (session_event m dc to1d (s_hist s)) (to2 A c chk ko avail prefix wo m dc to1d) s.
Proof.
  intros SA K. set (h0 := s_hist s). set (P := session_event m dc to1d h0). unfold to2.
  assert (R : forall B (x : dm B) s1, gr P x s1 -> gr P (reporting A avail wo x) s1) by (intros B x s1 G; apply gr_reporting; [exact G|]; intros p url w T; apply report_event; exact T).
  apply gr_dbind; [apply gr_still, emits_draw|]. intros sa n5 Ma. inversion Ma; subst sa n5; clear Ma.
  apply gr_dbind. { apply R. eapply emits_gr; [apply emits_hellodevice|]. intros p e Q. eapply plain_event; [exact Q|]. intros n [<-|[]]. auto. }
  intros s1 [tok p] M1. apply reporting_ok in M1.
  apply gr_dbind. { apply R. apply gr_still, emits_nonce6. }
  intros s2 n6 M2. apply reporting_ok in M2.
  apply gr_dbind. { apply R. eapply emits_gr; [apply emits_verify|]. intros q e Q. eapply plain_event; [exact Q|]. intros n [<-|[]]. auto. }
  intros s3 p' M3. apply reporting_ok in M3.
  destruct (session_auth A c chk avail wo _ _ _ _ _ _ _ _ _ _ _ SA K eq_refl M1 M2 M3) as (OA & K3 & _).
  assert (O3 : open_session dc to1d h0 (s_hist s3)) by (exists (s_hist s3), []; rewrite app_nil_r; split; [reflexivity|]; split; [intros u w []|exact OA]).
  clear M1 M2 M3 OA.
  apply gr_dbind. { apply R. apply gr_still, emits_kd. }
  intros s4 [k keys] M4. apply reporting_ok in M4. apply kd_ok in M4. destruct M4 as (-> & ni & raw & DK & EK). cbn [fst snd] in DK, EK.
  assert (AK : agreed_keys keys) by (exists k, (ph_kex p'), ni, raw; auto).
  apply gr_dbind; [apply gr_still, emits_draw|]. intros sb n7 Mb. inversion Mb; subst sb n7; clear Mb.
  apply gr_dbind. { apply R. eapply gr_fine; [exact O3|apply emits_prove|cbn; intuition discriminate|cbn; intuition discriminate]. }
  intros s5 [] M5. apply reporting_ok in M5. pose proof (prove_ok _ _ _ _ _ _ _ M5) as K5.
  assert (O5 : open_session dc to1d h0 (s_hist s5)) by (eapply open_after; [exact O3|apply emits_prove| |exact M5]; cbn; intuition discriminate).
  clear M5. apply gr_dbind. { apply R. eapply gr_fine; [exact O5|apply emits_siready|cbn; intuition discriminate|cbn; intuition discriminate]. }
  intros s6 [] M6. apply reporting_ok in M6. pose proof (siready_ok _ _ _ M6) as K6. rewrite K5 in K6.
  assert (O6 : open_session dc to1d h0 (s_hist s6)) by (eapply open_after; [exact O5|apply emits_siready| |exact M6]; cbn; intuition discriminate).
  clear M6. apply gr_dbind.
  { apply R. eapply gr_emits; [apply emits_info|]. intros q e F Q. assert (OO : open_session dc to1d h0 (s_hist s6 ++ q)) by (apply open_app; [exact O6|apply no_hello_busy; exact F]).
    destruct Q as [Q|(x & ->)]; [eapply quiet_event; [exact OO|exact Q|cbn; intuition discriminate]|]. split; [intros _; exact OO|exact I]. }
  intros s7 rb M7. apply reporting_ok in M7. destruct (info_ok _ _ _ _ AK K6 M7) as (ID & K7).
  assert (O7 : open_session dc to1d h0 (s_hist s7)). { destruct (grows_forall _ _ _ (emits_info s6 s7 _ M7)) as (q & -> & F). apply open_app; [exact O6|apply no_hello_busy; exact F]. }
  clear M7. apply gr_dbind.
  { apply R. apply gr_io. intros ok. split; [intros _; exact O7|]. cbn [in_order]. exists (s_hist s7). rewrite app_nil_r. auto. }
  intros s8 [] M8. apply reporting_ok in M8. apply io_ok in M8. destruct M8 as (H8 & U8 & C8).
  assert (NM : no_hello [TMark true]) by (intros u w [X|[]]; discriminate).
  assert (O8 : open_session dc to1d h0 (s_hist s8)) by (rewrite H8; apply open_app; [exact O7|exact NM]).
  apply gr_dbind.
  { apply R. unfold deactivate. destruct m.
    - apply gr_still, emits_ret.
    - apply gr_io. intros ok. split; [intros _; exact O8|]. cbn [in_order]. split; [reflexivity|]. exists (s_hist s7). auto.
    - apply gr_dbind. { apply gr_io. intros ok. split; [intros _; exact O8|]. cbn [in_order]. split; [reflexivity|]. exists (s_hist s7). auto. }
      intros s9 [] M9. apply io_ok in M9. destruct M9 as (H9 & _). apply gr_io. intros ok. split.
      + intros _. rewrite H9. apply open_app; [exact O8|]. intros u w [X|[]]; discriminate.
      + cbn [in_order]. split; [reflexivity|]. exists (s_hist s7). rewrite H9, H8, <- app_assoc. auto. }
  intros s9 [] M9. apply reporting_ok in M9. apply deactivate_ok in M9. destruct M9 as (H9 & _).
  assert (O9 : open_session dc to1d h0 (s_hist s9)) by (rewrite H9; apply open_app; [exact O8|]; destruct m; cbn [put_away]; intros u w X; cbn in X; intuition discriminate).
  apply gr_dbind; [|intros s10 [] M10; apply gr_still, emits_ret]. apply R. unfold perform_done.
  apply gr_dbind; [|intros s11 b M11; apply gr_still; apply emits_dbind; [apply emits_lift|]; intros n; apply emits_dbind; [apply emits_lift|]; intros [|]; [apply emits_ret|apply emits_fail]].
  apply gr_ask. intros url w T. split; [intros _; exact O9|]. cbn [in_order]. intros _. exists (s_hist s7). rewrite H9, H8, <- app_assoc. auto.
Qed.

(** A session that ends well *)
Lemma to2_done m dc to1d s s' b : hc_keys (s_hc s) = unencrypted -> to2 A c chk ko avail prefix wo m dc to1d s = (s', Ok b) -> done_answered A ko avail wo (s_hist s').
Proof.
  intros K M. unfold to2 in M.
  apply dbind_ok in M. destruct M as (sa & n5 & Ma & M). inversion Ma; subst sa n5; clear Ma.
  apply dbind_ok in M. destruct M as (s1 & [tok p] & M1 & M). apply dbind_ok in M. destruct M as (s2 & n6 & M2 & M).
  apply dbind_ok in M. destruct M as (s3 & p' & M3 & M). clear M1 M2 M3.
  apply dbind_ok in M. destruct M as (s4 & [k keys] & M4 & M). apply reporting_ok, kd_ok in M4. destruct M4 as (-> & ni & raw & DK & EK). cbn [fst snd] in DK, EK.
  assert (AK : agreed_keys keys) by (exists k, (ph_kex p'), ni, raw; auto).
  apply dbind_ok in M. destruct M as (sb & n7 & Mb & M). inversion Mb; subst sb n7; clear Mb.
  apply dbind_ok in M. destruct M as (s5 & [] & M5 & M). apply reporting_ok in M5. pose proof (prove_ok _ _ _ _ _ _ _ M5) as K5.
  destruct (grows_forall _ _ _ (emits_prove A c chk ko avail wo _ _ _ _ _ _ _ _ M5)) as (l5 & H5 & F5). clear M5.
  apply dbind_ok in M. destruct M as (s6 & [] & M6 & M). apply reporting_ok in M6. pose proof (siready_ok _ _ _ M6) as K6. rewrite K5 in K6.
  destruct (grows_forall _ _ _ (emits_siready A avail wo _ _ _ M6)) as (l6 & H6 & F6). clear M6.
  apply dbind_ok in M. destruct M as (s7 & rb & M7 & M). apply reporting_ok in M7. destruct (info_ok _ _ _ _ AK K6 M7) as (ID & K7).
  destruct (grows_forall _ _ _ (emits_info _ _ _ M7)) as (l7 & H7 & F7). clear M7.
  apply dbind_ok in M. destruct M as (s8 & [] & M8 & M). apply reporting_ok in M8. apply io_ok in M8. destruct M8 as (H8 & U8 & C8).
  apply dbind_ok in M. destruct M as (s9 & [] & M9 & M). apply reporting_ok, deactivate_ok in M9. destruct M9 as (H9 & U9 & C9).
  apply dbind_ok in M. destruct M as (s10 & [] & M10 & M). apply reporting_ok, done_ok in M10. destruct M10 as (w & ct & pt & H10 & T & CB & D & RD).
  apply ret_ok in M. destruct M as [-> _].
  assert (EH : s_hist s9 = s_hist s3 ++ (l5 ++ l6 ++ l7 ++ [TMark true] ++ put_away m)) by (rewrite H9, H8, H7, H6, H5, <- !app_assoc; reflexivity).
  rewrite C9, C8, K7 in D.
  exists (s_hist s3), (l5 ++ l6 ++ l7 ++ [TMark true] ++ put_away m), (s_url s9), w, ct, pt, (wo_rand wo (s_hist s3) 0).
  split; [rewrite H10, EH; reflexivity|]. split; [exact T|]. split.
  { apply no_hello_app; [eapply no_hello_fine; [exact F5|cbn; intuition discriminate]|]. apply no_hello_app; [eapply no_hello_fine; [exact F6|cbn; intuition discriminate]|].
    apply no_hello_app; [apply no_hello_busy; exact F7|]. destruct m; cbn; intros u x X; cbn in X; intuition discriminate. }
  split; [reflexivity|]. rewrite <- EH. split; [exact CB|]. split; [eapply agreed_says; eassumption|exact RD].
Qed.

(** * All sessions *)
Definition run_event (m : deactivation) (dc : devcred) (h : list devent) (e : devent) : Prop :=
  (past_authentication e -> session_authenticated c chk wo dc h) /\ in_order A ko avail wo m h e.
Lemma redirected_app to1d h l : redirected chk wo to1d h -> redirected chk wo to1d (h ++ l).
Proof. intros (h1 & u & w & b & h2 & -> & T & CB & CD). exists h1, u, w, b, (h2 ++ l). rewrite app_assoc. auto. Qed.
Lemma to2_run m dc url to1d s : sane wo -> redirected chk wo to1d (s_hist s) -> gr (run_event m dc) (perform_to2 A c chk ko avail prefix wo m dc url to1d) s.
Proof.
  intros SA RD s' r M. unfold perform_to2, with_client in M.
  pose proof (to2_events m dc to1d (St (s_hist s) url client_new) SA eq_refl s' r M) as G. cbn [s_hist] in G.
  eapply grows_weaken; [|exact G]. intros p e (H & O). split; [|exact O]. intros X. destruct (H X) as (h1 & h2 & E & N & OA). exists to1d, (s_hist s), h1, h2. auto.
Qed.
Lemma owners_run m dc to1d : sane wo -> forall urls s, redirected chk wo to1d (s_hist s) -> gr (run_event m dc) (try_owners A c chk ko avail prefix wo m dc to1d urls) s.
Proof.
  intros SA. induction urls as [|u r IH]; intros s RD; cbn [try_owners]; [apply gr_still, emits_ret|]. intros s' o M.
  pose proof (to2_run m dc u to1d s SA RD) as G. destruct (perform_to2 A c chk ko avail prefix wo m dc u to1d s) as [s1 [b|e|w]] eqn:E.
  - inversion M; subst. exact (G _ _ E).
  - pose proof (G _ _ E) as G1. eapply grows_trans; [exact G1|]. refine (IH s1 _ _ _ M). apply grows_prefix in G1. destruct G1 as (l & ->). apply redirected_app. exact RD.
  - inversion M; subst. exact (G _ _ E).
Qed.
Lemma to1_redirected dc s s' t : hc_keys (s_hc s) = unencrypted -> perform_to1 A c chk avail wo dc s = (s', Ok t) -> redirected chk wo t (s_hist s').
Proof.
  intros K M. unfold perform_to1 in M. apply dbind_ok in M. destruct M as (s1 & tok & M1 & M). apply reporting_ok in M1, M.
  assert (K1 : hc_keys (s_hc s1) = unencrypted).
  { unfold perform_hellorv in M1. apply dbind_ok in M1. destruct M1 as (s2 & b & M2 & M1). apply ask_plain in M2; [|exact K]. destruct M2 as (_ & _ & _ & _ & _ & _ & _ & _ & K2).
    apply dbind_ok in M1. destruct M1 as (s3 & [n4 sg] & M3 & M1). apply lift_ok in M3. destruct M3 as [-> _]. destruct (negb _); [discriminate|]. destruct (negb _); [discriminate|].
    apply dbind_ok in M1. destruct M1 as (s4 & rnd & M4 & M1). inversion M4; subst s4. apply dbind_ok in M1. destruct M1 as (s5 & t5 & M5 & M1). apply lift_ok in M5, M1.
    destruct M5 as [-> _], M1 as [-> _]. exact K2. }
  unfold perform_provetorv in M. apply dbind_ok in M. destruct M as (s2 & b & M2 & M). apply ask_plain in M2; [|exact K1]. destruct M2 as (bd & w & _ & H & _ & T & _ & CB & _).
  apply lift_ok in M. destruct M as [-> CD]. exists (s_hist s1), (s_url s1), w, b, []. rewrite app_nil_r. auto.
Qed.
Lemma get_to1d_redirected dc : forall urls s s' t, get_to1d A c chk avail wo dc urls s = (s', Ok t) -> redirected chk wo t (s_hist s').
Proof.
  induction urls as [|u r IH]; intros s s' t M; cbn [get_to1d] in M; [discriminate|]. destruct (with_client u (perform_to1 A c chk avail wo dc) s) as [s1 [x|e|w]] eqn:E.
  - inversion M; subst. unfold with_client in E. eapply to1_redirected; [|exact E]. reflexivity.
  - eapply IH. exact M.
  - discriminate.
Qed.
Lemma plain_run m dc h e : fine [30; 32] e -> run_event m dc h e.
Proof.
  intros (url & w & -> & T). split; [intros X; exfalso|cbn [in_order]; intros X; exfalso]; cbn in X, T; lia.
Qed.
Context (show_ip : bytes -> str).
Lemma directives_run m dc : sane wo -> forall l s, gr (run_event m dc) (try_directives A c chk ko avail show_ip prefix wo m dc l) s.
Proof.
  intros SA. induction l as [|x r IH]; intros s; cbn [try_directives]; [apply gr_still, emits_ret|]. destruct (get_client_list show_ip x) as [urls|]; [|apply IH].
  intros s' o M. pose proof (emits_get_to1d A c chk avail wo dc urls s) as G. destruct (get_to1d A c chk avail wo dc urls s) as [s1 [t|e|w]] eqn:E.
  - assert (G1 : grows (run_event m dc) (s_hist s) (s_hist s1)) by (eapply grows_weaken; [|exact (G _ _ E)]; intros p e; apply plain_run). eapply grows_trans; [exact G1|].
    apply get_to1d_redirected in E. destruct (cose_get_payload_unverified _ t) as [pl|e|w].
    + pose proof (owners_run m dc t SA (get_to2_urls show_ip (t1_addrs pl)) s1 E) as G2. destruct (try_owners _ _ _ _ _ _ _ _ _ _ _ s1) as [s2 [[b|]|e|w]] eqn:E2; try (inversion M; subst; exact (G2 _ _ E2)).
      eapply grows_trans; [exact (G2 _ _ E2)|]. exact (IH _ _ _ M).
    + exact (IH _ _ _ M).
    + inversion M; subst. apply grows_refl.
  - eapply grows_trans; [eapply grows_weaken; [|exact (G _ _ E)]; intros p y; apply plain_run|]. exact (IH _ _ _ M).
  - inversion M; subst. eapply grows_weaken; [|exact (G _ _ E)]. intros p e. apply plain_run.
Qed.
Lemma rounds_run m dc l : sane wo -> forall n s, gr (run_event m dc) (try_rounds A c chk ko avail show_ip prefix wo m dc l n) s.
Proof.
  intros SA. induction n as [|n IH]; intros s; cbn [try_rounds]; [apply gr_still, emits_ret|]. intros s' o M.
  pose proof (directives_run m dc SA l s) as G. destruct (try_directives _ _ _ _ _ _ _ _ _ _ _ s) as [s1 [[b|]|e|w]] eqn:E; try (inversion M; subst; exact (G _ _ E)).
  eapply grows_trans; [exact (G _ _ E)|exact (IH _ _ _ M)].
Qed.
Lemma owners_done m dc to1d : forall urls s s' b, try_owners A c chk ko avail prefix wo m dc to1d urls s = (s', Ok (Some b)) -> done_answered A ko avail wo (s_hist s').
Proof.
  induction urls as [|u r IH]; intros s s' b M; cbn [try_owners] in M; [inversion M|]. destruct (perform_to2 A c chk ko avail prefix wo m dc u to1d s) as [s1 [x|e|w]] eqn:E.
  - inversion M; subst. unfold perform_to2, with_client in E. eapply to2_done; [|exact E]. reflexivity.
  - eapply IH. exact M.
  - discriminate.
Qed.
Lemma directives_done m dc : forall l s s' b, try_directives A c chk ko avail show_ip prefix wo m dc l s = (s', Ok (Some b)) -> done_answered A ko avail wo (s_hist s').
Proof.
  induction l as [|x r IH]; intros s s' b M; cbn [try_directives] in M; [inversion M|]. destruct (get_client_list show_ip x) as [urls|]; [|eapply IH; exact M].
  destruct (get_to1d A c chk avail wo dc urls s) as [s1 [t|e|w]]; [|eapply IH; exact M|discriminate].
  destruct (cose_get_payload_unverified _ t) as [pl|e|w]; [|eapply IH; exact M|discriminate].
  destruct (try_owners A c chk ko avail prefix wo m dc t (get_to2_urls show_ip (t1_addrs pl)) s1) as [s2 [[y|]|e|w]] eqn:E; try discriminate.
  - inversion M; subst. eapply owners_done. exact E.
  - eapply IH. exact M.
Qed.
Lemma rounds_done m dc l : forall n s s' b, try_rounds A c chk ko avail show_ip prefix wo m dc l n s = (s', Ok (Some b)) -> done_answered A ko avail wo (s_hist s').
Proof.
  induction n as [|n IH]; intros s s' b M; cbn [try_rounds] in M; [inversion M|].
  destruct (try_directives A c chk ko avail show_ip prefix wo m dc l s) as [s1 [[y|]|e|w]] eqn:E; try discriminate.
  - inversion M; subst. eapply directives_done. exact E.
  - eapply IH. exact M.
Qed.
End device.
