(** Which events change what a session id loads to; where keys come from. *)
From Verif Require Import Base BaseFacts ValueModel Text Assoc MsgModel SessionModel SessionSpec SessionProofs SessionProofs2.
From Coq Require Import ZifyBool ZifyNat ZifyN.
Local Open Scope N_scope.

Section facts.
Context {W D M E : Type} (A : aead) (idt : str -> option str) (sv : server W D M E) (RO : routes_ok sv).
Notation obs := (@obs W D M E).

Lemma nodup_step y e y' o : NoDup (adom (y_store y)) -> sys_step A idt sv y e = (y', o) -> NoDup (adom (y_store y')).
Proof.
  intros N S. destruct y as [now w st ps]. cbn [y_store] in N. destruct e as [rq|n ok|n ok|n|d| |f]; cbn [sys_step] in S.
  - destruct (arrive A idt sv now w st rq) as [[[w' st'] p] o1] eqn:AR. inversion S; subst. eapply arrive_cases; eassumption.
  - destruct (nth_error ps n) as [p|]; [|inversion S; subst; exact N]. destruct (pd_stored p); [inversion S; subst; exact N|].
    destruct ok; inversion S; subst; [apply nodup_aset; exact N|exact N].
  - destruct (nth_error ps n) as [p|]; [|inversion S; subst; exact N]. destruct (negb (pd_stored p)); [inversion S; subst; exact N|].
    destruct ok; inversion S; subst; [|exact N]. cbn [y_store]. unfold ses_ttl. destruct (aget (pd_id p) st) as [[s e]|]; [apply nodup_aset; exact N|exact N].
  - inversion S; subst; exact N.
  - inversion S; subst; exact N.
  - inversion S; subst. apply nodup_filter. exact N.
  - inversion S; subst; exact N.
Qed.
Lemma nodup_run es : forall y y' o, NoDup (adom (y_store y)) -> sys_run A idt sv y es = (y', o) -> NoDup (adom (y_store y')).
Proof.
  induction es as [|e es IH]; intros y y' o N R; cbn [sys_run] in R; [inversion R; subst; exact N|].
  destruct (sys_step A idt sv y e) as [y1 o1] eqn:S. destruct (sys_run A idt sv y1 es) as [y2 o2] eqn:R2. inversion R; subst. eapply IH; [|exact R2]. eapply nodup_step; eassumption.
Qed.

(** An event changes what an id loads to only by storing the session of a request whose handler succeeded, or by giving
    the session stored before a new life time. *)
Lemma step_loads y e y' o id t : NoDup (adom (y_store y)) -> sys_step A idt sv y e = (y', o) -> y_now y < t ->
  snd (ses_load t (y_store y') id) = snd (ses_load t (y_store y) id) \/
  (exists n p, e = EData n true /\ nth_error (y_pend y) n = Some p /\ pd_id p = id /\ snd (ses_load t (y_store y') id) = Some (pd_ses p)) \/
  (exists n p, e = EMeta n true /\ nth_error (y_pend y) n = Some p /\ pd_id p = id /\
     option_map fst (aget id (y_store y')) = option_map fst (aget id (y_store y))).
Proof.
  intros N S LT. destruct y as [now w st ps]. cbn [y_store y_now y_pend] in *. destruct e as [rq|n ok|n ok|n|d| |f]; cbn [sys_step] in S.
  - destruct (arrive A idt sv now w st rq) as [[[w' st'] p] o1] eqn:AR. inversion S; subst. left. cbn [y_store]. eapply arrive_loads; [exact AR|lia].
  - destruct (nth_error ps n) as [p|] eqn:NE; [|inversion S; subst; auto]. destruct (pd_stored p); [inversion S; subst; auto|].
    destruct ok; inversion S; subst; auto. cbn [y_store]. unfold ses_put, ses_load. destruct (name_dec id (pd_id p)) as [->|NI].
    + right; left. exists n, p. rewrite aget_aset_eq. auto.
    + left. rewrite aget_aset_ne by exact NI. destruct (aget id st) as [[s [e|]]|]; auto. destruct (e * SES_SEC <? t); reflexivity.
  - destruct (nth_error ps n) as [p|] eqn:NE; [|inversion S; subst; auto]. destruct (negb (pd_stored p)); [inversion S; subst; auto|].
    destruct ok; inversion S; subst; auto. cbn [y_store]. unfold ses_ttl. destruct (aget (pd_id p) st) as [[s e]|] eqn:G; [|auto].
    destruct (name_dec id (pd_id p)) as [->|NI].
    + right; right. exists n, p. rewrite aget_aset_eq, G. auto.
    + left. unfold ses_load. rewrite aget_aset_ne by exact NI. destruct (aget id st) as [[s1 [e1|]]|]; auto. destruct (e1 * SES_SEC <? t); reflexivity.
  - inversion S; subst; auto.
  - inversion S; subst; auto.
  - inversion S; subst. left. cbn [y_store]. apply maint_loads; assumption.
  - inversion S; subst; auto.
Qed.

Definition keyed (s : session D) : Prop := forall k, ses_keys s = Some k -> usable A k.
Lemma keyed_encrypt s nonce pt : keyed s -> exists body, ek_encrypt A (keys_of s) nonce pt = Ok body.
Proof.
  unfold keyed, keys_of, ek_encrypt. destruct (ses_keys s) as [k|]; [|eexists; reflexivity]. intros H. destruct (H k eq_refl) as (su & key & -> & T). cbn [ek_suite ek_keys].
  specialize (T nonce pt). destruct (seal A key nonce pt); [eexists; reflexivity|contradiction T; reflexivity].
Qed.
Definition sendable (P : D -> Prop) : Prop := P (sv_new sv) /\
  forall im om w s pt m e w' d ks reply, In (im, om) (sv_routes sv) -> valid_prev im (ses_last s) = true -> P (ses_data s) ->
    enc_violated (enc_req im) (ek_is_some (keys_of s)) = false -> (forall k, ses_keys s = Some k -> usable A k) ->
    sv_parse sv im pt = Ok m -> sv_handle sv im w s m e = (w', HReply d ks reply) ->
    P d /\ (forall k, ks = Some k -> usable A k) /\
    enc_violated (enc_req om) (ek_is_some (keys_of (Ses (Some om) (match ks with Some _ => ks | None => ses_keys s end) d))) = false.
Lemma run_keyed P now w0 es y o : sendable P -> sys_run A idt sv (sys_init now w0) es = (y, o) ->
  forall id s e, In (id, (s, e)) (y_store y) -> keyed s /\ P (ses_data s).
Proof.
  intros [P0 RS] R.
  destruct (grun A idt sv RO (fun _ _ => True) (fun _ _ s => keyed s /\ P (ses_data s)) (fun _ => True) (fun _ _ => True)) with (es := es) (os := @nil obs) (y := @sys_init W D now w0) (y' := y) (o := o) as [(_ & H & _) _]; auto.
  - intros os id. split; [intros k K; discriminate|exact P0].
  - intros os id im om s body m w e w' r _ [K KP] RI PR _ _ HD. cbn zeta. split; [exact I|]. destruct r as [d ks reply| |]; auto.
    unfold parse_request in PR. destruct (valid_prev im (ses_last s)) eqn:V; cbn [negb] in PR; [|discriminate].
    destruct (enc_violated (enc_req im) (ek_is_some (keys_of s))) eqn:EV; [discriminate|].
    destruct (ek_decrypt A (keys_of s) body) as [pt| |]; [|discriminate|discriminate]. destruct (sv_parse sv im pt) as [m'| |] eqn:SP; [|discriminate|discriminate]. injection PR as ->.
    destruct (RS _ _ _ _ _ _ _ _ _ _ _ RI V KP EV K SP HD) as (PD & R1 & _). split; [|exact PD]. intros k X. cbn [ses_keys] in X. destruct ks; [apply R1; exact X|apply K; exact X].
  - repeat split; cbn; auto; cbn in *; contradiction.
  - apply Forall_forall. intros [] _; exact I.
Qed.

(** A whole request with an error response. *)
Lemma request_error P y rq f y' o : NoDup (adom (y_store y)) -> (forall id s e, In (id, (s, e)) (y_store y) -> keyed s /\ P (ses_data s)) ->
  y_pend y = [] -> sendable P -> f <> MetaFault ->
  sys_run A idt sv y (one_request rq f) = (y', o) -> (exists code prev, In (Sent (ErrorReply code prev)) o) ->
  forall t id, y_now y <= t -> snd (ses_load t (y_store y') id) = snd (ses_load t (y_store y) id).
Proof.
  intros N KU P0 [PN RS] FM R (code & prev & IE) t id LE. destruct y as [now w st ps]. cbn [y_store y_now y_pend] in *. subst ps.
  unfold one_request in R. cbn [sys_run] in R. unfold sys_step at 1 in R.
  destruct (arrive A idt sv now w st rq) as [[[w' st'] p] o1] eqn:AR. cbn [app] in R.
  pose proof (arrive_loads _ _ _ _ _ _ _ _ _ _ _ AR t id LE) as LD.
  destruct (arrive_cases A idt sv RO _ _ _ _ _ _ _ _ N AR) as (_ & _ & _ & C).
  destruct C as [->|(im & om & id0 & tok & s & m & d & ks & reply & -> & Eo & RI & PR & HD & SRC)].
  - destruct f; cbn in R; inversion R; subst; exact LD.
  - subst o1. unfold parse_request in PR. destruct (valid_prev im (ses_last s)) eqn:V; cbn [negb] in PR; [|discriminate].
    destruct (enc_violated (enc_req im) (ek_is_some (keys_of s))) eqn:EV; [discriminate|].
    assert (K : keyed s /\ P (ses_data s)). { destruct SRC as [(e & G & _)|(_ & -> & _)]; [eapply KU; eapply aget_in; exact G|split; [intros k X; discriminate|exact PN]]. }
    destruct (ek_decrypt A (keys_of s) (rq_body rq)) as [pt| |]; [|discriminate|discriminate]. destruct (sv_parse sv im pt) as [m'| |] eqn:SP; [|discriminate|discriminate]. injection PR as ->.
    destruct K as [K KP]. destruct (RS _ _ _ _ _ _ _ _ _ _ _ RI V KP EV K SP HD) as (_ & R1 & R2).
    set (s' := Ses (Some om) (match ks with Some _ => ks | None => ses_keys s end) d) in *.
    destruct (keyed_encrypt s' (rq_nonce rq) reply) as [body R3]. { intros k X. cbn [s' ses_keys] in X. destruct ks; [apply R1; exact X|apply K; exact X]. }
    assert (RSP : forall b, respond A (Pend im om id0 tok s' reply (rq_nonce rq) b) = Answer om body tok).
    { intros b. unfold respond. cbn [pd_ses pd_om pd_im pd_nonce pd_reply pd_token]. rewrite R2, R3. reflexivity. }
    destruct f; cbn [sys_run sys_step nth_error remove_nth replace_nth pd_stored pd_id pd_ses pd_im pd_om pd_token pd_reply pd_nonce negb app] in R.
    + rewrite RSP in R. inversion R; subst. destruct IE as [X|[X|[X|[]]]]; discriminate X.
    + inversion R; subst. exact LD.
    + contradiction FM; reflexivity.
    + inversion R; subst. exact LD.
Qed.

(** Keys of a session were given by a handler that ran in it. *)
Lemma keys_provenance now w0 es y o pre id im s body m w e post k : sys_run A idt sv (sys_init now w0) es = (y, o) ->
  o = pre ++ Ran id im s body m w e :: post -> ses_keys s = Some k ->
  exists im0 s0 body0 m0 w1 e1 w2 d0 reply0, In (Ran id im0 s0 body0 m0 w1 e1) pre /\ sv_handle sv im0 w1 s0 m0 e1 = (w2, HReply d0 (Some k) reply0).
Proof.
  intros R EQ K.
  destruct (principle A idt sv RO (fun _ _ => True)
    (fun os id s => forall k, ses_keys s = Some k -> exists im0 s0 body0 m0 w1 e1 w2 d0 reply0,
        In (Ran id im0 s0 body0 m0 w1 e1) os /\ sv_handle sv im0 w1 s0 m0 e1 = (w2, HReply d0 (Some k) reply0))
    (fun _ => True) (fun _ _ => True)) with (now := now) (w0 := w0) (es := es) (y := y) (o := o) as (_ & H & _); auto.
  - intros os o' i s' H k' K'. destruct (H k' K') as (im0 & s0 & b0 & m0 & w1 & e1 & w2 & d0 & r0 & X1 & X2).
    exists im0, s0, b0, m0, w1, e1, w2, d0, r0. split; [apply in_or_app; auto|exact X2].
  - intros os i k' K'. discriminate.
  - intros os i im1 om1 s' b1 m1 w1 e1 w2 r _ H RI P _ _ HD. cbn zeta. split; [exact I|]. destruct r as [d ks rep| |]; auto. cbn [ses_keys]. intros k' K'. destruct ks as [k1|].
    + inversion K'; subst k1. exists im1, s', b1, m1, w1, e1, w2, d, rep. split; [apply in_or_app; right; left; reflexivity|exact HD].
    + destruct (H k' K') as (im0 & s0 & b0 & m0 & w3 & e3 & w4 & d0 & r0 & X1 & X2). exists im0, s0, b0, m0, w3, e3, w4, d0, r0. split; [apply in_or_app; auto|exact X2].
  - apply Forall_forall. intros [] _; exact I.
  - eapply H; eassumption.
Qed.
End facts.
