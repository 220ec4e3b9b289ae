(** Histories without overlapping requests: a request sees the session as its last request left it. *)
From Verif Require Import Base BaseFacts ValueModel Text Assoc MsgModel SessionModel SessionSpec SessionProofs SessionProofs2.
From Coq Require Import ZifyBool ZifyNat ZifyN.
Local Open Scope N_scope.

Section facts.
Context {W D M E : Type} (A : aead) (idt : str -> option str) (sv : server W D M E) (RO : routes_ok sv).
Notation obs := (@obs W D M E).
Notation sys := (@sys W D).
Notation new := (Ses None None (sv_new sv)).

(** The session as last stored *)
Definition last_session (id : str) (os : list obs) : session D := last (map snd (stored_of id os)) new.

Definition after (om : mtype) (s : session D) (d : D) (ks : option ekeys) : session D :=
  Ses (Some om) (match ks with Some _ => ks | None => ses_keys s end) d.
Definition pos_ok (os : list obs) (x : obs) : Prop :=
  match x with
  | Ran id im s body m w e => s = last_session id os /\ parse_request A sv im s body = PMsg m /\ exists om, In (im, om) (sv_routes sv)
  | Stored id im om s' =>
    exists os' s body m w e w' d ks reply, os = os' ++ [Ran id im s body m w e] /\ In (im, om) (sv_routes sv) /\
      sv_handle sv im w s m e = (w', HReply d ks reply) /\ s' = after om s d ks
  | Sent (Answer om b tok) =>
    exists os' id im s body m w e w' d ks reply nonce, os = os' ++ [Ran id im s body m w e; Stored id im om (after om s d ks)] /\
      In (im, om) (sv_routes sv) /\ sv_handle sv im w s m e = (w', HReply d ks reply) /\
      ek_encrypt A (keys_of (after om s d ks)) nonce reply = Ok b
  | Sent _ => True
  end.
Definition all_ok (os o : list obs) : Prop := forall pre x post, o = pre ++ x :: post -> pos_ok (os ++ pre) x.
Lemma all_nil os : all_ok os [].
Proof. intros pre x post EQ. destruct pre; discriminate. Qed.
Lemma all_cons os x o : pos_ok os x -> all_ok (os ++ [x]) o -> all_ok os (x :: o).
Proof.
  intros H1 H2 pre z post EQ. destruct pre as [|p pre]; cbn in EQ; inversion EQ; subst; [rewrite app_nil_r; exact H1|].
  specialize (H2 pre z post eq_refl). rewrite <- app_assoc in H2. exact H2.
Qed.
Lemma all_app os o1 o2 : all_ok os o1 -> all_ok (os ++ o1) o2 -> all_ok os (o1 ++ o2).
Proof.
  intros H1 H2 pre x post EQ. apply split_at in EQ. destruct EQ as [[l ->]|(l & -> & ->)]; [eapply H1; reflexivity|].
  rewrite app_assoc. eapply H2. reflexivity.
Qed.

Record qinv (used : list name) (os : list obs) (y : sys) : Prop := {
  qi_pend : y_pend y = [];
  qi_nodup : NoDup (adom (y_store y));
  qi_used : forall id, aget id (y_store y) <> None \/ stored_of id os <> [] -> In id used;
  qi_last : forall id s e, aget id (y_store y) = Some (s, e) -> s = last_session id os }.

Lemma last_nostored id (os o : list obs) : (forall i, stored_of i o = []) -> last_session id (os ++ o) = last_session id os.
Proof. intros Z. unfold last_session. rewrite stored_app, Z, app_nil_r. reflexivity. Qed.
Lemma qinv_used used used' os y : (forall x, In x used -> In x used') -> qinv used os y -> qinv used' os y.
Proof. intros I H. constructor; try apply H. intros id X. apply I. apply H. exact X. Qed.
Lemma qinv_nostored used os o y : (forall id, stored_of id o = []) -> qinv used os y -> qinv used (os ++ o) y.
Proof.
  intros Z H. constructor; try apply H.
  - intros id. rewrite stored_app, Z, app_nil_r. apply H.
  - intros id s e G. rewrite last_nostored by exact Z. eapply H. exact G.
Qed.
Lemma qinv_store used os now w st st' : (forall id v, aget id st' = Some v -> aget id st = Some v) -> NoDup (adom st') ->
  qinv used os (Sys now w st []) -> forall now' w', qinv used os (Sys now' w' st' []).
Proof.
  intros S N H now' w'. constructor; cbn [y_pend y_store]; auto.
  - intros id [X|X]; apply H; [left|right; exact X]. cbn [y_store]. destruct (aget id st') as [v|] eqn:G; [|congruence]. rewrite (S _ _ G). discriminate.
  - intros id s e G. eapply (qi_last _ _ _ H). cbn [y_store]. eauto.
Qed.

Lemma not_answer_ok os r : (forall om b tok, r <> Answer om b tok) -> pos_ok os (Sent r).
Proof. destruct r as [om b tok| |]; cbn; auto. intros X. exfalso. eapply X. reflexivity. Qed.

Lemma arrive_full now w st (rq : request E) w' st' p o : NoDup (adom st) -> arrive A idt sv now w st rq = (w', st', p, o) ->
  (forall i v, aget i st' = Some v -> aget i st = Some v) /\ NoDup (adom st') /\ (forall id, stored_of id o = []) /\
  ((p = None /\ exists r, o = [Sent r] /\ forall om b tok, r <> Answer om b tok) \/
   exists im om id tok s m, In (im, om) (sv_routes sv) /\ parse_request A sv im s (rq_body rq) = PMsg m /\
     ((exists e, aget id st = Some (s, e) /\ st' = st) \/ (id = rq_new_id rq /\ s = new)) /\
     ((p = None /\ exists r, o = [Ran id im s (rq_body rq) m w (rq_env rq); Sent r] /\ forall om b tok, r <> Answer om b tok) \/
      exists d ks reply, sv_handle sv im w s m (rq_env rq) = (w', HReply d ks reply) /\
        o = [Ran id im s (rq_body rq) m w (rq_env rq)] /\
        p = Some (Pend im om id tok (after om s d ks) reply (rq_nonce rq) false))).
Proof.
  intros N AR. unfold arrive in AR. destruct (route sv (rq_type rq)) as [[im om]|] eqn:RT.
  2:{ inversion AR; subst. repeat split; auto. left. split; [reflexivity|]. eexists. split; [reflexivity|discriminate]. }
  apply route_in in RT; [|exact RO]. destruct RT as [RI _].
  destruct (_ || _); [inversion AR; subst; repeat split; auto; left; split; [reflexivity|]; eexists; split; [reflexivity|discriminate]|].
  destruct (find_session idt sv now st rq) as [st1 r] eqn:F. destruct (find_sub _ _ _ _ _ _ _ N F) as (H1 & H2 & H3).
  destruct r as [[[id tok] s]|]; [|inversion AR; subst; repeat split; auto; left; split; [reflexivity|]; eexists; split; [reflexivity|discriminate]].
  destruct (parse_request A sv im s (rq_body rq)) as [m|r] eqn:P.
  2:{ inversion AR; subst. repeat split; auto. left. split; [reflexivity|]. exists r. split; [reflexivity|].
      unfold parse_request in P. repeat match type of P with (if ?x then _ else _) = _ => destruct x | (match ?x with _ => _ end) = _ => destruct x end; inversion P; subst; discriminate. }
  assert (SRC : (exists e, aget id st = Some (s, e) /\ st1 = st) \/ (id = rq_new_id rq /\ s = new)).
  { destruct H3 as [(e & G & -> & _)|(-> & -> & _)]; [left; eauto|right; auto]. }
  destruct (sv_handle sv im w s m (rq_env rq)) as [w2 [d ks reply|code|]] eqn:HD; inversion AR; subst; clear AR; (split; [exact H1|]); (split; [exact H2|]);
    (split; [reflexivity|]); right; exists im, om, id, tok, s, m; (split; [exact RI|]); (split; [exact P|]); (split; [exact SRC|]).
  - right. exists d, ks, reply. split; [exact HD|]. split; reflexivity.
  - left. split; [reflexivity|]. eexists. split; [reflexivity|discriminate].
  - left. split; [reflexivity|]. eexists. split; [reflexivity|discriminate].
Qed.

Lemma qinv_request used os y rq f y' o : qinv used os y -> ~ In (rq_new_id rq) used ->
  sys_run A idt sv y (one_request rq f) = (y', o) -> qinv (rq_new_id rq :: used) (os ++ o) y' /\ all_ok os o.
Proof.
  intros H NU R. destruct y as [now w st ps]. pose proof (qi_pend _ _ _ H) as Z. cbn [y_pend] in Z. subst ps.
  pose proof (qi_nodup _ _ _ H) as N. cbn [y_store] in N.
  unfold one_request in R. cbn [sys_run] in R. unfold sys_step at 1 in R.
  destruct (arrive A idt sv now w st rq) as [[[w' st'] p] o1] eqn:AR. cbn [app] in R.
  destruct (arrive_full _ _ _ _ _ _ _ _ N AR) as (S1 & N1 & O1 & C).
  assert (H1 : forall o', (forall id, stored_of id o' = []) -> qinv (rq_new_id rq :: used) (os ++ o') (Sys now w' st' [])).
  { intros o' Z'. apply qinv_nostored; [exact Z'|]. apply qinv_used with used; [right; assumption|]. eapply qinv_store; eassumption. }
  destruct C as [(-> & r & -> & NA)|(im & om & id & tok & s & m & RI & P & SRC & C)].
  { assert (AO : all_ok os [Sent r]) by (apply all_cons; [apply not_answer_ok; exact NA|apply all_nil]).
    destruct f; cbn in R; inversion R; subst; rewrite ?app_nil_r in *; (split; [apply H1; exact O1|exact AO]). }
  assert (LS : s = last_session id os).
  { destruct SRC as [(e & G & _)|(-> & ->)]; [eapply (qi_last _ _ _ H); exact G|].
    unfold last_session. destruct (stored_of (rq_new_id rq) os) eqn:Q; [reflexivity|]. exfalso. apply NU. apply H. right. rewrite Q. discriminate. }
  assert (RK : pos_ok os (Ran id im s (rq_body rq) m w (rq_env rq))) by (cbn; split; [exact LS|]; split; [exact P|eauto]).
  destruct C as [(-> & r & -> & NA)|(d & ks & reply & HD & -> & ->)].
  { assert (AO : all_ok os [Ran id im s (rq_body rq) m w (rq_env rq); Sent r])
      by (apply all_cons; [exact RK|]; apply all_cons; [apply not_answer_ok; exact NA|apply all_nil]).
    destruct f; cbn in R; inversion R; subst; rewrite ?app_nil_r in *; (split; [apply H1; exact O1|exact AO]). }
  set (ran := Ran id im s (rq_body rq) m w (rq_env rq)) in *. set (ses' := after om s d ks) in *.
  assert (IDU : In id (rq_new_id rq :: used)).
  { destruct SRC as [(e & G & _)|(-> & _)]; [right; apply H; left; cbn; rewrite G; discriminate|left; reflexivity]. }
  assert (SK : pos_ok (os ++ [ran]) (Stored id im om ses')).
  { cbn. exists os, s, (rq_body rq), m, w, (rq_env rq), w', d, ks, reply. auto. }
  assert (STORED : forall o' (Z' : forall id, stored_of id o' = []) e,
     qinv (rq_new_id rq :: used) (os ++ [ran] ++ [Stored id im om ses'] ++ o') (Sys now w' (aset id (ses', e) st') [])).
  { intros o' Z' e.
    assert (SO : forall i, stored_of i (os ++ [ran] ++ [Stored id im om ses'] ++ o') = stored_of i os ++ (if list_eqb N.eqb i id then [(im, om, ses')] else [])).
    { intros i. rewrite !stored_app, O1, Z'. cbn [stored_of app]. rewrite app_nil_r. reflexivity. }
    constructor; cbn [y_pend y_store].
    - reflexivity.
    - apply nodup_aset. exact N1.
    - intros i [X|X].
      + destruct (name_dec i id) as [->|NE]; [exact IDU|]. rewrite aget_aset_ne in X by exact NE. right. apply H. left. cbn [y_store].
        destruct (aget i st') as [v|] eqn:G; [|congruence]. rewrite (S1 _ _ G). discriminate.
      + rewrite SO in X. destruct (list_eqb N.eqb i id) eqn:EQ.
        * change (list_eqb N.eqb i id) with (bytes_eqb i id) in EQ. apply bytes_eqb_spec in EQ. subst i. exact IDU.
        * rewrite app_nil_r in X. right. apply H. right. exact X.
    - intros i s' e' G. unfold last_session. rewrite SO. destruct (name_dec i id) as [->|NE].
      + rewrite aget_aset_eq in G. inversion G; subst. change (list_eqb N.eqb id id) with (bytes_eqb id id). rewrite bytes_eqb_refl, map_app.
        cbn [map snd]. rewrite last_last. reflexivity.
      + rewrite aget_aset_ne in G by exact NE. apply bytes_eqb_neq in NE. change (list_eqb N.eqb i id) with (bytes_eqb i id). rewrite NE, app_nil_r.
        eapply (qi_last _ _ _ H). cbn [y_store]. apply S1. exact G. }
  destruct f; cbn [sys_run sys_step nth_error remove_nth replace_nth pd_stored pd_id pd_ses pd_im pd_om negb app] in R.
  - inversion R; subst y' o; clear R. unfold ses_ttl, ses_put. rewrite aget_aset_eq.
    assert (AA : forall e, aset id (ses', e) (aset id (ses', None) st') = aset id (ses', e) st').
    { intros e. clear. induction st' as [|[k v] r IH]; cbn [aset]; [rewrite name_eqb_refl; reflexivity|].
      destruct (bytes_eqb id k) eqn:Q; cbn [aset]; [rewrite name_eqb_refl; reflexivity|rewrite Q, IH; reflexivity]. }
    rewrite AA. split.
    + match goal with |- qinv _ (os ++ _ :: Stored _ _ _ _ :: ?o') _ => apply (STORED o') end. reflexivity.
    + apply all_cons; [exact RK|]. apply all_cons; [exact SK|]. apply all_cons; [|apply all_nil].
      unfold respond. cbn [pd_ses pd_om pd_im pd_nonce pd_reply pd_token]. destruct (enc_violated _ _); [exact Logic.I|].
      destruct (ek_encrypt A (keys_of ses') (rq_nonce rq) reply) as [b| |] eqn:EN; [|exact Logic.I|exact Logic.I].
      cbn. exists os, id, im, s, (rq_body rq), m, w, (rq_env rq), w', d, ks, reply, (rq_nonce rq). split; [rewrite <- app_assoc; reflexivity|]. auto.
  - inversion R; subst y' o; clear R. split; [apply H1; intros i; reflexivity|].
    apply all_cons; [exact RK|]. apply all_cons; [exact Logic.I|apply all_nil].
  - inversion R; subst y' o; clear R. unfold ses_put. split.
    + match goal with |- qinv _ (os ++ _ :: Stored _ _ _ _ :: ?o') _ => apply (STORED o') end. reflexivity.
    + apply all_cons; [exact RK|]. apply all_cons; [exact SK|]. apply all_cons; [exact Logic.I|apply all_nil].
  - inversion R; subst y' o; clear R. split; [apply H1; exact O1|]. apply all_cons; [exact RK|apply all_nil].
Qed.

Lemma qinv_run l : forall used os y y' o, qinv used os y -> NoDup (new_ids l) -> (forall i, In i (new_ids l) -> ~ In i used) ->
  sys_run A idt sv y (sequential l) = (y', o) -> (exists used', qinv used' (os ++ o) y') /\ all_ok os o.
Proof.
  induction l as [|x l IH]; intros used os y y' o H ND FR R.
  - cbn in R. inversion R; subst. rewrite app_nil_r. split; [eauto|apply all_nil].
  - cbn [sequential flat_map] in R. fold (sequential l) in R. rewrite run_app in R.
    destruct (sys_run A idt sv y (expand x)) as [y1 o1] eqn:R1. destruct (sys_run A idt sv y1 (sequential l)) as [y2 o2] eqn:R2. inversion R; subst; clear R.
    cbn [new_ids flat_map] in ND, FR. fold (new_ids l) in ND, FR.
    assert (X : (exists used1, qinv used1 (os ++ o1) y1 /\ forall i, In i (new_ids l) -> ~ In i used1) /\ all_ok os o1).
    { destruct x as [rq f|d| |f]; cbn [expand] in R1.
      - cbn [app] in ND, FR. inversion ND as [|? ? NI ND']; subst.
        destruct (qinv_request _ _ _ _ _ _ _ H (FR _ (or_introl eq_refl)) R1) as [X1 X2]. split; [|exact X2].
        exists (rq_new_id rq :: used). split; [exact X1|].
        intros i Ii [<-|U]; [contradiction|]. apply (FR i); [right; exact Ii|exact U].
      - destruct y as [now w st ps]. cbn in R1. inversion R1; subst. rewrite app_nil_r. split; [|apply all_nil].
        exists used. split; [|intros i Ii; apply FR; exact Ii].
        pose proof (qi_pend _ _ _ H) as Z. cbn in Z. subst ps. eapply qinv_store; [| |exact H]; [auto|apply (qi_nodup _ _ _ H)].
      - destruct y as [now w st ps]. cbn in R1. inversion R1; subst. rewrite app_nil_r. split; [|apply all_nil].
        exists used. split; [|intros i Ii; apply FR; exact Ii].
        pose proof (qi_pend _ _ _ H) as Z. cbn in Z. subst ps. pose proof (qi_nodup _ _ _ H) as N. cbn in N.
        eapply qinv_store; [| |exact H]; [|apply nodup_filter; exact N]. intros i v G. unfold ses_maint in G. rewrite aget_filter in G by exact N.
        destruct (aget i st) as [v'|]; [|discriminate]. destruct (match snd (snd (i, v')) with Some _ => _ | None => _ end); [exact G|discriminate].
      - destruct y as [now w st ps]. cbn in R1. inversion R1; subst. rewrite app_nil_r. split; [|apply all_nil].
        exists used. split; [|intros i Ii; apply FR; exact Ii].
        pose proof (qi_pend _ _ _ H) as Z. cbn in Z. subst ps. eapply qinv_store; [| |exact H]; [auto|apply (qi_nodup _ _ _ H)]. }
    destruct X as ((used1 & H1 & F1) & AO). rewrite app_assoc.
    destruct (IH _ _ _ _ _ H1 ltac:(destruct x; cbn [app] in ND; [inversion ND; assumption|assumption|assumption|assumption]) F1 R2) as [X1 X2].
    split; [exact X1|apply all_app; assumption].
Qed.

Theorem seq_run l now w0 y o : NoDup (new_ids l) -> sys_run A idt sv (sys_init now w0) (sequential l) = (y, o) -> all_ok [] o.
Proof.
  intros ND R. refine (proj2 (qinv_run l [] [] (sys_init now w0) y o _ ND (fun _ _ F => F) R)).
  constructor; cbn [y_pend y_store sys_init stored_of adom map]; [reflexivity|constructor| |discriminate].
  intros id [X|X]; contradiction X; reflexivity.
Qed.

(** An invariant of what was stored in a session and its state *)
Theorem seq_principle (J : list (mtype * mtype * session D) -> session D -> Prop) : J [] new ->
  (forall l s im om body m w e w' d ks reply, J l s -> In (im, om) (sv_routes sv) -> parse_request A sv im s body = PMsg m ->
     sv_handle sv im w s m e = (w', HReply d ks reply) -> J (l ++ [(im, om, after om s d ks)]) (after om s d ks)) ->
  forall l now w0 y o, NoDup (new_ids l) -> sys_run A idt sv (sys_init now w0) (sequential l) = (y, o) ->
  forall pre post, o = pre ++ post -> forall id, J (stored_of id pre) (last_session id pre).
Proof.
  intros J0 JS l now w0 y o ND R. pose proof (seq_run _ _ _ _ _ ND R) as AO.
  induction pre as [|x pre IH] using rev_ind; intros post EQ id; [exact J0|].
  rewrite <- app_assoc in EQ. cbn [app] in EQ. specialize (IH _ EQ). pose proof (AO _ _ _ EQ) as PX. cbn [app] in PX.
  destruct x as [i im s body m w e|i im om s'|r].
  - unfold last_session. rewrite stored_app. cbn [stored_of]. rewrite app_nil_r. apply IH.
  - unfold last_session. rewrite stored_app. cbn [stored_of]. destruct (list_eqb N.eqb id i) eqn:EQI; [|rewrite app_nil_r; apply IH].
    change (list_eqb N.eqb id i) with (bytes_eqb id i) in EQI. apply bytes_eqb_spec in EQI. subst i.
    cbn in PX. destruct PX as (os' & s & body & m & w & e & w' & d & ks & reply & EP & RI & HD & ->). rewrite map_app. cbn [map snd]. rewrite last_last.
    rewrite EP in EQ. rewrite <- app_assoc in EQ. cbn [app] in EQ. pose proof (AO _ _ _ EQ) as PR. cbn in PR. destruct PR as (-> & P & _).
    eapply JS; [|exact RI|exact P|exact HD]. specialize (IH id). rewrite EP in IH. unfold last_session in IH. rewrite stored_app in IH. cbn [stored_of] in IH. rewrite app_nil_r in IH.
    rewrite EP, stored_app. cbn [stored_of]. rewrite app_nil_r. exact IH.
  - unfold last_session. rewrite stored_app. cbn [stored_of]. rewrite app_nil_r. apply IH.
Qed.
End facts.
