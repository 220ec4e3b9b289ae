(** Sequential histories, encryption, failures, and a principle for invariants. *)
From Verif Require Import Base BaseFacts ValueModel Text Assoc MsgModel SessionModel SessionSpec SessionProofs.
From Coq Require Import ZifyBool ZifyNat ZifyN.
Local Open Scope N_scope.

Section facts.
Context {W D M E : Type} (A : aead) (idt : str -> option str) (sv : server W D M E) (RO : routes_ok sv).
Notation obs := (@obs W D M E).
Notation pending := (pending D).
Notation sys := (@sys W D).

(** * Sequential histories *)
Record sinv (used : list name) (os : list obs) (y : sys) : Prop := {
  si_pend : y_pend y = [];
  si_nodup : NoDup (adom (y_store y));
  si_used : forall id, aget id (y_store y) <> None \/ stored_of id os <> [] -> In id used;
  si_at : forall id s e, aget id (y_store y) = Some (s, e) -> at_ (ses_last s) (numbers (stored_of id os));
  si_legal : forall id, legal (numbers (stored_of id os)) }.

Lemma sinv_used used used' os y : (forall x, In x used -> In x used') -> sinv used os y -> sinv used' os y.
Proof. intros I H. constructor; try apply H. intros id X. apply I. apply H. exact X. Qed.
Lemma sinv_nostored used os o y : (forall id, stored_of id o = []) -> sinv used os y -> sinv used (os ++ o) y.
Proof.
  intros Z H. assert (X : forall id, stored_of id (os ++ o) = stored_of id os) by (intros; rewrite stored_app, Z, app_nil_r; reflexivity).
  constructor; try apply H; intros id; rewrite X; apply H.
Qed.

Lemma sinv_store used os now w st st' : (forall id v, aget id st' = Some v -> aget id st = Some v) -> NoDup (adom st') ->
  sinv used os (Sys now w st []) -> forall now' w', sinv used os (Sys now' w' st' []).
Proof.
  intros S N H now' w'. constructor; cbn [y_pend y_store]; auto.
  - intros id [X|X]; apply H; [left|right; exact X]. cbn [y_store]. destruct (aget id st') as [v|] eqn:G; [|congruence]. rewrite (S _ _ G). discriminate.
  - intros id s e G. eapply (si_at _ _ _ H). cbn [y_store]. eauto.
  - intros id. apply H.
Qed.
Lemma load_sub now (st : sstore D) id st' s : NoDup (adom st) -> ses_load now st id = (st', s) ->
  (forall i v, aget i st' = Some v -> aget i st = Some v) /\ NoDup (adom st') /\
  match s with Some s => exists e, aget id st = Some (s, e) /\ st' = st | None => True end.
Proof.
  intros N L. unfold ses_load in L. destruct (aget id st) as [[s0 [e|]]|] eqn:G.
  - destruct (e * SES_SEC <? now); inversion L; subst; clear L.
    + split; [|split; [apply nodup_adel; exact N|exact I]]. intros i v X. destruct (name_dec i id) as [->|NE]; [rewrite aget_adel_eq in X; discriminate|].
      rewrite aget_adel_ne in X by exact NE. exact X.
    + split; [auto|]. split; [exact N|]. eauto.
  - inversion L; subst. split; [auto|]. split; [exact N|]. eauto.
  - inversion L; subst. auto.
Qed.

Lemma find_sub now (st : sstore D) (rq : request E) st' r : NoDup (adom st) -> find_session idt sv now st rq = (st', r) ->
  (forall i v, aget i st' = Some v -> aget i st = Some v) /\ NoDup (adom st') /\
  match r with
  | Some (id, tok, s) => (exists e, aget id st = Some (s, e) /\ st' = st /\ tok = None) \/
                         (id = rq_new_id rq /\ s = Ses None None (sv_new sv) /\ tok = Some (rq_new_token rq))
  | None => True
  end.
Proof.
  intros N F. unfold find_session in F. destruct (rq_auth rq) as [h|]; [|inversion F; subst; auto 6].
  destruct (if rq_load_ok rq then idt (token_of h) else None) as [id|]; [|inversion F; subst; auto].
  destruct (ses_load now st id) as [st1 s1] eqn:L. inversion F; subst; clear F. destruct (load_sub _ _ _ _ _ N L) as (H1 & H2 & H3).
  split; [exact H1|]. split; [exact H2|]. destruct s1 as [s1|]; [|auto]. destruct H3 as (e & G & ->). eauto.
Qed.

(** What [arrive] does, in one statement. *)
Lemma arrive_cases now w st (rq : request E) w' st' p o : NoDup (adom st) -> arrive A idt sv now w st rq = (w', st', p, o) ->
  (forall i v, aget i st' = Some v -> aget i st = Some v) /\ NoDup (adom st') /\ (forall id, stored_of id o = []) /\
  (p = None \/ exists im om id tok s m d ks reply,
     p = Some (Pend im om id tok (Ses (Some om) (match ks with Some _ => ks | None => ses_keys s end) d) reply (rq_nonce rq) false) /\
     o = [Ran id im s (rq_body rq) m w (rq_env rq)] /\ In (im, om) (sv_routes sv) /\
     parse_request A sv im s (rq_body rq) = PMsg m /\
     sv_handle sv im w s m (rq_env rq) = (w', HReply d ks reply) /\
     ((exists e, aget id st = Some (s, e) /\ st' = st /\ tok = None) \/
      (id = rq_new_id rq /\ s = Ses None None (sv_new sv) /\ tok = Some (rq_new_token rq)))).
Proof.
  intros N AR. unfold arrive in AR. destruct (route sv (rq_type rq)) as [[im om]|] eqn:RT; [|inversion AR; subst; repeat split; auto].
  apply route_in in RT; [|exact RO]. destruct RT as [RI _].
  destruct (_ || _); [inversion AR; subst; repeat split; auto|].
  destruct (find_session idt sv now st rq) as [st1 r] eqn:F. destruct (find_sub _ _ _ _ _ N F) as (H1 & H2 & H3).
  destruct r as [[[id tok] s]|]; [|inversion AR; subst; repeat split; auto].
  destruct (parse_request A sv im s (rq_body rq)) as [m|r] eqn:P; [|inversion AR; subst; repeat split; auto].
  destruct (sv_handle sv im w s m (rq_env rq)) as [w2 [d ks reply|code|]] eqn:HD; inversion AR; subst; clear AR; (split; [exact H1|]); (split; [exact H2|]);
    (split; [reflexivity|]); auto.
  right. exists im, om, id, tok, s, m, d, ks, reply. auto 10.
Qed.

Lemma sinv_request used os y rq f y' o : sinv used os y -> ~ In (rq_new_id rq) used ->
  sys_run A idt sv y (one_request rq f) = (y', o) -> sinv (rq_new_id rq :: used) (os ++ o) y'.
Proof.
  intros H NU R. destruct y as [now w st ps]. pose proof (si_pend _ _ _ H) as Z. cbn [y_pend] in Z. subst ps.
  pose proof (si_nodup _ _ _ H) as N. cbn [y_store] in N.
  unfold one_request in R. cbn [sys_run] in R. unfold sys_step at 1 in R.
  destruct (arrive A idt sv now w st rq) as [[[w' st'] p] o1] eqn:AR. cbn [app] in R.
  destruct (arrive_cases _ _ _ _ _ _ _ _ N AR) as (S1 & N1 & O1 & C).
  assert (H1 : forall o', (forall id, stored_of id o' = []) -> sinv (rq_new_id rq :: used) (os ++ o') (Sys now w' st' [])).
  { intros o' Z'. apply sinv_nostored; [exact Z'|]. apply sinv_used with used; [right; assumption|]. eapply sinv_store; eassumption. }
  destruct C as [->|(im & om & id & tok & s & m & d & ks & reply & -> & Eo & RI & P & HD & SRC)].
  - destruct f; cbn in R; inversion R; subst; rewrite ?app_nil_r in *; apply H1; exact O1.
  - assert (O1' : forall id, stored_of id o1 = []) by exact O1.
    set (ses' := Ses (Some om) (match ks with Some _ => ks | None => ses_keys s end) d) in *.
    assert (AT : at_ (Some om) (numbers (stored_of id os) ++ [mtype_num im; mtype_num om])).
    { assert (RT : route_ok (im, om) = true) by (unfold routes_ok in RO; rewrite Forall_forall in RO; auto).
      apply parse_valid in P. destruct SRC as [(e & G & -> & _)|(-> & -> & _)].
      - eapply at_step; [eapply (si_at _ _ _ H); exact G|exact RT|exact P].
      - assert (X : stored_of (rq_new_id rq) os = []). { destruct (stored_of (rq_new_id rq) os) eqn:Q; [reflexivity|]. exfalso. apply NU. apply H. right. rewrite Q. discriminate. }
        rewrite X. eapply at_step; [|exact RT|exact P]. reflexivity. }
    assert (IDU : In id (rq_new_id rq :: used)).
    { destruct SRC as [(e & G & _)|(-> & _)]; [right; apply H; left; cbn; rewrite G; discriminate|left; reflexivity]. }
    assert (STORED : forall o' (Z' : forall id, stored_of id o' = []) e,
       sinv (rq_new_id rq :: used) (os ++ o1 ++ [Stored id im om ses'] ++ o') (Sys now w' (aset id (ses', e) st') [])).
    { intros o' Z' e. 
      assert (SO : forall i, stored_of i (os ++ o1 ++ [Stored id im om ses'] ++ o') = stored_of i os ++ (if list_eqb N.eqb i id then [(im, om, ses')] else [])).
      { intros i. rewrite !stored_app, O1', Z'. cbn [stored_of app]. rewrite app_nil_r. reflexivity. }
      constructor; cbn [y_pend y_store].
      - reflexivity.
      - apply nodup_aset. exact N1.
      - intros i [X|X].
        + destruct (name_dec i id) as [->|NE]; [exact IDU|]. rewrite aget_aset_ne in X by exact NE. right. apply H. left. cbn [y_store].
          destruct (aget i st') as [v|] eqn:G; [|congruence]. rewrite (S1 _ _ G). discriminate.
        + rewrite SO in X. destruct (list_eqb N.eqb i id) eqn:EQ.
          * change (list_eqb N.eqb i id) with (bytes_eqb i id) in EQ. apply bytes_eqb_spec in EQ. subst i. exact IDU.
          * rewrite app_nil_r in X. right. apply H. right. exact X.
      - intros i s' e' G. rewrite SO. destruct (name_dec i id) as [->|NE].
        + rewrite aget_aset_eq in G. inversion G; subst. change (list_eqb N.eqb id id) with (bytes_eqb id id). rewrite bytes_eqb_refl, numbers_app. exact AT.
        + rewrite aget_aset_ne in G by exact NE. apply bytes_eqb_neq in NE. change (list_eqb N.eqb i id) with (bytes_eqb i id). rewrite NE, app_nil_r.
          eapply (si_at _ _ _ H). cbn [y_store]. apply S1. exact G.
      - intros i. rewrite SO. destruct (list_eqb N.eqb i id) eqn:EQ.
        + change (list_eqb N.eqb i id) with (bytes_eqb i id) in EQ. apply bytes_eqb_spec in EQ. subst i. rewrite numbers_app. eapply at_legal. exact AT.
        + rewrite app_nil_r. apply H. }
    destruct f; cbn [sys_run sys_step nth_error remove_nth replace_nth pd_stored pd_id pd_ses pd_im pd_om negb app] in R.
    + inversion R; subst y' o; clear R. unfold ses_ttl, ses_put. rewrite aget_aset_eq.
      assert (AA : forall e, aset id (ses', e) (aset id (ses', None) st') = aset id (ses', e) st').
      { intros e. clear. induction st' as [|[k v] r IH]; cbn [aset]; [rewrite name_eqb_refl; reflexivity|].
        destruct (bytes_eqb id k) eqn:Q; cbn [aset]; [rewrite name_eqb_refl; reflexivity|rewrite Q, IH; reflexivity]. }
      rewrite AA. match goal with |- sinv _ (os ++ o1 ++ Stored _ _ _ _ :: ?o') _ => apply (STORED o') end. reflexivity.
    + inversion R; subst y' o; clear R. apply H1. intros i. rewrite stored_app, O1'. reflexivity.
    + inversion R; subst y' o; clear R. unfold ses_put.
      match goal with |- sinv _ (os ++ o1 ++ Stored _ _ _ _ :: ?o') _ => apply (STORED o') end. reflexivity.
    + inversion R; subst y' o; clear R. rewrite app_nil_r. apply H1. exact O1'.
Qed.

Lemma run_app es1 es2 : forall y, sys_run A idt sv y (es1 ++ es2) =
  let '(y1, o1) := sys_run A idt sv y es1 in let '(y2, o2) := sys_run A idt sv y1 es2 in (y2, o1 ++ o2).
Proof.
  induction es1 as [|e es1 IH]; intros y; cbn [app sys_run].
  - destruct (sys_run A idt sv y es2). reflexivity.
  - destruct (sys_step A idt sv y e) as [y1 o1]. rewrite IH. destruct (sys_run A idt sv y1 es1) as [y2 o2]. destruct (sys_run A idt sv y2 es2) as [y3 o3].
    rewrite app_assoc. reflexivity.
Qed.

Lemma sinv_run l : forall used os y y' o, sinv used os y -> NoDup (new_ids l) -> (forall i, In i (new_ids l) -> ~ In i used) ->
  sys_run A idt sv y (sequential l) = (y', o) -> exists used', sinv used' (os ++ o) y'.
Proof.
  induction l as [|x l IH]; intros used os y y' o H ND FR R.
  - cbn in R. inversion R; subst. rewrite app_nil_r. eauto.
  - cbn [sequential flat_map] in R. fold (sequential l) in R. rewrite run_app in R.
    destruct (sys_run A idt sv y (expand x)) as [y1 o1] eqn:R1. destruct (sys_run A idt sv y1 (sequential l)) as [y2 o2] eqn:R2. inversion R; subst; clear R.
    cbn [new_ids flat_map] in ND, FR. fold (new_ids l) in ND, FR.
    assert (X : exists used1, sinv used1 (os ++ o1) y1 /\ forall i, In i (new_ids l) -> ~ In i used1).
    { destruct x as [rq f|d| |f]; cbn [expand] in R1.
      - cbn [app] in ND, FR. inversion ND as [|? ? NI ND']; subst. exists (rq_new_id rq :: used). split.
        + eapply sinv_request; [exact H| |exact R1]. apply FR. left. reflexivity.
        + intros i Ii [<-|U]; [contradiction|]. apply (FR i); [right; exact Ii|exact U].
      - exists used. split; [|intros i Ii; apply FR; exact Ii]. destruct y as [now w st ps]. cbn in R1. inversion R1; subst. rewrite app_nil_r.
        pose proof (si_pend _ _ _ H) as Z. cbn in Z. subst ps. eapply sinv_store; [| |exact H]; [auto|apply (si_nodup _ _ _ H)].
      - exists used. split; [|intros i Ii; apply FR; exact Ii]. destruct y as [now w st ps]. cbn in R1. inversion R1; subst. rewrite app_nil_r.
        pose proof (si_pend _ _ _ H) as Z. cbn in Z. subst ps. pose proof (si_nodup _ _ _ H) as N. cbn in N.
        eapply sinv_store; [| |exact H]; [|apply nodup_filter; exact N]. intros i v G. unfold ses_maint in G. rewrite aget_filter in G by exact N.
        destruct (aget i st) as [v'|]; [|discriminate]. destruct (match snd (snd (i, v')) with Some _ => _ | None => _ end); [exact G|discriminate].
      - exists used. split; [|intros i Ii; apply FR; exact Ii]. destruct y as [now w st ps]. cbn in R1. inversion R1; subst. rewrite app_nil_r.
        pose proof (si_pend _ _ _ H) as Z. cbn in Z. subst ps. eapply sinv_store; [| |exact H]; [auto|apply (si_nodup _ _ _ H)]. }
    destruct X as (used1 & H1 & F1). rewrite app_assoc. eapply IH; [exact H1| |exact F1|exact R2].
    destruct x; cbn [app] in ND; [inversion ND; assumption|assumption|assumption|assumption].
Qed.
Lemma sinv_init now w : sinv [] [] (sys_init now w).
Proof.
  constructor; cbn [y_pend y_store sys_init stored_of numbers flat_map adom map].
  - reflexivity.
  - constructor.
  - intros id [X|X]; contradiction X; reflexivity.
  - discriminate.
  - intros id. exists [20; 21; 22; 23]. apply RunTO0.
Qed.

(** * An invariant principle *)
(** [IW] about what the server keeps, [ID] about sessions; both may speak of the trace so far. *)
Section principle.
Context (IW : list obs -> W -> Prop) (ID : list obs -> str -> session D -> Prop) (allowed : (W -> W) -> Prop) (okreq : bytes -> E -> Prop).
Context (IWm : forall os o w, IW os w -> IW (os ++ o) w) (IDm : forall os o id s, ID os id s -> ID (os ++ o) id s).
Context (IDnew : forall os id, ID os id (Ses None None (sv_new sv))).
Context (STEP : forall os id im om s body m w e w' r, IW os w -> ID os id s -> In (im, om) (sv_routes sv) ->
  parse_request A sv im s body = PMsg m -> nlen body <= MAX_BODY -> okreq body e -> sv_handle sv im w s m e = (w', r) ->
  let os' := os ++ [Ran id im s body m w e] in
  IW os' w' /\ match r with HReply d ks reply => ID os' id (Ses (Some om) (match ks with Some _ => ks | None => ses_keys s end) d) | _ => True end).
Context (WORLD : forall os f w, allowed f -> IW os w -> IW os (f w)).
Definition event_allowed (e : event (W:=W) (E:=E)) : Prop := match e with EWorld f => allowed f | EArrive rq => okreq (rq_body rq) (rq_env rq) | _ => True end.

Definition ran_good (os : list obs) (x : obs) : Prop :=
  match x with
  | Ran id im s body m w e => IW os w /\ ID os id s /\ (exists om, In (im, om) (sv_routes sv)) /\ parse_request A sv im s body = PMsg m /\
    nlen body <= MAX_BODY /\ okreq body e
  | Stored id im om s => ID os id s
  | Sent _ => True
  end.
Definition all_good (os o : list obs) : Prop := forall pre x post, o = pre ++ x :: post -> ran_good (os ++ pre) x.
Lemma ran_good_app os os' x : ran_good os x -> ran_good (os ++ os') x.
Proof. destruct x; cbn; auto. intros (? & ? & ? & ?). auto 8. Qed.
Lemma split_at {T} (o1 o2 : list T) x post : forall pre, o1 ++ o2 = pre ++ x :: post ->
  (exists l, o1 = pre ++ x :: l) \/ (exists l, pre = o1 ++ l /\ o2 = l ++ x :: post).
Proof.
  induction o1 as [|a o1 IH]; intros pre EQ; [right; exists pre; auto|]. destruct pre as [|b pre]; cbn in EQ; inversion EQ; subst.
  - left. exists o1. reflexivity.
  - destruct (IH pre ltac:(assumption)) as [[l ->]|(l & -> & ->)]; [left; exists l; reflexivity|right; exists l; auto].
Qed.
Lemma all_good_app os o1 o2 : all_good os o1 -> all_good (os ++ o1) o2 -> all_good os (o1 ++ o2).
Proof.
  intros H1 H2 pre x post EQ. apply split_at in EQ. destruct EQ as [[l ->]|(l & -> & ->)]; [eapply H1; reflexivity|]. rewrite app_assoc. eapply H2. reflexivity.
Qed.
Lemma all_good_1 os o : Forall (ran_good os) o -> all_good os o.
Proof. intros H pre x post ->. apply ran_good_app. apply Forall_app in H. destruct H as [_ H]. inversion H; auto. Qed.

Definition ginv (os : list obs) (y : sys) : Prop :=
  IW os (y_world y) /\ (forall id s e, In (id, (s, e)) (y_store y) -> ID os id s) /\ Forall (fun p => ID os (pd_id p) (pd_ses p)) (y_pend y).

Lemma load_id os now (st : sstore D) id st' s : (forall id s e, In (id, (s, e)) st -> ID os id s) -> ses_load now st id = (st', s) ->
  (forall id s e, In (id, (s, e)) st' -> ID os id s) /\ match s with Some s => ID os id s | None => True end.
Proof.
  intros H L. unfold ses_load in L. destruct (aget id st) as [[s0 [e|]]|] eqn:G.
  - destruct (e * SES_SEC <? now); inversion L; subst; clear L.
    + split; [|exact I]. intros id' s' e' G'. apply filter_In in G'. destruct G'. eauto.
    + apply aget_in in G. split; eauto.
  - inversion L; subst. apply aget_in in G. split; eauto.
  - inversion L; subst. split; auto.
Qed.
Lemma find_id os now st rq st' r : (forall id s e, In (id, (s, e)) st -> ID os id s) -> find_session idt sv now st rq = (st', r) ->
  (forall id s e, In (id, (s, e)) st' -> ID os id s) /\ match r with Some (id, _, s) => ID os id s | None => True end.
Proof.
  intros H F. unfold find_session in F. destruct (rq_auth rq) as [h|]; [|inversion F; subst; auto].
  destruct (if rq_load_ok rq then idt (token_of h) else None) as [id|]; [|inversion F; subst; auto].
  destruct (ses_load now st id) as [st1 s1] eqn:L. inversion F; subst; clear F. destruct (load_id _ _ _ _ _ _ H L) as [H1 H2]. split; [exact H1|].
  destruct s1; [exact H2|apply IDnew].
Qed.

Lemma gstep os y e y' o : ginv os y -> event_allowed e -> sys_step A idt sv y e = (y', o) -> ginv (os ++ o) y' /\ all_good os o.
Proof.
  intros (HW & HS & HP) EA ST. destruct y as [now w st ps]. cbn [y_store y_pend y_world] in *.
  assert (HP' : forall o', Forall (fun p => ID (os ++ o') (pd_id p) (pd_ses p)) ps) by (intros o'; eapply Forall_impl; [|exact HP]; cbn; auto).
  assert (K : ginv (os ++ []) (Sys now w st ps)) by (rewrite app_nil_r; repeat split; auto).
  destruct e as [rq|n ok|n ok|n|d| |f]; cbn [sys_step] in ST.
  - destruct (arrive A idt sv now w st rq) as [[[w' st'] p] o1] eqn:AR. inversion ST; subst; clear ST.
    unfold arrive in AR.
    assert (SKIP : forall st1 r, (forall id s e, In (id, (s, e)) st1 -> ID os id s) ->
              ginv (os ++ [Sent r]) (Sys now w st1 (ps ++ [])) /\ all_good os [Sent r]).
    { intros st1 r H. split; [|apply all_good_1; repeat constructor]. rewrite app_nil_r. repeat split; cbn; eauto. }
    destruct (route sv (rq_type rq)) as [[im om]|] eqn:RT; [|inversion AR; subst; apply SKIP; exact HS].
    apply route_in in RT; [|exact RO]. destruct RT as [RI _].
    destruct (_ || _) eqn:LEN; [inversion AR; subst; apply SKIP; exact HS|].
    assert (LN : nlen (rq_body rq) <= MAX_BODY) by (apply Bool.orb_false_iff in LEN; destruct LEN as [LEN _]; apply N.ltb_ge in LEN; exact LEN).
    destruct (find_session idt sv now st rq) as [st1 [[[id tok] s]|]] eqn:F; destruct (find_id _ _ _ _ _ _ HS F) as [H1 H2]; [|inversion AR; subst; apply SKIP; exact H1].
    destruct (parse_request A sv im s (rq_body rq)) as [m|r] eqn:P; [|inversion AR; subst; apply SKIP; exact H1].
    destruct (sv_handle sv im w s m (rq_env rq)) as [w2 r2] eqn:HD.
    destruct (STEP os _ _ _ _ _ _ _ _ _ _ HW H2 RI P LN EA HD) as [S1 S2].
    assert (RG : ran_good os (Ran id im s (rq_body rq) m w (rq_env rq))) by (cbn; eauto 8).
    destruct r2 as [d ks reply|code|]; inversion AR; subst; clear AR.
    + split; [|apply all_good_1; apply Forall_cons; [exact RG|repeat constructor]]. repeat split; cbn; eauto. apply Forall_app. split; [apply HP'|]. repeat constructor. exact S2.
    + split; [|apply all_good_1; apply Forall_cons; [exact RG|repeat constructor]]. rewrite app_nil_r. repeat split; cbn; eauto.
      specialize (IWm _ [Sent (ErrorReply code im)] _ S1). cbn zeta in IWm. rewrite <- app_assoc in IWm. exact IWm.
    + split; [|apply all_good_1; apply Forall_cons; [exact RG|repeat constructor]]. rewrite app_nil_r. repeat split; cbn; eauto.
      specialize (IWm _ [Sent Dropped] _ S1). cbn zeta in IWm. rewrite <- app_assoc in IWm. exact IWm.
  - destruct (nth_error ps n) as [p|] eqn:NE; [|inversion ST; subst; split; [exact K|apply all_good_1; constructor]].
    destruct (pd_stored p); [inversion ST; subst; split; [exact K|apply all_good_1; constructor]|].
    pose proof (Forall_nth _ _ _ _ HP NE) as HPn. cbn in HPn. destruct ok; inversion ST; subst; clear ST.
    + split; [|apply all_good_1; repeat constructor; exact HPn]. repeat split; cbn [y_world y_store y_pend]; auto.
      * intros id s' e G. unfold ses_put in G. apply in_aset in G. destruct G as [G|G]; [inversion G; subst; auto|eauto].
      * apply Forall_replace; [apply HP'|]. cbn. auto.
    + split; [|apply all_good_1; repeat constructor]. repeat split; cbn [y_world y_store y_pend]; eauto. apply Forall_remove. apply HP'.
  - destruct (nth_error ps n) as [p|] eqn:NE; [|inversion ST; subst; split; [exact K|apply all_good_1; constructor]].
    destruct (negb (pd_stored p)); [inversion ST; subst; split; [exact K|apply all_good_1; constructor]|].
    destruct ok; inversion ST; subst; clear ST.
    + split; [|apply all_good_1; repeat constructor]. repeat split; cbn [y_world y_store y_pend]; auto.
      * intros id s e G. unfold ses_ttl in G. destruct (aget (pd_id p) st) as [[s0 e0]|] eqn:G0; [|eauto].
        apply in_aset in G. destruct G as [G|G]; [|eauto]. inversion G; subst. apply aget_in in G0. eauto.
      * apply Forall_remove. apply HP'.
    + split; [|apply all_good_1; repeat constructor]. repeat split; cbn [y_world y_store y_pend]; eauto. apply Forall_remove. apply HP'.
  - inversion ST; subst; clear ST. split; [|apply all_good_1; constructor]. rewrite app_nil_r. repeat split; cbn; auto. apply Forall_remove. exact HP.
  - inversion ST; subst; clear ST. split; [|apply all_good_1; constructor]. rewrite app_nil_r. repeat split; cbn; auto.
  - inversion ST; subst; clear ST. split; [|apply all_good_1; constructor]. rewrite app_nil_r. repeat split; cbn; auto.
    intros id s e G. unfold ses_maint in G. apply filter_In in G. destruct G as [G _]. eauto.
  - inversion ST; subst; clear ST. split; [|apply all_good_1; constructor]. rewrite app_nil_r. repeat split; cbn; auto.
Qed.
Lemma grun es : forall os y y' o, ginv os y -> Forall event_allowed es -> sys_run A idt sv y es = (y', o) -> ginv (os ++ o) y' /\ all_good os o.
Proof.
  induction es as [|e es IH]; intros os y y' o H EA R; cbn [sys_run] in R.
  - inversion R; subst. rewrite app_nil_r. split; [exact H|]. apply all_good_1. constructor.
  - destruct (sys_step A idt sv y e) as [y1 o1] eqn:S. destruct (sys_run A idt sv y1 es) as [y2 o2] eqn:R2. inversion R; subst; clear R.
    inversion EA as [|? ? EA1 EA2]; subst.
    destruct (gstep _ _ _ _ _ H EA1 S) as [H1 O1]. destruct (IH _ _ _ _ H1 EA2 R2) as [H2 O2]. rewrite app_assoc. split; [exact H2|].
    apply all_good_app; assumption.
Qed.
(** For every run: the invariants hold at the end, and at every handler call. *)
Theorem principle now w0 es y o : IW [] w0 -> Forall event_allowed es -> sys_run A idt sv (sys_init now w0) es = (y, o) ->
  IW o (y_world y) /\
  (forall pre id im s body m w e post, o = pre ++ Ran id im s body m w e :: post ->
     IW pre w /\ ID pre id s /\ (exists om, In (im, om) (sv_routes sv)) /\ parse_request A sv im s body = PMsg m /\
     nlen body <= MAX_BODY /\ okreq body e) /\
  (forall pre id im om s post, o = pre ++ Stored id im om s :: post -> ID pre id s).
Proof.
  intros H0 EA R. destruct (grun es [] (sys_init now w0) y o) as [(G & _) AG]; auto.
  { repeat split; cbn; auto. intros id s e []. }
  split; [exact G|]. split.
  - intros pre id im s body m w e post EQ. exact (AG _ _ _ EQ).
  - intros pre id im om s post EQ. exact (AG _ _ _ EQ).
Qed.
End principle.

(** * Where stored sessions and answers come from *)
Definition made (os : list obs) (p : pending) : Prop :=
  exists s body m w e w' d ks, In (Ran (pd_id p) (pd_im p) s body m w e) os /\ In (pd_im p, pd_om p) (sv_routes sv) /\
    sv_handle sv (pd_im p) w s m e = (w', HReply d ks (pd_reply p)) /\
    pd_ses p = Ses (Some (pd_om p)) (match ks with Some _ => ks | None => ses_keys s end) d /\
    (pd_stored p = true -> In (Stored (pd_id p) (pd_im p) (pd_om p) (pd_ses p)) os).
Definition seen_ok (os : list obs) (x : obs) : Prop :=
  match x with
  | Ran id im s body m w e => parse_request A sv im s body = PMsg m
  | Stored id im om s' =>
    exists s body m w e w' d ks reply, In (Ran id im s body m w e) os /\ In (im, om) (sv_routes sv) /\
      sv_handle sv im w s m e = (w', HReply d ks reply) /\ s' = Ses (Some om) (match ks with Some _ => ks | None => ses_keys s end) d
  | Sent (Answer om body tok) =>
    exists p, made os p /\ pd_stored p = true /\ pd_om p = om /\ respond A p = Answer om body tok
  | Sent _ => True
  end.
Lemma made_app os os' p : made os p -> made (os ++ os') p.
Proof.
  intros (s & body & m & w & e & w' & d & ks & H1 & H2 & H3 & H4 & H5). exists s, body, m, w, e, w', d, ks. repeat split; auto.
  - apply in_or_app; auto.
  - intros X. apply in_or_app; auto.
Qed.
Lemma seen_app os os' x : seen_ok os x -> seen_ok (os ++ os') x.
Proof.
  destruct x as [| |[| |]]; cbn; auto.
  - intros (s' & body & m & w & e & w' & d & ks & reply & H1 & H2). exists s', body, m, w, e, w', d, ks, reply. split; [apply in_or_app; auto|auto].
  - intros (p & H & X). exists p. split; [apply made_app; exact H|exact X].
Qed.
Lemma pend_step os y e y' o : Forall (made os) (y_pend y) -> sys_step A idt sv y e = (y', o) ->
  Forall (made (os ++ o)) (y_pend y') /\ Forall (seen_ok os) o.
Proof.
  intros HP ST. destruct y as [now w st ps]. cbn [y_pend] in *.
  assert (HP' : forall o', Forall (made (os ++ o')) ps) by (intros o'; eapply Forall_impl; [|exact HP]; intros; apply made_app; assumption).
  destruct e as [rq|n ok|n ok|n|d| |f]; cbn [sys_step] in ST.
  - destruct (arrive A idt sv now w st rq) as [[[w' st'] p] o1] eqn:AR. inversion ST; subst; clear ST. cbn [y_pend].
    unfold arrive in AR.
    destruct (route sv (rq_type rq)) as [[im om]|] eqn:RT; [|inversion AR; subst; rewrite app_nil_r; split; [apply HP'|repeat constructor]].
    apply route_in in RT; [|exact RO]. destruct RT as [RI _].
    destruct (_ || _); [inversion AR; subst; rewrite app_nil_r; split; [apply HP'|repeat constructor]|].
    destruct (find_session idt sv now st rq) as [st1 [[[id tok] s]|]] eqn:F; [|inversion AR; subst; rewrite app_nil_r; split; [apply HP'|repeat constructor]].
    destruct (parse_request A sv im s (rq_body rq)) as [m|r] eqn:P.
    2:{ inversion AR; subst. rewrite app_nil_r. split; [apply HP'|]. repeat constructor.
        unfold parse_request in P. destruct (negb _); [inversion P; exact I|]. destruct (enc_violated _ _); [inversion P; exact I|].
        destruct (ek_decrypt _ _ _); try (inversion P; exact I). destruct (sv_parse _ _ _); inversion P; exact I. }
    destruct (sv_handle sv im w s m (rq_env rq)) as [w2 [d ks reply|code|]] eqn:HD; inversion AR; subst; clear AR.
    + split; [|repeat constructor; exact P]. apply Forall_app. split; [apply HP'|]. repeat constructor. unfold made.
      exists s, (rq_body rq), m, w, (rq_env rq), w', d, ks. cbn [pd_im pd_om pd_id pd_reply pd_ses pd_stored]. repeat split; auto; try discriminate. apply in_or_app. right. left. reflexivity.
    + rewrite app_nil_r. split; [apply HP'|repeat constructor; exact P].
    + rewrite app_nil_r. split; [apply HP'|repeat constructor; exact P].
  - destruct (nth_error ps n) as [p|] eqn:NE; [|inversion ST; subst; split; [apply HP'|constructor]].
    destruct (pd_stored p); [inversion ST; subst; split; [apply HP'|constructor]|].
    pose proof (Forall_nth _ _ _ _ HP NE) as HPn. cbn in HPn. destruct ok; inversion ST; subst; clear ST; cbn [y_pend].
    + destruct HPn as (s & body & m & w1 & e & w' & d & ks & H1 & H2 & H3 & H4 & H5). split.
      * apply Forall_replace; [apply HP'|]. exists s, body, m, w1, e, w', d, ks. cbn. repeat split; auto; [apply in_or_app; auto|]. intros _. apply in_or_app. right. left. reflexivity.
      * repeat constructor. cbn. exists s, body, m, w1, e, w', d, ks, (pd_reply p). auto.
    + split; [|repeat constructor]. apply Forall_remove. apply HP'.
  - destruct (nth_error ps n) as [p|] eqn:NE; [|inversion ST; subst; split; [apply HP'|constructor]].
    destruct (negb (pd_stored p)) eqn:SD; [inversion ST; subst; split; [apply HP'|constructor]|].
    pose proof (Forall_nth _ _ _ _ HP NE) as HPn. cbn in HPn.
    destruct ok; inversion ST; subst; clear ST; cbn [y_pend]; (split; [apply Forall_remove; apply HP'|]); repeat constructor.
    cbn. destruct (respond A p) as [om body tok| |] eqn:RS; auto. exists p. split; [exact HPn|]. split; [destruct (pd_stored p); [reflexivity|discriminate]|]. split; [|exact RS].
    unfold respond in RS. destruct (enc_violated _ _); [discriminate|]. destruct (ek_encrypt _ _ _ _); inversion RS; reflexivity.
  - inversion ST; subst; clear ST. split; [|constructor]. rewrite app_nil_r. apply Forall_remove. exact HP.
  - inversion ST; subst; clear ST. split; [|constructor]. rewrite app_nil_r. exact HP.
  - inversion ST; subst; clear ST. split; [|constructor]. rewrite app_nil_r. exact HP.
  - inversion ST; subst; clear ST. split; [|constructor]. rewrite app_nil_r. exact HP.
Qed.
Lemma seen_run es : forall os y y' o, Forall (made os) (y_pend y) -> sys_run A idt sv y es = (y', o) ->
  forall pre x post, o = pre ++ x :: post -> seen_ok (os ++ pre) x.
Proof.
  induction es as [|e es IH]; intros os y y' o H R pre x post EQ; cbn [sys_run] in R.
  - inversion R; subst. destruct pre; discriminate.
  - destruct (sys_step A idt sv y e) as [y1 o1] eqn:S. destruct (sys_run A idt sv y1 es) as [y2 o2] eqn:R2. injection R as <- RO2. rewrite <- RO2 in EQ. clear RO2.
    destruct (pend_step _ _ _ _ _ H S) as [H1 O1]. apply split_at in EQ. destruct EQ as [[l ->]|(l & -> & ->)].
    + apply seen_app. apply Forall_app in O1. destruct O1 as [_ O1]. inversion O1; auto.
    + rewrite app_assoc. eapply IH; [exact H1|exact R2|reflexivity].
Qed.

(** * Failed requests *)
Lemma load_after_load now t (st : sstore D) id st' s id' : now <= t -> ses_load now st id = (st', s) ->
  snd (ses_load t st' id') = snd (ses_load t st id').
Proof.
  intros LE L. unfold ses_load in L. destruct (aget id st) as [[s0 [e|]]|] eqn:G; [|inversion L; subst; reflexivity|inversion L; subst; reflexivity].
  destruct (e * SES_SEC <? now) eqn:X; inversion L; subst; [|reflexivity].
  unfold ses_load. destruct (name_dec id' id) as [->|NE].
  - rewrite aget_adel_eq, G. replace (e * SES_SEC <? t) with true by lia. reflexivity.
  - rewrite aget_adel_ne by exact NE. destruct (aget id' st) as [[s1 [e1|]]|]; [|reflexivity|reflexivity]. destruct (e1 * SES_SEC <? t); reflexivity.
Qed.
Lemma arrive_loads now w st (rq : request E) w' st' p o : arrive A idt sv now w st rq = (w', st', p, o) ->
  forall t id, now <= t -> snd (ses_load t st' id) = snd (ses_load t st id).
Proof.
  intros AR t id LE. unfold arrive in AR. destruct (route sv (rq_type rq)) as [[im om]|]; [|inversion AR; subst; reflexivity].
  destruct (_ || _); [inversion AR; subst; reflexivity|].
  destruct (find_session idt sv now st rq) as [st1 r] eqn:F.
  assert (X : snd (ses_load t st1 id) = snd (ses_load t st id)).
  { unfold find_session in F. destruct (rq_auth rq) as [h|]; [|inversion F; subst; reflexivity].
    destruct (if rq_load_ok rq then idt (token_of h) else None) as [i|]; [|inversion F; subst; reflexivity].
    destruct (ses_load now st i) as [st2 s1] eqn:L. inversion F; subst. eapply load_after_load; eassumption. }
  destruct r as [[[id0 tok] s]|]; [|inversion AR; subst; exact X].
  destruct (parse_request A sv im s (rq_body rq)) as [m|r]; [|inversion AR; subst; exact X].
  destruct (sv_handle sv im w s m (rq_env rq)) as [w2 [d ks reply|code|]]; inversion AR; subst; exact X.
Qed.
Lemma maint_loads now t (st : sstore D) id : NoDup (adom st) -> now < t -> snd (ses_load t (ses_maint now st) id) = snd (ses_load t st id).
Proof.
  intros N LT. unfold ses_load, ses_maint. rewrite aget_filter by exact N. destruct (aget id st) as [[s [e|]]|]; cbn [snd]; [|reflexivity|reflexivity].
  destruct (now <? e * SES_SEC) eqn:X; [destruct (e * SES_SEC <? t); reflexivity|]. replace (e * SES_SEC <? t) with true by lia. reflexivity.
Qed.
End facts.
