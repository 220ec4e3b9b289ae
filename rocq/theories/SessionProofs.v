(** Order of messages in sessions. *)
From Verif Require Import Base BaseFacts ValueModel Text Assoc MsgModel SessionModel SessionSpec.
From Coq Require Import ZifyBool ZifyNat ZifyN.
Local Open Scope N_scope.

(** * Legal sequences *)
(** The message numbers exchanged when the last one was [last]. *)
Definition at_ (last : option mtype) (l : list N) : Prop :=
  match last with
  | None => l = []
  | Some DISetCredentials => l = [10; 11] \/ l = [210; 211; 212; 213; 214; 215; 10; 11]
  | Some DIDone => l = [10; 11; 12; 13] \/ l = [210; 211; 212; 213; 214; 215; 10; 11; 12; 13]
  | Some TO0HelloAck => l = [20; 21]
  | Some TO0AcceptOwner => l = [20; 21; 22; 23]
  | Some TO1HelloRVAck => l = [30; 31]
  | Some TO1RVRedirect => l = [30; 31; 32; 33]
  | Some TO2ProveOVHdr => l = [60; 61]
  | Some TO2OVNextEntry => exists a, l = [60; 61] ++ times (S a) [62; 63]
  | Some TO2SetupDevice => exists a, l = [60; 61] ++ times (S a) [62; 63] ++ [64; 65]
  | Some TO2OwnerServiceInfoReady => exists a, l = [60; 61] ++ times (S a) [62; 63] ++ [64; 65; 66; 67]
  | Some TO2OwnerServiceInfo => exists a b, l = [60; 61] ++ times (S a) [62; 63] ++ [64; 65; 66; 67] ++ times (S b) [68; 69]
  | Some TO2Done2 => exists a b, l = [60; 61] ++ times (S a) [62; 63] ++ [64; 65; 66; 67] ++ times (S b) [68; 69] ++ [70; 71]
  | Some DIUNAccept => l = [210; 211]
  | Some DIUNProvideKeyParameters => l = [210; 211; 212; 213]
  | Some DIUNDone => l = [210; 211; 212; 213; 214; 215]
  | Some _ => False
  end.
Lemma times_snoc {A} n (l : list A) : times n l ++ l = times (S n) l.
Proof. induction n as [|n IH]; cbn [times]; [rewrite app_nil_r; reflexivity|]. rewrite <- app_assoc, IH. reflexivity. Qed.

Lemma at_step last l im om : at_ last l -> route_ok (im, om) = true -> valid_prev im last = true ->
  at_ (Some om) (l ++ [mtype_num im; mtype_num om]).
Proof.
  unfold route_ok. intros H R V.
  destruct im; try discriminate R; destruct om; try discriminate R; destruct last as [[]|]; try discriminate V;
  cbn [mtype_num] in *; cbn [at_] in *;
  repeat match goal with H : _ \/ _ |- _ => destruct H as [H|H] | H : exists _, _ |- _ => destruct H as [? H] end; try (rewrite H; clear H; cbn [app]); auto.
  - exists O. reflexivity.
  - exists (S x). change (60 :: 61 :: times (S (S x)) [62; 63]) with ([60; 61] ++ times (S (S x)) [62; 63]). rewrite <- (times_snoc (S x) [62; 63]). reflexivity.
  - exists x. rewrite <- ?app_assoc. reflexivity.
  - exists x. rewrite <- ?app_assoc. reflexivity.
  - exists x, O. rewrite <- ?app_assoc. reflexivity.
  - exists x, (S x0). rewrite <- (times_snoc (S x0) [68; 69]), <- ?app_assoc. cbn [app]. rewrite <- ?app_assoc. reflexivity.
  - exists x, x0. rewrite <- ?app_assoc. cbn [app]. rewrite <- ?app_assoc. reflexivity.
Qed.

Lemma legal_app l r : legal (l ++ r) -> legal l.
Proof. intros [rest H]. exists (r ++ rest). rewrite app_assoc. exact H. Qed.
Lemma at_legal last l : at_ last l -> legal l.
Proof.
  destruct last as [[]|]; cbn [at_]; try contradiction; intros H;
  repeat match goal with H : _ \/ _ |- _ => destruct H as [H|H] | H : exists _, _ |- _ => destruct H as [? H] end; subst l.
  all: try (eexists; first [exact RunTO0|exact RunTO1|exact RunDI|exact RunDIUN]).
  - eexists. exact (RunTO2 0 0).
  - exists ([64; 65; 66; 67] ++ times 1 [68; 69] ++ [70; 71]). rewrite <- ?app_assoc. exact (RunTO2 x 0).
  - exists ([66; 67] ++ times 1 [68; 69] ++ [70; 71]). rewrite <- ?app_assoc. exact (RunTO2 x 0).
  - exists (times 1 [68; 69] ++ [70; 71]). rewrite <- ?app_assoc. exact (RunTO2 x 0).
  - exists [70; 71]. rewrite <- ?app_assoc. exact (RunTO2 x x0).
  - exists []. rewrite app_nil_r. exact (RunTO2 x x0).
Qed.
(** the reply type of a request *)
Lemma client_route im : client_msg im = true -> exists om, route_ok (im, om) = true.
Proof.
  unfold route_ok. destruct im; try discriminate; intros _;
  [exists DISetCredentials|exists DIDone|exists TO0HelloAck|exists TO0AcceptOwner|exists TO1HelloRVAck|exists TO1RVRedirect|exists TO2ProveOVHdr
  |exists TO2OVNextEntry|exists TO2SetupDevice|exists TO2OwnerServiceInfoReady|exists TO2OwnerServiceInfo|exists TO2Done2|exists DIUNAccept
  |exists DIUNProvideKeyParameters|exists DIUNDone]; reflexivity.
Qed.
Lemma at_next last l im : at_ last l -> client_msg im = true -> valid_prev im last = true -> legal (l ++ [mtype_num im]).
Proof.
  intros H C V. destruct (client_route _ C) as [om R]. pose proof (at_legal _ _ (at_step _ _ _ _ H R V)) as L.
  apply legal_app with [mtype_num om]. rewrite <- app_assoc. exact L.
Qed.

(** * The tables of the specification *)
Lemma follows_valid im prev : client_msg im = true -> valid_prev im prev = true -> follows (option_map mtype_num prev) (mtype_num im).
Proof.
  destruct im; try discriminate; intros _; destruct prev as [[]|]; try discriminate; intros _; cbn [option_map mtype_num follows].
  - exists [210; 211; 212; 213; 214], [11; 12; 13]. exact RunDIUN.
  - eexists. exact RunDI.
  - exists [10], [13]. exact RunDI.
  - eexists. exact RunTO0.
  - exists [20], [23]. exact RunTO0.
  - eexists. exact RunTO1.
  - exists [30], [33]. exact RunTO1.
  - eexists. exact (RunTO2 0 0).
  - exists [60]. eexists. exact (RunTO2 0 0).
  - exists [60; 61; 62]. eexists. exact (RunTO2 1 0).
  - exists [60; 61; 62]. eexists. exact (RunTO2 0 0).
  - exists [60; 61; 62; 63; 64]. eexists. exact (RunTO2 0 0).
  - exists [60; 61; 62; 63; 64; 65; 66]. eexists. exact (RunTO2 0 0).
  - exists [60; 61; 62; 63; 64; 65; 66; 67; 68]. eexists. exact (RunTO2 0 1).
  - exists [60; 61; 62; 63; 64; 65; 66; 67; 68]. eexists. exact (RunTO2 0 0).
  - eexists. exact RunDIUN.
  - exists [210], [213; 214; 215; 10; 11; 12; 13]. exact RunDIUN.
  - exists [210; 211; 212], [215; 10; 11; 12; 13]. exact RunDIUN.
Qed.
Lemma encrypted_req m : In (mtype_num m) encrypted_numbers -> enc_req m = Some MustBe.
Proof. destruct m; cbn; intuition discriminate. Qed.
Lemma plain_req m : In (mtype_num m) plain_numbers -> enc_req m = Some MustNot.
Proof. destruct m; cbn; intuition discriminate. Qed.

Lemma in_aset {T} (k : name) (v : T) l x : In x (aset k v l) -> x = (k, v) \/ In x l.
Proof.
  induction l as [|[k' w] r IH]; cbn [aset]; [intros [<-|[]]; auto|]. destruct (bytes_eqb k k').
  - intros [<-|H]; [auto|right; right; exact H].
  - intros [<-|H]; [right; left; reflexivity|]. destruct (IH H); [auto|right; right; assumption].
Qed.
(** * Subsequences *)
Lemma subseq_refl {A} (l : list A) : subseq l l.
Proof. induction l; constructor; assumption. Qed.
Lemma subseq_nil {A} (l : list A) : subseq [] l.
Proof. induction l; constructor; assumption. Qed.
Lemma subseq_app_r {A} (x y z : list A) : subseq x y -> subseq x (y ++ z).
Proof. induction 1; cbn; [apply subseq_nil|constructor; assumption|constructor; assumption]. Qed.
Lemma subseq_snoc {A} (x y : list A) a : subseq x y -> subseq (x ++ [a]) (y ++ [a]).
Proof. induction 1; cbn; constructor; try assumption. constructor. Qed.

Section facts.
Context {W D M E : Type} (A : aead) (idt : str -> option str) (sv : server W D M E) (RO : routes_ok sv).
Notation obs := (@obs W D M E).
Notation pending := (pending D).

Lemma stored_app id (x y : list obs) : stored_of id (x ++ y) = stored_of id x ++ stored_of id y.
Proof. induction x as [|[]]; cbn; auto. destruct (list_eqb N.eqb id id0); cbn; congruence. Qed.
Lemma numbers_app (x y : list (mtype * mtype * session D)) : numbers (x ++ y) = numbers x ++ numbers y.
Proof. unfold numbers. apply flat_map_app. Qed.

Lemma route_in n im om : route sv n = Some (im, om) -> In (im, om) (sv_routes sv) /\ route_ok (im, om) = true.
Proof.
  unfold route. intros H. apply find_some in H. destruct H as [H _]. split; [exact H|]. unfold routes_ok in RO. rewrite Forall_forall in RO. auto.
Qed.

(** Where a session comes from: the requests [q] stored before, ending with it. *)
Definition history_of (os : list obs) (id : str) (q : list (mtype * mtype * session D)) (s : session D) : Prop :=
  subseq q (stored_of id os) /\ at_ (ses_last s) (numbers q) /\
  ((q = [] /\ s = Ses None None (sv_new sv)) \/ exists q' im om, q = q' ++ [(im, om, s)]).
Definition lineage os id s := exists q, history_of os id q s.
Lemma lineage_app os os' id s : lineage os id s -> lineage (os ++ os') id s.
Proof. intros (q & S & R). exists q. split; [rewrite stored_app; apply subseq_app_r; exact S|exact R]. Qed.

(** What is known of a pending request. *)
Definition pend_ok (os : list obs) (p : pending) : Prop :=
  exists q s, history_of os (pd_id p) q s /\ route_ok (pd_im p, pd_om p) = true /\ valid_prev (pd_im p) (ses_last s) = true /\
              ses_last (pd_ses p) = Some (pd_om p).
Lemma pend_app os os' p : pend_ok os p -> pend_ok (os ++ os') p.
Proof.
  intros (q & s & (S & R) & X). exists q, s. split; [|exact X]. split; [rewrite stored_app; apply subseq_app_r; exact S|exact R].
Qed.

Definition inv (os : list obs) (y : @sys W D) : Prop :=
  (forall id s e, In (id, (s, e)) (y_store y) -> lineage os id s) /\ Forall (pend_ok os) (y_pend y).

Lemma load_lineage os now st id st' s : (forall id s e, In (id, (s, e)) st -> lineage os id s) ->
  ses_load now st id = (st', s) ->
  (forall id s e, In (id, (s, e)) st' -> lineage os id s) /\ match s with Some s => lineage os id s | None => True end.
Proof.
  intros H L. unfold ses_load in L. destruct (aget id st) as [[s0 [e|]]|] eqn:G.
  - destruct (e * SES_SEC <? now); inversion L; subst; clear L.
    + split; [|exact I]. intros id' s' e' G'. apply filter_In in G'. destruct G'. eauto.
    + apply aget_in in G. split; eauto.
  - inversion L; subst. apply aget_in in G. split; eauto.
  - inversion L; subst. split; auto.
Qed.
Lemma new_history os id : history_of os id [] (Ses None None (sv_new sv)).
Proof. split; [apply subseq_nil|]. split; [reflexivity|left; auto]. Qed.
Lemma find_lineage os now st rq st' r : (forall id s e, In (id, (s, e)) st -> lineage os id s) ->
  find_session idt sv now st rq = (st', r) ->
  (forall id s e, In (id, (s, e)) st' -> lineage os id s) /\
  match r with Some (id, _, s) => lineage os id s | None => True end.
Proof.
  intros H F. unfold find_session in F. destruct (rq_auth rq) as [h|]; [|inversion F; subst; split; [exact H|exists []; apply new_history]].
  destruct (if rq_load_ok rq then idt (token_of h) else None) as [id|]; [|inversion F; subst; auto].
  destruct (ses_load now st id) as [st1 s1] eqn:L. inversion F; subst; clear F. destruct (load_lineage _ _ _ _ _ _ H L) as [H1 H2]. split; [exact H1|].
  destruct s1; [exact H2|exists []; apply new_history].
Qed.

(** [ran_ok os o]: the handler call o is in order after os. *)
Definition ran_ok (os : list obs) (o : obs) : Prop :=
  match o with
  | Ran id im s body m w e =>
    exists q, history_of os id q s /\ client_msg im = true /\ valid_prev im (ses_last s) = true
  | _ => True
  end.

Lemma parse_valid im s body m : parse_request A sv im s body = PMsg m -> valid_prev im (ses_last s) = true.
Proof. unfold parse_request. destruct (valid_prev im (ses_last s)); [reflexivity|discriminate]. Qed.

Lemma arrive_inv os now w st rq w' st' p o : (forall id s e, In (id, (s, e)) st -> lineage os id s) ->
  arrive A idt sv now w st rq = (w', st', p, o) ->
  (forall id s e, In (id, (s, e)) st' -> lineage os id s) /\ match p with Some p => pend_ok os p /\ pd_stored p = false | None => True end /\
  Forall (ran_ok os) o /\ (forall id, stored_of id o = []).
Proof.
  intros H AR. unfold arrive in AR. destruct (route sv (rq_type rq)) as [[im om]|] eqn:RT; [|inversion AR; subst; repeat split; auto; repeat constructor].
  apply route_in in RT. destruct RT as [_ RT].
  destruct (_ || _); [inversion AR; subst; repeat split; auto; repeat constructor|].
  destruct (find_session idt sv now st rq) as [st1 [[[id tok] s]|]] eqn:F; destruct (find_lineage _ _ _ _ _ _ H F) as [H1 H2];
    [|inversion AR; subst; repeat split; auto; repeat constructor].
  destruct (parse_request A sv im s (rq_body rq)) as [m|r] eqn:P; [|inversion AR; subst; repeat split; auto; repeat constructor].
  apply parse_valid in P. destruct H2 as [q H2].
  assert (RK : ran_ok os (Ran id im s (rq_body rq) m w (rq_env rq))). { exists q. split; [exact H2|]. split; [|exact P]. unfold route_ok in RT. destruct (client_msg im); [reflexivity|discriminate]. }
  destruct (sv_handle sv im w s m (rq_env rq)) as [w2 [d ks reply|code|]] eqn:HD; inversion AR; subst; clear AR.
  - split; [exact H1|]. split; [|split; [repeat constructor; exact RK|reflexivity]]. split; [|reflexivity]. exists q, s. cbn [pd_id pd_im pd_om pd_ses ses_last].
    split; [exact H2|]. split; [exact RT|]. split; [exact P|reflexivity].
  - split; [exact H1|]. split; [exact I|]. split; [repeat constructor; exact RK|reflexivity].
  - split; [exact H1|]. split; [exact I|]. split; [repeat constructor; exact RK|reflexivity].
Qed.

Lemma Forall_remove {T} (P : T -> Prop) n l : Forall P l -> Forall P (remove_nth n l).
Proof. intros H. revert n. induction H; intros [|n]; cbn; auto. Qed.
Lemma Forall_replace {T} (P : T -> Prop) n y l : Forall P l -> P y -> Forall P (replace_nth n y l).
Proof. intros H Py. revert n. induction H; intros [|n]; cbn; auto. Qed.
Lemma Forall_nth {T} (P : T -> Prop) n l x : Forall P l -> nth_error l n = Some x -> P x.
Proof. intros H EQ. rewrite Forall_forall in H. apply H. eapply nth_error_In; eauto. Qed.

Definition in_order (os : list obs) (o : list obs) : Prop :=
  forall pre x post, o = pre ++ x :: post -> ran_ok (os ++ pre) x.
Lemma ran_app os os' x : ran_ok os x -> ran_ok (os ++ os') x.
Proof.
  destruct x; cbn; auto. intros (q & (S & R) & X). exists q. split; [|exact X]. split; [rewrite stored_app; apply subseq_app_r; exact S|exact R].
Qed.
Lemma in_order_all os o : Forall (ran_ok os) o -> in_order os o.
Proof. intros H pre x post ->. apply ran_app. apply Forall_app in H. destruct H as [_ H]. inversion H; auto. Qed.
Lemma in_order_app os o1 o2 : in_order os o1 -> in_order (os ++ o1) o2 -> in_order os (o1 ++ o2).
Proof.
  intros H1 H2 pre x post EQ. revert pre EQ. 
  assert (X : forall pre, o1 ++ o2 = pre ++ x :: post -> (exists l, o1 = pre ++ x :: l) \/ (exists l, pre = o1 ++ l /\ o2 = l ++ x :: post)).
  { clear. induction o1 as [|a o1 IH]; intros pre EQ; [right; exists pre; auto|]. destruct pre as [|b pre]; cbn in EQ; inversion EQ; subst.
    - left. exists o1. reflexivity.
    - destruct (IH pre ltac:(assumption)) as [[l ->]|(l & -> & ->)]; [left; exists l; reflexivity|right; exists l; auto]. }
  intros pre EQ. destruct (X pre EQ) as [[l ->]|(l & -> & ->)].
  - eapply H1. reflexivity.
  - rewrite app_assoc. eapply H2. reflexivity.
Qed.

Lemma step_inv os y e y' o : inv os y -> sys_step A idt sv y e = (y', o) -> inv (os ++ o) y' /\ in_order os o.
Proof.
  intros [HS HP] ST. destruct y as [now w st ps]. cbn [y_store y_pend] in *.
  assert (K : forall o', inv (os ++ o') (Sys now w st ps)).
  { intros o'. split; cbn [y_store y_pend]; [intros; apply lineage_app; eauto|]. eapply Forall_impl; [|exact HP]. intros; apply pend_app; assumption. }
  destruct e as [rq|n ok|n ok|n|d| |f]; cbn [sys_step] in ST.
  - destruct (arrive A idt sv now w st rq) as [[[w' st'] p] o1] eqn:AR. inversion ST; subst; clear ST.
    destruct (arrive_inv _ _ _ _ _ _ _ _ _ HS AR) as (H1 & H2 & H3 & H4). split.
    + split; cbn [y_store y_pend]; [intros; apply lineage_app; eauto|]. apply Forall_app. split.
      * eapply Forall_impl; [|exact HP]. intros; apply pend_app; assumption.
      * destruct p as [p|]; repeat constructor. apply pend_app. apply H2.
    + apply in_order_all. exact H3.
  - destruct (nth_error ps n) as [p|] eqn:NE; [|inversion ST; subst; split; [apply K|apply in_order_all; constructor]].
    destruct (pd_stored p); [inversion ST; subst; split; [apply K|apply in_order_all; constructor]|].
    pose proof (Forall_nth _ _ _ _ HP NE) as (q & s & HQ & RT & V & L). destruct ok; inversion ST; subst; clear ST.
    + split; [|apply in_order_all; repeat constructor]. split; cbn [y_store y_pend].
      * intros id s' e G. unfold ses_put in G. apply in_aset in G. destruct G as [G|G].
        -- inversion G; subst; clear G. exists (q ++ [(pd_im p, pd_om p, pd_ses p)]). split; [|split].
           ++ rewrite stored_app. cbn [stored_of]. change (list_eqb N.eqb (pd_id p) (pd_id p)) with (bytes_eqb (pd_id p) (pd_id p)).
              rewrite bytes_eqb_refl. apply subseq_snoc. apply HQ.
           ++ rewrite numbers_app. cbn [numbers flat_map fst snd app]. rewrite L. eapply at_step; [apply HQ|exact RT|exact V].
           ++ right. eauto.
        -- apply lineage_app. eauto.
      * apply Forall_replace.
        -- eapply Forall_impl; [|exact HP]. intros; apply pend_app; assumption.
        -- apply pend_app. exists q, s. auto.
    + split; [|apply in_order_all; repeat constructor]. split; cbn [y_store y_pend]; [intros; apply lineage_app; eauto|].
      apply Forall_remove. eapply Forall_impl; [|exact HP]. intros; apply pend_app; assumption.
  - destruct (nth_error ps n) as [p|] eqn:NE; [|inversion ST; subst; split; [apply K|apply in_order_all; constructor]].
    destruct (negb (pd_stored p)); [inversion ST; subst; split; [apply K|apply in_order_all; constructor]|].
    destruct ok; inversion ST; subst; clear ST.
    + split; [|apply in_order_all; repeat constructor]. split; cbn [y_store y_pend].
      * intros id s e G. unfold ses_ttl in G. destruct (aget (pd_id p) st) as [[s0 e0]|] eqn:G0; [|apply lineage_app; eauto].
        apply in_aset in G. destruct G as [G|G]; [|apply lineage_app; eauto]. inversion G; subst. apply aget_in in G0. apply lineage_app. eauto.
      * apply Forall_remove. eapply Forall_impl; [|exact HP]. intros; apply pend_app; assumption.
    + split; [|apply in_order_all; repeat constructor]. split; cbn [y_store y_pend]; [intros; apply lineage_app; eauto|].
      apply Forall_remove. eapply Forall_impl; [|exact HP]. intros; apply pend_app; assumption.
  - inversion ST; subst; clear ST. split; [|apply in_order_all; constructor]. rewrite app_nil_r. split; cbn [y_store y_pend]; [exact HS|apply Forall_remove; exact HP].
  - inversion ST; subst; clear ST. split; [|apply in_order_all; constructor]. rewrite app_nil_r. split; cbn [y_store y_pend]; assumption.
  - inversion ST; subst; clear ST. split; [|apply in_order_all; constructor]. rewrite app_nil_r. split; cbn [y_store y_pend]; [|exact HP].
    intros id s e G. unfold ses_maint in G. apply filter_In in G. destruct G as [G _]. eauto.
  - inversion ST; subst; clear ST. split; [|apply in_order_all; constructor]. rewrite app_nil_r. split; cbn [y_store y_pend]; assumption.
Qed.

Lemma run_inv es : forall os y y' o, inv os y -> sys_run A idt sv y es = (y', o) -> inv (os ++ o) y' /\ in_order os o.
Proof.
  induction es as [|e es IH]; intros os y y' o H R; cbn [sys_run] in R.
  - inversion R; subst. rewrite app_nil_r. split; [exact H|]. apply in_order_all. constructor.
  - destruct (sys_step A idt sv y e) as [y1 o1] eqn:S. destruct (sys_run A idt sv y1 es) as [y2 o2] eqn:R2. inversion R; subst; clear R.
    destruct (step_inv _ _ _ _ _ H S) as [H1 O1]. destruct (IH _ _ _ _ H1 R2) as [H2 O2]. rewrite app_assoc. split; [exact H2|].
    apply in_order_app; assumption.
Qed.
Lemma init_inv now w : inv [] (sys_init now w).
Proof. split; cbn; [intros id s e []|constructor]. Qed.
End facts.
