(** C105 and C106: the all-in-one and its servers. *)
From Coq Require Import Lia ZifyBool ZifyNat ZifyN.
From Verif Require Import Base ExecModel.
Local Open Scope N_scope.

(** * What is meant *)
(** Time does not run backwards, and a sleep lasts at least half a second (execute.rs:19). *)
Definition clock_runs (w : xworld) : Prop :=
  (forall h e, x_clock w h <= x_clock w (h ++ [e])) /\ forall h, x_clock w h + 500 <= x_clock w (h ++ [XSleep]).
Definition is_ping (e : xevent) : bool := match e with XPing _ _ => true | _ => false end.
Definition is_kill (e : xevent) : bool := match e with XKill _ => true | _ => false end.
Definition count (f : xevent -> bool) (h : list xevent) : N := N.of_nat (length (filter f h)).
(** Something failed: a log or a program that could not be opened or started, a server found not to be running *)
Definition bad (e : xevent) : bool :=
  match e with XLog _ ok | XSpawn _ ok => negb ok | XCheck _ s => match s with Alive => false | _ => true end | _ => false end.
Definition fine (h : list xevent) : Prop := forallb (fun e => negb (bad e)) h = true.
Definition start_event (e : xevent) : bool := match e with XLog _ _ | XSpawn _ _ => true | _ => false end.
Definition wait_event (e : xevent) : bool := match e with XPing _ _ | XCheck _ _ | XSleep => true | _ => false end.
(** Why a run fails after [h] and the event [e]: something failed; no server answered, more than two seconds after the last one was
    started; the signal handler could not be installed. *)
Definition reason (w : xworld) (h : list xevent) (e : xevent) : Prop :=
  bad e = true \/
  (exists p s r, e = XPing p false /\ h = s ++ r /\ forallb start_event s = true /\ forallb wait_event r = true /\ x_clock w s + 2000 < x_clock w (h ++ [e])) \/
  (e = XReady /\ x_signal w (h ++ [e]) = false).
(** The event after [h] tells what the world was like. *)
Definition true_of (w : xworld) (h : list xevent) (e : xevent) : Prop :=
  match e with
  | XLog d ok => ok = x_log w h d
  | XSpawn d ok => ok = x_spawn w h d
  | XPing p ok => ok = x_ping w h p
  | XCheck d s => s = x_status w h d
  | XEnd e => e = x_end w h
  | _ => True
  end.
(** The server was started, and after that something answered at its port. *)
Definition up (ports : daemon -> N) (h : list xevent) (d : daemon) : Prop :=
  exists h1 h2 h3, h = h1 ++ XSpawn d true :: h2 ++ XPing (ports d) true :: h3.

Section execute.
Context (w : xworld) (ports : daemon -> N).
Local Notation start_binaries := (start_binaries w).
Local Notation wait_one := (wait_one w ports).
Local Notation wait_until_ready := (wait_until_ready w ports).
Local Notation execute := (execute w ports).

(** ** Starting *)
Lemma start_adds l : forall h h' ok, start_binaries l h = (h', ok) -> exists r, h' = h ++ r /\ forallb start_event r = true /\ (ok = true -> forall d, In d l -> In (XSpawn d true) r).
Proof.
  induction l as [|d l IH]; intros h h' ok E; cbn [ExecModel.start_binaries] in E.
  - inversion E; subst. exists []. rewrite app_nil_r. split; [reflexivity|]. split; [reflexivity|]. intros _ d [].
  - destruct (x_log w h d).
    + destruct (x_spawn w (h ++ [XLog d true]) d).
      * destruct (IH _ _ _ E) as (r & -> & F & ALL). exists (XLog d true :: XSpawn d true :: r). rewrite <- !app_assoc. cbn [app]. split; [reflexivity|]. split; [exact F|].
        intros OK d' [<-|I]; [right; left; reflexivity|right; right; apply ALL; auto].
      * inversion E; subst. exists [XLog d true; XSpawn d false]. rewrite <- app_assoc. split; [reflexivity|]. split; [reflexivity|discriminate].
    + inversion E; subst. exists [XLog d false]. split; [reflexivity|]. split; [reflexivity|discriminate].
Qed.
(** ** Waiting *)
Lemma one_adds fuel start d : forall h h' ok, wait_one fuel start d h = Some (h', ok) -> exists r, h' = h ++ r /\ forallb wait_event r = true /\ (ok = true -> In (XPing (ports d) true) r).
Proof.
  induction fuel as [|f IH]; intros h h' ok E; cbn [ExecModel.wait_one] in E; [discriminate|]. destruct (x_ping w h (ports d)).
  - inversion E; subst. exists [XPing (ports d) true]. split; [reflexivity|]. split; [reflexivity|]. intros _. left. reflexivity.
  - destruct (MAX_WAIT <? _).
    + inversion E; subst. exists [XPing (ports d) false]. split; [reflexivity|]. split; [reflexivity|discriminate].
    + destruct (x_status w _ d) as [|k|].
      * destruct (IH _ _ _ E) as (r & -> & F & P). exists (XPing (ports d) false :: XCheck d Alive :: XSleep :: r). rewrite <- !app_assoc. cbn [app]. split; [reflexivity|]. split; [exact F|].
        intros OK. right. right. right. auto.
      * inversion E; subst. exists [XPing (ports d) false; XCheck d (Ended k)]. rewrite <- app_assoc. split; [reflexivity|]. split; [reflexivity|discriminate].
      * inversion E; subst. exists [XPing (ports d) false; XCheck d Unknown]. rewrite <- app_assoc. split; [reflexivity|]. split; [reflexivity|discriminate].
Qed.
Lemma ready_adds fuel start l : forall h h' ok, wait_until_ready fuel start l h = Some (h', ok) ->
  exists r, h' = h ++ r /\ forallb wait_event r = true /\ (ok = true -> forall d, In d l -> In (XPing (ports d) true) r).
Proof.
  induction l as [|d l IH]; intros h h' ok E; cbn [ExecModel.wait_until_ready] in E.
  - inversion E; subst. exists []. rewrite app_nil_r. split; [reflexivity|]. split; [reflexivity|]. intros _ d [].
  - destruct (wait_one fuel start d h) as [[h1 [|]]|] eqn:W; [| |discriminate].
    + destruct (one_adds _ _ _ _ _ _ W) as (r1 & -> & F1 & P1). destruct (IH _ _ _ E) as (r2 & -> & F2 & P2). exists (r1 ++ r2). rewrite <- app_assoc. split; [reflexivity|].
      split; [rewrite forallb_app, F1, F2; reflexivity|]. intros OK d' [<-|I]; apply in_or_app; [left; auto|right; auto].
    + inversion E; subst. destruct (one_adds _ _ _ _ _ _ W) as (r1 & -> & F1 & P1). exists r1. split; [reflexivity|]. split; [exact F1|discriminate].
Qed.
Lemma in_all d : In d DAEMONS. Proof. destruct d; cbn; tauto. Qed.
(** The parts of a run *)
Lemma parts fuel h ok : execute fuel = Some (h, ok) -> exists s r t, h = (s ++ r ++ t) ++ map XKill (childs (s ++ r ++ t)) /\ forallb start_event s = true /\ forallb wait_event r = true /\
  ((t = [] /\ ok = false) \/ (t = [XReady] /\ ok = false) \/ exists e, t = [XReady; XEnd e] /\ ok = true) /\
  (t <> [] -> (forall d, In (XSpawn d true) s) /\ forall d, In (XPing (ports d) true) r).
Proof.
  unfold ExecModel.execute. destruct (start_binaries DAEMONS []) as [s sok] eqn:S0. destruct (start_adds _ _ _ _ S0) as (s' & E0 & FS & PS). cbn [app] in E0. subst s'.
  destruct sok; cbn [negb].
  2:{ intros E. inversion E; subst. exists s, [], []. rewrite !app_nil_r. split; [reflexivity|]. split; [exact FS|]. split; [reflexivity|]. split; [auto|congruence]. }
  destruct (wait_until_ready fuel (x_clock w s) DAEMONS s) as [[h1 rok]|] eqn:W; [|discriminate]. destruct (ready_adds _ _ _ _ _ _ W) as (r & -> & FR & PR). destruct rok.
  - assert (ALL : (forall d, In (XSpawn d true) s) /\ forall d, In (XPing (ports d) true) r) by (split; intros d; [apply PS|apply PR]; auto using in_all).
    destruct (x_signal w ((s ++ r) ++ [XReady])); intros E; inversion E; subst.
    + exists s, r, [XReady; XEnd (x_end w ((s ++ r) ++ [XReady]))]. unfold drop. rewrite <- !app_assoc. cbn [app]. split; [reflexivity|]. split; [exact FS|]. split; [exact FR|]. split; [eauto|auto].
    + exists s, r, [XReady]. unfold drop. rewrite <- !app_assoc. split; [reflexivity|]. split; [exact FS|]. split; [exact FR|]. split; [auto|auto].
  - intros E. inversion E; subst. exists s, r, []. unfold drop. rewrite app_nil_r. split; [reflexivity|]. split; [exact FS|]. split; [exact FR|]. split; [auto|congruence].
Qed.

(** * C105 *)
Lemma no_ready f l : forallb f l = true -> f XReady = false -> ~ In XReady l.
Proof. intros F N0 I. rewrite forallb_forall in F. rewrite (F _ I) in N0. discriminate. Qed.
Lemma split_at (x : xevent) a b p q : ~ In x a -> ~ In x p -> a ++ x :: b = p ++ x :: q -> a = p.
Proof.
  revert p. induction a as [|y a IH]; intros p NA NP E; destruct p as [|z p]; cbn [app] in E.
  - reflexivity.
  - injection E as <- _. exfalso. apply NP. left. reflexivity.
  - injection E as -> _. exfalso. apply NA. left. reflexivity.
  - injection E as -> E. f_equal. apply (IH p); [intros X; apply NA; right; exact X|intros X; apply NP; right; exact X|exact E].
Qed.
(** When the all-in-one says that it is ready, it has started every server, and something has answered at each server's port since. *)
Theorem C105_ready : forall fuel h ok p q, execute fuel = Some (h, ok) -> h = p ++ XReady :: q -> ~ In XReady p -> forall d, up ports p d.
Proof.
  intros fuel h ok p q E EP NP d. destruct (parts _ _ _ E) as (s & r & t & EH & FS & FR & T & ALL).
  assert (NS : ~ In XReady (s ++ r)) by (intros I; apply in_app_or in I; destruct I as [I|I]; [exact (no_ready _ _ FS eq_refl I)|exact (no_ready _ _ FR eq_refl I)]).
  assert (TN : t <> []).
  { intros ->. rewrite app_nil_r in EH. assert (I : In XReady h) by (rewrite EP; apply in_or_app; right; left; reflexivity). rewrite EH in I. apply in_app_or in I. destruct I as [I|I]; [exact (NS I)|].
    apply in_map_iff in I. destruct I as (? & X & _). discriminate. }
  destruct (ALL TN) as [SP PI]. assert (exists t', t = XReady :: t') as (t' & ->) by (destruct T as [[X _]|[[X _]|(e & X & _)]]; [congruence| |]; subst; eauto).
  assert (p = s ++ r) as -> by (symmetry; apply (split_at XReady _ (t' ++ map XKill (childs (s ++ r ++ XReady :: t'))) _ q); [exact NS|exact NP|]; rewrite <- EP, EH, <- !app_assoc; reflexivity).
  destruct (in_split _ _ (SP d)) as (s1 & s2 & ->). destruct (in_split _ _ (PI d)) as (r1 & r2 & ->). exists s1, (s2 ++ r1), r2. rewrite <- !app_assoc. cbn [app]. rewrite <- ?app_assoc. reflexivity.
Qed.
(** However a run ends, the last it does is to end each of the servers it started, and no other. *)
Theorem C105_ended : forall fuel h ok, execute fuel = Some (h, ok) ->
  exists h1 l, h = h1 ++ map XKill l /\ forallb (fun e => negb (is_kill e)) h1 = true /\ forall d, In d l <-> In (XSpawn d true) h1.
Proof.
  intros fuel h ok E. destruct (parts _ _ _ E) as (s & r & t & EH & FS & FR & T & _). exists (s ++ r ++ t), (childs (s ++ r ++ t)). split; [exact EH|]. split.
  - rewrite !forallb_app. rewrite forallb_forall in FS, FR. assert (forallb (fun e => negb (is_kill e)) s = true) as -> by (apply forallb_forall; intros x I; specialize (FS x I); destruct x; try discriminate; reflexivity).
    assert (forallb (fun e => negb (is_kill e)) r = true) as -> by (apply forallb_forall; intros x I; specialize (FR x I); destruct x; try discriminate; reflexivity).
    destruct T as [[-> _]|[[-> _]|(e & -> & _)]]; reflexivity.
  - intros d. unfold childs. rewrite in_flat_map. split.
    + intros (x & I & J). destruct x as [| |? ?| | | | |]; try contradiction. all: try (destruct J as [<-|[]]; exact I). all: destruct ok0; [destruct J as [<-|[]]; exact I|contradiction].
    + intros I. exists (XSpawn d true). split; [exact I|left; reflexivity].
Qed.
(** ** It goes on while all is fine, and stops at the first failure *)
Lemma fine_app a b : fine a -> fine b -> fine (a ++ b).
Proof. unfold fine. intros A B. rewrite forallb_app, A, B. reflexivity. Qed.
Lemma start_fine l : forall h h' ok, fine h -> start_binaries l h = (h', ok) -> if ok then fine h' else exists h1 e, h' = h1 ++ [e] /\ fine h1 /\ bad e = true.
Proof.
  induction l as [|d l IH]; intros h h' ok F E; cbn [ExecModel.start_binaries] in E.
  - inversion E; subst. exact F.
  - destruct (x_log w h d).
    + destruct (x_spawn w (h ++ [XLog d true]) d).
      * apply (IH _ _ _) in E; [exact E|]. apply fine_app; [apply fine_app; [exact F|reflexivity]|reflexivity].
      * inversion E; subst. eexists _, _. split; [reflexivity|]. split; [apply fine_app; [exact F|reflexivity]|reflexivity].
    + inversion E; subst. eexists _, _. split; [reflexivity|]. split; [exact F|reflexivity].
Qed.
Lemma one_fine fuel s d : forallb start_event s = true -> forall r h' ok, forallb wait_event r = true -> fine (s ++ r) -> wait_one fuel (x_clock w s) d (s ++ r) = Some (h', ok) ->
  if ok then fine h' else exists h1 e, h' = h1 ++ [e] /\ fine h1 /\ reason w h1 e.
Proof.
  intros FS. induction fuel as [|f IH]; intros r h' ok FR F E; cbn [ExecModel.wait_one] in E; [discriminate|]. destruct (x_ping w (s ++ r) (ports d)).
  - inversion E; subst. apply fine_app; [exact F|reflexivity].
  - destruct (N.ltb_spec MAX_WAIT (x_clock w ((s ++ r) ++ [XPing (ports d) false]) - x_clock w s)) as [L|L].
    + inversion E; subst. eexists _, _. split; [reflexivity|]. split; [exact F|]. right. left. exists (ports d), s, r. unfold MAX_WAIT in L. repeat (split; [first [reflexivity|assumption]|]). lia.
    + assert (F1 : fine ((s ++ r) ++ [XPing (ports d) false])) by (apply fine_app; [exact F|reflexivity]). destruct (x_status w _ d) as [|k|].
      * replace ((((s ++ r) ++ [XPing (ports d) false]) ++ [XCheck d Alive]) ++ [XSleep]) with (s ++ (r ++ [XPing (ports d) false; XCheck d Alive; XSleep])) in E by (rewrite <- !app_assoc; reflexivity).
        apply IH in E; [exact E| |]; [rewrite forallb_app, FR; reflexivity|]. rewrite app_assoc. apply fine_app; [exact F|reflexivity].
      * inversion E; subst. eexists _, _. split; [reflexivity|]. split; [exact F1|left; reflexivity].
      * inversion E; subst. eexists _, _. split; [reflexivity|]. split; [exact F1|left; reflexivity].
Qed.
Lemma ready_fine fuel s l : forallb start_event s = true -> forall r h' ok, forallb wait_event r = true -> fine (s ++ r) -> wait_until_ready fuel (x_clock w s) l (s ++ r) = Some (h', ok) ->
  if ok then fine h' else exists h1 e, h' = h1 ++ [e] /\ fine h1 /\ reason w h1 e.
Proof.
  intros FS. induction l as [|d l IH]; intros r h' ok FR F E; cbn [ExecModel.wait_until_ready] in E.
  - inversion E; subst. exact F.
  - destruct (wait_one fuel (x_clock w s) d (s ++ r)) as [[h1 ok1]|] eqn:W; [|discriminate]. pose proof (one_fine _ _ _ FS _ _ _ FR F W) as O1. destruct ok1.
    + destruct (one_adds _ _ _ _ _ _ W) as (r1 & -> & F1 & _). rewrite <- app_assoc in E, O1. apply IH in E; [exact E| |exact O1]. rewrite forallb_app, FR, F1. reflexivity.
    + inversion E; subst. exact O1.
Qed.
(** A run fails only for a reason, at the first failure, and does no more than end its servers; one that succeeds met no failure. *)
Theorem C105_failure : forall fuel h ok, execute fuel = Some (h, ok) ->
  if ok then fine h else exists h1 e l, h = (h1 ++ [e]) ++ map XKill l /\ fine h1 /\ reason w h1 e.
Proof.
  intros fuel h ok. unfold ExecModel.execute. destruct (start_binaries DAEMONS []) as [s sok] eqn:S0. pose proof (start_fine _ _ _ _ (eq_refl : fine []) S0) as FF.
  destruct (start_adds _ _ _ _ S0) as (s' & E0 & FS & _). cbn [app] in E0. subst s'. destruct sok; cbn [negb].
  2:{ intros E. inversion E; subst. destruct FF as (h1 & e & -> & F1 & B). exists h1, e, (childs (h1 ++ [e])). split; [reflexivity|]. split; [exact F1|left; exact B]. }
  destruct (wait_until_ready fuel (x_clock w s) DAEMONS s) as [[h1 rok]|] eqn:W; [|discriminate].
  assert (RF : if rok then fine h1 else exists h0 e, h1 = h0 ++ [e] /\ fine h0 /\ reason w h0 e).
  { pose proof W as W'. rewrite <- (app_nil_r s) in W' at 2. apply (ready_fine _ _ _ FS []) in W'; [exact W'|reflexivity|rewrite app_nil_r; exact FF]. }
  destruct rok.
  - destruct (x_signal w (h1 ++ [XReady])) eqn:SG; intros E; inversion E; subst.
    + apply fine_app; [apply fine_app; [apply fine_app; [exact RF|reflexivity]|reflexivity]|]. unfold fine. apply forallb_forall. intros x I. apply in_map_iff in I. destruct I as (y & <- & _). reflexivity.
    + exists h1, XReady, (childs (h1 ++ [XReady])). split; [reflexivity|]. split; [exact RF|]. right. right. split; [reflexivity|exact SG].
  - intros E. inversion E; subst. destruct RF as (h0 & e & -> & F0 & R). exists h0, e, (childs (h0 ++ [e])). split; [reflexivity|]. split; [exact F0|exact R].
Qed.
(** ** What is said to have happened has happened *)
Inductive told : list xevent -> Prop :=
| told_nil : told []
| told_snoc h e : told h -> true_of w h e -> told (h ++ [e]).
Lemma told_at h : told h -> forall h1 e h2, h = h1 ++ e :: h2 -> true_of w h1 e.
Proof.
  intros T. induction T as [|h e T IH X]; intros h1 e1 h2 E; [destruct h1; discriminate|]. destruct h2 as [|x h2 _] using rev_ind.
  - apply app_inj_tail in E. destruct E as [<- <-]. exact X.
  - rewrite app_comm_cons, app_assoc in E. apply app_inj_tail in E. destruct E as [-> _]. exact (IH _ _ _ eq_refl).
Qed.
Lemma start_told l : forall h h' ok, told h -> start_binaries l h = (h', ok) -> told h'.
Proof.
  induction l as [|d l IH]; intros h h' ok T E; cbn [ExecModel.start_binaries] in E; [inversion E; subst; exact T|]. destruct (x_log w h d) eqn:LG.
  - assert (T1 : told (h ++ [XLog d true])) by (apply told_snoc; [exact T|symmetry; exact LG]). destruct (x_spawn w (h ++ [XLog d true]) d) eqn:SP.
    + apply IH in E; [exact E|]. apply told_snoc; [exact T1|symmetry; exact SP].
    + inversion E; subst. apply told_snoc; [exact T1|symmetry; exact SP].
  - inversion E; subst. apply told_snoc; [exact T|symmetry; exact LG].
Qed.
Lemma one_told start d fuel : forall h h' ok, told h -> wait_one fuel start d h = Some (h', ok) -> told h'.
Proof.
  induction fuel as [|f IH]; intros h h' ok T E; cbn [ExecModel.wait_one] in E; [discriminate|].
  assert (T1 : told (h ++ [XPing (ports d) (x_ping w h (ports d))])) by (apply told_snoc; [exact T|reflexivity]). destruct (x_ping w h (ports d)); [inversion E; subst; exact T1|].
  destruct (MAX_WAIT <? _); [inversion E; subst; exact T1|].
  assert (T2 : told ((h ++ [XPing (ports d) false]) ++ [XCheck d (x_status w (h ++ [XPing (ports d) false]) d)])) by (apply told_snoc; [exact T1|reflexivity]).
  destruct (x_status w _ d); [|inversion E; subst; exact T2..]. apply IH in E; [exact E|]. apply told_snoc; [exact T2|exact I].
Qed.
Lemma ready_told start l fuel : forall h h' ok, told h -> wait_until_ready fuel start l h = Some (h', ok) -> told h'.
Proof.
  induction l as [|d l IH]; intros h h' ok T E; cbn [ExecModel.wait_until_ready] in E; [inversion E; subst; exact T|].
  destruct (wait_one fuel start d h) as [[h1 ok1]|] eqn:W; [|discriminate]. pose proof (one_told _ _ _ _ _ _ T W) as T1. destruct ok1; [exact (IH _ _ _ T1 E)|inversion E; subst; exact T1].
Qed.
Lemma kills_told l : forall h, told h -> told (h ++ map XKill l).
Proof. induction l as [|d l IH]; intros h T; cbn [map]; [rewrite app_nil_r; exact T|]. change (XKill d :: map XKill l) with ([XKill d] ++ map XKill l). rewrite app_assoc. apply IH. apply told_snoc; [exact T|exact I]. Qed.
(** What a run takes a step to have come to is what came of it: who answered at which port, who could be started, who was running. *)
Theorem C105_told : forall fuel h ok, execute fuel = Some (h, ok) -> forall h1 e h2, h = h1 ++ e :: h2 -> true_of w h1 e.
Proof.
  intros fuel h ok E. apply told_at. revert E. unfold ExecModel.execute, drop. destruct (start_binaries DAEMONS []) as [s sok] eqn:S0. pose proof (start_told _ _ _ _ told_nil S0) as T0. destruct sok; cbn [negb].
  2:{ intros E. inversion E; subst. apply kills_told, T0. }
  destruct (wait_until_ready fuel (x_clock w s) DAEMONS s) as [[h1 rok]|] eqn:W; [|discriminate]. pose proof (ready_told _ _ _ _ _ _ T0 W) as T1.
  destruct rok; [destruct (x_signal w (h1 ++ [XReady]))|]; intros E; inversion E; subst; apply kills_told.
  - apply told_snoc; [|reflexivity]. apply told_snoc; [exact T1|exact I].
  - apply told_snoc; [exact T1|exact I].
  - exact T1.
Qed.
(** ** It does not wait for ever *)
Definition sleeps (h : list xevent) : N := count (fun e => match e with XSleep => true | _ => false end) h.
Lemma count_app f a b : count f (a ++ b) = count f a + count f b.
Proof. unfold count. rewrite filter_app, app_length. lia. Qed.
(** One server: between the start at [start] and now, there were at most [k] sleeps. *)
Lemma one_ends start d : clock_runs w -> forall fuel k h, (6 <= fuel + k)%nat -> (k <= 5)%nat -> start + 500 * N.of_nat k <= x_clock w h ->
  exists h' ok k', wait_one fuel start d h = Some (h', ok) /\ (k <= k' <= 5)%nat /\ start + 500 * N.of_nat k' <= x_clock w h' /\
    count is_ping h' = count is_ping h + N.of_nat (k' - k) + 1.
Proof.
  intros (MO & SL). induction fuel as [|f IH]; intros k h F K T; [lia|]. cbn [ExecModel.wait_one]. destruct (x_ping w h (ports d)).
  - eexists _, _, k. split; [reflexivity|]. split; [lia|]. split; [pose proof (MO h (XPing (ports d) true)); lia|]. rewrite count_app. cbn. lia.
  - pose proof (MO h (XPing (ports d) false)) as M1. destruct (N.ltb_spec MAX_WAIT (x_clock w (h ++ [XPing (ports d) false]) - start)) as [L|L].
    + eexists _, _, k. split; [reflexivity|]. split; [lia|]. split; [lia|]. rewrite count_app. cbn. lia.
    + unfold MAX_WAIT in L. destruct (x_status w _ d) as [|c|].
      2,3: (eexists _, _, k; split; [reflexivity|]; split; [lia|]; split; [match goal with |- _ <= x_clock w (?a ++ [?b]) => pose proof (MO a b) end; lia|]; rewrite !count_app; cbn; lia).
      set (h2 := (h ++ [XPing (ports d) false]) ++ [XCheck d Alive]). pose proof (MO (h ++ [XPing (ports d) false]) (XCheck d Alive)) as M2. fold h2 in M2. pose proof (SL h2) as M3.
      destruct (IH (S k) (h2 ++ [XSleep])) as (h' & ok & k' & E & K' & T' & C); [lia|lia|lia|]. exists h', ok, k'. split; [exact E|]. split; [lia|]. split; [exact T'|].
      rewrite C. unfold h2. rewrite !count_app. cbn. lia.
Qed.
Lemma ready_ends start : clock_runs w -> forall l fuel k h, (6 <= fuel)%nat -> (k <= 5)%nat -> start + 500 * N.of_nat k <= x_clock w h ->
  exists h' ok k', wait_until_ready fuel start l h = Some (h', ok) /\ (k <= k' <= 5)%nat /\ count is_ping h' <= count is_ping h + N.of_nat (k' - k) + N.of_nat (length l).
Proof.
  intros CR l. induction l as [|d l IH]; intros fuel k h F K T; cbn [ExecModel.wait_until_ready].
  - exists h, true, k. split; [reflexivity|]. split; [lia|]. cbn. lia.
  - destruct (one_ends start d CR fuel k h) as (h1 & ok1 & k1 & E1 & K1 & T1 & C1); [lia|lia|exact T|]. rewrite E1. destruct ok1.
    + destruct (IH fuel k1 h1 F ltac:(lia) T1) as (h' & ok & k' & E & K' & C). exists h', ok, k'. split; [exact E|]. split; [lia|]. cbn [length]. lia.
    + exists h1, false, k1. split; [reflexivity|]. split; [lia|]. cbn [length]. lia.
Qed.
Lemma none_of f g l : (forall e, f e = true -> g e = false) -> forallb f l = true -> count g l = 0.
Proof. intros D F. unfold count. rewrite forallb_forall in F. induction l as [|x l IH]; [reflexivity|]. cbn [filter]. rewrite (D x) by (apply F; left; reflexivity). apply IH. intros y I. apply F. right. exact I. Qed.
(** Nine pings are the most there can be: then it is ready, or has given up. *)
Theorem C105_bounded : clock_runs w -> forall fuel, (6 <= fuel)%nat -> exists h ok, execute fuel = Some (h, ok) /\ count is_ping h <= 9.
Proof.
  intros CR fuel F.
  assert (KILL : forall h, count is_ping (map XKill (childs h)) = 0) by (intros h; unfold count; induction (childs h) as [|? ? IH]; [reflexivity|exact IH]).
  unfold ExecModel.execute. destruct (start_binaries DAEMONS []) as [s sok] eqn:S0. destruct (start_adds _ _ _ _ S0) as (s' & E0 & FS & _). cbn [app] in E0. subst s'.
  assert (P0 : count is_ping s = 0) by (apply (none_of start_event); [intros e; destruct e; cbn; congruence|exact FS]).
  destruct sok; cbn [negb]; [|exists (s ++ map XKill (childs s)), false; split; [reflexivity|rewrite count_app, KILL, P0; lia]].
  destruct (ready_ends (x_clock w s) CR DAEMONS fuel 0 s F ltac:(lia) ltac:(lia)) as (h1 & ok & k & E & K & C). rewrite E. assert (C9 : count is_ping h1 <= 9) by (cbn [length DAEMONS] in C; lia).
  destruct ok; [destruct (x_signal w (h1 ++ [XReady]))|]; eexists _, _; (split; [reflexivity|]); unfold drop; rewrite !count_app, KILL; cbn; lia.
Qed.
(** * C106 *)
(** A run that ends with success was ready, and then was interrupted, or one of its servers ended. *)
Theorem C106_success_partial : forall fuel h, execute fuel = Some (h, true) -> exists h1 e l, h = h1 ++ [XReady; XEnd e] ++ map XKill l.
Proof.
  intros fuel h E. destruct (parts _ _ _ E) as (s & r & t & EH & _ & _ & T & _). destruct T as [[_ X]|[[_ X]|(e & -> & _)]]; try discriminate.
  exists (s ++ r), e, (childs (s ++ r ++ [XReady; XEnd e])). rewrite EH, <- !app_assoc. reflexivity.
Qed.
End execute.
(** One would like that a run ends with success only if it was interrupted; it does so too when one of its servers fails. *)
Definition C106_statement : Prop := forall w ports fuel h, execute w ports fuel = Some (h, true) -> In (XEnd Interrupted) h.
(** A case: all goes well, one server needs a second, and later one ends with an error. *)
Definition xe_world (e : xend) : xworld := XWorld (fun _ _ => true) (fun _ _ => true) (fun h p => (p =? 8080) || (1 <? sleeps h))
  (fun h => 500 * sleeps h) (fun _ _ => Alive) (fun _ => true) (fun _ => e).
Definition xe_ports (d : daemon) : N := match d with Mfg => 8080 | Own => 8081 | Rendezvous => 8082 | Info => 8083 end.
Lemma xe_clock e : clock_runs (xe_world e).
Proof.
  split; intros; cbn [x_clock xe_world]; unfold sleeps; rewrite count_app; [lia|]. match goal with |- context [count ?f [XSleep]] => change (count f [XSleep]) with 1 end. lia.
Qed.
Example C105_case : exists h, execute (xe_world Interrupted) xe_ports 6 = Some (h, true) /\ In XReady h /\ count is_ping h = 6.
Proof. eexists. split; [vm_compute; reflexivity|]. split; [cbn; tauto|vm_compute; reflexivity]. Qed.
(** One server ends while it is waited for; one never answers. *)
Definition xe_dead : xworld := XWorld (fun _ _ => true) (fun _ _ => true) (fun _ p => p =? 8080) (fun h => 500 * sleeps h) (fun h _ => if 0 <? sleeps h then Ended 1 else Alive) (fun _ => true) (fun _ => Interrupted).
Definition xe_mute : xworld := XWorld (fun _ _ => true) (fun _ _ => true) (fun _ p => p =? 8080) (fun h => 500 * sleeps h) (fun _ _ => Alive) (fun _ => true) (fun _ => Interrupted).
Example C105_dead : exists h, execute xe_dead xe_ports 6 = Some (h, false) /\ count is_ping h = 3 /\ count is_kill h = 4.
Proof. eexists. split; [vm_compute; reflexivity|]. split; vm_compute; reflexivity. Qed.
Example C105_mute : exists h, execute xe_mute xe_ports 6 = Some (h, false) /\ count is_ping h = 7 /\ count is_kill h = 4.
Proof. eexists. split; [vm_compute; reflexivity|]. split; vm_compute; reflexivity. Qed.
Theorem C106_refuted : ~ C106_statement.
Proof.
  intros H. assert (E : exists h, execute (xe_world (Finished Own (Ended 101))) xe_ports 6 = Some (h, true) /\ existsb (fun e => match e with XEnd Interrupted => true | _ => false end) h = false) by
    (eexists; split; vm_compute; reflexivity).
  destruct E as (h & E & N0). apply H in E. assert (X : existsb (fun e => match e with XEnd Interrupted => true | _ => false end) h = true) by (apply existsb_exists; exists (XEnd Interrupted); auto). congruence.
Qed.
Print Assumptions C105_ready.
Print Assumptions C105_ended.
Print Assumptions C105_failure.
Print Assumptions C105_told.
Print Assumptions C105_bounded.
Print Assumptions C106_success_partial.
Print Assumptions C106_refuted.
