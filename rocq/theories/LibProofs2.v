(** Each call of a C program that keeps to the ownership rules: its result, and when it ends the process. *)
From Verif Require Import Base BaseFacts ValueModel Text Hex CborModel TypesModel VoucherModel VoucherProofs VoucherProofs2 LibModel LibSpec LibProofs.
From Coq Require Import ZifyBool ZifyNat ZifyN.
Local Open Scope N_scope.
Local Opaque voucher_deserialize voucher_read_many.

Section Step.
Context (c : crypto) (chk : bool) (et : ferr -> str).
Let Inv := Inv c chk et.
Let right := right c chk et.
Let perform := perform c chk et.

(** Calls that change nothing but the last error. *)
Lemma step_same h l k r e : Inv h l -> Some e = reason c chk et k \/ (e = [] /\ reason c chk et k = None) -> asks k = false -> (forall p, r = RPtr p -> p = Null) ->
  Inv (h ++ [(k, r)]) (match reason c chk et k with Some e => set_error e (clear l) | None => clear l end).
Proof.
  intros IV E A NP. eapply step_plain; [exact IV| | | | |].
  - intros a o H. left. destruct (reason c chk et k); exact H.
  - destruct (reason c chk et k); reflexivity.
  - rewrite pending_snoc, A. destruct (reason c chk et k); reflexivity.
  - intros a X. specialize (NP _ X). discriminate NP.
  - intros p X N. destruct (N (NP _ X)).
Qed.
Lemma step_quiet h l k r : Inv h l -> asks k = false -> reason c chk et k = None -> (forall p, r = RPtr p -> p = Null) -> Inv (h ++ [(k, r)]) (clear l).
Proof. intros IV A R NP. pose proof (step_same h l k r [] IV (or_intror (conj eq_refl R)) A NP) as X. rewrite R in X. exact X. Qed.
Lemma step_error h l k r e : Inv h l -> asks k = false -> reason c chk et k = Some e -> (forall p, r = RPtr p -> p = Null) -> Inv (h ++ [(k, r)]) (set_error e (clear l)).
Proof. intros IV A R NP. pose proof (step_same h l k r e IV (or_introl (eq_sym R)) A NP) as X. rewrite R in X. exact X. Qed.
Lemma step_release h l k a o : Inv h l -> asks k = false -> reason c chk et k = None -> l_heap l a = Some o -> frees k a o -> Inv (h ++ [(k, RVoid)]) (release a (clear l)).
Proof.
  intros IV A R H F. eapply step_plain; [exact IV| | | | |]; try discriminate.
  - intros b o' H'. cbn [release l_heap clear]. destruct (b =? a) eqn:E; [|left; exact H']. apply N.eqb_eq in E. subst b. right. assert (o' = o) by congruence. subst. exact F.
  - reflexivity.
  - rewrite pending_snoc, A, R. reflexivity.
Qed.

Theorem step h l k l' r : Inv h l -> allowed h k -> perform k l = Done l' r -> Inv (h ++ [(k, r)]) l' /\ right h k r.
Proof.
  intros IV AL E. unfold perform in E. destruct k as [d|d|p|p i|p|p|p|p|p|p| |p]; cbn [LibModel.perform] in E.
  - unfold from_data in E. destruct d as [d|].
    + unfold right, LibSpec.right. destruct (voucher_deserialize c chk d) as [v|e|w] eqn:D; [| |discriminate].
      * eapply step_alloc; [exact IV| | |exact E| |]; try reflexivity; [|exists d; auto]. rewrite pending_snoc. cbn [asks reason]. rewrite D. reflexivity.
      * injection E as <- <-. split; [|reflexivity]. apply step_error; auto; cbn [reason]; [rewrite D; reflexivity|congruence].
    + injection E as <- <-. split; [|reflexivity]. apply step_error; auto; congruence.
  - unfold many_from_data in E. destruct d as [d|].
    + unfold right, LibSpec.right. destruct (voucher_read_many c chk d) as [v|e|w] eqn:D; [| |discriminate].
      * eapply step_alloc; [exact IV| | |exact E| |]; try reflexivity; [|exists d; auto]. rewrite pending_snoc. cbn [asks reason]. rewrite D. reflexivity.
      * injection E as <- <-. split; [|reflexivity]. apply step_error; auto; cbn [reason]; [rewrite D; reflexivity|congruence].
    + injection E as <- <-. split; [|reflexivity]. apply step_error; auto; congruence.
  - unfold free_voucher in E. cbn [allowed] in AL. destruct AL as [->|MV].
    + injection E as <- <-. split; [|reflexivity]. apply step_quiet; auto; discriminate.
    + destruct (MV) as [[d G] F]. destruct (i_voucher _ _ _ _ _ IV _ _ G) as (a & d' & v & -> & -> & D & H). cbn [clear l_heap] in E. rewrite (H F) in E. injection E as <- <-.
      split; [|reflexivity]. eapply step_release; eauto; reflexivity.
  - unfold list_get in E. cbn [allowed] in AL. destruct AL as [->|ML].
    + injection E as <- <-. split; [|left; auto]. apply step_error; auto; congruence.
    + destruct (live_list _ _ _ _ _ _ IV ML) as (a & vs & -> & H & SL & U). cbn [list_of clear l_heap] in E. rewrite H in E. injection E as <- <-. destruct (nth_error vs (N.to_nat i)) as [v|] eqn:NE.
      * assert (IV' : Inv (h ++ [(ListGet (At a) i, RPtr (Inside a i))]) (clear l)).
        { eapply step_plain; [exact IV| | | | |]; try discriminate; auto; [rewrite pending_snoc; reflexivity|].
          intros p X N. injection X as <-. exists (At a), i, a, vs, v. auto 10. }
        split; [exact IV'|]. right. exists vs. split; [split; [exact SL|exact U]|]. right. exists v, (Inside a i). split; [exact NE|]. split; [reflexivity|]. split; [discriminate|].
        assert (EL : my_voucher (h ++ [(ListGet (At a) i, RPtr (Inside a i))]) (Inside a i) \/ element (h ++ [(ListGet (At a) i, RPtr (Inside a i))]) (Inside a i)).
        { right. exists (At a), i. split; [apply gave_new; discriminate|]. destruct ML as [[d G] F]. split; [exists d; apply gave_more; exact G|].
          intros [r X]. apply in_app_or in X. destruct X as [X|[X|[]]]; [apply F; exists r; exact X|discriminate X]. }
        destruct (live_voucher _ _ _ _ _ _ IV' EL) as (v' & V & [SF U'] & _). cbn [voucher_of clear l_heap] in V. rewrite H in V. assert (v' = v) by congruence. subst v'. split; assumption.
      * split; [|right; exists vs; split; [split; assumption|left; auto]]. apply step_quiet; auto; congruence.
  - unfold list_len in E. cbn [allowed] in AL. destruct AL as [->|ML].
    + injection E as <- <-. split; [|left; auto]. apply step_error; auto; congruence.
    + destruct (live_list _ _ _ _ _ _ IV ML) as (a & vs & -> & H & SL & U). cbn [list_of clear l_heap] in E. rewrite H in E. injection E as <- <-.
      split; [apply step_quiet; auto; congruence|]. right. exists vs. split; [split; assumption|reflexivity].
  - unfold list_free in E. cbn [allowed] in AL. destruct AL as [->|ML].
    + injection E as <- <-. split; [|reflexivity]. apply step_error; auto; congruence.
    + destruct (live_list _ _ _ _ _ _ IV ML) as (a & vs & -> & H & SL & U). cbn [clear l_heap] in E. rewrite H in E. injection E as <- <-. split; [|reflexivity]. eapply step_release; eauto; reflexivity.
  - unfold get_version in E. cbn [allowed] in AL. destruct AL as [->|ML].
    + injection E as <- <-. split; [|left; auto]. apply step_quiet; auto; congruence.
    + destruct (live_voucher _ _ _ _ _ _ IV ML) as (v & V & SF & _). assert (E' : match voucher_of (clear l) p with Some v => Done (clear l) (RNum (Z.of_N (hd_version (ov_header v)))) | None => Undefined end = Done l' r) by (destruct p; [discriminate V|exact E|exact E]).
      change (voucher_of (clear l) p) with (voucher_of l p) in E'. rewrite V in E'. injection E' as <- <-. split; [apply step_quiet; auto; congruence|]. right. exists v. auto.
  - unfold get_guid in E. cbn [allowed] in AL. destruct AL as [->|ML].
    + injection E as <- <-. split; [|left; auto]. apply step_quiet; auto; congruence.
    + destruct (live_voucher _ _ _ _ _ _ IV ML) as (v & V & SF & (g & GT) & _).
      assert (E' : match voucher_of (clear l) p with None => Undefined | Some v => match guid_text (hd_guid (ov_header v)) with None => Aborts | Some s => if has_nul s then Done (clear l) (RPtr Null) else alloc (OText s) (clear l) end end = Done l' r) by (destruct p; [discriminate V|exact E|exact E]).
      change (voucher_of (clear l) p) with (voucher_of l p) in E'. rewrite V, GT, (guid_no_nul _ _ GT) in E'.
      assert (X : Inv (h ++ [(Guid p, r)]) l' /\ new_ptr h r).
      { eapply step_alloc; [exact IV| | |exact E'| |]; try reflexivity; [rewrite pending_snoc; reflexivity|]. left. exists p, v. auto. }
      destruct X as [X1 X2]. split; [exact X1|]. right. split; [exists v; exact SF|exact X2].
  - unfold get_info in E. cbn [allowed] in AL. destruct AL as [->|ML].
    + injection E as <- <-. split; [|left; auto]. apply step_quiet; auto; congruence.
    + destruct (live_voucher _ _ _ _ _ _ IV ML) as (v & V & SF & _ & NN).
      assert (E' : match voucher_of (clear l) p with None => Undefined | Some v => let s := hd_devinfo (ov_header v) in if has_nul s then Done (set_error (nul_error s) (clear l)) (RPtr Null) else alloc (OText s) (clear l) end = Done l' r) by (destruct p; [discriminate V|exact E|exact E]).
      change (voucher_of (clear l) p) with (voucher_of l p) in E'. rewrite V in E'. cbv zeta in E'. rewrite NN in E'.
      assert (X : Inv (h ++ [(Info p, r)]) l' /\ new_ptr h r).
      { eapply step_alloc; [exact IV| | |exact E'| |]; try reflexivity; [rewrite pending_snoc; reflexivity|]. right. left. exists p, v. auto. }
      destruct X as [X1 X2]. split; [exact X1|]. right. split; [exists v; exact SF|exact X2].
  - unfold free_text in E. cbn [allowed] in AL. destruct AL as [->|ML].
    + injection E as <- <-. split; [|reflexivity]. apply step_quiet; auto; discriminate.
    + destruct (live_text _ _ _ _ _ _ IV ML) as (a & s & -> & H & _). cbn [clear l_heap] in E. rewrite H in E. injection E as <- <-. split; [|reflexivity]. eapply step_release; eauto; reflexivity.
  - unfold last_error in E. pose proof (i_last _ _ _ _ _ IV) as LA. destruct (l_last l) as [e|] eqn:LE; [|discriminate]. destruct (has_nul e); [discriminate|].
    assert (X : Inv (h ++ [(LastError, r)]) l' /\ new_ptr h r).
    { eapply step_alloc; [exact IV| | |exact E| |]; try reflexivity; [rewrite pending_snoc; cbn [asks]; congruence|]. right. right. auto. }
    destruct X as [X1 X2]. split; [exact X1|]. split; [exists e; auto|exact X2].
  - unfold read_text in E. cbn [allowed] in AL. destruct (live_text _ _ _ _ _ _ IV AL) as (a & s & -> & H & SY). cbn [text_of] in E. rewrite H in E. injection E as <- <-. split.
    + eapply step_plain; [exact IV| | | | |]; try discriminate; auto. rewrite pending_snoc. cbn [asks]. apply (i_last _ _ _ _ _ IV).
    + exists s. auto.
Qed.

Theorem ends h l k : Inv h l -> allowed h k ->
  perform k l <> Undefined /\
  (perform k l = Aborts <-> broken_data c chk k \/ k = LastError /\ match pending_error c chk et h with Some e => has_nul e = true | None => True end).
Proof.
  intros IV AL. unfold perform.
  assert (OK : forall l' r, k <> LastError -> ~ broken_data c chk k -> LibModel.perform c chk et k l = Done l' r -> LibModel.perform c chk et k l <> Undefined /\
    (LibModel.perform c chk et k l = Aborts <-> broken_data c chk k \/ k = LastError /\ match pending_error c chk et h with Some e => has_nul e = true | None => True end)).
  { intros l' r N NP E. rewrite E. split; [discriminate|]. split; [discriminate|]. intros [X|[X _]]; contradiction. }
  destruct k as [d|d|p|p i|p|p|p|p|p|p| |p].
  - destruct d as [d|]; [|eapply OK; [discriminate|tauto|reflexivity]]. cbn [LibModel.perform broken_data] in *. unfold from_data in *. destruct (voucher_deserialize c chk d) as [v|e|w] eqn:D.
    + eapply OK; [discriminate|intros [w X]; discriminate X|reflexivity].
    + eapply OK; [discriminate|intros [w X]; discriminate X|reflexivity].
    + split; [discriminate|]. split; [intros _; left; exists w; reflexivity|reflexivity].
  - destruct d as [d|]; [|eapply OK; [discriminate|tauto|reflexivity]]. cbn [LibModel.perform broken_data] in *. unfold many_from_data in *. destruct (voucher_read_many c chk d) as [v|e|w] eqn:D.
    + eapply OK; [discriminate|intros [w X]; discriminate X|reflexivity].
    + eapply OK; [discriminate|intros [w X]; discriminate X|reflexivity].
    + split; [discriminate|]. split; [intros _; left; exists w; reflexivity|reflexivity].
  - destruct AL as [->|MV]; [eapply OK; [discriminate|tauto|reflexivity]|]. destruct MV as [[d G] F]. destruct (i_voucher _ _ _ _ _ IV _ _ G) as (a & d' & v & -> & -> & D & H).
    eapply OK; [discriminate|tauto|]. cbn [LibModel.perform free_voucher]. unfold free_voucher. cbn [clear l_heap]. rewrite (H F). reflexivity.
  - destruct AL as [->|ML]; [eapply OK; [discriminate|tauto|reflexivity]|]. destruct (live_list _ _ _ _ _ _ IV ML) as (a & vs & -> & H & SL & U).
    eapply OK; [discriminate|tauto|]. cbn [LibModel.perform]. unfold list_get. cbn [list_of clear l_heap]. rewrite H. reflexivity.
  - destruct AL as [->|ML]; [eapply OK; [discriminate|tauto|reflexivity]|]. destruct (live_list _ _ _ _ _ _ IV ML) as (a & vs & -> & H & SL & U).
    eapply OK; [discriminate|tauto|]. cbn [LibModel.perform]. unfold list_len. cbn [list_of clear l_heap]. rewrite H. reflexivity.
  - destruct AL as [->|ML]; [eapply OK; [discriminate|tauto|reflexivity]|]. destruct (live_list _ _ _ _ _ _ IV ML) as (a & vs & -> & H & SL & U).
    eapply OK; [discriminate|tauto|]. cbn [LibModel.perform]. unfold list_free. cbn [clear l_heap]. rewrite H. reflexivity.
  - destruct AL as [->|ML]; [eapply OK; [discriminate|tauto|reflexivity]|]. destruct (live_voucher _ _ _ _ _ _ IV ML) as (v & V & _).
    eapply OK; [discriminate|tauto|]. cbn [LibModel.perform]. unfold get_version. change (voucher_of (clear l) p) with (voucher_of l p). rewrite V. destruct p; [discriminate V|reflexivity|reflexivity].
  - destruct AL as [->|ML]; [eapply OK; [discriminate|tauto|reflexivity]|]. destruct (live_voucher _ _ _ _ _ _ IV ML) as (v & V & SF & (g & GT) & _).
    eapply OK; [discriminate|tauto|]. cbn [LibModel.perform]. unfold get_guid. change (voucher_of (clear l) p) with (voucher_of l p). rewrite V, GT, (guid_no_nul _ _ GT). destruct p; [discriminate V|reflexivity|reflexivity].
  - destruct AL as [->|ML]; [eapply OK; [discriminate|tauto|reflexivity]|]. destruct (live_voucher _ _ _ _ _ _ IV ML) as (v & V & SF & _ & NN).
    eapply OK; [discriminate|tauto|]. cbn [LibModel.perform]. unfold get_info. change (voucher_of (clear l) p) with (voucher_of l p). rewrite V. cbv zeta. rewrite NN. destruct p; [discriminate V|reflexivity|reflexivity].
  - destruct AL as [->|ML]; [eapply OK; [discriminate|tauto|reflexivity]|]. destruct (live_text _ _ _ _ _ _ IV ML) as (a & s & -> & H & _).
    eapply OK; [discriminate|tauto|]. cbn [LibModel.perform]. unfold free_text. cbn [clear l_heap]. rewrite H. reflexivity.
  - cbn [LibModel.perform broken_data]. unfold last_error. pose proof (i_last _ _ _ _ _ IV) as LA. rewrite LA. destruct (pending_error c chk et h) as [e|].
    + destruct (has_nul e); cbn [alloc]; split; try discriminate; split; auto; try discriminate. intros [[]|[_ X]]. discriminate X.
    + split; [discriminate|]. split; auto.
  - cbn [allowed] in AL. destruct (live_text _ _ _ _ _ _ IV AL) as (a & s & -> & H & _). eapply OK; [discriminate|tauto|]. cbn [LibModel.perform]. unfold read_text. cbn [text_of]. rewrite H. reflexivity.
Qed.

Theorem program_inv h l : program c chk et h l -> Inv h l.
Proof. induction 1 as [|h l k l' r P IH AL E]; [apply start_inv|]. exact (proj1 (step _ _ _ _ _ IH AL E)). Qed.
End Step.
