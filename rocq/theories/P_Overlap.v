(** C88-C90: overlapping calls of the directory store. *)
From Verif Require Import Base BaseFacts ValueModel Text Assoc StoreModel StoreSpec StoreProofs OverlapModel OverlapSpec
  OverlapProofs OverlapProofs2 OverlapProofs3.
From Coq Require Import ZifyBool ZifyNat ZifyN.
Local Open Scope N_scope.

(** * C88 *)
(** In whatever order the system calls of the calls under way are made: if no two calls about the same file overlap,
    every call returns what it returns when the calls are made one at a time, and the files are left as then. *)
Theorem C88_as_one_at_a_time {V} (c : codec V) d l s h :
  (forall n f, aget (tmp_of n) d = Some f -> f_xattr f = []) -> (forall o, begun l o -> proper o) ->
  moves c (start d) l = (s, h) -> apart same_file nobody h ->
  exists d', replays c nobody d h d' /\ forall n, ~ temporary n -> file_at (st_fs s) n = aget n d'.
Proof.
  intros LT PR M AP. destruct (serial_run c l _ _ _ nobody _ _ (start_inv c d LT) (fun t => eq_refl) PR M AP) as (d' & R & A & _).
  exists d'. split; [exact R|]. intros n NT. symmetry. apply A. exact NT.
Qed.
(** The calls with keys without dots are proper, among them all that the servers make: GUIDs and session identifiers. *)
Theorem C88_plain_keys {V} (k : key) : plain_key k -> forall o : qop V, target o = get_path k -> proper o.
Proof.
  intros P o E. assert (H : ~ temporary (get_path k)).
  { intros [m H]. assert (F : Forall (fun x => x <> 46) (get_path k)).
    { unfold get_path. clear H E. induction P as [|x r [_ N46] _ IH]; cbn [flat_map]; [constructor|]. apply Forall_app. split; [|exact IH].
      destruct (x =? 47); [vm_compute; repeat (constructor; [discriminate|]); constructor|constructor; [exact N46|constructor]]. }
    rewrite H in F. inversion F; subst. contradiction. }
  destruct o; cbn [proper target] in *; rewrite ?E; auto.
Qed.
(** Cleaning up is sweeping one file after the other. *)
Theorem C88_maintenance_sweeps now d d' : NoDup (adom d) -> dir_maint now d = (d', Ok tt) ->
  fold_left (fun x n => fst (sweep now x n)) (adom d) d = d'.
Proof.
  assert (G : forall l pre d', NoDup (adom (pre ++ l)) -> dir_maint now l = (d', Ok tt) ->
    fold_left (fun x n => fst (sweep now x n)) (adom l) (pre ++ l) = pre ++ d').
  { unfold dir_maint. induction l as [|[n f] r IH]; intros pre d1 ND M; cbn [maint_loop] in M; [injection M as <-; reflexivity|].
    cbn [adom map fst fold_left]. assert (NI : ~ In n (adom pre) /\ ~ In n (adom r)).
    { unfold adom in ND. rewrite map_app in ND. cbn [map fst] in ND. apply NoDup_remove_2 in ND. split; intros H; apply ND, in_or_app; auto. }
    assert (AG : aget n (pre ++ (n, f) :: r) = Some f).
    { clear - NI. destruct NI as [NI _]. induction pre as [|[m g] pre IH]; cbn [app aget]; [rewrite name_eqb_refl; reflexivity|].
      destruct (bytes_eqb n m) eqn:E; [apply bytes_eqb_spec in E; subst m; exfalso; apply NI; left; reflexivity|]. apply IH. intros H. apply NI. right. exact H. }
    assert (AD : adel n (pre ++ (n, f) :: r) = pre ++ r).
    { assert (Q : forall z : dir, ~ In n (adom z) -> adel n z = z).
      { clear. induction z as [|[m g] z IH]; intros H; [reflexivity|]. unfold adel in *. cbn [filter fst]. destruct (bytes_eqb n m) eqn:E;
          [apply bytes_eqb_spec in E; subst m; exfalso; apply H; left; reflexivity|]. cbn [negb]. f_equal. apply IH. intros I. apply H. right. exact I. }
      transitivity (adel n pre ++ adel n r); [unfold adel; rewrite filter_app; cbn [filter fst]; rewrite name_eqb_refl; reflexivity|].
      rewrite (Q pre (proj1 NI)), (Q r (proj2 NI)). reflexivity. }
    assert (ND1 : NoDup (adom ((pre ++ [(n, f)]) ++ r))) by (rewrite <- app_assoc; exact ND).
    assert (ND2 : NoDup (adom (pre ++ r))).
    { unfold adom in *. rewrite map_app in *. cbn [map fst] in ND. eapply NoDup_remove_1. exact ND. }
    unfold sweep at 2. rewrite AG. unfold dir_maint. cbn [maint_loop].
    destruct (aget (xname Ttl) (f_xattr f)) as [b|] eqn:T.
    - destruct (ttl_from_disk b) as [y|e|w]; [|discriminate|discriminate].
      destruct (maint_loop now r) as [r' o] eqn:MR. injection M as <- ->. destruct (now <? y) eqn:L; cbn [fst].
      + replace (pre ++ (n, f) :: r) with ((pre ++ [(n, f)]) ++ r) by (rewrite <- app_assoc; reflexivity).
        fold (@adom file r). rewrite (IH (pre ++ [(n, f)]) r' ND1 eq_refl). rewrite <- app_assoc. reflexivity.
      + rewrite AD. fold (@adom file r). rewrite (IH pre r' ND2 eq_refl). reflexivity.
    - destruct (maint_loop now r) as [r' o] eqn:MR. injection M as <- ->. cbn [fst].
      replace (pre ++ (n, f) :: r) with ((pre ++ [(n, f)]) ++ r) by (rewrite <- app_assoc; reflexivity).
      fold (@adom file r). rewrite (IH (pre ++ [(n, f)]) r' ND1 eq_refl). rewrite <- app_assoc. reflexivity. }
  intros ND M. exact (G d [] d' ND M).
Qed.

(** Two devices' records stored, one being loaded and cleaned up meanwhile. *)
Definition oc : codec bytes :=
  Codec (fun v => Ok (nlen v :: v)) (fun b => match b with n :: r => if nlen r =? n then Some r else None | [] => None end).
Definition oa : str := txt "a1".
Definition ob : str := txt "b2".
Definition old_file (v : bytes) (secs : N) : file := File (nlen v :: v) [(xname Ttl, le_enc 8 secs)].
Definition o_dir : dir := [(oa, old_file [7; 7] 5); (tmp_of ob, File [9] [])].
Definition o_moves : list (move (V := bytes)) :=
  [Begin 1 (QLoad oa); Begin 2 (QStore ob [3; 4]); Go 1 0 (9 * SEC); Go 2 0 (9 * SEC); Begin 3 (QSweep (tmp_of ob));
   Go 1 0 (10 * SEC); Go 2 1 (10 * SEC); Go 3 0 (10 * SEC); Go 1 0 (11 * SEC); Go 2 9 (11 * SEC); Begin 1 (QLoad oa); Go 1 0 (12 * SEC);
   Go 2 0 (12 * SEC); Begin 2 (QMeta ob Ttl (MDur 100)); Begin 1 (QStore oa [8]); Go 1 0 (12 * SEC); Go 2 0 (12 * SEC); Go 1 5 (12 * SEC); Go 2 0 (13 * SEC); Go 1 0 (13 * SEC)].
Definition o_seen : list (seen (V := bytes)) := Eval vm_compute in snd (moves oc (start o_dir) o_moves).
Ltac apart_tac := repeat match goal with
  | |- True => exact Logic.I
  | |- _ /\ _ => split
  | |- forall t' o', _ -> ~ _ => let t := fresh in let o := fresh in let H := fresh in let B := fresh in
      intros t o H B; unfold at_task, nobody in H;
      repeat match type of H with (if ?b then _ else _) = _ => destruct b end; try discriminate H; injection H as <-;
      first [destruct B as (B & B1 & B2); try discriminate B1; try discriminate B2; vm_compute in B; discriminate B|vm_compute in B; discriminate B]
  end.
Lemma o_apart : apart same_file nobody o_seen.
Proof. unfold o_seen. cbn [apart]. apart_tac. Qed.
Lemma not_temporary n : match n with 46 :: _ => False | _ => True end -> ~ temporary n.
Proof. intros H [m ->]. exact H. Qed.
Ltac proper_tac := let o := fresh in let t := fresh in let H := fresh in
  intros o [t H]; cbn [In] in H; repeat (destruct H as [H|H]; [first [discriminate H|injection H as _ <-]; cbn [proper target]; first [exact Logic.I|apply not_temporary; vm_compute; exact Logic.I]|]); destruct H.
Example C88_case : (forall n f, aget (tmp_of n) o_dir = Some f -> f_xattr f = []) /\ (forall o, begun o_moves o -> proper o) /\
  snd (moves oc (start o_dir) o_moves) = o_seen /\ apart same_file nobody o_seen /\
  filter (fun e => match e with HEnd _ _ => true | _ => false end) o_seen =
    [HEnd 3 (Ok None); HEnd 1 (Ok None); HEnd 1 (Ok None); HEnd 2 (Ok None); HEnd 2 (Ok None); HEnd 1 (Ok None)] /\
  file_at (st_fs (fst (moves oc (start o_dir) o_moves))) ob = Some (File [2; 3; 4] [(xname Ttl, le_enc 8 113)]).
Proof.
  split; [|split; [unfold o_moves; proper_tac|split; [reflexivity|split; [exact o_apart|split; vm_compute; reflexivity]]]].
  intros n f H. unfold o_dir in H. cbn [aget] in H. destruct (bytes_eqb (tmp_of n) oa) eqn:E; [apply bytes_eqb_spec in E; discriminate|].
  destruct (bytes_eqb (tmp_of n) (tmp_of ob)); [injection H as <-; reflexivity|discriminate].
Qed.

(** * C89 *)
(** Stores succeed, and loads return whole values, not outdated ones, whatever overlaps. *)
Definition C89_statement : Prop := forall V (c : codec V) T d l s h,
  left_by_stores c d -> (forall o, begun l o -> sound_op c T o) -> before T l ->
  moves c (start d) l = (s, h) -> regular (values c d) nobody h.
(** It does as long as no two stores of the same key overlap; loads, changes of attributes, clean-ups and
    removals may overlap with them and with each other. *)
Theorem C89_loads_are_whole_partial {V} (c : codec V) T d l s h :
  left_by_stores c d -> (forall o, begun l o -> sound_op c T o) -> before T l ->
  moves c (start d) l = (s, h) -> apart both_store nobody h -> regular (values c d) nobody h.
Proof.
  intros LB PR BF M AP. destruct (regular_run c T l _ _ _ nobody _ _ (start_rinv c T d LB) (fun t => eq_refl) PR BF M AP) as (R & _). exact R.
Qed.
(** Two stores of the same key at once write to the same temporary file: a record is left that cannot be read, and one of
    them fails. *)
Definition torn_moves : list (move (V := bytes)) :=
  [Begin 1 (QStore oa [1; 1]); Begin 2 (QStore oa [2]); Go 1 0 0; Go 2 0 0; Go 1 9 0; Go 2 9 0; Go 1 0 0; Go 2 0 0;
   Begin 3 (QLoad oa); Go 3 0 0; Go 3 0 0; Go 3 9 0; Go 3 0 0].
Example C89_torn : filter (fun e => match e with HEnd _ _ => true | _ => false end) (snd (moves oc (start []) torn_moves)) =
  [HEnd 1 (Ok None); HEnd 2 (Err SUnspecified); HEnd 3 (Err SUnspecified)].
Proof. vm_compute. reflexivity. Qed.
Lemma oc_store T k v : match get_path k with 46 :: _ => False | _ => True end -> sound_op oc T (QStore k v).
Proof. intros H. split; [apply not_temporary; exact H|]. exists (nlen v :: v). cbn. rewrite N.eqb_refl. auto. Qed.
Ltac before_tac := let t := fresh in let k := fresh in let now := fresh in let H := fresh in
  intros t k now H; cbn [In] in H; repeat (destruct H as [H|H]; [first [discriminate H|injection H as _ _ <-; vm_compute; reflexivity]|]); destruct H.
Ltac sound_tac := let o := fresh in let t := fresh in let H := fresh in
  intros o [t H]; cbn [In] in H; repeat (destruct H as [H|H]; [first [discriminate H|injection H as _ <-];
    first [apply oc_store; vm_compute; exact Logic.I|split; [cbn [proper target]; first [exact Logic.I|apply not_temporary; vm_compute; exact Logic.I]|
      first [exact Logic.I|eexists; split; [reflexivity|vm_compute; reflexivity]]]]|]); destruct H.
Theorem C89_refuted : ~ C89_statement.
Proof.
  intros H. specialize (H bytes oc 1 [] torn_moves (fst (moves oc (start []) torn_moves)) (snd (moves oc (start []) torn_moves))).
  assert (R : regular (values oc []) nobody (snd (moves oc (start []) torn_moves))).
  { apply H; [intros n f []|unfold torn_moves; sound_tac|unfold torn_moves; before_tac|apply surjective_pairing]. }
  assert (E : exists r1 r2, snd (moves oc (start []) torn_moves) =
    [HBegin 1 (QStore oa [1; 1]); HBegin 2 (QStore oa [2])] ++ r1 ++ [HEnd 1 (Ok None); HGo 2 0; HEnd 2 (Err SUnspecified)] ++ r2 /\
    r1 = [HGo 1 0; HGo 2 0; HGo 1 0; HGo 2 0; HGo 1 0]).
  { eexists _, (skipn 10 (snd (moves oc (start []) torn_moves))). split; [|reflexivity]. vm_compute. reflexivity. }
  destruct E as (r1 & r2 & E & ->). rewrite E in R. cbn in R. destruct R as (_ & R & _). discriminate R.
Qed.

(** A load that opened the old record still returns it while the new one is stored; one that opens after it returns the new. *)
Definition w_dir : dir := [(oa, old_file [7; 7] 50)].
Definition w_moves : list (move (V := bytes)) :=
  [Begin 1 (QLoad oa); Begin 2 (QStore oa [3]); Go 1 0 0; Go 2 0 0; Go 2 4 0; Begin 3 (QLoad oa); Go 1 0 0; Go 2 0 0; Go 3 0 0; Go 1 1 0; Go 1 7 0; Go 3 0 0; Go 1 0 0;
   Go 3 8 0; Begin 4 (QDestroy oa); Go 4 0 0; Go 3 0 0; Begin 5 (QMeta oa Ttl (MDur 3)); Go 5 0 0].
Definition w_seen : list (seen (V := bytes)) := Eval vm_compute in snd (moves oc (start w_dir) w_moves).
Example C89_case : left_by_stores oc w_dir /\ (forall o, begun w_moves o -> sound_op oc 1 o) /\ before 1 w_moves /\
  snd (moves oc (start w_dir) w_moves) = w_seen /\ apart both_store nobody w_seen /\
  filter (fun e => match e with HEnd _ _ => true | _ => false end) w_seen =
    [HEnd 2 (Ok None); HEnd 1 (Ok (Some [7; 7])); HEnd 4 (Ok None); HEnd 3 (Ok (Some [3])); HEnd 5 (Ok None)].
Proof.
  split; [|split; [unfold w_moves; sound_tac|split; [unfold w_moves; before_tac|split; [reflexivity|split; [unfold w_seen; cbn [apart]; apart_tac|vm_compute; reflexivity]]]]].
  intros n f [H|[]]. injection H as <- <-. split; [eexists; vm_compute; reflexivity|]. split.
  - intros TE. exfalso. revert TE. apply not_temporary. exact Logic.I.
  - intros _. exists [7; 7]. reflexivity.
Qed.

(** * C90 *)
(** A record that has been stored, and has no expiry, is found by every later load until something is done to it, whatever loads
    and clean-ups are under way when it is stored. *)
Definition C90_statement : Prop := forall V (c : codec V) T d l1 l2 h1 s1 h2 s2 t k v,
  left_by_stores c d -> (forall o, begun (l1 ++ l2) o -> sound_op c T o) -> before T (l1 ++ l2) ->
  moves c (start d) l1 = (s1, h1 ++ [HEnd t (Ok None)]) -> moves c s1 l2 = (s2, h2) ->
  apart both_store nobody ((h1 ++ [HEnd t (Ok None)]) ++ h2) ->
  pending nobody h1 t = Some (QStore k v) ->
  (forall t' o, t' <> t -> pending nobody h1 t' = Some o -> changes o = true -> target o <> get_path k) ->
  undisturbed (get_path k) h2 -> finds (get_path k) v (fun _ => false) h2.
(** It is, if no load or clean-up of that key was under way when the record was put in place. *)
Theorem C90_record_stays_partial {V} (c : codec V) T d l1 l2 h1 s1 h2 s2 t k v :
  left_by_stores c d -> (forall o, begun (l1 ++ l2) o -> sound_op c T o) -> before T (l1 ++ l2) ->
  moves c (start d) l1 = (s1, h1 ++ [HEnd t (Ok None)]) -> moves c s1 l2 = (s2, h2) ->
  apart both_store nobody ((h1 ++ [HEnd t (Ok None)]) ++ h2) ->
  pending nobody h1 t = Some (QStore k v) ->
  (forall t' o, t' <> t -> pending nobody h1 t' = Some o -> target o <> get_path k) ->
  undisturbed (get_path k) h2 -> finds (get_path k) v (fun _ => false) h2.
Proof. apply stays. Qed.
(** A load that found the previous record expired removes the new one. *)
Definition lost1 : list (move (V := bytes)) :=
  [Begin 1 (QLoad oa); Go 1 0 (9 * SEC); Go 1 0 (9 * SEC); Begin 2 (QStore oa [3]); Go 2 0 (9 * SEC); Go 2 9 (9 * SEC); Go 2 0 (9 * SEC)].
Definition lost2 : list (move (V := bytes)) := [Go 1 0 (10 * SEC); Begin 3 (QLoad oa); Go 3 0 (10 * SEC)].
Definition lost_dir : dir := [(oa, old_file [7; 7] 5)].
Lemma lost_left : left_by_stores oc lost_dir.
Proof.
  intros n f [H|[]]. injection H as <- <-. split; [eexists; vm_compute; reflexivity|]. split.
  - intros TE. exfalso. revert TE. apply not_temporary. exact Logic.I.
  - intros _. exists [7; 7]. reflexivity.
Qed.
Definition lost_h1 : list (seen (V := bytes)) := Eval vm_compute in removelast (snd (moves oc (start lost_dir) lost1)).
Definition lost_h2 : list (seen (V := bytes)) := Eval vm_compute in snd (moves oc (fst (moves oc (start lost_dir) lost1)) lost2).
Example C90_lost : snd (moves oc (start lost_dir) lost1) = lost_h1 ++ [HEnd 2 (Ok None)] /\
  lost_h2 = [HGo 1 (10 * SEC); HEnd 1 (Ok None); HBegin 3 (QLoad oa); HGo 3 (10 * SEC); HEnd 3 (Ok None)].
Proof. split; vm_compute; reflexivity. Qed.
Theorem C90_refuted : ~ C90_statement.
Proof.
  intros H. specialize (H bytes oc (11 * SEC) lost_dir lost1 lost2 lost_h1 (fst (moves oc (start lost_dir) lost1)) lost_h2
    (fst (moves oc (fst (moves oc (start lost_dir) lost1)) lost2)) 2 oa [3]).
  assert (F : finds (get_path oa) [3] (fun _ => false) lost_h2).
  { apply H.
    - exact lost_left.
    - unfold lost1, lost2. cbn [app]. sound_tac.
    - unfold lost1, lost2. cbn [app]. before_tac.
    - rewrite <- (proj1 C90_lost). apply surjective_pairing.
    - change lost_h2 with (snd (moves oc (fst (moves oc (start lost_dir) lost1)) lost2)). apply surjective_pairing.
    - unfold lost_h1, lost_h2. cbn [app apart]. apart_tac.
    - reflexivity.
    - intros t' o NE G CH. unfold lost_h1 in G. cbn [pending] in G. unfold at_task, nobody in G.
      repeat match type of G with (if ?b then _ else _) = _ => destruct b eqn:? end; try discriminate G; injection G as <-; [lia|discriminate CH].
    - intros t o I. unfold lost_h2 in I. cbn [In] in I. repeat (destruct I as [I|I]; [first [discriminate I|injection I as _ <-; discriminate]|]). destruct I. }
  rewrite (proj2 C90_lost) in F. cbn [finds] in F. destruct F as (_ & F & _). vm_compute in F. specialize (F eq_refl). discriminate F.
Qed.
(** The record is found by loads that overlap with each other and with a clean-up that began later. *)
Definition stay1 : list (move (V := bytes)) := [Begin 2 (QStore oa [3]); Begin 5 (QLoad ob); Go 2 0 (9 * SEC); Go 2 9 (9 * SEC); Go 5 0 (9 * SEC); Go 2 0 (9 * SEC)].
Definition stay2 : list (move (V := bytes)) :=
  [Begin 6 (QSweep oa); Begin 3 (QLoad oa); Go 3 0 (10 * SEC); Go 6 0 (10 * SEC); Begin 4 (QLoad oa); Go 3 0 (10 * SEC); Go 4 0 (10 * SEC); Go 3 9 (10 * SEC); Go 3 9 (10 * SEC)].
Definition stay_h1 : list (seen (V := bytes)) := Eval vm_compute in removelast (snd (moves oc (start lost_dir) stay1)).
Definition stay_h2 : list (seen (V := bytes)) := Eval vm_compute in snd (moves oc (fst (moves oc (start lost_dir) stay1)) stay2).
Example C90_case : snd (moves oc (start lost_dir) stay1) = stay_h1 ++ [HEnd 2 (Ok None)] /\
  apart both_store nobody ((stay_h1 ++ [HEnd 2 (Ok None)]) ++ stay_h2) /\ pending nobody stay_h1 2 = Some (QStore oa [3]) /\
  (forall t' o, t' <> 2 -> pending nobody stay_h1 t' = Some o -> target o <> get_path oa) /\
  (forall o, begun (stay1 ++ stay2) o -> sound_op oc (11 * SEC) o) /\ before (11 * SEC) (stay1 ++ stay2) /\
  undisturbed (get_path oa) stay_h2 /\ In (HEnd 3 (Ok (Some [3]))) stay_h2.
Proof.
  split; [vm_compute; reflexivity|]. split; [unfold stay_h1, stay_h2; cbn [app apart]; apart_tac|]. split; [reflexivity|]. split.
  { intros t' o NE G. unfold stay_h1 in G. cbn [pending] in G. unfold at_task, nobody in G.
    repeat match type of G with (if ?b then _ else _) = _ => destruct b eqn:? end; try discriminate G; injection G as <-; try lia; vm_compute; discriminate. }
  split; [unfold stay1, stay2; cbn [app]; sound_tac|]. split; [unfold stay1, stay2; cbn [app]; before_tac|]. split.
  { intros t o I. unfold stay_h2 in I. cbn [In] in I. repeat (destruct I as [I|I]; [first [discriminate I|injection I as _ <-; discriminate]|]). destruct I. }
  vm_compute. tauto.
Qed.

Print Assumptions C88_as_one_at_a_time.
Print Assumptions C88_plain_keys.
Print Assumptions C88_maintenance_sweeps.
Print Assumptions C89_loads_are_whole_partial.
Print Assumptions C89_refuted.
Print Assumptions C90_record_stays_partial.
Print Assumptions C90_refuted.
