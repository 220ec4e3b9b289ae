(** C75 to C77: rebinding and re-encrypting disks. *)
From Verif Require Import Base BaseFacts Text CborModel ValueModel SiModel DevSiModel HostModel HostProofs2 DiskModel DiskSpec DiskProofs.
From Coq Require Import ZifyBool ZifyNat ZifyN.
Local Open Scope N_scope.

(** ** C75 Rebinding *)
(** Whatever fails and wherever the machine stops: the disk still opens itself, and nothing was taken away before it opens
    with the new pin. *)
Theorem C75_never_locked_out w pin config s pc : disk_laws w -> opens_itself (ds_lk s) pc ->
  let lk' := ds_lk (fst (rebind_clevis w pin config s)) in
  (exists pc', opens_itself lk' pc') /\
  ((forall i slot, kept_but i slot (ds_lk s) lk') \/ exists i slot pc0, i < 10 /\ bound (ds_lk s) i slot pc0 /\ kept_but i slot (ds_lk s) lk' /\ opens_itself lk' (pin, config)).
Proof.
  intros (PL & BL & _) (i0 & slot0 & B0 & S0) lk'. unfold lk'. destruct (rebind_clevis w pin config s) as [s' r] eqn:E. cbn [fst]. apply rebind_cases in E. inversion E as [E1 E2|i slot pass pc1 lk1 ok log I B P BD E1 E2|i slot pass pc1 lk1 log I B P BD E1 E2|i slot pass pc1 lk1 log I B P BD U E1 E2].
  - split; [exists pc, i0, slot0; auto|left]. intros i slot. split; auto.
  - destruct (BL _ _ _ _ _ _ _ BD) as (KT & KS & _ & _). split.
    + exists pc, i0, slot0. split; [eapply bound_kept; [exact B0|apply KT]|]. unfold slot_there in *. destruct (lk_slots (ds_lk s) slot0) as [p|] eqn:Q; [|congruence]. rewrite (KS _ _ Q). discriminate.
    + left. intros i' slot'. split; auto.
  - destruct (BL _ _ _ _ _ _ _ BD) as (KT & KS & _ & NW). destruct (NW eq_refl) as (i' & slot' & [F _] & FS & B' & S' & _). destruct (new_apart _ _ _ _ _ _ _ _ _ B (P PL) F FS B' S' (lk_slots lk1) (or_introl eq_refl)) as (B2 & S2 & _).
    split; [exists (pin, config), i', slot'; auto|]. right. exists i, slot, pc1. split; [exact I|]. split; [exact B|]. split; [|exists i', slot'; auto]. split; cbn [lk_tokens lk_slots].
    + intros j t T N. rewrite del_ne by exact N. apply KT. exact T.
    + intros j p Q N. apply KS. exact Q.
  - destruct (BL _ _ _ _ _ _ _ BD) as (KT & KS & _ & NW). destruct (NW eq_refl) as (i' & slot' & [F _] & FS & B' & S' & _). destruct (new_apart _ _ _ _ _ _ _ _ _ B (P PL) F FS B' S' _ (or_intror eq_refl)) as (B2 & S2 & _).
    split; [exists (pin, config), i', slot'; auto|]. right. exists i, slot, pc1. split; [exact I|]. split; [exact B|]. split; [|exists i', slot'; auto]. split; cbn [lk_tokens lk_slots].
    + intros j t T N. rewrite del_ne by exact N. apply KT. exact T.
    + intros j p Q N. rewrite del_ne by exact N. apply KS. exact Q.
Qed.
(** Success: the disk is bound with the new pin and no longer with the old one, whose slot is gone; nothing else changed. *)
Theorem C75_rebound w pin config s s' : disk_laws w -> rebind_clevis w pin config s = (s', Ok tt) ->
  exists i slot pc i' slot', bound (ds_lk s) i slot pc /\ bound (ds_lk s') i' slot' (pin, config) /\ slot_there (ds_lk s') slot' /\ i' <> i /\ slot' <> slot /\
    lk_tokens (ds_lk s') i = None /\ lk_slots (ds_lk s') slot = None /\ kept_but i slot (ds_lk s) (ds_lk s') /\ new_only i' slot' (ds_lk s) (ds_lk s') /\ lk_pending (ds_lk s') = lk_pending (ds_lk s).
Proof.
  intros (PL & BL & _) E. apply rebind_cases in E. inversion E as [| | |i slot pass pc1 lk1 log I B P BD U E1 E2]. destruct (BL _ _ _ _ _ _ _ BD) as (KT & KS & PE & NW). destruct (NW eq_refl) as (i' & slot' & FF & FS & B' & S' & N1 & N2). pose proof FF as [F _].
  destruct (new_apart _ _ _ _ _ _ _ _ _ B (P PL) F FS B' S' _ (or_intror eq_refl)) as (B2 & S2 & NI & NS). exists i, slot, pc1, i', slot'. split; [exact B|]. split; [exact B2|]. split; [exact S2|]. split; [exact NI|]. split; [exact NS|].
  cbn [lk_tokens lk_slots lk_pending]. split; [apply del_eq|]. split; [apply del_eq|]. split; [|split; [|exact PE]].
  - split; cbn [lk_tokens lk_slots]; intros j t T N; rewrite del_ne by exact N; auto.
  - split; cbn [lk_tokens lk_slots]; intros j T N; [destruct (N.eq_dec j i) as [->|NE]; [apply del_eq|rewrite del_ne by exact NE; auto]|destruct (N.eq_dec j slot) as [->|NE]; [apply del_eq|rewrite del_ne by exact NE; auto]].
Qed.
(** On a machine that works, a disk with one binding is rebound, as often as one likes, as long as one of the first ten
    tokens is free. *)
Definition room (lk : luks) : Prop := (exists i, i < 10 /\ free_token lk i) /\ exists s, s < MAX /\ lk_slots lk s = None.
Lemma room_has lk : room lk -> has_room lk.
Proof. intros [(i & I & F) S]. split; [exists i; split; [unfold MAX; lia|exact F]|exact S]. Qed.
Lemma rebind_fine w pin config s i slot pc : all_fine w -> one_binding (ds_lk s) i slot pc -> has_room (ds_lk s) ->
  exists s' i' slot', rebind_clevis w pin config s = (s', Ok tt) /\ bound (ds_lk s') i' slot' (pin, config) /\ slot_there (ds_lk s') slot' /\ first_free (ds_lk s) i' /\
    lk_tokens (ds_lk s') i = None /\ lk_slots (ds_lk s') slot = None /\ kept_but i slot (ds_lk s) (ds_lk s') /\ new_only i' slot' (ds_lk s) (ds_lk s') /\ lk_pending (ds_lk s') = lk_pending (ds_lk s).
Proof.
  intros (DL & IO & PS & BD & _) OB R. destruct (tsp_works w s i slot pc IO PS OB) as (s1 & pass & E & L & SL).
  assert (RB : exists s', rebind_clevis w pin config s = (s', Ok tt)).
  { unfold rebind_clevis. rewrite (dbind_step _ _ _ _ _ E). unfold clevis_bind, delete_clevis_token_and_slot, dbind, dread, run, dcall. rewrite IO. cbn [ds_lk ds_log]. rewrite L.
    destruct (BD (ds_log s1 ++ [DPath]) pin config pass slot (ds_lk s) R SL) as (lk' & X). rewrite X. cbn [ds_lk ds_log]. rewrite !IO. eauto. }
  destruct RB as [s' RB]. exists s'. pose proof RB as RC. apply rebind_cases in RC. inversion RC as [| | |i1 slot1 pass1 pc1 lk1 log I1 B1 P1 BD1 U E1 E2]. clear RC.
  destruct OB as (I & B & ST & UN). assert (i1 = i) by (apply UN; [exact I1|eapply bound_clevis; exact B1]). subst i1. destruct (bound_fun _ _ _ _ _ _ B B1) as [<- <-].
  destruct DL as (PL & BL & _). destruct (BL _ _ _ _ _ _ _ BD1) as (KT & KS & PE & NW). destruct (NW eq_refl) as (i' & slot' & FF & FS & B' & S' & N1 & N2). pose proof FF as [F _].
  destruct (new_apart _ _ _ _ _ _ _ _ _ B (P1 PL) F FS B' S' _ (or_intror eq_refl)) as (B2 & S2 & NI & NS).
  exists i', slot'. split; [exact RB|]. split; [exact B2|]. split; [exact S2|]. split; [exact FF|]. cbn [lk_tokens lk_slots lk_pending]. split; [apply del_eq|]. split; [apply del_eq|]. split; [|split; [|exact PE]].
  - split; cbn [lk_tokens lk_slots]; intros j x T N; rewrite del_ne by exact N; auto.
  - split; cbn [lk_tokens lk_slots]; intros j T N; [destruct (N.eq_dec j i) as [->|NE]; [apply del_eq|rewrite del_ne by exact NE; auto]|destruct (N.eq_dec j slot) as [->|NE]; [apply del_eq|rewrite del_ne by exact NE; auto]].
Qed.
Theorem C75_works w pin config s i slot pc : all_fine w -> one_binding (ds_lk s) i slot pc -> room (ds_lk s) -> slot < MAX ->
  exists s' i' slot', rebind_clevis w pin config s = (s', Ok tt) /\ one_binding (ds_lk s') i' slot' (pin, config) /\ room (ds_lk s').
Proof.
  intros AF OB R SM. destruct (rebind_fine w pin config s i slot pc AF OB (room_has _ R)) as (s' & i' & slot' & E & B & ST & (FF & FL) & TG & SG & KB & NO & _). exists s', i', slot'. split; [exact E|].
  destruct R as [(k & K & FK) _]. destruct OB as (I & B0 & S0 & UN). assert (I10 : i' < 10). { destruct (N.le_gt_cases i' k) as [L|L]; [lia|]. exfalso. exact (FL k L FK). } split.
  - split; [exact I10|]. split; [exact B|]. split; [exact ST|]. intros j J C. destruct (N.eq_dec j i') as [|NE]; [assumption|exfalso]. destruct (lk_tokens (ds_lk s) j) as [t|] eqn:T.
    + destruct (N.eq_dec j i) as [->|NI]; [rewrite TG in C; discriminate|]. destruct KB as [KB _]. rewrite (KB j t T NI) in C. apply NI. apply UN; [exact J|]. rewrite T. exact C.
    + destruct NO as [NO _]. rewrite (NO j T NE) in C. discriminate.
  - split; [exists i; split; [exact I|exact TG]|exists slot; auto].
Qed.

(** ** C76 Interrupted rebinding *)
(** Two tokens of clevis: from then on rebinding and re-encryption fail, always and without doing anything. *)
Theorem C76_stuck w pin config re s i j : i < 10 -> j < 10 -> i <> j -> is_clevis (lk_tokens (ds_lk s) i) = true -> is_clevis (lk_tokens (ds_lk s) j) = true ->
  (exists s', rebind_clevis w pin config s = (s', Err tt) /\ ds_lk s' = ds_lk s) /\ (exists s', initiate_reencrypt w s = (s', Err tt) /\ ds_lk s' = ds_lk s) /\ exists s', encrypt_disk w pin config re s = (s', Err tt) /\ ds_lk s' = ds_lk s.
Proof.
  intros I J NE CI CJ. assert (G : forall s0, ds_lk s0 = ds_lk s -> exists s', get_clevis_token_slot_pass w s0 = (s', Err tt) /\ ds_lk s' = ds_lk s).
  { intros s0 L0. destruct (no_panic_reads w s0) as (s' & r & E & NP). exists s'. pose proof (reads_ok _ _ _ _ (reads_tsp w) E) as L. destruct r as [[[k sl] p]|[]|x]; [exfalso|split; [exact E|congruence]|exfalso; eapply NP; reflexivity].
    apply tsp_ok in E. destruct E as (_ & _ & _ & _ & U). rewrite L0 in U. rewrite <- (U i I CI) in U. apply NE. symmetry. apply U; assumption. }
  assert (RB : forall s0, ds_lk s0 = ds_lk s -> exists s', rebind_clevis w pin config s0 = (s', Err tt) /\ ds_lk s' = ds_lk s). { intros s0 L0. destruct (G s0 L0) as (s' & E & L). exists s'. unfold rebind_clevis, dbind at 1. rewrite E. auto. }
  split; [apply RB; reflexivity|]. split; [destruct (G s eq_refl) as (s' & E & L); exists s'; unfold initiate_reencrypt, dbind at 1; rewrite E; auto|].
  unfold encrypt_disk. unfold dbind at 1. unfold dread at 1. destruct (dw_io w _); [|eexists; split; [reflexivity|reflexivity]]. unfold dbind at 1. unfold dread at 1. destruct (dw_io w _); [|eexists; split; [reflexivity|reflexivity]].
  cbn [ds_lk ds_log]. match goal with |- context [dbind (rebind_clevis w pin config) _ ?s0] => destruct (RB s0 eq_refl) as (s' & E & L) end. exists s'. unfold dbind at 1. rewrite E. auto.
Qed.
(** Statement: after an attempt that was interrupted, another one on a machine that works succeeds, as long as there is still room. *)
Definition C76_resume_statement : Prop := forall w w2 pin config s i slot pc, disk_laws w -> all_fine w2 -> one_binding (ds_lk s) i slot pc -> room (ds_lk s) -> slot < MAX ->
  let s1 := fst (rebind_clevis w pin config s) in room (ds_lk s1) ->
  exists s2, rebind_clevis w2 pin config s1 = (s2, Ok tt).
(** It holds if clevis had not yet changed anything, or the old token was already removed. *)
Theorem C76_resume_partial w w2 pin config s i slot pc : disk_laws w -> all_fine w2 -> one_binding (ds_lk s) i slot pc -> room (ds_lk s) -> slot < MAX ->
  let s1 := fst (rebind_clevis w pin config s) in room (ds_lk s1) -> ds_lk s1 = ds_lk s \/ lk_tokens (ds_lk s1) i = None ->
  exists s2, rebind_clevis w2 pin config s1 = (s2, Ok tt).
Proof.
  intros DL AF OB R SM s1 R1 H. assert (ONE : exists k sl pck, one_binding (ds_lk s1) k sl pck).
  { destruct H as [->|H]; [eauto|]. unfold s1 in *. destruct (rebind_clevis w pin config s) as [s' r] eqn:E. cbn [fst] in *. apply rebind_cases in E. destruct DL as (PL & BL & _). pose proof OB as (I & B & ST & UN).
    assert (NEW : forall lk1 log pass, dw_bind w (log ++ [DBind pin config (pass ++ [LF])]) (ds_lk s) = (lk1, true) -> lk_slots (ds_lk s) slot = Some pass -> forall sl, (sl = lk_slots lk1 \/ sl = del_at (lk_slots lk1) slot) ->
      exists i' slot', one_binding (Luks (del_at (lk_tokens lk1) i) sl (lk_pending lk1)) i' slot' (pin, config)).
    { intros lk1 log pass BD P sl SL. destruct (BL _ _ _ _ _ _ _ BD) as (KT & KS & _ & NW). destruct (NW eq_refl) as (i' & slot' & FF & FS & B' & S' & N1 & N2). pose proof FF as [F FL].
      destruct (new_apart _ _ _ _ _ _ _ _ _ B P F FS B' S' sl SL) as (B2 & S2 & NI & NS). exists i', slot'. split.
      - destruct R as [(k & K & FK) _]. destruct (N.le_gt_cases i' k) as [L|L]; [lia|]. exfalso. exact (FL k L FK).
      - split; [exact B2|]. split; [exact S2|]. cbn [lk_tokens]. intros j J C. destruct (N.eq_dec j i') as [|NE]; [assumption|exfalso]. destruct (N.eq_dec j i) as [->|NJ]; [rewrite del_eq in C; discriminate|]. rewrite del_ne in C by exact NJ.
        destruct (lk_tokens (ds_lk s) j) as [t|] eqn:T; [rewrite (KT _ _ T) in C; apply NJ; apply UN; [exact J|rewrite T; exact C]|rewrite (N1 j T NE) in C; discriminate]. }
    inversion E as [E1 E2|i1 slot1 pass pc1 lk2 ok log I1 B1 P BD E1 E2|i1 slot1 pass pc1 lk2 log I1 B1 P BD E1 E2|i1 slot1 pass pc1 lk2 log I1 B1 P BD U E1 E2].
    - exists i, slot, pc. exact OB.
    - exfalso. destruct (BL _ _ _ _ _ _ _ BD) as (KT & _). apply bound_clevis in B. destruct (lk_tokens (ds_lk s) i) as [t|] eqn:T; [|discriminate]. rewrite (KT _ _ T) in H. discriminate.
    - assert (i1 = i) by (apply UN; [exact I1|eapply bound_clevis; exact B1]). subst i1. destruct (bound_fun _ _ _ _ _ _ B B1) as [<- <-]. destruct (NEW _ _ _ BD (P PL) _ (or_introl eq_refl)) as (i' & slot' & X). eauto.
    - assert (i1 = i) by (apply UN; [exact I1|eapply bound_clevis; exact B1]). subst i1. destruct (bound_fun _ _ _ _ _ _ B B1) as [<- <-]. destruct (NEW _ _ _ BD (P PL) _ (or_intror eq_refl)) as (i' & slot' & X). eauto. }
  destruct ONE as (k & sl & pck & ONE). destruct (rebind_fine w2 pin config s1 k sl pck AF ONE (room_has _ R1)) as (s2 & _ & _ & E & _). eauto.
Qed.

(** A machine *)
Fixpoint upto (n : nat) : list N := match n with O => [] | S k => upto k ++ [N.of_nat k] end.
Definition pick {X} (f : N -> option X) : option N := find (fun i => match f i with None => true | Some _ => false end) (upto 32).
Definition clevis_json (slot : N) : json := JObj [(txt "type", JStr CLEVIS); (txt "keyslots", JArr [JStr (dec_str slot)])].
Definition toy_bind (lk : luks) (pin config : str) (stdin : bytes) : luks * bool :=
  match pick (lk_tokens lk), pick (lk_slots lk) with
  | Some i, Some slot => (Luks (put_at (lk_tokens lk) i (Token (ExternalUnknown CLEVIS) (clevis_json slot) (pin, config))) (put_at (lk_slots lk) slot [100 + slot]) (lk_pending lk), true)
  | _, _ => (lk, false)
  end.
Definition lastop (l : list dop) : option dop := match rev l with o :: _ => Some o | [] => None end.
Definition toy_disk (io : list dop -> bool) : dworld :=
  DW io (fun l lk => match lastop l with Some (DPass s) => lk_slots lk s | _ => None end)
     (fun l lk => match lastop l with Some (DBind p c i) => toy_bind lk p c i | _ => (lk, false) end)
     (fun l lk => match lastop l with Some (DInit _ _) => (Luks (lk_tokens lk) (lk_slots lk) true, true) | Some (DResume _) => (Luks (lk_tokens lk) (lk_slots lk) false, true) | _ => (lk, false) end).
Lemma lastop_app l o : lastop (l ++ [o]) = Some o. Proof. unfold lastop. rewrite rev_app_distr. reflexivity. Qed.
Lemma upto_in n : forall i, In i (upto n) <-> i < N.of_nat n.
Proof. induction n as [|n IH]; intros i; cbn [upto]; [cbn; lia|]. rewrite in_app_iff, IH. cbn [In]. lia. Qed.
Lemma upto_split n : forall a i z, upto n = a ++ i :: z -> forall j, j < i -> In j a.
Proof.
  induction n as [|n IH]; intros a i z E j J; cbn [upto] in E; [destruct a; discriminate|]. destruct (exists_last (l := i :: z) ltac:(discriminate)) as (z' & x & Z). rewrite Z, app_assoc in E. apply app_inj_tail in E. destruct E as [E X2]. destruct z' as [|i' z'].
  - cbn [app] in Z. inversion Z; subst. rewrite app_nil_r in E. rewrite <- E. apply upto_in. exact J.
  - cbn [app] in Z. inversion Z; subst. exact (IH _ _ _ E j J).
Qed.
Lemma pick_some {X} (f : N -> option X) i : pick f = Some i -> i < 32 /\ f i = None /\ forall j, j < i -> f j <> None.
Proof.
  unfold pick. intros H. pose proof (find_some _ _ H) as [I F]. apply upto_in in I. split; [exact I|]. split; [destruct (f i); [discriminate|reflexivity]|].
  assert (SP : forall l, find (fun i => match f i with None => true | Some _ => false end) l = Some i -> exists a z, l = a ++ i :: z /\ forall j, In j a -> f j <> None).
  { induction l as [|x l IH]; cbn [find]; [discriminate|]. destruct (f x) eqn:Q; intros E; [destruct (IH E) as (a & z & -> & A); exists (x :: a), z; split; [reflexivity|intros j [<-|J]; [congruence|auto]]|inversion E; subst; exists [], l; split; [reflexivity|intros j []]]. }
  destruct (SP _ H) as (a & z & E & A). intros j J. apply A. eapply upto_split; eassumption.
Qed.
Lemma pick_there {X} (f : N -> option X) i : i < 32 -> f i = None -> exists k, pick f = Some k.
Proof. intros I F. unfold pick. destruct (find _ (upto 32)) eqn:E; [eauto|]. exfalso. pose proof (find_none _ _ E i (proj2 (upto_in 32 i) I)) as Q. cbv beta in Q. rewrite F in Q. discriminate. Qed.
Lemma keyslot_json slot : slot < 32 -> parse_u32 (dec_str slot) = Some slot.
Proof.
  intros L. assert (X : forallb (fun k => match parse_u32 (dec_str k) with Some n => n =? k | None => false end) (upto 32) = true) by (vm_compute; reflexivity).
  rewrite forallb_forall in X. specialize (X slot (proj2 (upto_in 32 slot) L)). cbv beta in X. destruct (parse_u32 (dec_str slot)); [|discriminate]. apply N.eqb_eq in X. congruence.
Qed.
Lemma put_ne {X} (f : N -> option X) i x j : j <> i -> put_at f i x j = f j. Proof. intros N. unfold put_at. destruct (j =? i) eqn:E; [lia|reflexivity]. Qed.
Lemma put_eq {X} (f : N -> option X) i x : put_at f i x i = Some x. Proof. unfold put_at. rewrite N.eqb_refl. reflexivity. Qed.
Lemma toy_laws io : disk_laws (toy_disk io).
Proof.
  split; [|split].
  - intros log slot lk p. cbn [toy_disk dw_pass]. rewrite lastop_app. auto.
  - intros log pin config stdin lk lk' ok. cbn [toy_disk dw_bind]. rewrite lastop_app. unfold toy_bind. destruct (pick (lk_tokens lk)) as [i|] eqn:PI; [|intros H; inversion H; subst; repeat (split; [auto|]); discriminate].
    destruct (pick (lk_slots lk)) as [slot|] eqn:PS; [|intros H; inversion H; subst; repeat (split; [auto|]); discriminate]. apply pick_some in PI, PS. destruct PI as (I & F & FL), PS as (SM & FS & _). intros H. inversion H; subst. cbn [lk_tokens lk_slots lk_pending].
    split; [intros j t T; rewrite put_ne by congruence; exact T|]. split; [intros j p T; rewrite put_ne by congruence; exact T|]. split; [reflexivity|]. intros _. exists i, slot. split; [split; [exact F|intros j J; exact (FL j J)]|]. split; [exact FS|]. split.
    + eexists _, _, (dec_str slot), []. cbn [lk_tokens]. split; [rewrite put_eq; reflexivity|]. split; [reflexivity|]. split; [reflexivity|]. apply keyslot_json. exact SM.
    + split; [unfold slot_there; cbn [lk_slots]; rewrite put_eq; discriminate|]. split; cbn [lk_tokens lk_slots]; intros j J N; rewrite put_ne by exact N; exact J.
  - intros log o lk lk' ok. cbn [toy_disk dw_crypt]. rewrite lastop_app. destruct o; intros H; inversion H; subst; cbn; auto; repeat (split; [reflexivity|]); discriminate.
Qed.
Lemma toy_fine : all_fine (toy_disk (fun _ => true)).
Proof.
  split; [apply toy_laws|]. split; [reflexivity|]. split; [intros log slot lk p S; cbn [toy_disk dw_pass]; rewrite lastop_app; exact S|]. split; [|split].
  - intros log pin config pass slot lk [(i & I & F) (s & S & FS)] _. cbn [toy_disk dw_bind]. rewrite lastop_app. unfold toy_bind. destruct (pick_there _ _ I F) as [k ->]. destruct (pick_there _ _ S FS) as [k2 ->]. eauto.
  - intros log slot pass lk _. cbn [toy_disk dw_crypt]. rewrite lastop_app. reflexivity.
  - intros log slot pass lk _. cbn [toy_disk dw_crypt]. rewrite lastop_app. reflexivity.
Qed.
(** A disk with a passphrase in slot 0, and bound for slot 1 *)
Definition old_pc : str * str := (txt "tpm2", txt "{}").
Definition a_disk : luks :=
  Luks (fun i => if i =? 0 then Some (Token (ExternalUnknown CLEVIS) (clevis_json 1) old_pc) else None)
       (fun i => if i =? 0 then Some [1; 2; 3] else if i =? 1 then Some [9] else None) false.
Lemma a_disk_one : one_binding a_disk 0 1 old_pc.
Proof.
  split; [lia|]. split; [eexists _, _, (dec_str 1), []; split; [reflexivity|]; split; [reflexivity|]; split; [reflexivity|vm_compute; reflexivity]|]. split; [discriminate|].
  intros j J C. cbn [a_disk lk_tokens] in C. destruct (j =? 0) eqn:E; [lia|discriminate C].
Qed.
Lemma a_disk_room : room a_disk.
Proof. split; [exists 1; split; [lia|reflexivity]|exists 2; split; [unfold MAX; lia|reflexivity]]. Qed.
(** The machine stops after clevis, before the old token is removed. *)
Definition fails_at (f : dop -> bool) : dworld := toy_disk (fun l => match lastop l with Some o => negb (f o) | None => true end).
Definition is_remove (o : dop) : bool := match o with DRemove _ => true | _ => false end.
Definition is_destroy (o : dop) : bool := match o with DDestroy _ => true | _ => false end.
Definition start (lk : luks) : dstate := DSt lk [].
Theorem C76_resume_refuted : ~ C76_resume_statement.
Proof.
  intros H. destruct (H (fails_at is_remove) (toy_disk (fun _ => true)) (txt "tang") (txt "{}") (start a_disk) 0 1 old_pc (toy_laws _) toy_fine a_disk_one a_disk_room eq_refl) as [s2 E].
  { split; [exists 2; split; [lia|vm_compute; reflexivity]|exists 3; split; [unfold MAX; lia|vm_compute; reflexivity]]. }
  destruct (C76_stuck (toy_disk (fun _ => true)) (txt "tang") (txt "{}") false (fst (rebind_clevis (fails_at is_remove) (txt "tang") (txt "{}") (start a_disk))) 0 1) as [(s3 & E3 & _) _].
  - lia.
  - lia.
  - lia.
  - vm_compute. reflexivity.
  - vm_compute. reflexivity.
  - rewrite E in E3. discriminate.
Qed.
(** Statement: once a rebinding has succeeded, whatever was interrupted before, what opened the disk for the old pin no longer
    does. *)
Definition C76_revoked_statement : Prop := forall w w2 pin config s s2 i slot pc pass, disk_laws w -> disk_laws w2 -> one_binding (ds_lk s) i slot pc -> lk_slots (ds_lk s) slot = Some pass -> (forall j, j <> slot -> lk_slots (ds_lk s) j <> Some pass) ->
  rebind_clevis w2 pin config (fst (rebind_clevis w pin config s)) = (s2, Ok tt) -> lk_slots (ds_lk s2) slot = None.
(** Stopped after removing the token and before its slot: nothing knows about the slot any more, and it stays. *)
Theorem C76_revoked_refuted : ~ C76_revoked_statement.
Proof.
  intros H. set (s1 := fst (rebind_clevis (fails_at is_destroy) (txt "tang") (txt "{}") (start a_disk))).
  destruct (rebind_clevis (toy_disk (fun _ => true)) (txt "tang") (txt "{}") s1) as [s2 r] eqn:E.
  assert (R : snd (rebind_clevis (toy_disk (fun _ => true)) (txt "tang") (txt "{}") s1) = Ok tt) by (vm_compute; reflexivity). rewrite E in R. cbn [snd] in R. subst r.
  assert (S : lk_slots (ds_lk (fst (rebind_clevis (toy_disk (fun _ => true)) (txt "tang") (txt "{}") s1))) 1 = Some [9]) by (vm_compute; reflexivity). rewrite E in S. cbn [fst] in S.
  rewrite (H (fails_at is_destroy) (toy_disk (fun _ => true)) (txt "tang") (txt "{}") (start a_disk) s2 0 1 old_pc [9] (toy_laws _) (toy_laws _) a_disk_one eq_refl) in S; [discriminate| |exact E].
  intros j J. cbn [start ds_lk a_disk lk_slots]. destruct (j =? 0) eqn:E0; [discriminate|]. destruct (j =? 1) eqn:E1; [lia|discriminate].
Qed.

(** ** C77 Re-encryption *)
(** Success of a configured disk: bound with the configured pin, and re-encryption under way if it was asked for. *)
Theorem C77_configured w pin config re s s' : disk_laws w -> encrypt_disk w pin config re s = (s', Ok tt) ->
  opens_itself (ds_lk s') (pin, config) /\ lk_pending (ds_lk s') = (if re then true else lk_pending (ds_lk s)).
Proof.
  intros DL H. unfold encrypt_disk in H. apply dbind_ok in H. destruct H as (s1 & [] & D1 & H). apply dread_ok in D1. destruct D1 as [L1 _]. apply dbind_ok in H. destruct H as (s2 & [] & D2 & H). apply dread_ok in D2. destruct D2 as [L2 _].
  apply dbind_ok in H. destruct H as (s3 & [] & RB & H). destruct (C75_rebound _ _ _ _ _ DL RB) as (i & slot & pc & i' & slot' & _ & B & ST & _ & _ & _ & _ & _ & _ & PE). rewrite L2, L1 in PE. destruct re.
  - unfold initiate_reencrypt in H. apply dbind_ok in H. destruct H as (s4 & [[k sl] pass] & T & H). apply tsp_ok in T. destruct T as (L4 & _). apply dbind_ok in H. destruct H as (s5 & [] & D5 & H). apply dread_ok in D5. destruct D5 as [L5 _].
    unfold run in H. destruct (dw_crypt w _ _) as [lk [|]] eqn:C; inversion H; subst. destruct DL as (_ & _ & CL). destruct (CL _ _ _ _ _ C) as (TK & SL & P). cbn [ds_lk]. split; [|apply P; reflexivity].
    exists i', slot'. split; [eapply bound_kept; [exact B|]; intros t TT; rewrite TK, L5, L4; exact TT|]. unfold slot_there. rewrite SL, L5, L4. exact ST.
  - unfold dret in H. inversion H; subst. split; [exists i', slot'; auto|exact PE].
Qed.
(** Statement: on a machine that works, a disk with one binding and room is bound and, if asked for, re-encrypted. *)
Definition C77_works_statement : Prop := forall w pin config re s i slot pc, all_fine w -> one_binding (ds_lk s) i slot pc -> has_room (ds_lk s) -> slot < MAX ->
  exists s', encrypt_disk w pin config re s = (s', Ok tt).
(** It holds if one of the first ten tokens is free. *)
Theorem C77_works_partial w pin config re s i slot pc : all_fine w -> one_binding (ds_lk s) i slot pc -> room (ds_lk s) -> slot < MAX ->
  exists s', encrypt_disk w pin config re s = (s', Ok tt).
Proof.
  intros AF OB R SM. pose proof AF as (_ & IO & PS & _ & CI & _). unfold encrypt_disk. unfold dbind at 1. unfold dread at 1. rewrite IO. unfold dbind at 1. unfold dread at 1. rewrite IO. cbn [ds_lk ds_log].
  set (s2 := DSt _ _). destruct (C75_works w pin config s2 i slot pc AF OB R SM) as (s3 & i' & slot' & RB & OB3 & _). rewrite (dbind_step _ _ _ _ _ RB). destruct re; [|unfold dret; eauto].
  destruct (tsp_works w s3 i' slot' _ IO PS OB3) as (s4 & pass & T & L4 & SL). unfold initiate_reencrypt. rewrite (dbind_step _ _ _ _ _ T). unfold dbind, dread, run. rewrite IO. cbn [ds_lk ds_log]. rewrite L4.
  pose proof (CI (ds_log s4 ++ [DPath]) slot' pass (ds_lk s3) SL) as C. destruct (dw_crypt w _ (ds_lk s3)) as [lk ok] eqn:Q. cbn [snd] in C. subst ok. eauto.
Qed.
(** The header has room for 32 tokens, of which ten are looked at: where they are taken, rebinding succeeds and re-encryption
    then does not find the new token. *)
Definition full_disk : luks :=
  Luks (fun i => if i =? 0 then Some (Token (ExternalUnknown CLEVIS) (clevis_json 1) old_pc) else if i <? 10 then Some (Token (ExternalUnknown (txt "systemd-recovery")) JOther ([], [])) else None)
       (fun i => if i =? 0 then Some [1; 2; 3] else if i =? 1 then Some [9] else None) false.
Theorem C77_works_refuted : ~ C77_works_statement.
Proof.
  intros H. destruct (H (toy_disk (fun _ => true)) (txt "tang") (txt "{}") true (start full_disk) 0 1 old_pc toy_fine) as [s' E].
  - split; [lia|]. split; [eexists _, _, (dec_str 1), []; split; [reflexivity|]; split; [reflexivity|]; split; [reflexivity|vm_compute; reflexivity]|]. split; [discriminate|].
    intros j J C. cbn [start ds_lk full_disk lk_tokens] in C. destruct (j =? 0) eqn:E; [lia|]. destruct (j <? 10) eqn:E2; [vm_compute in C; discriminate|discriminate C].
  - split; [exists 10; split; [unfold MAX; lia|reflexivity]|exists 2; split; [unfold MAX; lia|reflexivity]].
  - unfold MAX. lia.
  - assert (X : snd (encrypt_disk (toy_disk (fun _ => true)) (txt "tang") (txt "{}") true (start full_disk)) = Err tt) by (vm_compute; reflexivity). rewrite E in X. discriminate.
Qed.
(** Resuming after a reboot.  A device is looked at if its UUID is that of a LUKS2 device. *)
Definition is_luks2 (d : mapped) : Prop := exists u, mp_info d = Some (Some (LUKS2 ++ u)).
Lemma resume_lk w s s' r : crypt_law w -> perform_reencrypt w s = (s', r) -> r = Ok tt -> lk_pending (ds_lk s') = false.
Proof.
  intros CL H ->. unfold perform_reencrypt in H. apply dbind_ok in H. destruct H as (s1 & [] & D1 & H). apply dread_ok in D1. destruct D1 as [L1 _]. apply dbind_ok in H. destruct H as (s2 & [] & D2 & H). apply dread_ok in D2. destruct D2 as [L2 _].
  apply dbind_ok in H. destruct H as (s3 & p & D3 & H). apply dread_ok in D3. destruct D3 as [L3 ->]. destruct (lk_pending (ds_lk s2)) eqn:P; [|unfold dret in H; inversion H; subst; congruence].
  apply dbind_ok in H. destruct H as (s4 & [[k sl] pass] & T & H). unfold run in H. destruct (dw_crypt w _ _) as [lk [|]] eqn:C; inversion H; subst. destruct (CL _ _ _ _ _ C) as (_ & _ & X). apply X. reflexivity.
Qed.
Lemma luks2_spec d : is_luks2 d <-> exists u, mp_info d = Some (Some u) /\ starts_with LUKS2 u = true.
Proof.
  unfold is_luks2. split; [intros [u E]; exists (LUKS2 ++ u); split; [exact E|apply starts_with_spec; eauto]|intros (u & E & S); apply starts_with_spec in S; destruct S as [r ->]; eauto].
Qed.
(** Success: no LUKS2 device has a re-encryption left, and nothing was done with other devices.  In any case each device in the list has a
    state afterwards. *)
Theorem C77_resumed l ss o : (forall d, In d l -> crypt_law (mp_world d)) -> perform_required_reencrypts (Some l) = (ss, o) ->
  length ss = length l /\ (forall d s, In (d, s) (combine l ss) -> ~ is_luks2 d -> s = mp_state d) /\ (o = Ok tt -> forall d s, In (d, s) (combine l ss) -> is_luks2 d -> lk_pending (ds_lk s) = false).
Proof.
  cbn [perform_required_reencrypts]. revert ss o. induction l as [|d l IH]; intros ss o CL; cbn [resume_all]; [intros H; inversion H; subst; cbn; repeat split; intros; contradiction|].
  assert (SAME : forall x s, In (x, s) (combine l (map mp_state l)) -> s = mp_state x). { intros x s I. clear -I. induction l as [|y l IH]; [destruct I|]. cbn [map combine] in I. destruct I as [E|I]; [inversion E; reflexivity|auto]. }
  destruct (mp_info d) as [uuid|] eqn:IN.
  - destruct (match uuid with Some u => starts_with LUKS2 u | None => false end) eqn:U.
    + assert (LD : is_luks2 d) by (apply luks2_spec; destruct uuid as [u|]; [exists u; auto|discriminate]). destruct (perform_reencrypt (mp_world d) (mp_state d)) as [s1 [[]|e|x]] eqn:P.
      * destruct (resume_all l) as [ss1 o1] eqn:R. intros H. inversion H; subst. destruct (IH _ _ (fun x I => CL x (or_intror I)) eq_refl) as (LE & ND & DN). cbn [length combine]. split; [congruence|]. split.
        -- intros x s [E|I] NL; [inversion E; subst; contradiction|eauto].
        -- intros -> x s [E|I] LX; [inversion E; subst; eapply resume_lk; [apply CL; left; reflexivity|exact P|reflexivity]|eauto].
      * intros H. inversion H; subst. cbn [length combine]. rewrite map_length. split; [reflexivity|]. split; [|discriminate]. intros x s [E|I] NL; [inversion E; subst; contradiction|apply SAME; exact I].
      * intros H. inversion H; subst. cbn [length combine]. rewrite map_length. split; [reflexivity|]. split; [|discriminate]. intros x0 s [E|I] NL; [inversion E; subst; contradiction|apply SAME; exact I].
    + assert (LD : ~ is_luks2 d) by (intros X; apply luks2_spec in X; destruct X as (u & E & S); rewrite IN in E; inversion E; subst; congruence).
      destruct (resume_all l) as [ss1 o1] eqn:R. intros H. inversion H; subst. destruct (IH _ _ (fun x I => CL x (or_intror I)) eq_refl) as (LE & ND & DN). cbn [length combine]. split; [congruence|]. split.
      * intros x s [E|I] NL; [inversion E; reflexivity|eauto].
      * intros -> x s [E|I] LX; [inversion E; subst; contradiction|eauto].
  - intros H. inversion H; subst. cbn [map length combine]. rewrite map_length. split; [reflexivity|]. split; [|discriminate]. intros x s [E|I] NL; [inversion E; reflexivity|apply SAME; exact I].
Qed.
(** Statement: every LUKS2 device whose machine works is resumed, whatever happens with others. *)
Definition C77_each_statement : Prop := forall l ss o, (forall d, In d l -> disk_laws (mp_world d)) -> perform_required_reencrypts (Some l) = (ss, o) ->
  forall d s i slot pc, In (d, s) (combine l ss) -> is_luks2 d -> all_fine (mp_world d) -> one_binding (ds_lk (mp_state d)) i slot pc -> lk_pending (ds_lk s) = false.
(** The first that fails ends it: one disk that is stuck keeps all after it from being re-encrypted, at every boot. *)
Definition pending_disk : luks := Luks (lk_tokens a_disk) (lk_slots a_disk) true.
Theorem C77_each_refuted : ~ C77_each_statement.
Proof.
  intros H. set (bad := Mapped (Some (Some (LUKS2 ++ txt "a"))) (toy_disk (fun _ => false)) (start a_disk)). set (good := Mapped (Some (Some (LUKS2 ++ txt "b"))) (toy_disk (fun _ => true)) (start pending_disk)).
  assert (E : perform_required_reencrypts (Some [bad; good]) = ([DSt a_disk [DOpen]; start pending_disk], Err tt)) by reflexivity.
  assert (X : lk_pending (ds_lk (start pending_disk)) = false).
  { assert (DL : forall d, In d [bad; good] -> disk_laws (mp_world d)) by (intros d [<-|[<-|[]]]; apply toy_laws). apply (H _ _ _ DL E good (start pending_disk) 0 1 old_pc); [right; left; reflexivity|exists (txt "b"); reflexivity|exact toy_fine|exact a_disk_one]. }
  discriminate X.
Qed.

(** It holds if every machine works and every LUKS2 device has one binding. *)
Theorem C77_each_partial l : (forall d, In d l -> mp_info d <> None /\ (is_luks2 d -> all_fine (mp_world d) /\ exists i slot pc, one_binding (ds_lk (mp_state d)) i slot pc)) ->
  exists ss, perform_required_reencrypts (Some l) = (ss, Ok tt).
Proof.
  cbn [perform_required_reencrypts]. induction l as [|d l IH]; intros H; cbn [resume_all]; [eauto|]. destruct (IH (fun x I => H x (or_intror I))) as [ss ->]. destruct (H d (or_introl eq_refl)) as [IN LD]. destruct (mp_info d) as [uuid|] eqn:ID; [|congruence].
  destruct (match uuid with Some u => starts_with LUKS2 u | None => false end) eqn:U; [|eauto]. destruct LD as (AF & i & slot & pc & OB). { apply luks2_spec. destruct uuid as [u|]; [exists u; auto|discriminate]. }
  pose proof AF as (_ & IO & PS & _ & _ & CR). assert (E : exists s, perform_reencrypt (mp_world d) (mp_state d) = (s, Ok tt)); [|destruct E as [s ->]; eauto].
  unfold perform_reencrypt. unfold dbind at 1. unfold dread at 1. rewrite IO. unfold dbind at 1. unfold dread at 1. rewrite IO. unfold dbind at 1. unfold dread at 1. rewrite IO. cbn [ds_lk ds_log]. destruct (lk_pending _); [|unfold dret; eauto].
  set (s2 := DSt _ _). destruct (tsp_works (mp_world d) s2 i slot pc IO PS OB) as (s4 & pass & T & L4 & SL). rewrite (dbind_step _ _ _ _ _ T). unfold run. pose proof (CR (ds_log s4) slot pass (ds_lk s4)) as C. rewrite L4 in *. specialize (C SL). destruct (dw_crypt (mp_world d) _ (ds_lk s2)) as [lk ok] eqn:Q. cbn [snd] in C. subst ok. eauto.
Qed.

(** *** The hypotheses are met. *)
Example rebind_case : exists s', rebind_clevis (toy_disk (fun _ => true)) (txt "tang") (txt "{}") (start a_disk) = (s', Ok tt) /\
  lk_tokens (ds_lk s') 1 = Some (Token (ExternalUnknown CLEVIS) (clevis_json 2) (txt "tang", txt "{}")) /\ lk_tokens (ds_lk s') 0 = None /\ lk_slots (ds_lk s') 0 = Some [1; 2; 3] /\ lk_slots (ds_lk s') 1 = None /\ lk_slots (ds_lk s') 2 = Some [102].
Proof. eexists. split; [vm_compute; reflexivity|]. vm_compute. auto. Qed.
Example opens_case : disk_laws (fails_at is_remove) /\ opens_itself (ds_lk (start a_disk)) old_pc /\ snd (rebind_clevis (fails_at is_remove) (txt "tang") (txt "{}") (start a_disk)) = Err tt.
Proof. split; [apply toy_laws|]. split; [|vm_compute; reflexivity]. destruct a_disk_one as (_ & B & S & _). exists 0, 1. auto. Qed.
Example works_case : exists s', encrypt_disk (toy_disk (fun _ => true)) (txt "tang") (txt "{}") true (start a_disk) = (s', Ok tt).
Proof. apply (C77_works_partial _ _ _ _ _ 0 1 old_pc); [exact toy_fine|exact a_disk_one|exact a_disk_room|unfold MAX; lia]. Qed.
Example resume_case : let s1 := fst (rebind_clevis (fails_at is_destroy) (txt "tang") (txt "{}") (start a_disk)) in
  lk_tokens (ds_lk s1) 0 = None /\ room (ds_lk s1) /\ exists s2, rebind_clevis (toy_disk (fun _ => true)) (txt "tang") (txt "{}") s1 = (s2, Ok tt).
Proof.
  cbv zeta. assert (T : lk_tokens (ds_lk (fst (rebind_clevis (fails_at is_destroy) (txt "tang") (txt "{}") (start a_disk)))) 0 = None) by (vm_compute; reflexivity).
  assert (R : room (ds_lk (fst (rebind_clevis (fails_at is_destroy) (txt "tang") (txt "{}") (start a_disk))))). { split; [exists 0; split; [lia|exact T]|exists 3; split; [unfold MAX; lia|vm_compute; reflexivity]]. }
  split; [exact T|]. split; [exact R|]. apply (C76_resume_partial (fails_at is_destroy) (toy_disk (fun _ => true)) _ _ _ 0 1 old_pc); [apply toy_laws|exact toy_fine|exact a_disk_one|exact a_disk_room|unfold MAX; lia|exact R|right; exact T].
Qed.
Example resumed_case : perform_required_reencrypts (Some [Mapped (Some None) (toy_disk (fun _ => true)) (start a_disk); Mapped (Some (Some (LUKS2 ++ txt "b"))) (toy_disk (fun _ => true)) (start pending_disk)]) =
  ([start a_disk; fst (perform_reencrypt (toy_disk (fun _ => true)) (start pending_disk))], Ok tt).
Proof. reflexivity. Qed.

Print Assumptions C75_never_locked_out.
Print Assumptions C75_rebound.
Print Assumptions C75_works.
Print Assumptions C76_stuck.
Print Assumptions C76_resume_partial.
Print Assumptions C76_resume_refuted.
Print Assumptions C76_revoked_refuted.
Print Assumptions C77_configured.
Print Assumptions C77_works_partial.
Print Assumptions C77_works_refuted.
Print Assumptions C77_resumed.
Print Assumptions C77_each_refuted.
Print Assumptions C77_each_partial.
