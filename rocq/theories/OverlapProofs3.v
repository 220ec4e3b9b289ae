(** Proofs about overlapping calls of the directory store: records without expiry stay. *)
From Verif Require Import Base BaseFacts ValueModel Text Assoc StoreModel StoreProofs OverlapModel OverlapSpec OverlapProofs OverlapProofs2.
From Coq Require Import ZifyBool ZifyNat ZifyN.
Local Open Scope N_scope.
Set Default Proof Using "Type".
Local Arguments tmp_of : simpl never.
Local Arguments get_path : simpl never.
Local Arguments xname : simpl never.

Section stays.
Context {V : Type} (c : codec V) (T : N).

Lemma moves_app (l1 l2 : list (move (V := V))) s : moves c s (l1 ++ l2) =
  let '(s1, h1) := moves c s l1 in let '(s2, h2) := moves c s1 l2 in (s2, h1 ++ h2).
Proof.
  revert s. induction l1 as [|m l1 IH]; intros s; cbn [app moves]; [destruct (moves c s l2); reflexivity|].
  destruct (move1 c s m) as [s1 h1]. rewrite IH. destruct (moves c s1 l1) as [s2 h2]. destruct (moves c s2 l2) as [s3 h3]. rewrite app_assoc. reflexivity.
Qed.
Lemma apart_app (bad : qop V -> qop V -> Prop) h1 : forall ac h2, apart bad ac (h1 ++ h2) <-> apart bad ac h1 /\ apart bad (pending ac h1) h2.
Proof. induction h1 as [|[t o|t now|t r] h1 IH]; intros ac h2; cbn [app apart pending]; [tauto|rewrite IH; tauto|apply IH|apply IH]. Qed.
Lemma pending_app h1 : forall ac (h2 : list (seen (V := V))), pending ac (h1 ++ h2) = pending (pending ac h1) h2.
Proof. induction h1 as [|[t o|t now|t r] h1 IH]; intros ac h2; cbn [app pending]; [reflexivity|apply IH|apply IH|apply IH]. Qed.

(** The move that made the last thing seen. *)
Lemma last_seen l : forall s s' h e, moves c s l = (s', h ++ [e]) ->
  exists la m lb sa ha hm, l = la ++ m :: lb /\ moves c s la = (sa, ha) /\ move1 c sa m = (s', hm ++ [e]) /\ h = ha ++ hm.
Proof.
  induction l as [|m l IH] using rev_ind; intros s s' h e E.
  { cbn in E. injection E as _ E. destruct h; discriminate. }
  rewrite moves_app in E. destruct (moves c s l) as [s1 h1] eqn:M. cbn [moves] in E. destruct (move1 c s1 m) as [s2 h2] eqn:M1. rewrite app_nil_r in E. injection E as <- E.
  destruct h2 as [|x h2 _] using rev_ind.
  - rewrite app_nil_r in E. assert (s2 = s1).
    { destruct m as [t o|t j now]; cbn [move1] in M1; [destruct (st_calls s1 t); injection M1; congruence|].
      destruct (st_calls s1 t) as [[o p]|]; [|injection M1; congruence]. destruct (advance c (st_fs s1) o p j now) as [f [p'|r]]; discriminate. }
    subst s2 h1. destruct (IH _ _ _ _ M) as (la & m' & lb & sa & ha & hm & -> & A & B & C). exists la, m', (lb ++ [m]), sa, ha, hm. rewrite <- app_assoc. auto.
  - rewrite app_assoc in E. apply app_inj_tail in E. destruct E as [<- <-]. exists l, m, [], s1, h1, h2. auto.
Qed.

Section one.
Context (p : name) (v : V) (NT : ~ temporary p).

Definition kpc (i : N) (o : qop V) (q : pc) : Prop :=
  (target o = p -> match o, q with
                   | QLoad _, Fresh | QSweep _, Fresh => True
                   | QLoad _, Opened j | QLoad _, Reading j _ _ => j = i
                   | _, _ => False
                   end) /\
  match o, q with QMeta _ _ _, Opened j | QDelMeta _ _, Opened j => j <> i | _, _ => True end.

Lemma kstep i s o q j now s' x last calls w : sound_fs s -> tmp_clean s -> sound_op c T o -> rpc c s last calls o q w -> kpc i o q ->
  aget p (fs_names s) = Some i -> de c (f_data (fs_file s i)) = Some v -> aget (xname Ttl) (f_xattr (fs_file s i)) = None ->
  advance c s o q j now = (s', x) ->
  aget p (fs_names s') = Some i /\ fs_file s' i = fs_file s i /\
  match x with inl q' => kpc i o q' | inr r => forall k, o = QLoad k -> get_path k = p -> r = Ok (Some v) end.
Proof using NT.
  intros Sd TC SO R [K1 K2] G D TT E. pose proof (named_held s p i Sd NT G) as [HL HT]. destruct SO as [PR SO].
  assert (UN : forall n s1, n <> p -> sys_unlink n s = Some s1 -> aget p (fs_names s1) = Some i /\ fs_file s1 i = fs_file s i).
  { intros n s1 Nn U. destruct (unlink_facts _ _ _ Sd TC U) as (_ & _ & _ & O1 & F1 & _). rewrite O1 by congruence. rewrite F1. auto. }
  assert (AT : forall y g, y <> i -> aget p (fs_names (set_attrs y g s)) = Some i /\ fs_file (set_attrs y g s) i = fs_file s i).
  { intros y g Ny. cbn. rewrite put_other by congruence. auto. }
  destruct o as [k x0|k|k m y|k m|k|n]; cbn [target proper] in *.
  - destruct q as [|a off rest| | |]; try contradiction; cbn [advance] in E.
    + assert (NP : get_path k <> p) by (intros H; destruct (K1 H)).
      destruct (sys_create (tmp_of (get_path k)) s) as [s1 a] eqn:C. destruct (create_facts _ _ _ _ Sd TC C) as (_ & _ & _ & _ & O1 & O2 & _).
      destruct SO as (b & SE & _). rewrite SE in E. injection E as <- <-. rewrite O1 by (intros ->; apply NT; eexists; reflexivity). rewrite O2 by auto.
      split; [exact G|]. split; [reflexivity|]. split; [cbn [target]; intros H; contradiction|exact Logic.I].
    + assert (NP : get_path k <> p) by (intros H; destruct (K1 H)). cbn in R. destruct R as (Ga & _). destruct rest as [|b0 rest].
      * destruct (sys_rename (tmp_of (get_path k)) (get_path k) s) as [s1|] eqn:RN; [|unfold sys_rename in RN; rewrite Ga in RN; discriminate].
        destruct (rename_facts _ _ _ _ Sd TC PR Ga RN) as (_ & _ & _ & _ & O1 & F1 & _). injection E as <- <-. rewrite O1 by (first [congruence|intros ->; apply NT; eexists; reflexivity]).
        rewrite F1. split; [exact G|]. split; [reflexivity|]. intros k0 H. discriminate.
      * injection E as <- <-. split; [exact G|]. split; [cbn [sys_write fs_file]; apply put_other; intros ->; exact (HT _ Ga)|]. split; [cbn [target]; intros H; contradiction|exact Logic.I].
  - destruct q as [| |a|a t got|t]; try contradiction; cbn [advance] in E.
    + destruct (aget (get_path k) (fs_names s)) as [a|] eqn:Ga; injection E as <- <-; (split; [exact G|]; split; [reflexivity|]).
      * split; [cbn [target]; intros H; congruence|exact Logic.I].
      * intros k0 H P. injection H as <-. congruence.
    + destruct (name_dec (get_path k) p) as [EP|NP].
      * specialize (K1 EP). cbn in K1. subst a. rewrite TT in E. injection E as <- <-. split; [exact G|]. split; [reflexivity|]. split; [cbn; auto|exact Logic.I].
      * assert (Q : s' = s /\ match x with inl q' => q' <> Fresh | inr r => True end).
        { destruct (aget (xname Ttl) (f_xattr (fs_file s a))) as [b|]; [destruct (ttl_from_disk b) as [z| |]|]; injection E as <- <-; try (split; [reflexivity|exact Logic.I]); (split; [reflexivity|]); [destruct (z <? now)|]; discriminate. }
        destruct Q as [-> _]. split; [exact G|]. split; [reflexivity|]. destruct x as [q'|r]; [split; [cbn [target]; intros H; contradiction|exact Logic.I]|]. intros k0 H P. injection H as <-. contradiction.
    + cbn in R. destruct R as (_ & (z & DZ & _) & r & DD). rewrite DD in E. rewrite skipn_app, skipn_all, Nat.sub_diag in E. cbn [app skipn] in E. destruct r as [|b0 r]; injection E as <- <-; (split; [exact G|]; split; [reflexivity|]).
      * intros k0 H P. injection H as <-. specialize (K1 P). cbn in K1. subst a. rewrite app_nil_r in DD. rewrite <- DD, D. reflexivity.
      * split; [|exact Logic.I]. cbn [target] in *. intros P. exact (K1 P).
    + assert (NP : get_path k <> p) by (intros H; destruct (K1 H)). destruct (sys_unlink (get_path k) s) as [s1|] eqn:U; injection E as <- <-.
      * destruct (UN _ _ NP U) as [G1 F1]. split; [exact G1|]. split; [exact F1|]. intros k0 H P. injection H as <-. contradiction.
      * split; [exact G|]. split; [reflexivity|]. intros k0 H P. injection H as <-. contradiction.
  - destruct q as [| |a| |]; try contradiction; cbn [advance] in E.
    + assert (NP : get_path k <> p) by (intros H; destruct (K1 H)). destruct (aget (get_path k) (fs_names s)) as [a|] eqn:Ga; injection E as <- <-; (split; [exact G|]; split; [reflexivity|]).
      * split; [cbn [target]; intros H; contradiction|]. intros ->. apply NP. eapply (proj1 Sd); eauto.
      * intros k0 H. discriminate.
    + injection E as <- <-. destruct (AT a (aset (xname m) (to_stored now y)) K2) as [G1 F1]. split; [exact G1|]. split; [exact F1|]. intros k0 H. discriminate.
  - destruct q as [| |a| |]; try contradiction; cbn [advance] in E.
    + assert (NP : get_path k <> p) by (intros H; destruct (K1 H)). destruct (aget (get_path k) (fs_names s)) as [a|] eqn:Ga; injection E as <- <-; (split; [exact G|]; split; [reflexivity|]).
      * split; [cbn [target]; intros H; contradiction|]. intros ->. apply NP. eapply (proj1 Sd); eauto.
      * intros k0 H. discriminate.
    + destruct (aget (xname m) (f_xattr (fs_file s a))); injection E as <- <-.
      * destruct (AT a (adel (xname m)) K2) as [G1 F1]. split; [exact G1|]. split; [exact F1|]. intros k0 H. discriminate.
      * split; [exact G|]. split; [reflexivity|]. intros k0 H. discriminate.
  - destruct q as [| | | |]; try contradiction; cbn [advance] in E. assert (NP : get_path k <> p) by (intros H; destruct (K1 H)).
    destruct (sys_unlink (get_path k) s) as [s1|] eqn:U; injection E as <- <-.
    + destruct (UN _ _ NP U) as [G1 F1]. split; [exact G1|]. split; [exact F1|]. intros k0 H. discriminate.
    + split; [exact G|]. split; [reflexivity|]. intros k0 H. discriminate.
  - destruct q as [| | | |t]; try contradiction; cbn [advance] in E.
    + assert (Q : s' = s /\ match x with inl q' => n <> p | inr r => True end).
      { destruct (aget n (fs_names s)) as [a|] eqn:Ga; [|injection E as <- <-; auto]. destruct (aget (xname Ttl) (f_xattr (fs_file s a))) as [b|] eqn:TA; [|injection E as <- <-; auto].
        assert (n <> p) by (intros ->; congruence). destruct (ttl_from_disk b) as [z| |]; [destruct (now <? z)|..]; injection E as <- <-; auto. }
      destruct Q as [-> Q]. split; [exact G|]. split; [reflexivity|]. destruct x as [q'|r]; [|intros k0 H; discriminate]. split; [cbn [target]; intros H; contradiction|exact Logic.I].
    + assert (NP : n <> p) by (intros H; destruct (K1 H)). destruct (sys_unlink n s) as [s1|] eqn:U; injection E as <- <-.
      * destruct (UN _ _ NP U) as [G1 F1]. split; [exact G1|]. split; [exact F1|]. intros k0 H. discriminate.
      * split; [exact G|]. split; [reflexivity|]. intros k0 H. discriminate.
Qed.

Definition KInv (i : N) (s : state) (mine : N -> bool) : Prop :=
  aget p (fs_names (st_fs s)) = Some i /\ de c (f_data (fs_file (st_fs s) i)) = Some v /\
  aget (xname Ttl) (f_xattr (fs_file (st_fs s) i)) = None /\
  (forall u o q, st_calls s u = Some (o, q) -> kpc i o q) /\
  (forall u, mine u = true -> exists k q, st_calls s u = Some (QLoad k, q) /\ get_path k = p).

Lemma stays_run i l : forall s last calls ac mine s' h, RInv c T s last calls -> KInv i s mine -> (forall t, ac t = option_map fst (st_calls s t)) ->
  (forall o, begun l o -> sound_op c T o) -> before T l -> moves c s l = (s', h) -> apart both_store ac h ->
  undisturbed p h -> finds p v mine h.
Proof using NT.
  induction l as [|m l IH]; intros s last calls ac mine s' h RI (G & D & TT & KC & KM) AC PR BF E AP UD; cbn [moves] in E.
  { injection E as <- <-. exact Logic.I. }
  destruct (move1 c s m) as [s1 h1] eqn:M. destruct (moves c s1 l) as [s2 h2] eqn:R. injection E as <- <-.
  assert (M1 : moves c s [m] = (s1, h1)) by (cbn [moves]; rewrite M, app_nil_r; reflexivity).
  apply apart_app in AP. destruct AP as [AP1 AP2].
  assert (PR1 : forall o, begun [m] o -> sound_op c T o) by (intros o [t [H|[]]]; apply PR; exists t; left; exact H).
  assert (BF1 : before T [m]) by (intros t k now [H|[]]; eapply BF; left; exact H).
  destruct (regular_run c T _ _ _ _ _ _ _ RI AC PR1 BF1 M1 AP1) as (_ & RI1 & AC1).
  assert (PR' : forall o, begun l o -> sound_op c T o) by (intros o [t H]; apply PR; exists t; right; exact H).
  assert (BF' : before T l) by (intros t k now H; eapply BF; right; exact H).
  assert (UD' : undisturbed p h2) by (intros t o H; apply (UD t); apply in_or_app; right; exact H).
  assert (GO : forall mine', KInv i s1 mine' -> finds p v mine' h2) by (intros mine' K; eapply IH; try eassumption).
  destruct m as [t o|t j now]; cbn [move1] in M.
  - destruct (st_calls s t) as [[o0 p0]|] eqn:C; injection M as <- <-; cbn [app finds] in *.
    { apply GO. split; [exact G|]. auto. }
    apply GO. split; [exact G|]. split; [exact D|]. split; [exact TT|]. cbn [st_calls]. split.
    + intros u a q. destruct (N.eq_dec u t) as [->|NE]; [rewrite at_same|rewrite at_other by exact NE; apply KC]. intros H. injection H as <- <-.
      split; [|destruct o; exact Logic.I]. intros P. assert (CH : changes o = false).
      { destruct (changes o) eqn:CH; [|reflexivity]. exfalso. exact (UD t o (or_introl eq_refl) CH P). }
      destruct o; try discriminate; exact Logic.I.
    + intros u. destruct (N.eq_dec u t) as [->|NE]; [rewrite !at_same|rewrite !at_other by exact NE; apply KM]. destruct o; try discriminate.
      intros H. apply bytes_eqb_spec in H. eauto.
  - destruct (st_calls s t) as [[o q]|] eqn:C; [|injection M as <- <-; cbn [app finds] in *; apply GO; split; [exact G|]; auto].
    destruct RI as (Sd & TC & EX & W & CM & DT). pose proof (CM t) as CT. rewrite C in CT. destruct (calls t) as [[o' w]|] eqn:CL; [|contradiction]. destruct CT as (-> & SO & PC).
    destruct (advance c (st_fs s) o q j now) as [f x] eqn:AD.
    destruct (kstep i _ _ _ _ _ _ _ _ _ _ Sd TC SO PC (KC _ _ _ C) G D TT AD) as (G1 & F1 & RES).
    destruct x as [q'|r]; injection M as <- <-; cbn [app finds] in *.
    + apply GO. split; [exact G1|]. cbn [st_fs st_calls]. rewrite F1. split; [exact D|]. split; [exact TT|]. split.
      * intros u a z. destruct (N.eq_dec u t) as [->|NE]; [rewrite at_same; intros H; injection H as <- <-; exact RES|rewrite at_other by exact NE; apply KC].
      * intros u H. destruct (KM u H) as (k & z & CU & P). destruct (N.eq_dec u t) as [->|NE]; [rewrite at_same; rewrite C in CU; injection CU as -> _; eauto|rewrite at_other by exact NE; eauto].
    + split.
      * intros H. destruct (KM t H) as (k & z & CU & P). rewrite C in CU. injection CU as -> _. exact (RES k eq_refl P).
      * apply GO. split; [exact G1|]. cbn [st_fs st_calls]. rewrite F1. split; [exact D|]. split; [exact TT|]. split.
        -- intros u a z. destruct (N.eq_dec u t) as [->|NE]; [rewrite at_same; discriminate|rewrite at_other by exact NE; apply KC].
        -- intros u. destruct (N.eq_dec u t) as [->|NE]; [rewrite at_same; discriminate|rewrite !at_other by exact NE; apply KM].
Qed.
End one.

Lemma stays d l1 l2 h1 s1 h2 s2 t k v :
  left_by_stores c d -> (forall o, begun (l1 ++ l2) o -> sound_op c T o) -> before T (l1 ++ l2) ->
  moves c (start d) l1 = (s1, h1 ++ [HEnd t (Ok None)]) -> moves c s1 l2 = (s2, h2) ->
  apart both_store nobody ((h1 ++ [HEnd t (Ok None)]) ++ h2) ->
  pending nobody h1 t = Some (QStore k v) ->
  (forall t' o, t' <> t -> pending nobody h1 t' = Some o -> target o <> get_path k) ->
  undisturbed (get_path k) h2 -> finds (get_path k) v (fun _ => false) h2.
Proof.
  intros LB PR BF M1 M2 AP PE NP UD.
  assert (PRa : forall o, begun l1 o -> sound_op c T o) by (intros o [u H]; apply PR; exists u; apply in_or_app; left; exact H).
  assert (PRb : forall o, begun l2 o -> sound_op c T o) by (intros o [u H]; apply PR; exists u; apply in_or_app; right; exact H).
  assert (BFa : before T l1) by (intros u j now H; eapply BF; apply in_or_app; left; exact H).
  assert (BFb : before T l2) by (intros u j now H; eapply BF; apply in_or_app; right; exact H).
  apply apart_app in AP. destruct AP as [AP1 AP2].
  assert (AC0 : forall u, @nobody (qop V) u = option_map fst (st_calls (start d) u)) by reflexivity.
  destruct (regular_run c T _ _ _ _ _ _ _ (start_rinv c T d LB) AC0 PRa BFa M1 AP1) as (_ & RI1 & AC1).
  destruct (last_seen _ _ _ _ _ M1) as (la & m & lb & sa & ha & hm & -> & Ma & Mm & ->).
  assert (PRaa : forall o, begun la o -> sound_op c T o) by (intros o [u H]; apply PRa; exists u; apply in_or_app; left; exact H).
  assert (BFaa : before T la) by (intros u j now H; eapply BFa; apply in_or_app; left; exact H).
  assert (APa : apart both_store nobody ha) by (rewrite <- app_assoc in AP1; apply apart_app in AP1; apply AP1).
  destruct (regular_run c T _ _ _ _ _ _ _ (start_rinv c T d LB) AC0 PRaa BFaa Ma APa) as (_ & RIa & ACa).
  destruct RIa as (Sd & TC & EX & W & CM & DT).
  destruct m as [u o|u j now]; cbn [move1] in Mm; [destruct (st_calls sa u); injection Mm as _ H; [destruct hm; discriminate|destruct hm as [|? [|]]; discriminate]|].
  destruct (st_calls sa u) as [[o q]|] eqn:C; [|injection Mm as _ H; destruct hm; discriminate].
  destruct (advance c (st_fs sa) o q j now) as [f [q'|r]] eqn:AD; [injection Mm as _ H; destruct hm as [|? [|]]; discriminate|].
  injection Mm as ES H. destruct hm as [|x [|y hm]]; [discriminate| |destruct hm; discriminate]. injection H as <- -> ->. cbn [pending] in *.
  rewrite pending_app in PE, NP. cbn [pending] in PE, NP. rewrite ACa, C in PE. cbn in PE. injection PE as ->.
  pose proof (CM t) as CT. rewrite C in CT. match type of CT with match ?y with _ => _ end => destruct y as [[o' w]|]; [|contradiction] end. destruct CT as (-> & SO & PC).
  assert (PP : ~ temporary (get_path k)) by (destruct SO as [PO _]; exact PO).
  destruct q as [|i off rest| | |]; try contradiction; cbn [advance] in AD.
  { destruct SO as (_ & b & SE & _). destruct (sys_create _ _). rewrite SE in AD. discriminate. }
  cbn in PC. destruct PC as (Gt & SE & _). destruct rest as [|b0 rest]; [|discriminate]. rewrite app_nil_r in SE.
  destruct (sys_rename (tmp_of (get_path k)) (get_path k) (st_fs sa)) as [f'|] eqn:RN; [|discriminate]. injection AD as <-.
  destruct (rename_facts _ _ _ _ Sd TC PP Gt RN) as (_ & _ & G1 & _ & _ & F1 & _). pose proof (TC _ _ Gt) as XT.
  assert (DV : de c (f_data (fs_file (st_fs sa) i)) = Some v) by (destruct SO as (_ & b & SE' & DE); congruence).
  eapply (stays_run (get_path k) v PP i); [exact RI1| |exact AC1|exact PRb|exact BFb|exact M2|exact AP2|exact UD].
  rewrite <- ES. split; [exact G1|]. cbn [st_fs st_calls]. rewrite F1. split; [exact DV|]. split; [rewrite XT; reflexivity|]. split; [|intros z Hz; discriminate].
  intros z a q. destruct (N.eq_dec z t) as [->|NE]; [rewrite at_same; discriminate|]. rewrite at_other by exact NE. intros CZ. split.
  - intros P. exfalso. eapply NP; [exact NE|rewrite ACa, CZ; reflexivity|exact P].
  - pose proof (CM z) as CU. rewrite CZ in CU. match type of CU with match ?y with _ => _ end => destruct y as [[a' w']|]; [|contradiction] end. destruct CU as (_ & _ & PZ).
    destruct a, q; try exact Logic.I; cbn [rpc] in PZ; intros ->; destruct PZ as [_ PZ]; exact (PZ _ Gt).
Qed.
End stays.
