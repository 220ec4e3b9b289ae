(** Both backends satisfy the laws of BackendSpec.v. *)
From Verif Require Import Base BaseFacts ValueModel Text Assoc StoreModel StoreSpec StoreRun StoreProofs StoreProofs2 Backend BackendSpec SessionProofs.
Local Open Scope N_scope.

Lemma forgets_refl {V W} (keeps : W -> key -> V -> Prop) w : forgets keeps w w.
Proof. intros k v _ H. exact H. Qed.
Lemma in_adel {A} k (v : A) n l : In (k, v) (adel n l) -> In (k, v) l.
Proof. unfold adel. intros H. apply filter_In in H. apply H. Qed.
Lemma maint_in now l n f : In (n, f) (fst (maint_loop now l)) -> In (n, f) l.
Proof.
  induction l as [|[n0 f0] l IH]; cbn [maint_loop]; [auto|]. destruct (aget (xname Ttl) (f_xattr f0)) as [t|].
  - destruct (ttl_from_disk t); [|auto|auto]. destruct (maint_loop now l) as [r' o]; cbn [fst] in *.
    destruct (now <? a); cbn [fst]; [|right; auto]. intros [E|E]; [left; exact E|right; auto].
  - destruct (maint_loop now l) as [r' o]; cbn [fst] in *. intros [E|E]; [left; exact E|right; auto].
Qed.

Lemma dir_laws {V} (cd : codec V) : store_laws (dir_backend cd) cd (dir_keeps cd) (fun _ _ => True).
Proof.
  constructor; cbn [dir_backend b_load b_store b_meta b_maint].
  - intros now w k w' r _ L. unfold dir_load in L. destruct (aget (get_path k) w) as [f|] eqn:G; [|inversion L; subst; split; [apply forgets_refl|discriminate]].
    pose proof (aget_in _ _ _ G) as GI.
    assert (RD : forall v, match de cd (f_data f) with Some v => Ok (Some v) | None => Err SUnspecified end = Ok (Some v) -> dir_keeps cd w k v).
    { intros v E. exists f. split; [exact GI|]. destruct (de cd (f_data f)); inversion E; reflexivity. }
    destruct (aget (xname Ttl) (f_xattr f)) as [t|]; [|inversion L; subst; split; [apply forgets_refl|exact RD]].
    destruct (ttl_from_disk t) as [x| |]; [|inversion L; subst; split; [apply forgets_refl|discriminate]|inversion L; subst; split; [apply forgets_refl|discriminate]].
    destruct (x <? now); inversion L; subst; (split; [|auto; discriminate]); [|apply forgets_refl].
    intros k' v' _ (f' & I' & D'). exists f'. split; [eapply in_adel; exact I'|exact D'].
  - intros w k v w' r PK _ S k' v' PK' (f' & I' & D'). unfold dir_store in S.
    assert (CR : forall n x f0, n = get_path k' -> In (n, f0) (aset (tmp_of (get_path k)) x w) -> In (n, f0) w).
    { intros n x f0 -> I0. apply in_aset in I0. destruct I0 as [I0|I0]; [|exact I0]. exfalso. inversion I0.
      destruct plain_distinct as [_ NT]. eapply NT; [exact PK'|exact PK|eassumption]. }
    destruct (ser cd v) as [data| |] eqn:SE; inversion S; subst; clear S.
    + rewrite rename_write in I'. apply in_aset in I'. destruct I' as [I'|I'].
      * right. inversion I' as [[E1 E2]]. split; [apply get_path_inj; assumption|]. subst f'. cbn [f_data] in D'. eauto.
      * left. apply in_adel in I'. exists f'. split; [|exact D']. eapply CR; [reflexivity|exact I'].
    + left. unfold fs_create in I'. exists f'. split; [eapply CR; [reflexivity|exact I']|exact D'].
    + left. unfold fs_create in I'. exists f'. split; [eapply CR; [reflexivity|exact I']|exact D'].
  - intros now w k m x w' r _ S k' v' _ (f' & I' & D'). unfold dir_set_meta in S.
    destruct (aget (get_path k) w) as [f|] eqn:G; inversion S; subst; [|exists f'; auto].
    apply in_aset in I'. destruct I' as [I'|I']; [|exists f'; auto]. inversion I' as [[E1 E2]]. subst f'. cbn [f_data] in D'. exists f.
    split; [|exact D']. apply aget_in. rewrite E1. exact G.
  - intros now w w' r S k v _ (f' & I' & D'). exists f'. split; [|exact D']. unfold dir_maint in S.
    replace w' with (fst (maint_loop now w)) in I' by (rewrite S; reflexivity). eapply maint_in; exact I'.
Qed.

Lemma db_laws {V} (cd : codec V) guid_of sty :
  store_laws (db_backend cd guid_of sty) cd (db_keeps cd) (fun k v => sty = Rendezvous \/ guid_of v = k).
Proof.
  constructor; cbn [db_backend b_load b_store b_meta b_maint].
  - intros now w k w' r _ L. inversion L; subst. split; [apply forgets_refl|]. intros v E. unfold db_load in E.
    destruct (aget k w') as [row|] eqn:G; [|discriminate]. exists row. split; [apply aget_in; exact G|].
    destruct (de cd (r_contents row)); inversion E; reflexivity.
  - intros w k v w' r _ OK S k' v' _ (row & I' & D'). unfold db_store in S.
    destruct (ser cd v) as [data| |] eqn:SE; [|inversion S; subst; left; exists row; auto|inversion S; subst; left; exists row; auto].
    assert (KK : match sty with Rendezvous => k | _ => guid_of v end = k) by (destruct OK as [->| ->]; [reflexivity|destruct sty; reflexivity]).
    rewrite KK in S. destruct (aget k w) as [r0|]; inversion S; subst; [left; exists row; auto|].
    apply in_app_or in I'. destruct I' as [I'|[I'|[]]]; [left; exists row; auto|]. inversion I'; subst. right. split; [reflexivity|]. exists data. auto.
  - intros now w k m x w' r _ S k' v' _ (row & I' & D').
    assert (UP : forall f, (forall r, r_contents (f r) = r_contents r) -> forall w', w' = update w k f -> In (k', row) w' -> db_keeps cd w k' v').
    { intros f HF w1 -> I1. unfold update in I1. destruct (aget k w) as [r0|] eqn:G; [|exists row; auto].
      apply in_aset in I1. destruct I1 as [I1|I1]; [|exists row; auto]. inversion I1; subst. exists r0. split; [apply aget_in; exact G|]. rewrite HF in D'. exact D'. }
    unfold db_set_meta in S. destruct sty; [| |]; repeat (match type of S with match ?y with _ => _ end = _ => destruct y end);
      inversion S; subst; try (exists row; auto; fail); (eapply UP; [|reflexivity|exact I']; reflexivity).
  - intros now w w' r S k v _ (row & I' & D'). exists row. split; [|exact D']. unfold db_maint in S.
    destruct sty; inversion S; subst; auto; apply filter_In in I'; apply I'.
Qed.
