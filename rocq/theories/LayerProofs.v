From Verif Require Import Base BaseFacts ValueModel Text Assoc LayerModel LayerSpec.
Local Open Scope N_scope.

Lemma proper_table l : proper (Table l) <-> NoDup (map fst l) /\ Forall (fun ku => proper (snd ku)) l.
Proof.
  cbn [proper]. split; intros [N A]; (split; [exact N|]); clear N.
  - induction l as [|[k u] r IH]; [constructor|]. destruct A. constructor; [assumption|apply IH; assumption].
  - induction l as [|[k u] r IH]; [exact Logic.I|]. inversion A; subst. split; [assumption|apply IH; assumption].
Qed.
(** Induction over trees *)
Fixpoint tree_rec' (P : tree -> Prop) (HL : forall x, P (Leaf x)) (HT : forall l, Forall (fun ku => P (snd ku)) l -> P (Table l)) (t : tree) : P t :=
  match t with
  | Leaf x => HL x
  | Table l => HT l ((fix all (l : list (name * tree)) : Forall (fun ku => P (snd ku)) l :=
      match l with [] => Forall_nil _ | ku :: r => Forall_cons ku (tree_rec' P HL HT (snd ku)) (all r) end) l)
  end.

Definition base (t : tree) (k : name) : tree := match aget k (fields t) with Some u => u | None => Table [] end.
Definition each : list (name * tree) -> tree -> tree :=
  fix each (l : list (name * tree)) (t : tree) : tree :=
       match l with
       | [] => t
       | (k, v) :: r => each r (Table (aset k (merge (match aget k (fields t) with Some u => u | None => Table [] end) v) (fields t)))
       end.
Lemma merge_table t l : merge t (Table l) = each l t.
Proof. reflexivity. Qed.
Lemma each_cons k v r t : each ((k, v) :: r) t = each r (Table (aset k (merge (base t k) v) (fields t))).
Proof. reflexivity. Qed.
Lemma each_get l : forall t, NoDup (map fst l) -> forall k,
  aget k (fields (each l t)) = match aget k l with Some v => Some (merge (base t k) v) | None => aget k (fields t) end.
Proof.
  induction l as [|[k0 v0] r IH]; intros t N k; [reflexivity|]. rewrite each_cons. cbn [map fst] in N. apply NoDup_cons_iff in N. destruct N as [NI N].
  rewrite IH by exact N. cbn [aget]. destruct (name_dec k k0) as [->|NE].
  - rewrite name_eqb_refl. destruct (aget k0 r) as [v|] eqn:E; [exfalso; apply NI; apply aget_in in E; apply in_map_iff; exists (k0, v); split; [reflexivity|exact E]|].
    cbn [fields]. apply aget_aset_eq.
  - assert (B : bytes_eqb k k0 = false) by (destruct (bytes_eqb k k0) eqn:E; [apply bytes_eqb_spec in E; congruence|reflexivity]).
    assert (B' : bytes_eqb k0 k = false) by (destruct (bytes_eqb k0 k) eqn:E; [apply bytes_eqb_spec in E; congruence|reflexivity]).
    rewrite ?B, ?B'. unfold base. cbn [fields]. rewrite aget_aset_ne by exact NE. reflexivity.
Qed.
Lemma each_table l t : l <> [] -> exists m, each l t = Table m.
Proof.
  destruct l as [|[k v] r]; [congruence|]. intros _. rewrite each_cons.
  generalize (aset k (merge (base t k) v) (fields t)). clear. induction r as [|[k v] r IH]; intros m; [exists m; reflexivity|]. rewrite each_cons. apply IH.
Qed.

Lemma gives_find t p x : proper t -> gives t p x <-> find t p = Some (Leaf x).
Proof.
  intros P. split.
  - intros G. induction G as [x|l k u p x I' G IH]; [reflexivity|]. apply proper_table in P. destruct P as [N A]. cbn [find fields]. rewrite (in_aget k u l N I'). apply IH.
    rewrite Forall_forall in A. exact (A _ I').
  - revert t P. induction p as [|k p IH]; intros t P F; cbn [find] in F.
    + injection F as ->. constructor.
    + destruct t as [y|l]; cbn [fields aget] in F; [discriminate|]. destruct (aget k l) as [u|] eqn:E; [|discriminate]. apply aget_in in E. apply gives_below with u; [exact E|].
      apply IH; [|exact F]. apply proper_table in P. destruct P as [_ A]. rewrite Forall_forall in A. exact (A _ E).
Qed.
Lemma silent_not_gives t p : proper t -> silent t p -> forall x, ~ gives t p x.
Proof.
  intros P Q x G. apply (gives_find _ _ _ P) in G. revert P G. induction Q as [l k p NI|l k u p I' Q IH|]; intros P G.
  - cbn [find fields] in G. destruct (aget k l) as [u|] eqn:E; [|discriminate]. apply aget_in in E. apply NI, in_map_iff. exists (k, u). split; [reflexivity|exact E].
  - apply proper_table in P. destruct P as [N A]. cbn [find fields] in G. rewrite (in_aget k u l N I') in G. rewrite Forall_forall in A. exact (IH (A _ I') G).
  - discriminate.
Qed.

(** The setting after a merge is that of the new document, or, if it is silent, the one so far. *)
Lemma merge_find v : forall t p x, proper v -> find (merge t v) p = Some (Leaf x) <-> gives v p x \/ silent v p /\ find t p = Some (Leaf x).
Proof.
  induction v as [y|l IH] using tree_rec'; intros t p x P.
  - cbn [merge]. split.
    + intros F. left. apply gives_find; [exact P|exact F].
    + intros [G|[Q _]]; [apply gives_find; [exact P|exact G]|inversion Q].
  - rewrite merge_table. destruct p as [|k p].
    + cbn [find]. split.
      * intros E. destruct l as [|a r]; [right; split; [constructor|exact E]|]. destruct (each_table (a :: r) t) as (m & M); [discriminate|]. rewrite M in E. discriminate.
      * intros [G|[Q E]]; [inversion G|]. inversion Q; subst. exact E.
    + cbn [find]. pose proof P as P0. apply proper_table in P. destruct P as [N A]. rewrite each_get by exact N. destruct (aget k l) as [v|] eqn:E.
      * pose proof (aget_in _ _ _ E) as I'. rewrite Forall_forall in IH, A. specialize (A _ I'). cbn [snd] in A. rewrite (IH _ I' _ _ _ A).
        assert (FB : find (base t k) p = Some (Leaf x) <-> match aget k (fields t) with Some u => find u p | None => None end = Some (Leaf x)).
        { unfold base. destruct (aget k (fields t)); [reflexivity|]. destruct p; cbn [find fields aget]; split; discriminate. }
        assert (UQ : forall u, In (k, u) l -> u = v) by (intros u J; apply (in_aget _ _ _ N) in J; congruence).
        split.
        -- intros [G|[Q F]]; [left; apply gives_below with v; assumption|right; split; [apply silent_below with v; assumption|apply FB, F]].
        -- intros [G|[Q F]].
           ++ inversion G; subst. match goal with H : In (k, ?u) l |- _ => rewrite <- (UQ u H) end. left. assumption.
           ++ right. split; [|apply FB, F]. inversion Q; subst.
              ** exfalso. match goal with H : ~ In k _ |- _ => apply H end. apply in_map_iff. exists (k, v). split; [reflexivity|exact I'].
              ** match goal with H : In (k, ?u) l |- _ => rewrite <- (UQ u H) end. assumption.
      * split.
        -- intros F. right. split; [|exact F]. apply silent_no_key. apply aget_none in E. exact E.
        -- intros [G|[_ F]]; [|exact F]. exfalso. inversion G; subst. apply aget_none in E. apply E. apply in_map_iff. eexists. split; [|eassumption]. reflexivity.
Qed.

Lemma collect_find l p x : p <> [] -> Forall proper l ->
  find (collect l) p = Some (Leaf x) <-> exists l1 t l2, l = l1 ++ t :: l2 /\ gives t p x /\ Forall (fun u => silent u p) l2.
Proof.
  intros NP. unfold collect. rewrite <- (rev_involutive l). generalize (rev l). clear l. intros l. induction l as [|t l IH]; intros P.
  - cbn [rev fold_left]. split; [destruct p; [congruence|]; discriminate|]. intros (l1 & t & l2 & E & _). destruct l1; discriminate.
  - cbn [rev] in *. rewrite fold_left_app. cbn [fold_left]. apply Forall_app in P. destruct P as [P Pt]. inversion Pt; subst. rewrite merge_find by assumption. rewrite IH by exact P. split.
    + intros [G|[Q (l1 & s & l2 & E & G & S2)]].
      * exists (rev l), t, []. split; [reflexivity|]. split; [exact G|constructor].
      * exists l1, s, (l2 ++ [t]). split; [rewrite E, <- app_assoc; reflexivity|]. split; [exact G|]. apply Forall_app. split; [exact S2|]. constructor; [exact Q|constructor].
    + intros (l1 & s & l2 & E & G & S2). destruct l2 as [|a r] using rev_ind.
      * apply app_inj_tail in E. destruct E as [_ ->]. left. exact G.
      * clear IHr. rewrite app_comm_cons, app_assoc in E. apply app_inj_tail in E. destruct E as [E ->]. apply Forall_app in S2. destruct S2 as [S2 Sa]. inversion Sa; subst.
        right. split; [assumption|]. exists l1, s, r. split; [exact E|]. split; assumption.
Qed.

(** Which documents those are *)
Lemma unwrap_somes l ps : unwrap_all l = Ok ps -> l = map Some ps.
Proof.
  revert ps. induction l as [|[p|] r IH]; cbn [unwrap_all]; intros ps E; [injection E as <-; reflexivity| |discriminate].
  destruct (unwrap_all r) as [q| |]; cbn [bind] in E; try discriminate. injection E as <-. rewrite (IH q eq_refl). reflexivity.
Qed.
Lemma load_all_docs h ps l : load_all h ps = Ok l -> Forall2 (fun p t => exists d, hs_file h p = Doc d /\ t = Table d) ps l.
Proof.
  revert l. induction ps as [|p ps IH]; cbn [load_all]; intros l E; [injection E as <-; constructor|].
  unfold load in E at 1. destruct (hs_file h p) eqn:F; cbn [bind] in E; try discriminate. destruct (load_all h ps) as [q| |]; cbn [bind] in E; try discriminate. injection E as <-.
  constructor; [eexists; split; [exact F|reflexivity]|apply IH; reflexivity].
Qed.
Lemma load_document h p t : load h false p = Ok t -> document h p t.
Proof. unfold load, document. destruct (hs_file h p) eqn:F; intros E; try discriminate; injection E as <-; eauto. Qed.
Lemma settings_are h component cfg : settings_for h component = Ok cfg ->
  exists drops own vendor, drop_ins h component drops /\ own_file h component own /\ vendor_file h component vendor /\ cfg = collect (drops ++ [own; vendor]).
Proof.
  unfold settings_for. destruct (hs_glob h _) as [found|] eqn:G; [|discriminate]. destruct (unwrap_all found) as [ps| |] eqn:U; cbn [bind]; try discriminate.
  destruct (load_all h ps) as [drops| |] eqn:L; cbn [bind]; try discriminate. destruct (load h false (or_else _ _)) as [own| |] eqn:O; cbn [bind]; try discriminate.
  destruct (load h false (txt "/usr/share/fdo/" ++ _)) as [vendor| |] eqn:V; cbn [bind]; try discriminate. intros E. injection E as <-.
  exists drops, own, vendor. split; [|split; [apply load_document; exact O|split; [apply load_document; exact V|reflexivity]]].
  exists ps. split; [|apply load_all_docs; exact L]. rewrite <- (unwrap_somes _ _ U). exact G.
Qed.
Lemma drops_proper h component drops : proper_host h -> drop_ins h component drops -> Forall proper drops.
Proof. intros PH (ps & _ & F). induction F as [|p t ps l (d & E & ->) F IH]; constructor; [exact (PH _ _ E)|exact IH]. Qed.
Lemma document_proper h p t : proper_host h -> document h p t -> proper t.
Proof. intros PH [(d & E & ->)|[_ ->]]; [exact (PH _ _ E)|apply proper_table; split; constructor]. Qed.
