(** C98, C99: configurations in several files. *)
From Verif Require Import Base BaseFacts ValueModel Text Assoc LayerModel LayerSpec LayerProofs.
Local Open Scope N_scope.

(** The documents that count are the drop-ins in the order of their names, then /etc/fdo (or what the environment names), then
    /usr/share/fdo.  A setting has the value that the last of them gives that is not silent about it. *)
Theorem C98_precedence : forall h component cfg, proper_host h -> settings_for h component = Ok cfg ->
  exists drops own vendor, drop_ins h component drops /\ own_file h component own /\ vendor_file h component vendor /\
  forall p x, p <> [] -> (find cfg p = Some (Leaf x) <->
    gives vendor p x \/
    (silent vendor p /\ gives own p x) \/
    (silent vendor p /\ silent own p /\ exists l1 t l2, drops = l1 ++ t :: l2 /\ gives t p x /\ Forall (fun u => silent u p) l2)).
Proof.
  intros h component cfg PH E. destruct (settings_are h component cfg E) as (drops & own & vendor & D & O & V & ->). exists drops, own, vendor. do 3 (split; [assumption|]). intros p x NP.
  rewrite collect_find; [|exact NP|].
  - split.
    + intros (l1 & t & l2 & S' & G & Q). destruct l2 as [|b l2 _] using rev_ind.
      * change (drops ++ [own; vendor]) with (drops ++ ([own] ++ [vendor])) in S'. rewrite app_assoc in S'. apply app_inj_tail in S'. destruct S' as [_ ->]. left. exact G.
      * change (drops ++ [own; vendor]) with (drops ++ ([own] ++ [vendor])) in S'. rewrite app_assoc, app_comm_cons, app_assoc in S'. apply app_inj_tail in S'. destruct S' as [S' <-].
        apply Forall_app in Q. destruct Q as [Q Qv]. inversion Qv; subst. destruct l2 as [|b l2 _] using rev_ind.
        -- apply app_inj_tail in S'. destruct S' as [_ ->]. right. left. split; assumption.
        -- rewrite app_comm_cons, app_assoc in S'. apply app_inj_tail in S'. destruct S' as [S' <-]. apply Forall_app in Q. destruct Q as [Q Qo]. inversion Qo; subst.
           right. right. split; [assumption|]. split; [assumption|]. exists l1, t, l2. split; [reflexivity|]. split; assumption.
    + intros [G|[[Q G]|(Q & R & l1 & t & l2 & -> & G & S2)]].
      * exists (drops ++ [own]), vendor, []. split; [rewrite <- app_assoc; reflexivity|]. split; [exact G|constructor].
      * exists drops, own, [vendor]. split; [reflexivity|]. split; [exact G|]. constructor; [exact Q|constructor].
      * exists l1, t, (l2 ++ [own; vendor]). split; [rewrite <- app_assoc; reflexivity|]. split; [exact G|]. apply Forall_app. split; [exact S2|]. constructor; [exact R|]. constructor; [exact Q|constructor].
  - apply Forall_app. split; [exact (drops_proper h component drops PH D)|]. constructor; [exact (document_proper _ _ _ PH O)|]. constructor; [exact (document_proper _ _ _ PH V)|constructor].
Qed.
Print Assumptions C98_precedence.

(** So a setting in one file only is used, whatever else there is. *)
Theorem C98_added : forall h component cfg l1 t l2 drops own vendor, proper_host h -> settings_for h component = Ok cfg ->
  drop_ins h component drops -> own_file h component own -> vendor_file h component vendor -> drops ++ [own; vendor] = l1 ++ t :: l2 ->
  forall p x, p <> [] -> gives t p x -> Forall (fun u => silent u p) l2 -> find cfg p = Some (Leaf x).
Proof.
  intros h component cfg l1 t l2 drops own vendor PH E D O V S' p x NP G Q. destruct (settings_are h component cfg E) as (drops' & own' & vendor' & D' & O' & V' & ->).
  assert (UD : forall p a b, document h p a -> document h p b -> a = b).
  { intros q a b [(d & F & ->)|[F ->]] [(d' & F' & ->)|[F' ->]]; repeat match goal with H : _ \/ _ |- _ => destruct H end; congruence. }
  assert (drops' = drops) as ->.
  { destruct D as (ps & PS & F). destruct D' as (ps' & PS' & F'). rewrite PS in PS'. injection PS' as PS'. assert (ps' = ps) as -> by (clear - PS'; revert ps' PS'; induction ps as [|a r IH]; intros [|b s] H; try discriminate; [reflexivity|]; injection H as -> H; f_equal; apply IH; exact H).
    clear - F F'. revert drops' F'. induction F as [|q a ps l (d & X & ->) F IH]; intros l' F'; inversion F'; subst; [reflexivity|]. f_equal; [|apply IH; assumption].
    match goal with H : exists _, _ |- _ => destruct H as (d' & X' & ->) end. congruence. }
  rewrite (UD _ _ _ O' O), (UD _ _ _ V' V), S'. apply collect_find; [exact NP| |exists l1, t, l2; auto].
  rewrite <- S'. apply Forall_app. split; [exact (drops_proper h component drops PH D)|]. constructor; [exact (document_proper _ _ _ PH O)|]. constructor; [exact (document_proper _ _ _ PH V)|constructor].
Qed.
Print Assumptions C98_added.

(** C99.  What one would expect: the store driver of the file that has precedence is the one used. *)
Definition C99_statement : Prop := forall h component cfg own vendor setting kind options, proper_host h -> settings_for h component = Ok cfg ->
  own_file h component own -> vendor_file h component vendor -> silent vendor [setting] -> find own [setting] = Some (Table [(kind, options)]) ->
  driver cfg setting = Some kind.
(** Proved where all files that set it name the same kind of store. *)
Definition names_kind (setting kind : name) (t : tree) : Prop := exists options, find t [setting] = Some (Table [(kind, options)]).
Lemma kind_merged setting kind d t0 : proper (Table d) -> find (Table d) [setting] = None \/ names_kind setting kind (Table d) ->
  find t0 [setting] = None \/ names_kind setting kind t0 ->
  (find (merge t0 (Table d)) [setting] = None /\ find t0 [setting] = None /\ find (Table d) [setting] = None) \/ names_kind setting kind (merge t0 (Table d)).
Proof.
  intros P F H0. unfold names_kind. rewrite merge_table. apply proper_table in P. cbn [find] in *. rewrite each_get by apply P. unfold names_kind in F, H0. cbn [find fields] in F, H0. cbn [fields].
  destruct (aget setting d) as [v|].
  - right. destruct F as [X|(o & X)]; [discriminate|]. injection X as ->. unfold base. destruct H0 as [H0|(o0 & H0)]; destruct (aget setting (fields t0)) as [u|]; try discriminate.
    + exists (merge (Table []) o). reflexivity.
    + injection H0 as ->. exists (merge o0 o). cbn. rewrite name_eqb_refl. reflexivity.
  - destruct H0 as [H0|(o0 & H0)]; [left|right; exists o0; destruct (aget setting (fields t0)); [exact H0|discriminate]]. destruct (aget setting (fields t0)); [discriminate|auto].
Qed.
Lemma kind_kept setting kind l : Forall (fun t => (exists d, t = Table d) /\ proper t /\ (find t [setting] = None \/ names_kind setting kind t)) l ->
  forall t0, find t0 [setting] = None \/ names_kind setting kind t0 ->
  (find (fold_left merge l t0) [setting] = None /\ find t0 [setting] = None /\ Forall (fun t => find t [setting] = None) l) \/ names_kind setting kind (fold_left merge l t0).
Proof.
  induction 1 as [|t l ((d & ->) & P & F) FL IH]; intros t0 H0; cbn [fold_left].
  - destruct H0 as [H0|H0]; [left; auto|right; exact H0].
  - destruct (kind_merged setting kind d t0 P F H0) as [(M & Z & D)|M].
    + destruct (IH _ (or_introl M)) as [(X & Y & W)|X]; [left|right; exact X]. split; [exact X|]. split; [exact Z|]. constructor; assumption.
    + destruct (IH _ (or_intror M)) as [(X & Y & W)|X]; [|right; exact X]. destruct M as (o & M). congruence.
Qed.
Lemma docs_tables h component drops own vendor : drop_ins h component drops -> own_file h component own -> vendor_file h component vendor ->
  Forall (fun t => exists d, t = Table d) (drops ++ [own; vendor]).
Proof.
  intros (ps & _ & F) O V. apply Forall_app. split.
  - induction F as [|p t ps l (d & _ & ->) F IH]; constructor; [eauto|exact IH].
  - constructor; [destruct O as [(d & _ & ->)|(_ & ->)]; eauto|]. constructor; [destruct V as [(d & _ & ->)|(_ & ->)]; eauto|constructor].
Qed.
Theorem C99_same_kind_partial : forall h component cfg setting kind, proper_host h -> settings_for h component = Ok cfg ->
  exists drops own vendor, drop_ins h component drops /\ own_file h component own /\ vendor_file h component vendor /\
  (Forall (fun t => find t [setting] = None \/ names_kind setting kind t) (drops ++ [own; vendor]) -> Exists (names_kind setting kind) (drops ++ [own; vendor]) ->
   driver cfg setting = Some kind).
Proof.
  intros h component cfg setting kind PH E. destruct (settings_are h component cfg E) as (drops & own & vendor & D & O & V & ->). exists drops, own, vendor. do 3 (split; [assumption|]). intros A X.
  pose proof (docs_tables _ _ _ _ _ D O V) as T.
  assert (P : Forall proper (drops ++ [own; vendor])).
  { apply Forall_app. split; [exact (drops_proper h component drops PH D)|]. constructor; [exact (document_proper _ _ _ PH O)|]. constructor; [exact (document_proper _ _ _ PH V)|constructor]. }
  destruct (kind_kept setting kind (drops ++ [own; vendor])) with (t0 := Table []) as [(_ & _ & W)|(o & W)].
  - rewrite Forall_forall in *. intros t I'. split; [apply T, I'|]. split; [apply P, I'|apply A, I'].
  - left. reflexivity.
  - exfalso. apply Exists_exists in X. destruct X as (t & I' & (o & Y)). rewrite Forall_forall in W. rewrite (W t I') in Y. discriminate.
  - unfold driver, collect. rewrite W. reflexivity.
Qed.
Print Assumptions C99_same_kind_partial.

(** * A case: a drop-in sets two things, the file in /etc/fdo one of them and a third, the vendor's file the port *)
Definition la_dir (p : string) : tree := Table [(txt "Directory", Table [(txt "path", Leaf (txt p))])].
Definition la_host (own : list (name * tree)) : host := Host
  (fun p => if bytes_eqb p (txt "/etc/fdo/rendezvous-server.conf.d/10.yml") then Doc [(txt "max_wait_seconds", Leaf (txt "100")); (txt "bind", Leaf (txt "0.0.0.0:1")); (txt "storage_driver", la_dir "/a")]
            else if bytes_eqb p (txt "/etc/fdo/rendezvous-server.yml") then Doc own
            else if bytes_eqb p (txt "/usr/share/fdo/rendezvous-server.yml") then Doc [(txt "bind", Leaf (txt "0.0.0.0:3"))] else Missing)
  (fun _ => None) (fun p => if bytes_eqb p (txt "/etc/fdo/rendezvous-server.conf.d/*.yml") then Some [Some (txt "/etc/fdo/rendezvous-server.conf.d/10.yml")] else Some []).
Lemma la_proper own : proper (Table own) -> proper_host (la_host own).
Proof.
  intros P p d E. cbn [la_host hs_file] in E. destruct (bytes_eqb p _).
  - injection E as <-. repeat split; repeat constructor; cbn [map fst In]; intuition discriminate.
  - destruct (bytes_eqb p _); [injection E as <-; exact P|]. destruct (bytes_eqb p _); [|discriminate]. injection E as <-. repeat split; repeat constructor; cbn [map fst In]; intuition discriminate.
Qed.
Definition la_own : list (name * tree) := [(txt "bind", Leaf (txt "0.0.0.0:2")); (txt "max_wait_seconds", Leaf (txt "200")); (txt "storage_driver", la_dir "/b")].
Example C98_case : exists cfg, settings_for (la_host la_own) (txt "rendezvous-server") = Ok cfg /\
  find cfg [txt "bind"] = Some (Leaf (txt "0.0.0.0:3")) /\ find cfg [txt "max_wait_seconds"] = Some (Leaf (txt "200")) /\
  find cfg [txt "storage_driver"; txt "Directory"; txt "path"] = Some (Leaf (txt "/b")) /\ driver cfg (txt "storage_driver") = Some (txt "Directory").
Proof. eexists. split; [vm_compute; reflexivity|]. vm_compute. repeat split. Qed.
Example C98_case_meets : proper_host (la_host la_own).
Proof. apply la_proper. repeat split; repeat constructor; cbn [map fst In]; intuition discriminate. Qed.
Example C98_environment : format_conf_env (txt "rendezvous-server") = txt "RENDEZVOUS_SERVER_CONF" /\ format_conf_dir_env (txt "owner-onboarding-server") = txt "OWNER_ONBOARDING_SERVER_CONF_DIR".
Proof. split; reflexivity. Qed.

(** A database in /etc/fdo, and a directory in a drop-in: the table has both keys, which is no store driver at all. *)
Definition la_sql : list (name * tree) := [(txt "storage_driver", Table [(txt "Sqlite", Table [(txt "url", Leaf (txt "x.db")); (txt "server", Leaf (txt "Rendezvous"))])])].
Theorem C99_refuted : ~ C99_statement.
Proof.
  intros H.
  assert (PH : proper_host (la_host la_sql)) by (apply la_proper; repeat split; repeat constructor; cbn [map fst In]; intuition discriminate).
  assert (E : exists cfg, settings_for (la_host la_sql) (txt "rendezvous-server") = Ok cfg /\ driver cfg (txt "storage_driver") = None) by (eexists; split; vm_compute; reflexivity).
  destruct E as (cfg & E & DN).
  assert (X : driver cfg (txt "storage_driver") = Some (txt "Sqlite")).
  { apply (H (la_host la_sql) (txt "rendezvous-server") cfg (Table la_sql) (Table [(txt "bind", Leaf (txt "0.0.0.0:3"))]) (txt "storage_driver") (txt "Sqlite")
      (Table [(txt "url", Leaf (txt "x.db")); (txt "server", Leaf (txt "Rendezvous"))])); [exact PH|exact E| | | |].
    - left. exists la_sql. split; [vm_compute; reflexivity|reflexivity].
    - left. eexists. split; [vm_compute; reflexivity|reflexivity].
    - apply silent_no_key. intros [X|[]]. discriminate.
    - vm_compute. reflexivity. }
  congruence.
Qed.
Print Assumptions C99_refuted.

(** What one would expect of a file that the environment names: its settings are used. *)
Definition C99_environment_statement : Prop := forall h component cfg f own p x, proper_host h -> settings_for h component = Ok cfg ->
  hs_env h (format_conf_env component) = Some f -> hs_file h f = Doc own -> gives (Table own) p x -> p <> [] -> find cfg p = Some (Leaf x).
Theorem C99_environment_partial : forall h component cfg f own p x, proper_host h -> settings_for h component = Ok cfg ->
  hs_env h (format_conf_env component) = Some f -> hs_file h f = Doc own -> gives (Table own) p x -> p <> [] ->
  hs_file h (txt "/usr/share/fdo/" ++ component ++ txt ".yml") = Missing -> find cfg p = Some (Leaf x).
Proof.
  intros h component cfg f own p x PH E EN F G NP M. destruct (C98_precedence h component cfg PH E) as (drops & own' & vendor & D & O & V & P). apply P; [exact NP|]. right. left.
  unfold own_file, vendor_file, document in *. rewrite EN, F in O. rewrite M in V. destruct O as [(d & O & ->)|([O|O] & _)]; try discriminate. injection O as <-.
  destruct V as [(d & V & _)|(_ & ->)]; [discriminate|]. split; [|exact G]. destruct p as [|k p]; [congruence|]. apply silent_no_key. intros [].
Qed.
Print Assumptions C99_environment_partial.
Definition la_env : host := let h := la_host la_own in Host (fun p => if bytes_eqb p (txt "/tmp/my.yml") then Doc la_own else hs_file h p) (fun k => if bytes_eqb k (txt "RENDEZVOUS_SERVER_CONF") then Some (txt "/tmp/my.yml") else None) (hs_glob h).
Theorem C99_environment_refuted : ~ C99_environment_statement.
Proof.
  intros H. assert (PH : proper_host la_env).
  { intros p d E. unfold la_env in E. cbn [hs_file] in E. destruct (bytes_eqb p (txt "/tmp/my.yml")); [|exact (C98_case_meets p d E)].
    injection E as <-. apply (C98_case_meets (txt "/etc/fdo/rendezvous-server.yml")). vm_compute. reflexivity. }
  assert (E : exists cfg, settings_for la_env (txt "rendezvous-server") = Ok cfg /\ find cfg [txt "bind"] = Some (Leaf (txt "0.0.0.0:3"))) by (eexists; split; vm_compute; reflexivity).
  destruct E as (cfg & E & B).
  assert (X : find cfg [txt "bind"] = Some (Leaf (txt "0.0.0.0:2"))).
  { apply (H la_env (txt "rendezvous-server") cfg (txt "/tmp/my.yml") la_own); [exact PH|exact E|vm_compute; reflexivity|vm_compute; reflexivity| |discriminate].
    apply gives_below with (Leaf (txt "0.0.0.0:2")); [left; reflexivity|constructor]. }
  rewrite B in X. discriminate.
Qed.
Print Assumptions C99_environment_refuted.
