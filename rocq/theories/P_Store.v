(** C35-C40, C52: the stores. *)
From Verif Require Import Base BaseFacts ValueModel Text Assoc StoreModel StoreSpec StoreRun StoreProofs StoreProofs2.
From Coq Require Import ZifyBool ZifyNat ZifyN Permutation.
Local Open Scope N_scope.

(** A codec for examples: the length, then the bytes. *)
Definition ex_codec : codec bytes :=
  Codec (fun v => Ok (nlen v :: v)) (fun b => match b with n :: r => if nlen r =? n then Some r else None | [] => None end).
Lemma ex_storable v : storable ex_codec v.
Proof. exists (nlen v :: v). cbn. rewrite N.eqb_refl. auto. Qed.
Definition k1 : key := txt "4b6f-a1".
Definition k2 : key := txt "a+/b==".
Example keys_plain : plain_key k1 /\ plain_key k2.
Proof. split; vm_compute; repeat (constructor; [split; discriminate|]); constructor. Qed.
Ltac plain := let o := fresh in let k := fresh in let I := fresh in let E := fresh in
  intros o k I E; repeat (destruct I as [<-|I]; [first [discriminate E|injection E as <-; apply keys_plain]|]); destruct I.
Ltac use_ok := split; [plain|split; [repeat first [apply Forall_cons; [first [exact Logic.I|apply ex_storable]|]|apply Forall_nil]
  |split; [repeat first [apply Forall_cons; [first [exact Logic.I|reflexivity]|]|apply Forall_nil]
  |vm_compute; repeat split]]].

(** * C35 *)
(** Every sequence of operations (without listings after interrupted stores, see C39 and C52) on keys with
    distinct file names answers as a map with expiry. *)
Theorem C35_directory_is_a_map {V} (c : codec V) (K : key -> Prop) lo os now :
  distinct_names K -> usable c K lo now os -> history (now, empty) os (dir_run c (now, []) os).
Proof. intros DN H. eapply dir_refines; [exact DN|apply R_empty|exact H]. Qed.

Theorem C35_plain_keys_distinct : distinct_names plain_key.
Proof. exact plain_distinct. Qed.

Theorem C35_directory_plain_keys {V} (c : codec V) lo os now :
  usable c plain_key lo now os -> history (now, empty) os (dir_run c (now, []) os).
Proof. intros H. eapply C35_directory_is_a_map; [exact plain_distinct|exact H]. Qed.

(** What the map answers is determined, up to the order of listings. *)
Theorem C35_map_deterministic {V} (os : list (op V)) s x y :
  history s os x -> history s os y -> Forall2 same_answer x y.
Proof. apply history_det. Qed.

Definition ex_ops : list (op bytes) :=
  [OStore k1 [1;2]; OExpire k1 600; OStore k2 [3]; OLoad k1; OTick (601 * second); OLoad k1; OMaint; OAll; ODue; ODestroy k1; ODestroy k2].
Example C35_usable : usable ex_codec plain_key false 7 ex_ops /\
  dir_run ex_codec (7, []) ex_ops =
  [ADone; ADone; ADone; AVal (Some [1;2]); ADone; AVal None; ADone; AList [[3]]; AList [[3]]; AFail; ADone].
Proof. split; [unfold ex_ops; use_ok|vm_compute; reflexivity]. Qed.
(** Setting a new expiry on an expired record that has not been collected brings it back. *)
Example C35_expired_comes_back :
  dir_run ex_codec (0, []) [OStore k1 [1]; OExpire k1 5; OTick (100 * second); OExpire k1 5; OLoad k1] =
  [ADone; ADone; ADone; ADone; AVal (Some [1])].
Proof. vm_compute. reflexivity. Qed.

(** * C36 *)
(** After any history, whatever point of a store the process dies at, the key loads as before or as the
    complete new value, and every other key loads as before. *)
Theorem C36_store_crash_atomic {V} (c : codec V) lo os now k v data d' :
  usable c plain_key lo now os -> plain_key k -> ser c v = Ok data -> de c data = Some v ->
  store_crash (snd (dir_final c (now, []) os)) k data d' ->
  let d := snd (dir_final c (now, []) os) in
  (forall k' t, plain_key k' -> k' <> k -> snd (dir_load c t d' k') = snd (dir_load c t d k')) /\
  ((forall t, snd (dir_load c t d' k) = snd (dir_load c t d k)) \/ (forall t, snd (dir_load c t d' k) = Ok (Some v))).
Proof.
  intros U Kk Sv Dv C. destruct (final_R c plain_key plain_distinct lo os now [] empty (R_empty _ _ _) U) as [m H].
  eapply crash_atomic; eauto using plain_distinct.
Qed.
(** A store that is not interrupted returns the new value afterwards. *)
Theorem C36_store_complete {V} (c : codec V) lo os now k v data t :
  usable c plain_key lo now os -> plain_key k -> ser c v = Ok data -> de c data = Some v ->
  snd (dir_load c t (fst (dir_store c (snd (dir_final c (now, []) os)) k v)) k) = Ok (Some v).
Proof.
  intros U Kk Sv Dv. destruct (final_R c plain_key plain_distinct lo os now [] empty (R_empty _ _ _) U) as [m H].
  eapply store_complete; eauto using plain_distinct.
Qed.
Example C36_case : exists d', store_crash (snd (dir_final ex_codec (7, []) [OStore k1 [1;2]])) k1 [3; 7; 8; 9] d' /\
  snd (dir_load ex_codec 9 d' k1) = Ok (Some [1;2]) /\ aget (tmp_of (get_path k1)) d' = Some (File [3; 7] []).
Proof.
  eexists. split; [apply (CrashWriting _ _ _ [3; 7] [8; 9]); reflexivity|]. split; vm_compute; reflexivity.
Qed.

(** * C37 *)
(** Storing under one key never changes what another key returns: false for arbitrary keys. *)
Definition C37_statement : Prop := forall V (c : codec V) os now k v k' t,
  usable c (fun _ => True) false now os -> storable c v -> k <> k' ->
  snd (dir_load c t (fst (dir_store c (snd (dir_final c (now, []) os)) k v)) k') =
  snd (dir_load c t (snd (dir_final c (now, []) os)) k').
Theorem C37_distinct_keys_refuted : ~ C37_statement.
Proof.
  intros H. specialize (H bytes ex_codec [] 0 (txt "a/b") [1] (txt "a_slash_b") 0).
  assert (U : usable ex_codec (fun _ => True) false 0 []) by (split; [auto|split; [constructor|split; [constructor|exact Logic.I]]]).
  specialize (H U (ex_storable _) ltac:(vm_compute; discriminate)). vm_compute in H. discriminate.
Qed.
(** A key can also name another key's temporary file. *)
Example C37_temporary_file :
  dir_run ex_codec (0, []) [OStore (txt ".x.tmp") [1]; OStore (txt "x") [2]; OLoad (txt ".x.tmp")] = [ADone; ADone; AVal None].
Proof. vm_compute. reflexivity. Qed.

(** It holds for keys without '_' and '.'; missing: other keys. *)
Theorem C37_distinct_plain_keys_partial {V} (c : codec V) lo os now k v k' t :
  usable c plain_key lo now os -> plain_key k -> plain_key k' -> k <> k' ->
  snd (dir_load c t (fst (dir_store c (snd (dir_final c (now, []) os)) k v)) k') =
  snd (dir_load c t (snd (dir_final c (now, []) os)) k').
Proof.
  intros U Kk Kk' NE. destruct (final_R c plain_key plain_distinct lo os now [] empty (R_empty _ _ _) U) as [m H].
  eapply store_other; eauto using plain_distinct.
Qed.
Example C37_case : usable ex_codec plain_key true 0 [OStore k2 [5]] /\ plain_key k1 /\ plain_key k2 /\ k1 <> k2 /\
  snd (dir_load ex_codec 0 (fst (dir_store ex_codec (snd (dir_final ex_codec (0, []) [OStore k2 [5]])) k1 [6])) k2) = Ok (Some [5]).
Proof.
  split; [use_ok|]. split; [apply keys_plain|]. split; [apply keys_plain|]. split; [vm_compute; discriminate|vm_compute; reflexivity].
Qed.

(** * C38 *)
(** A load after the expiry returns nothing and removes the record; up to then it returns the value. *)
Theorem C38_load_expiry {V} (c : codec V) d k v now s t :
  storable c v -> now / second + s < 2 ^ 63 ->
  let d2 := fst (dir_set_meta now (fst (dir_store c d k v)) k Ttl (MDur s)) in
  ((now / second + s) * second < t -> snd (dir_load c t d2 k) = Ok None /\ aget (get_path k) (fst (dir_load c t d2 k)) = None) /\
  (t <= (now / second + s) * second -> dir_load c t d2 k = (d2, Ok (Some v))).
Proof.
  intros (data & Sv & Dv) B d2. pose proof (load_after_expire c d k v data now s t Sv Dv B) as E. fold d2 in E. cbv zeta in E. rewrite E.
  destruct (N.ltb_spec ((now / second + s) * second) t); (split; intros; [|try lia]); try lia.
  - cbn [fst snd]. split; [reflexivity|apply aget_adel_eq].
  - reflexivity.
Qed.
Example C38_load_case : storable ex_codec [1] /\ 5 / second + 600 < 2 ^ 63.
Proof. split; [apply ex_storable|vm_compute; reflexivity]. Qed.

(** After any history, maintenance succeeds and keeps a file exactly if no expiry has been reached. *)
Theorem C38_maintenance_exact {V} (c : codec V) lo os now t n f :
  usable c plain_key lo now os ->
  let d := snd (dir_final c (now, []) os) in
  snd (dir_maint t d) = Ok tt /\
  (In (n, f) (fst (dir_maint t d)) <->
   In (n, f) d /\ ~ (exists x, aget (xname Ttl) (f_xattr f) = Some x /\ le_dec x * second <= t)).
Proof.
  intros U d. destruct (final_R c plain_key plain_distinct lo os now [] empty (R_empty _ _ _) U) as [m H]. fold d in H.
  unfold dir_maint. rewrite maint_filter by (intros n' f' I; eapply R_ttl_ok; eauto). cbn [fst snd]. split; [reflexivity|].
  rewrite filter_In. cbn [snd]. unfold file_overdue. split; intros [I P]; (split; [exact I|]).
  - intros (x & E & L). rewrite E in P. change SEC with second in P. lia.
  - destruct (aget (xname Ttl) (f_xattr f)) as [x|]; [|reflexivity]. change SEC with second.
    destruct (N.ltb_spec t (le_dec x * second)); [reflexivity|]. exfalso. apply P. eauto.
Qed.
Example C38_maintenance_case : usable ex_codec plain_key false 7 [OStore k1 [1]; OExpire k1 10; OStore k2 [2]; OExpire k2 20] /\
  adom (snd (dir_final ex_codec (7, []) [OStore k1 [1]; OExpire k1 10; OStore k2 [2]; OExpire k2 20; OTick (15 * second); OMaint])) = [get_path k2].
Proof. split; [use_ok|vm_compute; reflexivity]. Qed.

(** Maintenance should not change what a load at the same time returns: false at the very second of expiry,
    when loads still return the record and maintenance removes it. *)
Definition C38_statement : Prop := forall V (c : codec V) os now k t,
  usable c plain_key false now os -> plain_key k ->
  let d := snd (dir_final c (now, []) os) in
  snd (dir_load c t (fst (dir_maint t d)) k) = snd (dir_load c t d k).
Theorem C38_maintenance_invisible_refuted : ~ C38_statement.
Proof.
  intros H. specialize (H bytes ex_codec [OStore k1 [1]; OExpire k1 10] 0 k1 (10 * second)).
  assert (U : usable ex_codec plain_key false 0 [OStore k1 [1]; OExpire k1 10]) by use_ok.
  specialize (H U (proj1 keys_plain)). vm_compute in H. discriminate.
Qed.
(** It holds at every other time. *)
Theorem C38_maintenance_invisible_partial {V} (c : codec V) lo os now k t :
  usable c plain_key lo now os -> plain_key k -> (forall e, t <> e * second) ->
  let d := snd (dir_final c (now, []) os) in
  snd (dir_load c t (fst (dir_maint t d)) k) = snd (dir_load c t d k).
Proof.
  intros U Kk NE. destruct (final_R c plain_key plain_distinct lo os now [] empty (R_empty _ _ _) U) as [m H].
  eapply maint_invisible; eauto.
Qed.
Example C38_invisible_case : usable ex_codec plain_key false 0 [OStore k1 [1]; OExpire k1 10] /\ plain_key k1 /\ forall e, 10500000000 <> e * second.
Proof. split; [use_ok|]. split; [apply keys_plain|]. intros e. unfold second. lia. Qed.

(** The database backends do not look at the expiry when loading. *)
Definition C38_database_statement : Prop := forall V (c : codec V) guid_of sty k v s d,
  storable c v -> guid_of v = k -> sty <> Owner ->
  (s + 1) * second <= d ->
  db_run c guid_of sty (0, []) [OStore k v; OExpire k s; OTick d; OLoad k] = [ADone; ADone; ADone; AVal None].
Theorem C38_database_expiry_refuted : ~ C38_database_statement.
Proof.
  intros H. specialize (H bytes ex_codec (fun _ => k1) Rendezvous k1 [1] 10 (20 * second) (ex_storable _) eq_refl ltac:(discriminate) ltac:(vm_compute; discriminate)).
  vm_compute in H. discriminate.
Qed.
(** Their maintenance removes exactly the rows whose expiry has been reached. *)
Theorem C38_database_maintenance t sty now n r : sty <> Owner ->
  snd (db_maint sty now t) = Ok tt /\
  (In (n, r) (fst (db_maint sty now t)) <-> In (n, r) t /\ ~ (exists e, r_ttl r = Some e /\ (e <= Z.of_N (now / second))%Z)).
Proof.
  intros NO. assert (E : db_maint sty now t = (filter (fun e => match r_ttl (snd e) with
     | Some x => negb (x <=? Z.of_N (unix_timestamp now))%Z | None => true end) t, Ok tt)) by (destruct sty; [reflexivity|congruence|reflexivity]).
  rewrite E. cbn [fst snd]. split; [reflexivity|]. rewrite filter_In. cbn [snd]. change (unix_timestamp now) with (now / second).
  split; intros [I P]; (split; [exact I|]).
  - intros (e & X & L). rewrite X in P. destruct (Z.leb_spec e (Z.of_N (now / second))); [discriminate|lia].
  - destruct (r_ttl r) as [e|]; [|reflexivity]. destruct (Z.leb_spec e (Z.of_N (now / second))); [|reflexivity]. exfalso. eauto.
Qed.
Example C38_database_case : fst (db_maint Rendezvous (5 * second) [(k1, Row [1] None None (Some 5%Z)); (k2, Row [2] None None (Some 6%Z))]) = [(k2, Row [2] None None (Some 6%Z))].
Proof. vm_compute. reflexivity. Qed.

(** * C39 *)
(** With interrupted stores among the operations the query can list what was never stored: the data left in
    a temporary file. *)
Definition C39_statement : Prop := forall V (c : codec V) os now,
  usable c plain_key true now os -> history (now, empty) (os ++ [ODue]) (dir_run c (now, []) (os ++ [ODue])).
Theorem C39_due_refuted : ~ C39_statement.
Proof.
  intros H. specialize (H bytes ex_codec [OCrash k1 [1] (Some 2)] 0).
  assert (U : usable ex_codec plain_key true 0 [OCrash k1 [1] (Some 2)]) by use_ok.
  specialize (H U). vm_compute in H. inversion H as [|? ? ? ? ? ? S1 H1]; subst. inversion S1; subst. inversion H1 as [|? ? ? ? ? ? S2 H2]; subst.
  inversion S2 as [| | | | | | | | | | | | | | | |? ? ? L|]; subst. destruct L as (ks & _ & I & E). destruct ks as [|k ks]; [discriminate|].
  destruct (I k) as [I1 _]. destruct (I1 (or_introl eq_refl)) as (r & Em & _). discriminate.
Qed.
(** Without interrupted stores the query lists, after any history, exactly the due records; missing:
    histories with interrupted stores. *)
Theorem C39_due_directory_partial {V} (c : codec V) os now :
  usable c plain_key false now os -> history (now, empty) (os ++ [ODue]) (dir_run c (now, []) (os ++ [ODue])).
Proof.
  intros (HK & HV & HA & HT). apply C35_directory_plain_keys with (lo := false). split; [|split; [|split]].
  - intros o k I E. apply in_app_or in I. destruct I as [I|[<-|[]]]; [eauto|discriminate].
  - apply Forall_app. split; [exact HV|repeat constructor].
  - apply Forall_app. split; [exact HA|repeat constructor].
  - clear - HT. revert now HT. induction os as [|o os IH]; intros now; [cbn; auto|]. intros [A B]. split; [exact A|]. apply IH. exact B.
Qed.
Definition ex_due : list (op bytes) :=
  [OStore k1 [1]; OTo2 k1 true; OStore k2 [2]; OTo0 k2 100; OStore (txt "c") [3]; OTo2 (txt "c") false; OTo0 (txt "c") 100; OTo0 k1 100; OTick (150 * second); OTo0 k2 3].
Example C39_case : 
  dir_run ex_codec (7, []) (ex_due ++ [ODue]) = repeat ADone 10 ++ [AList [[3]]] /\
  history (7, empty) (ex_due ++ [ODue]) (repeat ADone 10 ++ [AList [[3]]]).
Proof.
  assert (E : dir_run ex_codec (7, []) (ex_due ++ [ODue]) = repeat ADone 10 ++ [AList [[3]]]) by (vm_compute; reflexivity).
  split; [exact E|]. rewrite <- E. apply C39_due_directory_partial. split; [|split; [|split]].
  - intros o k I E'. cbn in I. repeat (destruct I as [<-|I]; [cbn in E'; injection E' as <-; vm_compute; repeat (constructor; [split; discriminate|]); constructor|] || (destruct I as [<-|I]; [discriminate|])). destruct I.
  - repeat first [apply Forall_cons|apply Forall_nil]; cbn; try exact Logic.I; apply ex_storable.
  - repeat first [apply Forall_cons|apply Forall_nil]; exact Logic.I.
  - vm_compute. repeat split.
Qed.
(** The database query lists exactly the due rows, for any table of readable rows. *)
Theorem C39_due_database {V} (c : codec V) now (t : table) :
  Forall (fun e => exists v, de c (r_contents (snd e)) = Some v) t ->
  exists vs, db_query_ovs c Owner now t = Ok vs /\
  map Some vs = map (fun e => de c (r_contents (snd e)))
    (filter (fun e => match r_to2 (snd e) with Some b => negb b | None => true end &&
                      match r_to0 (snd e) with Some x => (x <? Z.of_N (now / second))%Z | None => true end) t).
Proof.
  intros F. cbn [db_query_ovs]. induction F as [|[n w] t (v & E) F (vs & IH1 & IH2)]; [exists []; split; reflexivity|].
  cbn [filter snd]. assert (X : db_selects false (Z.of_N (unix_timestamp now)) w =
    match r_to2 w with Some b => negb b | None => true end && match r_to0 w with Some x => (x <? Z.of_N (now / second))%Z | None => true end).
  { unfold db_selects. change (unix_timestamp now) with (now / second). rewrite Bool.andb_comm. destruct (r_to2 w) as [[|]|]; reflexivity. }
  rewrite X. destruct (_ && _).
  - cbn [map de_all snd] in *. rewrite E, IH1. cbn [map]. exists (v :: vs). split; [reflexivity|]. cbn [map snd]. rewrite IH2. reflexivity.
  - exists vs. split; assumption.
Qed.
Example C39_database_case : db_query_ovs ex_codec Owner (10 * second)
  [(k1, Row [1;7] (Some true) None None); (k2, Row [1;8] None (Some 9%Z) None); ([3], Row [1;9] (Some false) (Some 10%Z) None)] = Ok [[8]].
Proof. vm_compute. reflexivity. Qed.

(** * C40 *)
Definition C40_statement : Prop := forall V (c : codec V) guid_of sty os now,
  usable c plain_key false now os -> (forall k v, In (OStore k v) os -> guid_of v = k) ->
  Forall2 same_answer (dir_run c (now, []) os) (db_run c guid_of sty (now, []) os).
(** Loading a key that is not there crashes the database backends. *)
Theorem C40_backends_agree_refuted : ~ C40_statement.
Proof.
  intros H. specialize (H bytes ex_codec (fun _ => k1) Owner [OLoad k1] 0).
  assert (U : usable ex_codec plain_key false 0 [OLoad k1]) by use_ok.
  specialize (H U ltac:(intros k v [X|[]]; discriminate)). vm_compute in H. inversion H as [|? ? ? ? S]; subst. discriminate.
Qed.
(** Further differences: storing again, destroying what is not there, expiry, removing an attribute. *)
Example C40_differences :
  (dir_run ex_codec (0, []) [OStore k1 [1]; OStore k1 [1]] = [ADone; ADone] /\
   db_run ex_codec (fun _ => k1) Rendezvous (0, []) [OStore k1 [1]; OStore k1 [1]] = [ADone; AFail]) /\
  (dir_run ex_codec (0, []) [ODestroy k1] = [AFail] /\ db_run ex_codec (fun _ => k1) Owner (0, []) [ODestroy k1] = [ADone]) /\
  (dir_run ex_codec (0, []) [OStore k1 [1]; OExpire k1 1; OTick (2 * second); OLoad k1] = [ADone; ADone; ADone; AVal None] /\
   db_run ex_codec (fun _ => k1) Rendezvous (0, []) [OStore k1 [1]; OExpire k1 1; OTick (2 * second); OLoad k1] = [ADone; ADone; ADone; AVal (Some [1])]) /\
  (dir_run ex_codec (0, []) [OStore k1 [1]; OTo2 k1 true; ODel k1 ATo0; ODue] = [ADone; ADone; AFail; AList []] /\
   db_run ex_codec (fun _ => k1) Owner (0, []) [OStore k1 [1]; OTo2 k1 true; ODel k1 ATo0; ODue] = [ADone; ADone; ADone; AList [[1]]]).
Proof. vm_compute. auto 10. Qed.

(** A database answers as the map with expiry as long as each operation fits ([db_fits]: records are stored
    once, loads hit unexpired records, only attributes of the server's kind are used). *)
Theorem C40_database_is_a_map_partial {V} (c : codec V) guid_of sty os now :
  Forall (op_value_ok c) os -> db_fits guid_of sty (now, empty) os ->
  history (now, empty) os (db_run c guid_of sty (now, []) os).
Proof. intros HV HF. eapply db_refines; [apply RD_empty|exact HV|exact HF]. Qed.
(** So the backends agree on such sequences; missing: the others, where they do not. *)
Theorem C40_backends_agree_partial {V} (c : codec V) guid_of sty os now :
  usable c plain_key false now os -> db_fits guid_of sty (now, empty) os ->
  Forall2 same_answer (dir_run c (now, []) os) (db_run c guid_of sty (now, []) os).
Proof.
  intros U HF. eapply history_det; [apply C35_directory_plain_keys with (lo := false); exact U|].
  apply C40_database_is_a_map_partial; [apply U|exact HF].
Qed.
Definition ex_fit : list (op bytes) :=
  [OStore k1 [1]; OLoad k1; OTo0 k1 5; OTick (9 * second); ODue; OTo2 k1 true; ODue; OAll; OMaint; ODestroy k1].
Example C40_case : usable ex_codec plain_key false 0 ex_fit /\ db_fits (fun _ => k1) Owner (0, empty) ex_fit /\
  db_run ex_codec (fun _ => k1) Owner (0, []) ex_fit = [ADone; AVal (Some [1]); ADone; ADone; AList [[1]]; ADone; AList []; AList [[1]]; ADone; ADone].
Proof.
  split; [unfold ex_fit; use_ok|]. split; [|vm_compute; reflexivity]. unfold ex_fit.
  repeat (apply FitsCons;
    [cbn [db_guard]; first [exact Logic.I|reflexivity|split; [reflexivity|right; reflexivity]|eexists; split; reflexivity
                           |let E := fresh in intros E; vm_compute in E; discriminate E]
    |let S := fresh in intros ? ? S; inversion S; subst; clear S;
     try match goal with E : _ = Some ?r, X : expired _ ?r = true |- _ => vm_compute in E; injection E as <-; vm_compute in X; discriminate X end;
     try match goal with E : _ k1 = _ |- _ => vm_compute in E; discriminate E end;
     repeat match goal with E : _ = _ |- _ => clear E end]).
  all: apply FitsNil.
Qed.

(** * C52 *)
(** Listing all records keeps working after an interrupted store: false, the temporary file is listed too. *)
Definition C52_statement : Prop := forall V (c : codec V) os now,
  usable c plain_key true now os -> exists vs, snd (dir_step c (dir_final c (now, []) os) OAll) = AList vs.
Theorem C52_listing_after_crash_refuted : ~ C52_statement.
Proof.
  intros H. specialize (H bytes ex_codec [OCrash k1 [1] (Some 1)] 0).
  assert (U : usable ex_codec plain_key true 0 [OCrash k1 [1] (Some 1)]) by use_ok.
  destruct (H U) as [vs E]. vm_compute in E. discriminate.
Qed.
(** It holds if no store was interrupted while writing, and then lists every record once. *)
Theorem C52_listing_partial {V} (c : codec V) os now : usable c plain_key false now os ->
  exists vs m, snd (dir_step c (dir_final c (now, []) os) OAll) = AList vs /\ lists (fun _ => true) m vs /\
  forall k t, plain_key k -> snd (dir_load c t (snd (dir_final c (now, []) os)) k) =
    Ok match m k with Some r => if expired t r then None else Some (a_val r) | None => None end.
Proof.
  intros U. destruct (final_R c plain_key plain_distinct false os now [] empty (R_empty _ _ _) U) as [m H].
  revert H. unfold dir in *. destruct (dir_final c (now, []) os) as [now' d]. cbn [snd]. intros H.
  destruct (step_refines c plain_key plain_distinct false now' d m OAll H) as (m' & S & _); cbn; try exact Logic.I; try reflexivity; [discriminate|].
  cbn [dir_step fst snd] in *. inversion S; subst. exists vs, m'. split; [reflexivity|]. split; [assumption|].
  intros k t Kk. destruct (R_load _ _ _ _ _ t _ H Kk) as [(Em & ->)|[(r & Em & X & ->)|(r & Em & X & ->)]]; rewrite Em; cbn [snd]; rewrite ?X; reflexivity.
Qed.

Print Assumptions C35_directory_is_a_map.
Print Assumptions C35_plain_keys_distinct.
Print Assumptions C35_directory_plain_keys.
Print Assumptions C35_map_deterministic.
Print Assumptions C36_store_crash_atomic.
Print Assumptions C36_store_complete.
Print Assumptions C37_distinct_keys_refuted.
Print Assumptions C37_distinct_plain_keys_partial.
Print Assumptions C38_load_expiry.
Print Assumptions C38_maintenance_exact.
Print Assumptions C38_maintenance_invisible_refuted.
Print Assumptions C38_maintenance_invisible_partial.
Print Assumptions C38_database_expiry_refuted.
Print Assumptions C38_database_maintenance.
Print Assumptions C39_due_refuted.
Print Assumptions C39_due_directory_partial.
Print Assumptions C39_due_database.
Print Assumptions C40_backends_agree_refuted.
Print Assumptions C40_database_is_a_map_partial.
Print Assumptions C40_backends_agree_partial.
Print Assumptions C52_listing_after_crash_refuted.
Print Assumptions C52_listing_partial.
