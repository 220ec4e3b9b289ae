(** Proofs about hand-written rendezvous information. *)
From Verif Require Import Base BaseFacts ValueModel TypesModel Text RvModel RvSpec RvYamlModel RvYamlSpec Assoc CborModel ValueProofs.
From Coq Require Import ZifyBool ZifyNat ZifyN.
Local Open Scope N_scope.
Local Opaque dec_top.

(** * Names *)
Definition no_capital (s : str) : bool := forallb (fun c => negb ((65 <=? c) && (c <=? 90))) s.

Lemma same_name_lower s : no_capital s = true -> forall k, same_name k s <-> lower k = s.
Proof.
  induction s as [|c s IH]; intros N [|a k]; cbn [lower map].
  - split; [reflexivity|constructor].
  - split; [intros H; inversion H|discriminate].
  - split; [intros H; inversion H|discriminate].
  - cbn [no_capital forallb] in N. apply andb_true_iff in N. destruct N as [N1 N2]. fold (no_capital s) in N2.
    specialize (IH N2 k). split.
    + intros H. inversion H as [|? ? ? ? S F]; subst. apply IH in F. fold (lower k). rewrite F. f_equal.
      unfold same_letter, lower_char in *. destruct ((65 <=? a) && (a <=? 90)) eqn:E; lia.
    + intros H. injection H as H1 H2. constructor; [|apply IH; exact H2].
      unfold same_letter, lower_char in *. destruct ((65 <=? a) && (a <=? 90)) eqn:E; lia.
Qed.

Definition table_ok (t : list (str * N)) : bool :=
  forallb (fun e => no_capital (fst e)) t && forallb (fun e => Nat.eqb (length (filter (fun f => bytes_eqb (fst e) (fst f)) t)) 1) t.

Lemma aget_in (t : list (str * N)) s n : aget s t = Some n -> In (s, n) t.
Proof.
  induction t as [|(k, v) t IH]; cbn [aget]; [discriminate|]. destruct (bytes_eqb s k) eqn:E.
  - apply bytes_eqb_spec in E. intros H. injection H as ->. subst k. left. reflexivity.
  - intros H. right. auto.
Qed.
Lemma in_filter_len {A} (f : A -> bool) t x : In x t -> f x = true -> (1 <= length (filter f t))%nat.
Proof. intros I F. assert (In x (filter f t)) by (apply filter_In; auto). destruct (filter f t); [contradiction|cbn; lia]. Qed.
Lemma in_aget (t : list (str * N)) : forall s n, In (s, n) t ->
  length (filter (fun f => bytes_eqb s (fst f)) t) = 1%nat -> aget s t = Some n.
Proof.
  induction t as [|(k, v) t IH]; intros s n I L; [contradiction|]. cbn [aget]. cbn [filter fst] in L. destruct I as [E|I].
  - injection E as -> ->. rewrite bytes_eqb_refl. reflexivity.
  - destruct (bytes_eqb s k) eqn:E; [|apply IH; assumption]. cbn [length] in L.
    pose proof (in_filter_len (fun f => bytes_eqb s (fst f)) t (s, n) I (bytes_eqb_refl s)). lia.
Qed.
Lemma called_aget t k n : table_ok t = true -> called t k n <-> aget (lower k) t = Some n.
Proof.
  unfold table_ok. rewrite andb_true_iff, !forallb_forall. intros [T1 T2]. split.
  - intros (s & I & S). pose proof (T1 _ I) as N. cbn [fst] in N. apply (same_name_lower s N) in S. rewrite S.
    apply in_aget; [exact I|]. apply Nat.eqb_eq. apply (T2 _ I).
  - intros H. apply aget_in in H. exists (lower k). split; [exact H|]. apply same_name_lower; [apply (T1 _ H)|reflexivity].
Qed.

Lemma var_of_str_aget k : var_of_str k = aget (lower k) var_names.
Proof.
  unfold var_of_str, var_names, is. generalize (lower k). intros s. cbn [aget existsb].
  repeat match goal with |- context [bytes_eqb s ?t] => destruct (bytes_eqb s t) eqn:?; cbn [orb]; try reflexivity end.
Qed.
Lemma protocol_of_str_aget k : protocol_of_str k = aget (lower k) protocol_names.
Proof.
  unfold protocol_of_str, protocol_names, is. generalize (lower k). intros s. cbn [aget existsb].
  repeat match goal with |- context [bytes_eqb s ?t] => destruct (bytes_eqb s t) eqn:?; cbn [orb]; try reflexivity end.
Qed.
Lemma var_called k n : called var_names k n <-> var_of_str k = Some n.
Proof. rewrite var_of_str_aget. apply called_aget. vm_compute. reflexivity. Qed.
Lemma protocol_called k n : called protocol_names k n <-> protocol_of_str k = Some n.
Proof. rewrite protocol_of_str_aget. apply called_aget. vm_compute. reflexivity. Qed.

Lemma var_le k n : var_of_str k = Some n -> n <= 14.
Proof.
  rewrite var_of_str_aget. intros H. apply aget_in in H. unfold var_names in H. cbn [In] in H.
  repeat (destruct H as [H|H]; [injection H as _ <-; lia|]). contradiction.
Qed.
Lemma protocol_le k n : protocol_of_str k = Some n -> n <= 6.
Proof.
  rewrite protocol_of_str_aget. intros H. apply aget_in in H. unfold protocol_names in H. cbn [In] in H.
  repeat (destruct H as [H|H]; [injection H as _ <-; lia|]). contradiction.
Qed.

(** * Conversion of values *)
Section Ind.
  Context (P : yaml -> Prop).
  Hypothesis PN : P YNull.
  Hypothesis PB : forall b, P (YBool b).
  Hypothesis PI : forall z, P (YInt z).
  Hypothesis PF : P YFloat.
  Hypothesis PT : forall s, P (YStr s).
  Hypothesis PS : forall l, Forall P l -> P (YSeq l).
  Hypothesis PM : forall l, Forall (fun kv => P (fst kv) /\ P (snd kv)) l -> P (YMap l).
  Hypothesis PG : forall y, P y -> P (YTagged y).
  Fixpoint yaml_all (y : yaml) : P y :=
    match y with
    | YNull => PN
    | YBool b => PB b
    | YInt z => PI z
    | YFloat => PF
    | YStr s => PT s
    | YSeq l => PS l ((fix go l : Forall P l := match l with [] => Forall_nil _ | x :: r => Forall_cons _ (yaml_all x) (go r) end) l)
    | YMap l => PM l ((fix go l : Forall (fun kv => P (fst kv) /\ P (snd kv)) l :=
        match l with [] => Forall_nil _ | kv :: r => Forall_cons kv (conj (yaml_all (fst kv)) (yaml_all (snd kv))) (go r) end) l)
    | YTagged y => PG y (yaml_all y)
    end.
End Ind.

Definition conv_seq : list yaml -> outcome unit (list hval) :=
  fix go (l : list yaml) : outcome unit (list hval) :=
      match l with
      | [] => Ok []
      | x :: r => let! a := yaml_to_cbor x in let! b := go r in Ok (a :: b)
      end.
Definition conv_map : list (yaml * yaml) -> outcome unit (list (hval * hval)) :=
  fix go (l : list (yaml * yaml)) : outcome unit (list (hval * hval)) :=
      match l with
      | [] => Ok []
      | (k, x) :: r =>
        let! a := unwrapped (yaml_to_cbor k) in
        let! b := unwrapped (yaml_to_cbor x) in
        let! c := go r in
        Ok ((a, b) :: c)
      end.
Lemma conv_seq_eq l : yaml_to_cbor (YSeq l) = (let! r := conv_seq l in Ok (HArr r)).
Proof. reflexivity. Qed.
Lemma conv_map_eq l : yaml_to_cbor (YMap l) = (let! r := conv_map l in Ok (HMap r)).
Proof. reflexivity. Qed.

(** Exactly the values without tags are converted; with a tag outside every mapping it is an error. *)
Lemma conv_cases : forall y,
  ((exists h, yaml_to_cbor y = Ok h) <-> untagged y) /\
  (maps_untagged y -> exists o, yaml_to_cbor y = o /\ match o with Panic _ => False | _ => True end) /\
  (untagged y -> maps_untagged y).
Proof.
  apply yaml_all.
  - cbn. repeat split; eauto.
  - cbn. repeat split; eauto.
  - cbn. repeat split; eauto.
  - cbn. repeat split; eauto.
  - cbn. repeat split; eauto.
  - intros l F. rewrite conv_seq_eq. cbn [untagged maps_untagged].
    match goal with |- (_ <-> ?U l) /\ (?M l -> _) /\ _ => set (u := U); set (m := M) end.
    assert (K : ((exists h, conv_seq l = Ok h) <-> u l) /\ (m l -> exists o, conv_seq l = o /\ match o with Panic _ => False | _ => True end) /\ (u l -> m l)).
    { induction F as [|y l (A & B & C) F (IA & IB & IC)].
      - cbn. repeat split; eauto.
      - cbn [conv_seq u m]. fold conv_seq. split; [|split].
        + rewrite <- A, <- IA. split.
          * intros (h & H). destruct (yaml_to_cbor y) as [a|e|w]; cbn [bind] in H; try discriminate.
            destruct (conv_seq l) as [b|e|w]; cbn [bind] in H; try discriminate. eauto.
          * intros ((a & Ha) & (b & Hb)). rewrite Ha, Hb. cbn [bind]. eauto.
        + intros (M1 & M2). destruct (B M1) as (o & -> & Ho). destruct (IB M2) as (o2 & -> & Ho2).
          destruct o; cbn [bind]; [|eexists; split; [reflexivity|exact I]|contradiction].
          destruct o2; cbn [bind]; [| |contradiction]; eexists; split; try reflexivity; exact I.
        + intros (U1 & U2). split; [apply C; exact U1|apply IC; exact U2]. }
    destruct K as (K1 & K2 & K3). split; [|split; [|exact K3]].
    + rewrite <- K1. split.
      * intros (h & H). destruct (conv_seq l) as [b|e|w]; cbn [bind] in H; try discriminate. eauto.
      * intros (h & H). rewrite H. cbn [bind]. eauto.
    + intros M. destruct (K2 M) as (o & -> & Ho). destruct o; cbn [bind]; [| |contradiction]; eexists; split; try reflexivity; exact I.
  - intros l F. rewrite conv_map_eq. cbn [untagged maps_untagged].
    match goal with |- (_ <-> ?U l) /\ _ => set (u := U) end.
    assert (K : ((exists h, conv_map l = Ok h) <-> u l)).
    { induction F as [|(k, y) l ((A & _ & _) & (A2 & _ & _)) F IA].
      - cbn. repeat split; eauto.
      - cbn [conv_map u fst snd] in *. fold conv_map. rewrite <- A, <- A2, <- IA. split.
        + intros (h & H). destruct (yaml_to_cbor k) as [a|e|w]; cbn [unwrapped bind] in H; try discriminate.
          destruct (yaml_to_cbor y) as [b|e|w]; cbn [unwrapped bind] in H; try discriminate.
          destruct (conv_map l) as [c|e|w]; cbn [bind] in H; try discriminate. repeat split; eexists; reflexivity.
        + intros ((a & Ha) & (b & Hb) & (c & Hc)). rewrite Ha, Hb, Hc. cbn [unwrapped bind]. eauto. }
    split; [|split; [|auto]].
    + rewrite <- K. split.
      * intros (h & H). destruct (conv_map l) as [b|e|w]; cbn [bind] in H; try discriminate. eauto.
      * intros (h & H). rewrite H. cbn [bind]. eauto.
    + intros M. apply K in M. destruct M as (h & ->). cbn [bind]. eexists; split; [reflexivity|exact I].
  - intros y _. cbn [untagged maps_untagged yaml_to_cbor]. split; [split; [intros (h & H); discriminate|intros []]|].
    split; [|intros []]. intros _. eexists; split; [reflexivity|exact I].
Qed.
Lemma conv_ok y : (exists h, yaml_to_cbor y = Ok h) <-> untagged y.
Proof. apply conv_cases. Qed.

(** * Values of variables *)
Section Load.
  Context (parse_ip : str -> option bytes).

  (** [v] is what the loader makes of [y] for [var]. *)
  Definition means (var : N) (y : yaml) (v : cval) : Prop :=
    match var with
    | 0 | 1 | 8 | 14 => v = VNull /\ untagged y
    | 3 | 4 | 13 => exists z, y = YInt z /\ v = VInt z
    | 5 | 9 | 10 => exists s, y = YStr s /\ v = VText (utf8_enc s)
    | 12 => exists s p, y = YStr s /\ protocol_of_str s = Some p /\ v = VInt (Z.of_N p)
    | 2 => exists s b, y = YStr s /\ parse_ip s = Some b /\ v = VBytes b
    | _ => False
    end.

  Lemma conv_int y z : yaml_to_cbor y = Ok (HInt z) -> y = YInt z.
  Proof.
    destruct y; try (cbn; congruence).
    - rewrite conv_seq_eq. destruct (conv_seq l); cbn [bind]; congruence.
    - rewrite conv_map_eq. destruct (conv_map l); cbn [bind]; congruence.
  Qed.
  Lemma conv_text y z : yaml_to_cbor y = Ok (HText z) -> y = YStr z.
  Proof.
    destruct y; try (cbn; congruence).
    - rewrite conv_seq_eq. destruct (conv_seq l); cbn [bind]; congruence.
    - rewrite conv_map_eq. destruct (conv_map l); cbn [bind]; congruence.
  Qed.

  Definition conv_value (var : N) (y : yaml) : outcome unit cval :=
    let! h := yaml_to_cbor y in value_from_human_to_machine parse_ip var h.

  Lemma var_cases (P : N -> Prop) : P 0 -> P 1 -> P 2 -> P 3 -> P 4 -> P 5 -> P 6 -> P 7 -> P 8 -> P 9 -> P 10 -> P 11 -> P 12 -> P 13 -> P 14 ->
    forall n, n <= 14 -> P n.
  Proof.
    intros. assert (n = 0 \/ n = 1 \/ n = 2 \/ n = 3 \/ n = 4 \/ n = 5 \/ n = 6 \/ n = 7 \/ n = 8 \/ n = 9 \/ n = 10 \/ n = 11 \/ n = 12 \/ n = 13 \/ n = 14) as D by lia.
    repeat (destruct D as [->|D]; [assumption|]). subst. assumption.
  Qed.

  Lemma conv_value_iff var y v : var <= 14 -> conv_value var y = Ok v <-> means var y v.
  Proof.
    intros V. unfold conv_value. revert V. revert var. apply var_cases; cbn [means].
    (* markers *)
    1, 2, 9, 15: (cbn [value_from_human_to_machine N.eqb Pos.eqb orb RV_DeviceOnly RV_OwnerOnly RV_UserInput RV_Bypass]; split;
      [intros H; destruct (yaml_to_cbor y) as [h|e|w] eqn:E; cbn in H; try discriminate; injection H as <-; split; [reflexivity|]; apply (conv_ok y); eauto
      |intros (-> & U); apply (conv_ok y) in U; destruct U as (h & ->); reflexivity]).
    (* the unsupported ones *)
    all: try (split; [intros H; destruct (yaml_to_cbor y) as [h|e|w]; cbn in H; discriminate|intros []]).
    (* numbers *)
    2, 3, 8: (split;
      [intros H; destruct (yaml_to_cbor y) as [h|e|w] eqn:E; cbn in H; try discriminate; destruct h; try discriminate; injection H as <-; apply conv_int in E; eauto
      |intros (z & -> & ->); reflexivity]).
    (* texts *)
    2, 3, 4: (split;
      [intros H; destruct (yaml_to_cbor y) as [h|e|w] eqn:E; cbn in H; try discriminate; destruct h; try discriminate; injection H as <-; apply conv_text in E; eauto
      |intros (z & -> & ->); reflexivity]).
    - split.
      + intros H; destruct (yaml_to_cbor y) as [h|e|w] eqn:E; cbn in H; try discriminate; destruct h; try discriminate. apply conv_text in E.
        destruct (parse_ip s) eqn:P; cbn in H; [|discriminate]. injection H as <-. eauto.
      + intros (s & b & -> & P & ->). cbn. rewrite P. reflexivity.
    - split.
      + intros H; destruct (yaml_to_cbor y) as [h|e|w] eqn:E; cbn -[protocol_of_str] in H; try discriminate; destruct h; try discriminate. apply conv_text in E.
        destruct (protocol_of_str s) eqn:P; cbn in H; [|discriminate]. injection H as <-. eauto.
      + intros (s & b & -> & P & ->). cbn -[protocol_of_str]. rewrite P. reflexivity.
  Qed.

  Lemma means_proper var y : var <= 14 -> (exists v, means var y v) <-> proper parse_ip var y.
  Proof.
    revert var. apply var_cases; cbn [means proper].
    1, 2, 9, 15: (split; [intros (v & _ & U); exact U|intros U; eauto]).
    all: try (split; [intros (v & []); fail|intros []]).
    2, 3, 8: (split; [intros (v & z & -> & _); eauto|intros (z & ->); eauto]).
    2, 3, 4: (split; [intros (v & z & -> & _); eauto|intros (z & ->); eauto]).
    - split; [intros (v & s & b & -> & P & _); eauto|intros (s & b & -> & P); eauto 6].
    - split; [intros (v & s & b & -> & P & _); apply protocol_called in P; eauto|intros (s & b & -> & P); apply protocol_called in P; eauto 6].
  Qed.

  Definition loaded (kv : str * yaml) (i : N * cval) : Prop := var_of_str (fst kv) = Some (fst i) /\ means (fst i) (snd kv) (snd i).

  Lemma load_entry_iff e : forall l, load_entry parse_ip e = Ok l <-> Forall2 loaded e l.
  Proof.
    induction e as [|(k, y) e IH]; intros l; cbn [load_entry].
    - split; [intros H; injection H as <-; constructor|intros H; inversion H; reflexivity].
    - split.
      + intros H. destruct (var_of_str k) as [var|] eqn:V; cbn [of_option bind] in H; [|discriminate].
        pose proof (conv_value_iff var y) as C. unfold conv_value in C.
        destruct (yaml_to_cbor y) as [h|x|w]; cbn [bind] in H, C; try discriminate.
        destruct (value_from_human_to_machine parse_ip var h) as [v|x|w]; cbn [bind] in H; try discriminate.
        destruct (load_entry parse_ip e) as [r|x|w]; cbn [bind] in H; try discriminate. injection H as <-.
        constructor; [|apply IH; reflexivity]. split; [exact V|]. cbn [fst snd]. apply C; [apply (var_le k var V)|reflexivity].
      + intros H. inversion H as [|? (var, v) ? r (V & M) F]; subst. cbn [fst snd] in V, M. rewrite V. cbn [of_option bind].
        apply conv_value_iff in M; [|apply (var_le k var V)]. unfold conv_value in M.
        destruct (yaml_to_cbor y) as [h|x|w]; cbn [bind] in M |- *; try discriminate. rewrite M. cbn [bind].
        apply IH in F. rewrite F. reflexivity.
  Qed.
  Lemma load_entries_iff doc : forall l, load_entries parse_ip doc = Ok l <-> Forall2 (fun e d => Forall2 loaded e d) doc l.
  Proof.
    induction doc as [|e doc IH]; intros l; cbn [load_entries].
    - split; [intros H; injection H as <-; constructor|intros H; inversion H; reflexivity].
    - split.
      + intros H. pose proof (load_entry_iff e) as L. destruct (load_entry parse_ip e) as [a|x|w]; cbn [bind] in H; try discriminate.
        destruct (load_entries parse_ip doc) as [b|x|w]; cbn [bind] in H; try discriminate. injection H as <-.
        constructor; [apply L; reflexivity|apply IH; reflexivity].
      + intros H. inversion H as [|? a ? b L F]; subst. apply load_entry_iff in L. rewrite L. cbn [bind]. apply IH in F. rewrite F. reflexivity.
  Qed.

  (** The owner's tool reads the same entries. *)
  Definition map_of (e : entry) : yaml := YMap (map (fun kv => (YStr (fst kv), snd kv)) e).
  Lemma load_map_entry e : load_map parse_ip (map (fun kv => (YStr (fst kv), snd kv)) e) = load_entry parse_ip e.
  Proof. induction e as [|(k, y) e IH]; [reflexivity|]. cbn [map load_map load_entry fst snd]. rewrite IH. reflexivity. Qed.
  Lemma load_maps_entries doc : load_maps parse_ip (map map_of doc) = load_entries parse_ip doc.
  Proof. induction doc as [|e doc IH]; [reflexivity|]. cbn [map load_maps load_entries map_of]. rewrite load_map_entry, IH. reflexivity. Qed.
  Lemma load_map_ok m l : load_map parse_ip m = Ok l -> exists e, m = map (fun kv => (YStr (fst kv), snd kv)) e.
  Proof.
    revert l. induction m as [|(k, y) m IH]; intros l H; [exists []; reflexivity|]. cbn [load_map] in H. destruct k; try discriminate.
    destruct (var_of_str s); cbn [of_option bind] in H; [|discriminate]. destruct (yaml_to_cbor y) as [h|x|w]; cbn [bind] in H; try discriminate.
    destruct (value_from_human_to_machine parse_ip n h) as [v|x|w]; cbn [bind] in H; try discriminate.
    destruct (load_map parse_ip m) as [r|x|w]; cbn [bind] in H; try discriminate. destruct (IH r eq_refl) as (e & ->). exists ((s, y) :: e). reflexivity.
  Qed.
  Lemma load_document_ok y r : load_document parse_ip y = Ok r ->
    exists doc, y = YSeq (map map_of doc) /\ load_settings parse_ip doc = Ok r.
  Proof.
    destruct y; cbn [load_document]; try discriminate. intros H.
    assert (exists doc, l = map map_of doc) as (doc & ->).
    { destruct (load_maps parse_ip l) as [a|x|w] eqn:L; cbn [bind] in H; try discriminate. clear H. revert a L.
      induction l as [|y l IH]; intros a L; [exists []; reflexivity|]. cbn [load_maps] in L. destruct y; try discriminate.
      destruct (load_map parse_ip l0) as [b|x|w] eqn:M; cbn [bind] in L; try discriminate.
      destruct (load_maps parse_ip l) as [c|x|w]; cbn [bind] in L; try discriminate.
      destruct (IH c eq_refl) as (doc & ->). apply load_map_ok in M. destruct M as (e & ->). exists (e :: doc). reflexivity. }
    exists doc. split; [reflexivity|]. rewrite load_maps_entries in H. exact H.
  Qed.

  (** * What the loaded directive gives *)
  Hypothesis ip_size : forall s b, parse_ip s = Some b -> bytes_ok b /\ (nlen b = 4 \/ nlen b = 16).

  Lemma means_dec var y v : var <= 14 -> yaml_fits y -> means var y v -> dec_top (enc v) = Some v.
  Proof using ip_size.
    intros V F M. apply dec_top_enc. change MAX_DEPTH with (S 127). revert V M. revert var.
    assert (T : forall s, yaml_fits (YStr s) -> vok (S 127) (VText (utf8_enc s))).
    { intros s (S1 & S2). split; [apply utf8_enc_ok; exact S1|exact S2]. }
    apply (var_cases (fun var => means var y v -> vok (S 127) v)); cbn [means]; try (intros []; fail).
    1, 2, 7, 12: (intros (-> & _); exact I).
    2, 3, 8: (intros (z & -> & ->); cbn [yaml_fits] in F; cbn [vok]; unfold two64; lia).
    2, 3, 4: (intros (s & -> & ->); apply T; exact F).
    - intros (s & b & -> & P & ->). destruct (ip_size s b P) as (B & L). cbn [vok]. split; [exact B|]. unfold two64. lia.
    - intros (s & p & -> & P & ->). apply protocol_le in P. cbn [vok]. unfold two64. lia.
  Qed.

  Definition directive_of (l : list (N * cval)) : rv_directive := map (fun i => (fst i, enc (snd i))) l.
  Definition of_var (var : N) (kv : str * yaml) : bool := match var_of_str (fst kv) with Some n => n =? var | None => false end.
  Definition said_of (var : N) (e : entry) : list yaml := map snd (filter (of_var var) e).

  Lemma of_var_iff var kv : of_var var kv = true <-> called var_names (fst kv) var.
  Proof.
    rewrite var_called. unfold of_var. destruct (var_of_str (fst kv)); [|split; discriminate].
    destruct (N.eqb_spec n var); split; congruence.
  Qed.
  Lemma said_said var e : said var e (said_of var e).
  Proof.
    induction e as [|(k, y) e IH]; [constructor|]. unfold said_of in *. cbn [filter]. destruct (of_var var (k, y)) eqn:E.
    - cbn [map snd]. apply said_this; [apply of_var_iff in E; exact E|exact IH].
    - apply said_other; [|exact IH]. intros C. apply (of_var_iff var (k, y)) in C. congruence.
  Qed.
  Lemma said_eq var e l : said var e l -> l = said_of var e.
  Proof.
    induction 1 as [|k y e l C S IH|k y e l C S IH]; [reflexivity| |]; unfold said_of in *; cbn [filter].
    - apply (of_var_iff var (k, y)) in C. rewrite C. cbn [map snd]. congruence.
    - destruct (of_var var (k, y)) eqn:E; [apply of_var_iff in E; contradiction|exact IH].
  Qed.
  Lemma mentions_iff var e : mentions var e <-> said_of var e <> [].
  Proof.
    unfold said_of. split.
    - intros (k & y & I & C) E. apply map_eq_nil in E. assert (In (k, y) (filter (of_var var) e)) as K.
      { apply filter_In. split; [exact I|]. apply of_var_iff. exact C. }
      rewrite E in K. contradiction.
    - destruct (filter (of_var var) e) as [|(k, y) l] eqn:E; [intros H; destruct (H eq_refl)|intros _].
      assert (In (k, y) (filter (of_var var) e)) as K by (rewrite E; left; reflexivity). apply filter_In in K. destruct K as [K1 K2].
      apply of_var_iff in K2. exists k, y. auto.
  Qed.

  Lemma given_said var e l : Forall2 loaded e l ->
    Forall2 (fun y raw => exists v, raw = enc v /\ means var y v) (said_of var e) (given var (directive_of l)).
  Proof.
    unfold said_of, given, directive_of. induction 1 as [|(k, y) (n, v) e l (V & M) F IH]; [constructor|].
    cbn [fst snd] in V, M. cbn [map filter fst snd]. unfold of_var at 1. cbn [fst]. rewrite V.
    destruct (N.eqb_spec n var) as [->|]; [|exact IH]. cbn [map snd]. constructor; [eauto|exact IH].
  Qed.
  Lemma Forall2_rev {A B} (R : A -> B -> Prop) l l' : Forall2 R l l' -> Forall2 R (rev l) (rev l').
  Proof. induction 1; [constructor|]. cbn [rev]. apply Forall2_app; [assumption|constructor; [assumption|constructor]]. Qed.

  Definition entry_fits (e : entry) : Prop := Forall (fun kv => yaml_fits (snd kv)) e.
  Lemma said_fits var e : entry_fits e -> Forall yaml_fits (said_of var e).
  Proof.
    unfold entry_fits, said_of. rewrite !Forall_forall. intros H y I. apply in_map_iff in I. destruct I as (kv & <- & I). apply filter_In in I. apply H. tauto.
  Qed.

  Lemma last_given_said {A} (f : cval -> option A) (g : yaml -> A -> Prop) var e l o : var <= 14 -> entry_fits e -> Forall2 loaded e l ->
    (forall y v x, yaml_fits y -> means var y v -> f v = Some x -> g y x) ->
    last_given f var (directive_of l) o -> last_said g var e o.
  Proof using ip_size.
    intros V FT L HG H. exists (said_of var e). split; [apply said_said|]. unfold last_given in H.
    pose proof (Forall2_rev _ _ _ (given_said var e l L)) as R. pose proof (said_fits var e FT) as FS. rewrite Forall_forall in FS.
    assert (FS2 : forall y, In y (rev (said_of var e)) -> yaml_fits y) by (intros y Hy; apply FS; apply in_rev; exact Hy).
    destruct R as [|y raw ? ? (v & -> & M) R]; [exact H|]. destruct H as (v2 & x & D & Fx & ->).
    assert (FY : yaml_fits y) by (apply FS2; left; reflexivity).
    rewrite (means_dec var y v V FY M) in D. injection D as <-. exists x. split; [|reflexivity]. eapply HG; eassumption.
  Qed.
  (** and back *)
  Lemma last_said_given {A} (f : cval -> option A) (g : yaml -> A -> Prop) var e l o : var <= 14 -> entry_fits e -> Forall2 loaded e l ->
    (forall y v x, yaml_fits y -> means var y v -> g y x -> f v = Some x) ->
    last_said g var e o -> last_given f var (directive_of l) o.
  Proof using ip_size.
    intros V FT L HG (ys & S & H). apply said_eq in S. subst ys. unfold last_given.
    pose proof (Forall2_rev _ _ _ (given_said var e l L)) as R. pose proof (said_fits var e FT) as FS. rewrite Forall_forall in FS.
    assert (FS2 : forall y, In y (rev (said_of var e)) -> yaml_fits y) by (intros y Hy; apply FS; apply in_rev; exact Hy).
    destruct R as [|y raw ? ? (v & -> & M) R]; [exact H|]. destruct H as (x & Gx & ->).
    assert (FY : yaml_fits y) by (apply FS2; left; reflexivity).
    exists v, x. split; [apply (means_dec var y v V FY M)|]. split; [eapply HG; eassumption|reflexivity].
  Qed.
  Lemma given_mentions var e l : Forall2 loaded e l -> given var (directive_of l) <> [] <-> mentions var e.
  Proof.
    intros L. rewrite mentions_iff. pose proof (given_said var e l L) as R. destruct R; split; congruence.
  Qed.

  Lemma read_text var y v s : (var = 5 \/ var = 9 \/ var = 10) -> yaml_fits y -> means var y v -> as_string v = Some s -> is_text y s.
  Proof.
    intros V F M H. assert (exists t, y = YStr t /\ v = VText (utf8_enc t)) as (t & -> & ->).
    { destruct V as [->|[->| ->]]; exact M. }
    unfold as_string in H. cbn [untag] in H. destruct F as (F & _). rewrite (utf8_roundtrip t F) in H. injection H as <-. reflexivity.
  Qed.
  Lemma read_number var y v n : (var = 3 \/ var = 4 \/ var = 13) -> yaml_fits y -> means var y v -> as_u32 v = Some n -> is_number y n.
  Proof.
    intros V F M H. assert (exists z, y = YInt z /\ v = VInt z) as (z & -> & ->).
    { destruct V as [->|[->| ->]]; exact M. }
    unfold as_u32, as_int in H. cbn [untag] in H. destruct ((0 <=? z)%Z && (z <=? 4294967295)%Z) eqn:E; [|discriminate]. injection H as <-.
    unfold is_number. f_equal. lia.
  Qed.
  Lemma read_protocol y v p : yaml_fits y -> means 12 y v -> as_protocol v = Some p -> is_protocol y p.
  Proof.
    intros F (s & q & -> & P & ->) H. unfold as_protocol, as_int in H. cbn [untag] in H.
    destruct ((0 <=? Z.of_N q)%Z && (Z.of_N q <=? 6)%Z); [|discriminate]. injection H as <-. rewrite N2Z.id. exists s. split; [reflexivity|]. apply protocol_called. exact P.
  Qed.
  Lemma protocol_read y v p : yaml_fits y -> means 12 y v -> is_protocol y p -> as_protocol v = Some p.
  Proof.
    intros F (s & q & -> & P & ->) (s2 & E & C). injection E as <-. apply protocol_called in C. assert (q = p) as -> by congruence.
    unfold as_protocol, as_int. cbn [untag]. apply protocol_le in P. replace ((0 <=? Z.of_N p)%Z && (Z.of_N p <=? 6)%Z) with true by lia. cbn [option_map]. rewrite N2Z.id. reflexivity.
  Qed.

  Lemma wire_loaded e l : Forall2 loaded e l -> Forall (fun i => fst i <= 14) (directive_of l).
  Proof.
    unfold directive_of. induction 1 as [|(k, y) (n, v) e l (V & M) F IH]; [constructor|]. cbn [map]. constructor; [|exact IH]. cbn [fst] in *. apply (var_le _ _ V).
  Qed.

  Lemma hidden_loaded sd e l : Forall2 loaded e l -> hidden sd (directive_of l) <-> not_meant sd e.
  Proof.
    intros L. assert (K : forall var, mentions var e <-> exists i, In i (directive_of l) /\ fst i = var).
    { intros var. rewrite <- (given_mentions var e l L). unfold given. split.
      - destruct (filter (fun i => fst i =? var) (directive_of l)) as [|i r] eqn:E; [intros H; destruct (H eq_refl)|intros _].
        assert (In i (filter (fun i => fst i =? var) (directive_of l))) as J by (rewrite E; left; reflexivity).
        apply filter_In in J. destruct J as [J1 J2]. apply N.eqb_eq in J2. eauto.
      - intros (i & I & <-) E. apply map_eq_nil in E. assert (In i (filter (fun j => fst j =? fst i) (directive_of l))) as J.
        { apply filter_In. split; [exact I|apply N.eqb_refl]. }
        rewrite E in J. contradiction. }
    unfold hidden, not_meant, not_for. destruct sd.
    - rewrite K. unfold RV_OwnerOnly. split; intros (i & I & H); exists i; (split; [exact I|]); apply N.eqb_eq; exact H.
    - rewrite !K. unfold RV_DeviceOnly, RV_Bypass. split.
      + intros (i & I & H). apply orb_true_iff in H. destruct H as [H|H]; apply N.eqb_eq in H; [left|right]; eauto.
      + intros [(i & I & H)|(i & I & H)]; exists i; (split; [exact I|]); apply orb_true_iff; [left|right]; apply N.eqb_eq; exact H.
  Qed.

  Lemma readable_loaded sd e l : entry_fits e -> in_range sd e -> Forall2 loaded e l -> Forall (readable sd) (directive_of l).
  Proof using ip_size.
    intros FT IR L.
    assert (K : forall k y n v, In (k, y) e -> var_of_str k = Some n -> means n y v -> yaml_fits y -> readable sd (n, enc v)).
    { intros k y n v I V M F. exists v. split; [apply (means_dec n y v (var_le _ _ V) F M)|]. cbn [fst].
      assert (TX : (n = 5 \/ n = 9 \/ n = 10) -> as_string v <> None).
      { intros D. assert (exists t, y = YStr t /\ v = VText (utf8_enc t)) as (t & -> & ->) by (destruct D as [->|[->| ->]]; exact M).
        unfold as_string. cbn [untag]. destruct F as (F & _). rewrite (utf8_roundtrip t F). discriminate. }
      assert (NB : (n = own_port sd \/ n = 13) -> as_u32 v <> None).
      { intros D. assert (exists z, y = YInt z /\ v = VInt z) as (z & -> & ->).
        { destruct D as [->| ->]; [|exact M]. destruct sd; exact M. }
        assert ((0 <= z <= 4294967295)%Z).
        { apply (IR k (YInt z) z I); [|reflexivity]. destruct D as [D|D]; [left|right]; apply var_called; congruence. }
        unfold as_u32, as_int. cbn [untag]. replace ((0 <=? z)%Z && (z <=? 4294967295)%Z) with true by lia. discriminate. }
      unfold readable_as. unfold RV_IPAddress, RV_Dns, RV_ServerCertHash, RV_CaCertHash, RV_WifiSsid, RV_WifiPw, RV_Medium, RV_Protocol, RV_Delaysec.
      repeat split.
      - intros ->. destruct M as (s & b & -> & P & ->). destruct (ip_size s b P) as (_ & B). unfold as_ip. cbn [untag].
        replace ((nlen b =? 4) || (nlen b =? 16)) with true by lia. discriminate.
      - intros E. apply NB. left. rewrite E. destruct sd; reflexivity.
      - intros ->. apply TX; auto.
      - intros _ ->. destruct M.
      - intros _ ->. destruct M.
      - intros _ ->. apply TX; auto.
      - intros _ ->. apply TX; auto.
      - intros _ ->. destruct M.
      - intros ->. destruct M as (s & p & -> & P & ->). unfold as_protocol, as_int. cbn [untag]. apply protocol_le in P.
        replace ((0 <=? Z.of_N p)%Z && (Z.of_N p <=? 6)%Z) with true by lia. discriminate.
      - intros ->. apply NB; auto. }
    clear IR. unfold entry_fits, directive_of in *. induction L as [|(k, y) (n, v) e l (V & M) L IH]; [constructor|].
    cbn [map fst snd] in *. inversion FT as [|? ? F1 F2]; subst. constructor.
    - apply (K k y n v); try assumption. left; reflexivity.
    - apply IH; [exact F2|]. intros k2 y2 n2 v2 I. apply K. right. exact I.
  Qed.

  Lemma interprets_loaded sd e l x : entry_fits e -> Forall2 loaded e l -> interprets sd (directive_of l) x -> as_written parse_ip sd e x.
  Proof using ip_size.
    intros FT L [I1 I2 (po & P1 & P2) (qo & Q1 & Q2) (dl & D1 & D2) S1 S2 S3 S4 S5 U B].
    assert (NO : forall A (f : cval -> option A) var o, (var = 6 \/ var = 7 \/ var = 11) -> device_reads sd f var (directive_of l) o -> o = None).
    { intros A f var o V H. unfold device_reads in H. destruct sd; [|exact H]. unfold last_given in H.
      pose proof (Forall2_rev _ _ _ (given_said var e l L)) as R. destruct R as [|y raw ? ? (v & -> & M) R]; [exact H|].
      destruct V as [->|[->| ->]]; destruct M. }
    constructor.
    - exists (said_of 2 e). split; [apply said_said|].
      pose proof (given_said RV_IPAddress e l L) as R. pose proof (said_fits 2 e FT) as FS. clear -I1 R FS ip_size.
      change (said_of RV_IPAddress e) with (said_of 2 e) in R. revert I1. generalize (ri_ips x). generalize (said_of 2 e), (given RV_IPAddress (directive_of l)), R, FS.
      clear -ip_size. intros ys raws R FS. induction R as [|y raw ys raws (v & -> & M) R IH]; intros ips I1; inversion I1 as [|? ip ? ips' (v2 & D & A) I2]; subst; [constructor|].
      inversion FS as [|? ? F1 F2]; subst. constructor; [|apply IH; assumption].
      rewrite (means_dec RV_IPAddress y v) in D; [|unfold RV_IPAddress; lia|exact F1|exact M]. injection D as <-. destruct M as (s & b & -> & P & ->).
      unfold as_ip in A. cbn [untag] in A. destruct ((nlen b =? 4) || (nlen b =? 16)); [|discriminate]. injection A as <-. exists s. auto.
    - eapply last_given_said; [|exact FT|exact L| |exact I2]; [unfold RV_Dns; lia|]. intros y v s F M. apply (read_text 5 y v s); auto.
    - exists po. split; [|exact P2]. eapply last_given_said; [|exact FT|exact L| |exact P1]; [unfold RV_Protocol; lia|]. apply read_protocol.
    - exists qo. split; [|exact Q2]. eapply last_given_said; [|exact FT|exact L| |].
      3: { destruct sd; exact Q1. }
      + destruct sd; cbn; lia.
      + intros y v n F M. apply (read_number (own_port sd)); auto. destruct sd; auto.
    - exists dl. split; [|exact D2]. eapply last_given_said; [|exact FT|exact L| |exact D1]; [unfold RV_Delaysec; lia|]. intros y v n F M. apply (read_number 13); auto.
    - unfold for_device, device_reads in *. destruct sd; [|exact S3].
      eapply last_given_said; [|exact FT|exact L| |exact S3]; [unfold RV_WifiSsid; lia|]. intros y v s F M. apply (read_text 9 y v s); auto.
    - unfold for_device, device_reads in *. destruct sd; [|exact S4].
      eapply last_given_said; [|exact FT|exact L| |exact S4]; [unfold RV_WifiPw; lia|]. intros y v s F M. apply (read_text 10 y v s); auto.
    - rewrite U. rewrite <- (given_mentions 8 e l L). reflexivity.
    - rewrite B. rewrite <- (given_mentions 14 e l L). reflexivity.
    - split; [|split].
      + apply (NO _ as_hash 6); auto.
      + apply (NO _ as_hash 7); auto.
      + apply (NO _ as_u8 11); auto.
  Qed.
End Load.
