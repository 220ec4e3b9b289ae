(** Properties C01-C06: the array reader and writer of cborparser.rs.
    Specification: [CborSpec.v].  Memory bound: inputs shorter than 2^63 bytes (2^62 for contents
    about to get a head), which every allocatable Rust slice satisfies. *)
From Verif Require Import Base BaseFacts CborSpec CborModel CborProofs.
Local Open Scope N_scope.

(** Sizes the code instantiates: the dynamic array and the static sizes 1 to 8. *)
Definition code_size (size : option N) : Prop := size = None \/ exists n, size = Some n /\ 1 <= n <= 8.

(** C01: writing then reading gives back the tag and the items, and stops exactly at the end of the
    written bytes, whatever follows. *)
Theorem C01_write_then_read :
  forall chk size tag xs rest,
    code_size size -> (size = None \/ size = Some (nlen xs)) ->
    cbor_items xs -> nlen (concat xs) < 2 ^ 62 ->
    nlen xs <= 65535 -> (forall t, tag = Some t -> t <= 65535) ->
    exists b, serialize_array (PA tag xs) = Ok b /\
              cbor_array tag xs b /\
              parse_array chk size (b ++ rest) = Ok (PA tag xs, rest).
Proof.
  intros chk size tag xs rest Hc Hs Hi Hl Hn Ht.
  destruct (serialize_spec tag xs Hn Ht Hi) as [b [E Hb]].
  exists b. split; [exact E|]. split; [exact Hb|].
  apply parse_std; auto.
  - destruct Hs as [->|E']; [left; reflexivity|right]. split; [exact E'|].
    intros ->. subst size. destruct Hc as [Hc|[n [Hc Hr]]]; [discriminate|]. inversion Hc; subst.
    change (@nlen bytes []) with 0 in Hr. lia.
  - pose proof (cbor_array_len _ _ _ Hb). change (2 ^ 62) with 4611686018427387904 in Hl. unfold two63. lia.
Qed.

(** The reverse direction: whatever was read can be written and reads back as the same array. *)
Theorem C01_read_then_write :
  forall size s a rest,
    code_size size -> bytes_ok s -> nlen s < 2 ^ 62 ->
    parse_array true size s = Ok (a, rest) ->
    nlen (pa_items a) <= 65535 -> (forall t, pa_tag a = Some t -> t <= 65535) ->
    exists b, serialize_array a = Ok b /\ forall chk rest', parse_array chk size (b ++ rest') = Ok (a, rest').
Proof.
  intros size s a rest Hc Hok Hl E Hn Ht.
  assert (Hsz : size <> Some 0).
  { destruct Hc as [->|[n [-> Hr]]]; [discriminate|]. intros E'. inversion E'; subst. lia. }
  destruct (parse_sound _ _ _ _ _ Hsz Hok E) as [h [-> [Htop Hs]]].
  apply top_loop_to_std in Htop.
  assert (Hi : cbor_items (pa_items a)) by (destruct Htop; auto).
  assert (Hlc : nlen (concat (pa_items a)) < 2 ^ 62).
  { destruct Htop; rewrite !nlen_app in Hl; lia. }
  destruct (C01_write_then_read true size (pa_tag a) (pa_items a) [] Hc Hs Hi Hlc Hn Ht) as [b [Eb _]].
  exists b. destruct a as [tg its]. split; [exact Eb|]. intros chk rest'.
  destruct (C01_write_then_read chk size tg its rest' Hc Hs Hi Hlc Hn Ht) as [b' [Eb' [_ P]]].
  cbn [pa_tag pa_items] in *. rewrite Eb in Eb'. inversion Eb'; subst. exact P.
Qed.

(** C02, builds with overflow checks: an accepted input starts with a well-formed array whose items
    are exactly the returned raw items, and the rest is exactly what follows it. *)
Theorem C02_reader_sound :
  forall size s a rest,
    code_size size -> bytes_ok s ->
    parse_array true size s = Ok (a, rest) ->
    exists h, s = h ++ rest /\ cbor_array (pa_tag a) (pa_items a) h.
Proof.
  intros size s a rest Hc Hok E.
  assert (Hsz : size <> Some 0).
  { destruct Hc as [->|[n [-> Hr]]]; [discriminate|]. intros E'. inversion E'; subst. lia. }
  destruct (parse_sound _ _ _ _ _ Hsz Hok E) as [h [-> [Htop _]]].
  exists h. split; [reflexivity|]. apply top_loop_to_std. exact Htop.
Qed.

(** C02, release builds: the same for every input without a map head of 2^63 or more pairs. *)
Theorem C02_reader_sound_release_partial :
  forall size s a rest,
    code_size size -> bytes_ok s ->
    ~ (exists v, 2 ^ 63 <= v /\ has_head 5 v s) ->
    parse_array false size s = Ok (a, rest) ->
    exists h, s = h ++ rest /\ cbor_array (pa_tag a) (pa_items a) h.
Proof.
  intros size s a rest Hc Hok Hno E. eapply C02_reader_sound; eauto.
  rewrite <- parse_release; auto.
  intros P. apply parse_panic in P; auto.
  destruct P as [[P _]|[[P _]|[_ [_ P]]]]; [discriminate|discriminate|].
  apply Hno. exact P.
Qed.

(** C02 without that restriction is false of release builds: a map announcing 2^63+1 pairs is
    accepted as a map of one pair. *)
Definition wrapped_map : bytes := [129; 187; 128; 0; 0; 0; 0; 0; 0; 1; 0; 0].
Definition C02_statement (chk : bool) : Prop :=
  forall size s a rest, code_size size -> bytes_ok s ->
    parse_array chk size s = Ok (a, rest) ->
    exists h, s = h ++ rest /\ cbor_array (pa_tag a) (pa_items a) h.
Theorem C02_release_refuted : ~ C02_statement false.
Proof.
  intros S. destruct (S (Some 1) wrapped_map (PA None [tl wrapped_map]) []) as [h [Es H]].
  - right. exists 1. split; [reflexivity|lia].
  - repeat constructor.
  - vm_compute. reflexivity.
  - rewrite app_nil_r in Es. subst h. cbn [pa_tag pa_items] in H.
    assert (P : parse_array true None (wrapped_map ++ []) = Ok (PA None [tl wrapped_map], [])).
    { apply parse_std; [exact H|left; reflexivity|vm_compute; reflexivity]. }
    vm_compute in P. discriminate P.
Qed.

(** C02, completeness: every well-formed array is accepted, with any bytes behind it. *)
Theorem C02_reader_complete :
  forall chk tag xs h rest,
    cbor_array tag xs h -> nlen h < 2 ^ 63 ->
    parse_array chk None (h ++ rest) = Ok (PA tag xs, rest).
Proof. intros. apply parse_std; auto. left. reflexivity. Qed.

(** Consequence: a byte stream has at most one reading as "an array, then something". *)
Theorem C02_unique_reading :
  forall tag1 xs1 h1 r1 tag2 xs2 h2 r2,
    cbor_array tag1 xs1 h1 -> cbor_array tag2 xs2 h2 -> nlen h1 < 2 ^ 63 -> nlen h2 < 2 ^ 63 ->
    h1 ++ r1 = h2 ++ r2 -> tag1 = tag2 /\ xs1 = xs2 /\ r1 = r2.
Proof.
  intros tag1 xs1 h1 r1 tag2 xs2 h2 r2 A1 A2 L1 L2 E.
  pose proof (C02_reader_complete true _ _ _ r1 A1 L1) as P1.
  pose proof (C02_reader_complete true _ _ _ r2 A2 L2) as P2.
  rewrite E in P1. rewrite P1 in P2. inversion P2; auto.
Qed.

(** C03 is false: the one-byte input 0x98 panics. *)
Definition C03_statement (chk : bool) : Prop :=
  forall size s, code_size size -> bytes_ok s -> forall p, parse_array chk size s <> Panic p.
Theorem C03_no_panic_refuted : forall chk, ~ C03_statement chk.
Proof.
  intros chk H. apply (H None [152]) with (p := P_READ_LEN);
    [left; reflexivity|repeat constructor|destruct chk; vm_compute; reflexivity].
Qed.

(** In fact every array or tag head announcing a longer argument panics when the input ends there. *)
Theorem C03_lone_head_panics :
  forall chk size b, (b / 32 = 4 \/ b / 32 = 6) -> 24 <= b mod 32 < 28 ->
    parse_array chk size [b] = Panic P_READ_LEN.
Proof. exact lone_head_panics. Qed.

(** What remains true: reading panics only when the input ends inside the argument of a head, or
    contains a string head of 2^63 or more bytes, or (overflow checks on) a map head of 2^63 or more pairs. *)
Theorem C03_panics_only_partial :
  forall chk size s p, bytes_ok s -> parse_array chk size s = Panic p ->
    ends_in_head s \/
    (exists m v, (m = 2 \/ m = 3) /\ 2 ^ 63 <= v /\ has_head m v s) \/
    (chk = true /\ exists v, 2 ^ 63 <= v /\ has_head 5 v s).
Proof.
  intros chk size s p Hok E. apply parse_panic in E; auto.
  destruct E as [[_ E]|[[_ E]|[_ E]]]; auto.
Qed.

(** Every input gets a verdict from the model: its loop bound is never reached. *)
Theorem C03_model_total : forall chk size s, parse_array chk size s <> Panic P_FUEL.
Proof. exact parse_no_fuel. Qed.

(** C04: a fixed-size read succeeds only with exactly that many elements; a well-formed array of
    another size is rejected with both numbers in the error. *)
Theorem C04_fixed_size_sound :
  forall chk n s a rest, 1 <= n <= 8 -> bytes_ok s ->
    parse_array chk (Some n) s = Ok (a, rest) -> nlen (pa_items a) = n.
Proof.
  intros chk n s a rest Hn Hok E.
  assert (Hsz : Some n <> Some 0) by (intros X; inversion X; subst; lia).
  destruct (parse_sound _ _ _ _ _ Hsz Hok E) as [h [_ [_ [H|H]]]]; [discriminate|].
  inversion H; reflexivity.
Qed.

Theorem C04_wrong_size_rejected :
  forall chk tag xs h rest n,
    cbor_array tag xs h -> nlen xs <> n ->
    parse_array chk (Some n) (h ++ rest) = Err (EInvalidNumberOfElements (nlen xs) n).
Proof. exact parse_wrong_size. Qed.

(** C05: up to 65535 the written head is the standard head of that number. *)
Theorem C05_head_up_to_65535_partial :
  forall m v, v <= 65535 -> exists h, encode_item_start m v = Ok h /\ head (mtype_num m) v h.
Proof. exact encode_item_start_head. Qed.

(** Above it, writing panics: for every array of more than 65535 items, or a tag above 65535. *)
Theorem C05_large_arrays_panic :
  forall tag xs, (65535 < nlen xs \/ exists t, tag = Some t /\ 65535 < t) ->
    serialize_array (PA tag xs) = Panic P_WRITE.
Proof. exact serialize_panic. Qed.

Definition C05_statement : Prop :=
  forall xs, cbor_items xs -> exists b, serialize_array (PA None xs) = Ok b /\ cbor_array None xs b.
Theorem C05_any_length_refuted : ~ C05_statement.
Proof.
  intros S. destruct (S (repeat [0] (N.to_nat 65536))) as [b [E _]].
  - induction (N.to_nat 65536) as [|k IH]; cbn [repeat]; constructor; auto.
    apply item_int with (m := 0) (v := 0); [auto|]. apply head_short; lia.
  - rewrite serialize_panic in E; [discriminate|]. left. unfold nlen. rewrite repeat_length. lia.
Qed.

(** C06: a stream of arrays is split into exactly these arrays ... *)
Theorem C06_concatenation_splits :
  forall chk size l s,
    code_size size -> array_seq std_map (map as_pair l) s -> nlen s < 2 ^ 63 ->
    (size = None \/ forall a, In a l -> size = Some (nlen (pa_items a))) ->
    parse_many chk size s = Ok l.
Proof.
  intros chk size l s Hc Hs Hl Hf. unfold parse_many. apply many_complete; auto.
  apply arrays_seq. split; [exact Hs|]. apply Forall_forall. intros a Ha.
  destruct Hf as [->|Hf]; [left; reflexivity|right]. split; [apply Hf; auto|].
  intros E. rewrite (Hf a Ha), E in Hc. destruct Hc as [Hc|[n [Hc Hr]]]; [discriminate|].
  inversion Hc; subst. cbn in Hr. lia.
Qed.

(** ... and a stream that reads successfully is exactly such a sequence: nothing is skipped and no
    trailing bytes are dropped. *)
Theorem C06_no_byte_dropped :
  forall size s l, code_size size -> bytes_ok s ->
    parse_many true size s = Ok l -> array_seq std_map (map as_pair l) s.
Proof.
  intros size s l Hc Hok E.
  assert (Hsz : size <> Some 0).
  { destruct Hc as [->|[n [-> Hr]]]; [discriminate|]. intros E'. inversion E'; subst. lia. }
  apply many_sound in E; auto. apply arrays_seq in E. destruct E as [E _].
  clear Hok. induction E; constructor; auto. apply top_loop_to_std. auto.
Qed.

(** Satisfiability: a tagged array holding an integer, a nested array, a map and a text string. *)
Definition ex_items : list bytes := [[24; 200]; [130; 1; 128]; [161; 1; 65; 7]; [98; 104; 105]].
Lemma ex_items_ok : cbor_items ex_items.
Proof.
  repeat apply items_cons; [| | | |apply items_nil].
  - apply item_int with (m := 0) (v := 200); [auto|]. apply (head_8 0 200); lia.
  - apply (item_arr std_map [130] [[1]; [128]]); [apply (head_short 4 2); lia|].
    repeat apply items_cons; [| |apply items_nil].
    + apply item_int with (m := 0) (v := 1); [auto|]. apply (head_short 0 1); lia.
    + apply (item_arr std_map [128] []); [apply (head_short 4 0); lia|constructor].
  - apply (item_map std_map 1 [161] [[1]; [65; 7]]); [apply (head_short 5 1); lia|reflexivity|].
    repeat apply items_cons; [| |apply items_nil].
    + apply item_int with (m := 0) (v := 1); [auto|]. apply (head_short 0 1); lia.
    + apply (item_str std_map 2 [65] [7]); [auto|]. apply (head_short 2 1); lia.
  - apply (item_str std_map 3 [98] [104; 105]); [auto|]. apply (head_short 3 2); lia.
Qed.
Example ex_C01 : exists b, serialize_array (PA (Some 18) ex_items) = Ok b
  /\ parse_array true (Some 4) (b ++ [255]) = Ok (PA (Some 18) ex_items, [255]).
Proof.
  destruct (C01_write_then_read true (Some 4) (Some 18) ex_items [255]) as [b [E [_ P]]].
  - right. exists 4. split; [reflexivity|lia].
  - right. reflexivity.
  - exact ex_items_ok.
  - reflexivity.
  - vm_compute. discriminate.
  - intros t H. inversion H. lia.
  - exists b. split; auto.
Qed.
Example ex_C06 : parse_many true None [129; 1; 130; 2; 3; 128] = Ok [PA None [[1]]; PA None [[2]; [3]]; PA None []].
Proof. vm_compute. reflexivity. Qed.

Print Assumptions C01_write_then_read.
Print Assumptions C01_read_then_write.
Print Assumptions C02_reader_sound.
Print Assumptions C02_reader_sound_release_partial.
Print Assumptions C02_release_refuted.
Print Assumptions C02_reader_complete.
Print Assumptions C02_unique_reading.
Print Assumptions C03_no_panic_refuted.
Print Assumptions C03_lone_head_panics.
Print Assumptions C03_panics_only_partial.
Print Assumptions C03_model_total.
Print Assumptions C04_fixed_size_sound.
Print Assumptions C04_wrong_size_rejected.
Print Assumptions C05_head_up_to_65535_partial.
Print Assumptions C05_large_arrays_panic.
Print Assumptions C05_any_length_refuted.
Print Assumptions C06_concatenation_splits.
Print Assumptions C06_no_byte_dropped.
