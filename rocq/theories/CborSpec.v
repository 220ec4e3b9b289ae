(** Specification, independent of the code: what a CBOR item is (RFC 8949 restricted to
    definite lengths, major types 0-6).  Nothing here mentions the parser. *)
From Verif Require Import Base.
Local Open Scope N_scope.

(** [head m v h]: [h] is a CBOR head of major type [m] with argument [v].  All five argument
    widths are allowed, minimal or not. *)
Inductive head (m v : N) : bytes -> Prop :=
| head_short : m < 8 -> v < 24 -> head m v [m * 32 + v]
| head_8 : m < 8 -> v < 256 -> head m v (m * 32 + 24 :: be_enc 1 v)
| head_16 : m < 8 -> v < 65536 -> head m v (m * 32 + 25 :: be_enc 2 v)
| head_32 : m < 8 -> v < 4294967296 -> head m v (m * 32 + 26 :: be_enc 4 v)
| head_64 : m < 8 -> v < 18446744073709551616 -> head m v (m * 32 + 27 :: be_enc 8 v).

(** [item cnt b]: [b] is exactly one CBOR item.  [cnt pairs items] says how many items a map
    announcing [pairs] pairs contains; the standard is [items = 2 * pairs]. *)
Inductive item (cnt : N -> N -> Prop) : bytes -> Prop :=
| item_int m v h : m = 0 \/ m = 1 -> head m v h -> item cnt h
| item_str m h s : m = 2 \/ m = 3 -> head m (nlen s) h -> item cnt (h ++ s)
| item_arr h xs : head 4 (nlen xs) h -> items cnt xs -> item cnt (h ++ concat xs)
| item_map p h xs : head 5 p h -> cnt p (nlen xs) -> items cnt xs -> item cnt (h ++ concat xs)
| item_tag t h x : head 6 t h -> item cnt x -> item cnt (h ++ x)
with items (cnt : N -> N -> Prop) : list bytes -> Prop :=
| items_nil : items cnt []
| items_cons x xs : item cnt x -> items cnt xs -> items cnt (x :: xs).

(** The standard's meaning of a map length. *)
Definition std_map (pairs n : N) : Prop := n = 2 * pairs.

Definition cbor_item : bytes -> Prop := item std_map.
Definition cbor_items : list bytes -> Prop := items std_map.

(** A top-level array: optional tag head, array head announcing the number of elements, the elements. *)
Inductive top_array (cnt : N -> N -> Prop) : option N -> list bytes -> bytes -> Prop :=
| top_untagged xs h : head 4 (nlen xs) h -> items cnt xs -> top_array cnt None xs (h ++ concat xs)
| top_tagged t ht xs h : head 6 t ht -> head 4 (nlen xs) h -> items cnt xs ->
    top_array cnt (Some t) xs (ht ++ h ++ concat xs).
Definition cbor_array := top_array std_map.

(** A byte stream that is a sequence of top-level arrays, and their contents. *)
Inductive array_seq (cnt : N -> N -> Prop) : list (option N * list bytes) -> bytes -> Prop :=
| array_seq_nil : array_seq cnt [] []
| array_seq_cons tag xs h l s : top_array cnt tag xs h -> array_seq cnt l s ->
    array_seq cnt ((tag, xs) :: l) (h ++ s).

(** The input ends inside the argument of a head: a first byte announcing a 1-, 2-, 4- or 8-byte
    argument is followed by fewer bytes than that. *)
Definition ends_in_head (s : bytes) : Prop :=
  exists pre b arg k, s = pre ++ b :: arg /\ nlen arg < k /\
    ((b mod 32 = 24 /\ k = 1) \/ (b mod 32 = 25 /\ k = 2) \/ (b mod 32 = 26 /\ k = 4) \/ (b mod 32 = 27 /\ k = 8)).

(** Somewhere the input contains the head [m, v]. *)
Definition has_head (m v : N) (s : bytes) : Prop :=
  exists pre h post, s = pre ++ h ++ post /\ head m v h.
