(** Model of data-formats/src/cborparser.rs (array reader and writer). *)
From Verif Require Import Base.
Local Open Scope N_scope.

(** cborparser.rs:119-130 *)
Inductive mtype := MUnsigned | MNegative | MBytes | MText | MArray | MMap | MTag | MSpecial.

(** cborparser.rs:121-130, [as u8] *)
Definition mtype_num (m : mtype) : N :=
  match m with
  | MUnsigned => 0 | MNegative => 1 | MBytes => 2 | MText => 3
  | MArray => 4 | MMap => 5 | MTag => 6 | MSpecial => 7
  end.

Definition mtype_eqb (a b : mtype) : bool := mtype_num a =? mtype_num b.

(** cborparser.rs:98-114 plus the I/O error of [read_exact] (errors.rs:64-65). *)
Inductive cerr :=
| EInvalidTopLevelType (m : mtype)
| ELengthParseFailure
| EInvalidMajorType (n : N)
| EParseFailure
| EUnsupportedMajorType (n : N)
| EInvalidNumberOfElements (got expected : N)
| ENoData
| EIo.

(** Panic labels. *)
Definition P_READ_LEN : N := 1.     (* cborparser.rs:185 unwrap of read_exact *)
Definition P_CAPACITY : N := 2.     (* cborparser.rs:323 vec![0; length], capacity overflow *)
Definition P_MUL : N := 3.          (* cborparser.rs:343 length * 2 with overflow checks *)
Definition P_WRITE : N := 4.        (* cborparser.rs:158-163 write_u32/u64 into a short buffer *)
Definition P_FUEL : N := 99.        (* artefact of the model: excluded by [parse_never_out_of_fuel] *)

(** cborparser.rs:116-117 *)
Definition MASK_TYPE : N := 224.
Definition MASK_VAL : N := 31.

(** cborparser.rs:132-146.  [val >> 5]. *)
Definition mtype_of (val : N) : outcome cerr mtype :=
  match N.shiftr val 5 with
  | 0 => Ok MUnsigned
  | 1 => Ok MNegative
  | 2 => Ok MBytes
  | 3 => Ok MText
  | 4 => Ok MArray
  | 5 => Ok MMap
  | 6 => Ok MTag
  | 7 => Ok MSpecial
  | n => Err (EInvalidMajorType n)
  end.

(** cborparser.rs:148-166.  The 32- and 64-bit branches allocate 3 and 4 payload bytes only, so
    [write_u32]/[write_u64] panic. *)
Definition encode_item_start (m : mtype) (val : N) : outcome cerr bytes :=
  let b := N.shiftl (mtype_num m) 5 in
  if val <=? 23 then Ok [N.lor b (N.land val MASK_VAL)]
  else if val <=? 255 then Ok [N.lor b 24; val]
  else if val <=? 65535 then Ok (N.lor b 25 :: be_enc 2 val)
  else Panic P_WRITE.

(** [Read::read_exact] on an in-memory reader: the first [n] bytes and the rest. *)
Definition read_exact (n : N) (s : bytes) : option (bytes * bytes) :=
  if n <=? nlen s then Some (firstn (N.to_nat n) s, skipn (N.to_nat n) s) else None.

(** cborparser.rs:168-202: argument value, its raw bytes, remaining input. *)
Definition read_len (s : bytes) (header : N) : outcome cerr (N * bytes * bytes) :=
  let minor := N.land header MASK_VAL in
  let size : option N :=
    if minor <=? 23 then Some 0
    else match minor with
         | 24 => Some 1
         | 25 => Some 2
         | 26 => Some 4
         | 27 => Some 8
         | _ => None
         end in
  match size with
  | None => Err ELengthParseFailure
  | Some 0 => Ok (minor, [], s)
  | Some k =>
    match read_exact k s with
    | None => Panic P_READ_LEN
    | Some (buf, rest) => Ok (be_dec buf, buf, rest)
    end
  end.

Definition two64 : N := 18446744073709551616.
Definition two63 : N := 9223372036854775808.

(** cborparser.rs:343 [length * 2] on u64: panics in builds with overflow checks ([chk = true], the
    dev profile), wraps otherwise (the release profile; the workspace sets no [overflow-checks]). *)
Definition double (chk : bool) (n : N) : outcome cerr N :=
  if two64 <=? 2 * n
  then (if chk then Panic P_MUL else Ok ((2 * n) mod two64))
  else Ok (2 * n).

(** Counter update at the end of one loop round, cborparser.rs:349-364. *)
Definition finish_item (stack : list N) (buf : bytes) (acc : list bytes)
  : outcome cerr (list N * bytes * list bytes) :=
  let '(acc', buf') := if nlen stack =? 1 then (acc ++ [buf], []) else (acc, buf) in
  match stack with
  | [] => Panic P_FUEL (* unreachable: the loop runs with a non-empty stack *)
  | a :: st =>
    if a =? 1 then Ok (st, buf', acc')
    else if a =? 0 then Err EParseFailure
    else Ok (a - 1 :: st, buf', acc')
  end.

(** One round of the loop, cborparser.rs:301-364: new counters, buffer, finished items, input.
    The byte-string buffer is allocated before it is read ([vec![0; length]]): lengths from 2^63 on
    exceed the maximal allocation and panic; smaller allocations are taken to succeed. *)
Definition round (chk : bool) (stack : list N) (buf : bytes) (acc : list bytes) (s : bytes)
  : outcome cerr (list N * bytes * list bytes * bytes) :=
  match s with
  | [] => Err EIo
  | b :: s1 =>
    let buf := buf ++ [b] in
    let! m := mtype_of (N.land b MASK_TYPE) in
    let minor := N.land b MASK_VAL in
    match m with
    | MTag =>
      let! (_, raw, s2) := read_len s1 minor in
      Ok (stack, buf ++ raw, acc, s2)
    | MUnsigned | MNegative =>
      let! (_, raw, s2) := read_len s1 minor in
      let! (stack', buf', acc') := finish_item stack (buf ++ raw) acc in
      Ok (stack', buf', acc', s2)
    | MBytes | MText =>
      let! (len, raw, s2) := read_len s1 minor in
      if two63 <=? len then Panic P_CAPACITY
      else match read_exact len s2 with
           | None => Err EIo
           | Some (body, s3) =>
             let! (stack', buf', acc') := finish_item stack ((buf ++ raw) ++ body) acc in
             Ok (stack', buf', acc', s3)
           end
    | MArray =>
      let! (len, raw, s2) := read_len s1 minor in
      let stack := if len =? 0 then stack else len :: stack in
      let! (stack', buf', acc') := finish_item stack (buf ++ raw) acc in
      Ok (stack', buf', acc', s2)
    | MMap =>
      let! (len, raw, s2) := read_len s1 minor in
      let! stack := (if len =? 0 then Ok stack
                     else let! d := double chk len in Ok (d :: stack)) in
      let! (stack', buf', acc') := finish_item stack (buf ++ raw) acc in
      Ok (stack', buf', acc', s2)
    | MSpecial => Err (EUnsupportedMajorType 7)
    end
  end.

(** The loop, cborparser.rs:295-365.  Each round consumes at least one byte, so [length s + 1]
    rounds are enough ([parse_never_out_of_fuel]). *)
Fixpoint items_loop (chk : bool) (fuel : nat) (stack : list N) (buf : bytes) (acc : list bytes)
  (s : bytes) : outcome cerr (list bytes * bytes) :=
  match stack with
  | [] => Ok (acc, s)
  | _ =>
    match fuel with
    | O => Panic P_FUEL
    | S fuel' =>
      let! (stack', buf', acc', s') := round chk stack buf acc s in
      items_loop chk fuel' stack' buf' acc' s'
    end
  end.

(** cborparser.rs:75-84, without the unused [header] copy. *)
Record parsed_array := PA { pa_tag : option N; pa_items : list bytes }.

(** cborparser.rs:235-388.  [size] is [N::SIZE]: [None] for the dynamic array.
    Returns the array and the unread rest of the stream. *)
Definition parse_array (chk : bool) (size : option N) (s : bytes)
  : outcome cerr (parsed_array * bytes) :=
  match s with
  | [] => Err ENoData
  | b0 :: s1 =>
    let! m0 := mtype_of (N.land b0 MASK_TYPE) in
    let! (tag, b1, s2) :=
      (match m0 with
       | MTag =>
         let! (t, _, s2) := read_len s1 b0 in
         match s2 with
         | [] => Err EIo
         | b1 :: s3 => Ok (Some t, b1, s3)
         end
       | MArray => Ok (None, b0, s1)
       | _ => Err (EInvalidTopLevelType m0)
       end) in
    let! m1 := mtype_of (N.land b1 MASK_TYPE) in
    if negb (mtype_eqb m1 MArray) then Err (EInvalidTopLevelType m1)
    else
      let! (len, _, s3) := read_len s2 b1 in
      match size with
      | Some expected =>
        if negb (len =? expected) then Err (EInvalidNumberOfElements len expected)
        else
          let! (its, s4) := items_loop chk (S (length s3)) [len] [] [] s3 in
          if negb (nlen its =? expected) then Err EParseFailure
          else Ok (PA tag its, s4)
      | None =>
        if len =? 0 then Ok (PA tag [], s3)
        else
          let! (its, s4) := items_loop chk (S (length s3)) [len] [] [] s3 in
          Ok (PA tag its, s4)
      end
  end.

(** cborparser.rs:213-233 (writing to a [Vec] cannot fail). *)
Definition serialize_array (a : parsed_array) : outcome cerr bytes :=
  let! ht := (match pa_tag a with
              | Some t => encode_item_start MTag t
              | None => Ok []
              end) in
  let! ha := encode_item_start MArray (nlen (pa_items a)) in
  Ok (ht ++ ha ++ concat (pa_items a)).

(** serializable.rs:7-12 [deserialize_data] of an array: trailing bytes are ignored. *)
Definition parse_array_data (chk : bool) (size : option N) (s : bytes) : outcome cerr parsed_array :=
  let! (a, _) := parse_array chk size s in Ok a.

(** serializable.rs:30-65 [deserialize_many_from_reader] for an object read by [rd]; [is_nodata] is
    [is_nodata_error] (cborparser.rs:204-208). *)
Fixpoint many_loop {A E} (rd : bytes -> outcome E (A * bytes)) (is_nodata : E -> bool)
  (fuel : nat) (s : bytes) : outcome E (list A) :=
  match rd s with
  | Err e => if is_nodata e then Ok [] else Err e
  | Panic w => Panic w
  | Ok (a, s') =>
    match fuel with
    | O => Panic P_FUEL
    | S fuel' => let! l := many_loop rd is_nodata fuel' s' in Ok (a :: l)
    end
  end.

Definition is_nodata (e : cerr) : bool := match e with ENoData => true | _ => false end.

Definition parse_many (chk : bool) (size : option N) (s : bytes) : outcome cerr (list parsed_array) :=
  many_loop (parse_array chk size) is_nodata (S (length s)) s.

(** Accessors: check_bounds! (cborparser.rs:39-53) panics for n > SIZE; n = SIZE falls through to
    the indexing panic, so every out-of-range access panics. *)
Definition P_BOUNDS : N := 5.
Definition get_raw (a : parsed_array) (n : nat) : outcome cerr bytes :=
  match nth_error (pa_items a) n with Some x => Ok x | None => Panic P_BOUNDS end.

(** cborparser.rs:471-478 [set] on a built array. *)
Fixpoint list_set {A} (l : list A) (n : nat) (x : A) : option (list A) :=
  match l, n with
  | [], _ => None
  | _ :: l', O => Some (x :: l')
  | y :: l', S n' => option_map (cons y) (list_set l' n' x)
  end.
Definition set_raw (a : parsed_array) (n : nat) (x : bytes) : outcome cerr parsed_array :=
  match list_set (pa_items a) n x with
  | Some l => Ok (PA (pa_tag a) l)
  | None => Panic P_BOUNDS
  end.
