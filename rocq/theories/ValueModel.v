(** CBOR values and UTF-8: the role of the serde back ends.  [enc] stands for
    [ciborium::ser::into_writer] (serializable.rs:84-89), [dec_top] for [serde_cbor::from_slice]
    (serializable.rs:72-74).  Simplifications: floats and indefinite lengths are rejected; the
    nesting limit of serde_cbor is 128 levels; integers outside 64 bits are not encoded. *)
From Verif Require Import Base.
Local Open Scope N_scope.

Inductive cval :=
| VInt (z : Z)
| VBytes (b : bytes)
| VText (b : bytes)          (* UTF-8 bytes *)
| VArr (l : list cval)
| VMap (l : list (cval * cval))
| VTag (t : N) (v : cval)
| VBool (b : bool)
| VNull.

(** Shortest head. *)
Definition enc_head (m v : N) : bytes :=
  if v <? 24 then [m * 32 + v]
  else if v <? 256 then (m * 32 + 24) :: be_enc 1 v
  else if v <? 65536 then (m * 32 + 25) :: be_enc 2 v
  else if v <? 4294967296 then (m * 32 + 26) :: be_enc 4 v
  else (m * 32 + 27) :: be_enc 8 v.

Definition enc_int (z : Z) : bytes :=
  if (0 <=? z)%Z then enc_head 0 (Z.to_N z) else enc_head 1 (Z.to_N (-1 - z)).

Fixpoint enc (v : cval) : bytes :=
  match v with
  | VInt z => enc_int z
  | VBytes b => enc_head 2 (nlen b) ++ b
  | VText b => enc_head 3 (nlen b) ++ b
  | VArr l => enc_head 4 (nlen l) ++ concat (map enc l)
  | VMap l => enc_head 5 (nlen l) ++ concat (map (fun kv => enc (fst kv) ++ enc (snd kv)) l)
  | VTag t v => enc_head 6 t ++ enc v
  | VBool b => [if b then 245 else 244]
  | VNull => [246]
  end.

Definition take (n : N) (s : bytes) : option (bytes * bytes) :=
  if n <=? nlen s then Some (firstn (N.to_nat n) s, skipn (N.to_nat n) s) else None.

(** Major type, argument, rest; any argument width. *)
Definition dec_head (s : bytes) : option (N * N * bytes) :=
  match s with
  | [] => None
  | b :: s1 =>
    let m := b / 32 in
    let minor := b mod 32 in
    let arg (k : N) := match take k s1 with Some (a, s2) => Some (m, be_dec a, s2) | None => None end in
    if minor <? 24 then Some (m, minor, s1)
    else if minor =? 24 then arg 1
    else if minor =? 25 then arg 2
    else if minor =? 26 then arg 4
    else if minor =? 27 then arg 8
    else None
  end.

Fixpoint dec_list {A} (f : bytes -> option (A * bytes)) (k : nat) (n : N) (s : bytes)
  : option (list A * bytes) :=
  if n =? 0 then Some ([], s)
  else match k with
       | O => None
       | S k' =>
         match f s with
         | None => None
         | Some (v, s1) =>
           match dec_list f k' (n - 1) s1 with
           | None => None
           | Some (l, s2) => Some (v :: l, s2)
           end
         end
       end.

Definition dec_pair (f : bytes -> option (cval * bytes)) (s : bytes) : option ((cval * cval) * bytes) :=
  match f s with
  | None => None
  | Some (a, s1) => match f s1 with None => None | Some (b, s2) => Some ((a, b), s2) end
  end.

Fixpoint dec (d : nat) (s : bytes) : option (cval * bytes) :=
  match d with
  | O => None
  | S d' =>
    match dec_head s with
    | None => None
    | Some (m, v, s1) =>
      match m with
      | 0 => Some (VInt (Z.of_N v), s1)
      | 1 => Some (VInt (-1 - Z.of_N v), s1)
      | 2 => match take v s1 with Some (b, s2) => Some (VBytes b, s2) | None => None end
      | 3 => match take v s1 with Some (b, s2) => Some (VText b, s2) | None => None end
      | 4 => match dec_list (dec d') (length s1) v s1 with
             | Some (l, s2) => Some (VArr l, s2)
             | None => None
             end
      | 5 => match dec_list (dec_pair (dec d')) (length s1) v s1 with
             | Some (l, s2) => Some (VMap l, s2)
             | None => None
             end
      | 6 => match dec d' s1 with Some (x, s2) => Some (VTag v x, s2) | None => None end
      | _ => match s with
             | 244 :: _ => Some (VBool false, s1)
             | 245 :: _ => Some (VBool true, s1)
             | 246 :: _ => Some (VNull, s1)
             | 247 :: _ => Some (VNull, s1)
             | _ => None
             end
      end
    end
  end.

(** The whole slice is one value. *)
Definition MAX_DEPTH : nat := 128.
Definition dec_top (s : bytes) : option cval :=
  match dec MAX_DEPTH s with
  | Some (v, []) => Some v
  | _ => None
  end.

(** Typed readers skip tags. *)
Fixpoint untag (v : cval) : cval :=
  match v with VTag _ v' => untag v' | _ => v end.

(** * UTF-8 (Rust [str]): strings are lists of Unicode scalar values. *)
Definition str := list N.

Definition is_scalar (c : N) : bool := (c <? 1114112) && negb ((55296 <=? c) && (c <? 57344)).

Definition utf8_char (c : N) : bytes :=
  if c <? 128 then [c]
  else if c <? 2048 then [192 + c / 64; 128 + c mod 64]
  else if c <? 65536 then [224 + c / 4096; 128 + (c / 64) mod 64; 128 + c mod 64]
  else [240 + c / 262144; 128 + (c / 4096) mod 64; 128 + (c / 64) mod 64; 128 + c mod 64].

Definition utf8_enc (s : str) : bytes := concat (map utf8_char s).

Definition is_cont (b : N) : bool := (128 <=? b) && (b <? 192).

Fixpoint utf8_dec (s : bytes) : option str :=
  match s with
  | [] => Some []
  | b0 :: r =>
    if b0 <? 128 then option_map (cons b0) (utf8_dec r)
    else match r with
    | [] => None
    | b1 :: r1 =>
      if negb (is_cont b1) then None
      else if (192 <=? b0) && (b0 <? 224) then
        let c := (b0 - 192) * 64 + (b1 - 128) in
        if 128 <=? c then option_map (cons c) (utf8_dec r1) else None
      else match r1 with
      | [] => None
      | b2 :: r2 =>
        if negb (is_cont b2) then None
        else if (224 <=? b0) && (b0 <? 240) then
          let c := (b0 - 224) * 4096 + (b1 - 128) * 64 + (b2 - 128) in
          if (2048 <=? c) && is_scalar c then option_map (cons c) (utf8_dec r2) else None
        else match r2 with
        | [] => None
        | b3 :: r3 =>
          if negb (is_cont b3) then None
          else if (240 <=? b0) && (b0 <? 248) then
            let c := (b0 - 240) * 262144 + (b1 - 128) * 4096 + (b2 - 128) * 64 + (b3 - 128) in
            if (65536 <=? c) && is_scalar c then option_map (cons c) (utf8_dec r3) else None
          else None
        end
      end
    end
  end.
