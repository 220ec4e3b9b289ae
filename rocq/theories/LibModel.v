(** The C library for reading ownership vouchers (libfdo-data/src/lib.rs, libfdo-data/src/ownershipvoucher.rs). *)
From Verif Require Import Base ValueModel Text Hex CborModel TypesModel VoucherModel.
Local Open Scope N_scope.

(** What a C program holds: NULL, the address of a block, or the address of an element of the voucher list whose block is [a]. *)
Inductive ptr := Null | At (a : N) | Inside (a : N) (i : N).
(** The blocks the library allocates: a voucher, a list of vouchers (ownershipvoucher.rs:13-17), a C string.
    A string is kept as characters; the C program sees their UTF-8 bytes. *)
Inductive obj := OVoucher (v : voucher) | OList (vs : list voucher) | OText (s : str).
(** lib.rs:10 [LAST_ERROR], and the heap.  Simplified: the address of a freed block is not used again, and
    there is always memory. *)
Record lib := Lib { l_last : option str; l_heap : N -> option obj; l_next : N }.
Definition fresh_lib : lib := Lib None (fun _ => None) 0.

(** The exported functions.  [Read] is not one of them: it is the program reading a string it was given.
    Data are a pointer and a length: [None] is the null pointer. *)
Inductive call :=
| FromData (d : option bytes)
| ManyFromData (d : option bytes)
| Free (p : ptr)
| ListGet (p : ptr) (i : N)
| ListLen (p : ptr)
| ListFree (p : ptr)
| Version (p : ptr)
| Guid (p : ptr)
| Info (p : ptr)
| FreeText (p : ptr)
| LastError
| Read (p : ptr).
Inductive reply := RPtr (p : ptr) | RNum (z : Z) | RText (s : str) | RVoid.
(** A panic may not leave an extern "C" function and ends the process; using a pointer that does not point to
    a live object of the right kind is undefined behaviour. *)
Inductive effect := Done (l : lib) (r : reply) | Aborts | Undefined.

Definition alloc (o : obj) (l : lib) : effect :=
  Done (Lib (l_last l) (fun a => if a =? l_next l then Some o else l_heap l a) (l_next l + 1)) (RPtr (At (l_next l))).
Definition release (a : N) (l : lib) : lib := Lib (l_last l) (fun b => if b =? a then None else l_heap l b) (l_next l).
(** lib.rs:12-25 *)
Definition clear (l : lib) : lib := Lib None (l_heap l) (l_next l).
Definition set_error (e : str) (l : lib) : lib := Lib (Some e) (l_heap l) (l_next l).

(** Dereferencing ([unsafe { &*p }]). *)
Definition voucher_of (l : lib) (p : ptr) : option voucher :=
  match p with
  | At a => match l_heap l a with Some (OVoucher v) => Some v | _ => None end
  | Inside a i => match l_heap l a with Some (OList vs) => nth_error vs (N.to_nat i) | _ => None end
  | Null => None
  end.
Definition list_of (l : lib) (p : ptr) : option (list voucher) :=
  match p with At a => match l_heap l a with Some (OList vs) => Some vs | _ => None end | _ => None end.
Definition text_of (l : lib) (p : ptr) : option str :=
  match p with At a => match l_heap l a with Some (OText s) => Some s | _ => None end | _ => None end.

(** [CString::new] refuses text with a NUL; its error says at which byte. *)
Definition has_nul (s : str) : bool := existsb (fun ch => ch =? 0) s.
Fixpoint nul_at (b : bytes) : N := match b with [] => 0 | x :: r => if x =? 0 then 0 else 1 + nul_at r end.
Definition nul_error (s : str) : str := txt "nul byte found in provided data at position: " ++ dec_str (nul_at (utf8_enc s)).

Section Lib.
(** The crate's configuration and the texts of its errors (data-formats/src/errors.rs and below). *)
Context (c : crypto) (chk : bool) (err_text : ferr -> str).

(** ownershipvoucher.rs:109-134 *)
Definition from_data (d : option bytes) (l : lib) : effect :=
  let l := clear l in
  match d with
  | None => Done (set_error (txt "fdo_ownershipvoucher_from_data: data is null") l) (RPtr Null)
  | Some d =>
    match voucher_deserialize c chk d with
    | Ok v => alloc (OVoucher v) l
    | Err e => Done (set_error (err_text e) l) (RPtr Null)
    | Panic _ => Aborts
    end
  end.
(** ownershipvoucher.rs:76-107 *)
Definition many_from_data (d : option bytes) (l : lib) : effect :=
  let l := clear l in
  match d with
  | None => Done (set_error (txt "fdo_ownershipvoucher_many_from_data: data is null") l) (RPtr Null)
  | Some d =>
    match voucher_read_many c chk d with
    | Ok vs => alloc (OList vs) l
    | Err e => Done (set_error (err_text e) l) (RPtr Null)
    | Panic _ => Aborts
    end
  end.
(** ownershipvoucher.rs:136-147: [Box::from_raw] of what is not a block is undefined. *)
Definition free_voucher (p : ptr) (l : lib) : effect :=
  let l := clear l in
  match p with
  | Null => Done l RVoid
  | At a => match l_heap l a with Some (OVoucher _) => Done (release a l) RVoid | _ => Undefined end
  | Inside _ _ => Undefined
  end.
(** ownershipvoucher.rs:19-44 *)
Definition list_get (p : ptr) (i : N) (l : lib) : effect :=
  let l := clear l in
  match p with
  | Null => Done (set_error (txt "fdo_ownership_voucher_list_get_item: list is null") l) (RPtr Null)
  | _ =>
    match list_of l p, p with
    | Some vs, At a => Done l (RPtr (match nth_error vs (N.to_nat i) with Some _ => Inside a i | None => Null end))
    | _, _ => Undefined
    end
  end.
(** ownershipvoucher.rs:46-59 *)
Definition list_len (p : ptr) (l : lib) : effect :=
  let l := clear l in
  match p with
  | Null => Done (set_error (txt "fdo_ownership_voucher_list_len: list is null") l) (RNum 0)
  | _ => match list_of l p with Some vs => Done l (RNum (Z.of_nat (length vs))) | None => Undefined end
  end.
(** ownershipvoucher.rs:61-74 *)
Definition list_free (p : ptr) (l : lib) : effect :=
  let l := clear l in
  match p with
  | Null => Done (set_error (txt "fdo_ownership_voucher_list_free: list is null") l) RVoid
  | At a => match l_heap l a with Some (OList _) => Done (release a l) RVoid | _ => Undefined end
  | Inside _ _ => Undefined
  end.
(** ownershipvoucher.rs:149-165 *)
Definition get_version (p : ptr) (l : lib) : effect :=
  let l := clear l in
  match p with
  | Null => Done l (RNum (-1))
  | _ => match voucher_of l p with Some v => Done l (RNum (Z.of_N (hd_version (ov_header v)))) | None => Undefined end
  end.
(** ownershipvoucher.rs:167-190; [to_string] panics for a GUID that is not 16 bytes long. *)
Definition get_guid (p : ptr) (l : lib) : effect :=
  let l := clear l in
  match p with
  | Null => Done l (RPtr Null)
  | _ =>
    match voucher_of l p with
    | None => Undefined
    | Some v =>
      match guid_text (hd_guid (ov_header v)) with
      | None => Aborts
      | Some s => if has_nul s then Done l (RPtr Null) else alloc (OText s) l
      end
    end
  end.
(** ownershipvoucher.rs:192-217 *)
Definition get_info (p : ptr) (l : lib) : effect :=
  let l := clear l in
  match p with
  | Null => Done l (RPtr Null)
  | _ =>
    match voucher_of l p with
    | None => Undefined
    | Some v =>
      let s := hd_devinfo (ov_header v) in
      if has_nul s then Done (set_error (nul_error s) l) (RPtr Null) else alloc (OText s) l
    end
  end.
(** lib.rs:27-37 *)
Definition free_text (p : ptr) (l : lib) : effect :=
  let l := clear l in
  match p with
  | Null => Done l RVoid
  | At a => match l_heap l a with Some (OText _) => Done (release a l) RVoid | _ => Undefined end
  | Inside _ _ => Undefined
  end.
(** lib.rs:39-57: the address of a static is never null, so that [as_ref] is always [Some] and what is
    unwrapped is the last error itself. *)
Definition last_error (l : lib) : effect :=
  match l_last l with
  | None => Aborts
  | Some e => if has_nul e then Aborts else alloc (OText e) l
  end.
Definition read_text (p : ptr) (l : lib) : effect :=
  match text_of l p with Some s => Done l (RText s) | None => Undefined end.

Definition perform (k : call) (l : lib) : effect :=
  match k with
  | FromData d => from_data d l
  | ManyFromData d => many_from_data d l
  | Free p => free_voucher p l
  | ListGet p i => list_get p i l
  | ListLen p => list_len p l
  | ListFree p => list_free p l
  | Version p => get_version p l
  | Guid p => get_guid p l
  | Info p => get_info p l
  | FreeText p => free_text p l
  | LastError => last_error l
  | Read p => read_text p l
  end.
End Lib.
