(** What a C program may do with the library and what it may rely on, in terms of the calls made and their results only. *)
From Verif Require Import Base ValueModel Text Hex CborModel TypesModel VoucherModel LibModel.
Local Open Scope N_scope.

(** The calls made so far with their results, oldest first. *)
Definition history := list (call * reply).
Definition gave (h : history) (k : call) (p : ptr) : Prop := In (k, RPtr p) h /\ p <> Null.
Definition made (h : history) (k : call) : Prop := exists r, In (k, r) h.

(** The ownership rules of the documentation: a program uses a pointer only for what it was given as, does not
    use it after freeing it, frees it once, and frees no element of a list. *)
Definition my_voucher (h : history) (p : ptr) : Prop := (exists d, gave h (FromData d) p) /\ ~ made h (Free p).
Definition my_list (h : history) (p : ptr) : Prop := (exists d, gave h (ManyFromData d) p) /\ ~ made h (ListFree p).
Definition element (h : history) (p : ptr) : Prop := exists l i, gave h (ListGet l i) p /\ my_list h l.
Definition my_text (h : history) (p : ptr) : Prop :=
  ((exists q, gave h (Guid q) p \/ gave h (Info q) p) \/ gave h LastError p) /\ ~ made h (FreeText p).
Definition allowed (h : history) (k : call) : Prop :=
  match k with
  | FromData _ | ManyFromData _ | LastError => True
  | Free p => p = Null \/ my_voucher h p
  | ListGet p _ | ListLen p | ListFree p => p = Null \/ my_list h p
  | Version p | Guid p | Info p => p = Null \/ my_voucher h p \/ element h p
  | FreeText p => p = Null \/ my_text h p
  | Read p => my_text h p
  end.

Section Spec.
Context (c : crypto) (chk : bool) (err_text : ferr -> str).

(** The calls of a program that keeps to the rules, as far as it got. *)
Inductive program : history -> lib -> Prop :=
| P_start : program [] fresh_lib
| P_call h l k l' r : program h l -> allowed h k -> perform c chk err_text k l = Done l' r -> program (h ++ [(k, r)]) l'.

(** Which list or voucher a pointer stands for: the one in the data it was made from. *)
Definition stands_for_list (h : history) (p : ptr) (vs : list voucher) : Prop :=
  exists d, gave h (ManyFromData (Some d)) p /\ voucher_read_many c chk d = Ok vs.
Definition stands_for (h : history) (p : ptr) (v : voucher) : Prop :=
  (exists d, gave h (FromData (Some d)) p /\ voucher_deserialize c chk d = Ok v) \/
  (exists l i vs, gave h (ListGet l i) p /\ stands_for_list h l vs /\ nth_error vs (N.to_nat i) = Some v).

(** Why the last call that could fail did fail. *)
Definition reason (k : call) : option str :=
  match k with
  | FromData None => Some (txt "fdo_ownershipvoucher_from_data: data is null")
  | FromData (Some d) => match voucher_deserialize c chk d with Err e => Some (err_text e) | _ => None end
  | ManyFromData None => Some (txt "fdo_ownershipvoucher_many_from_data: data is null")
  | ManyFromData (Some d) => match voucher_read_many c chk d with Err e => Some (err_text e) | _ => None end
  | ListGet Null _ => Some (txt "fdo_ownership_voucher_list_get_item: list is null")
  | ListLen Null => Some (txt "fdo_ownership_voucher_list_len: list is null")
  | ListFree Null => Some (txt "fdo_ownership_voucher_list_free: list is null")
  | _ => None
  end.
Definition asks (k : call) : bool := match k with LastError | Read _ => true | _ => false end.
Definition pending_error (h : history) : option str :=
  fold_left (fun e x => if asks (fst x) then e else reason (fst x)) h None.

(** The text a string stands for: what was true when it was asked for. *)
Definition says (h : history) (p : ptr) (s : str) : Prop :=
  exists h1 k h2, h = h1 ++ (k, RPtr p) :: h2 /\ p <> Null /\
    ((exists q v, k = Guid q /\ stands_for h1 q v /\ guid_text (hd_guid (ov_header v)) = Some s) \/
     (exists q v, k = Info q /\ stands_for h1 q v /\ s = hd_devinfo (ov_header v)) \/
     (k = LastError /\ pending_error h1 = Some s)).

(** A result that is a new pointer. *)
Definition new_ptr (h : history) (r : reply) : Prop :=
  exists p, r = RPtr p /\ p <> Null /\ forall k, ~ In (k, RPtr p) h.
Definition only {A} (P : A -> Prop) (x : A) : Prop := P x /\ forall y, P y -> y = x.

(** The right result of a call. *)
Definition right (h : history) (k : call) (r : reply) : Prop :=
  match k with
  | FromData None | ManyFromData None => r = RPtr Null
  | FromData (Some d) => match voucher_deserialize c chk d with Ok _ => new_ptr h r | _ => r = RPtr Null end
  | ManyFromData (Some d) => match voucher_read_many c chk d with Ok _ => new_ptr h r | _ => r = RPtr Null end
  | Free _ | ListFree _ | FreeText _ => r = RVoid
  | ListGet p i =>
    (p = Null /\ r = RPtr Null) \/
    exists vs, only (stands_for_list h p) vs /\
      (nth_error vs (N.to_nat i) = None /\ r = RPtr Null \/
       exists v q, nth_error vs (N.to_nat i) = Some v /\ r = RPtr q /\ q <> Null /\ only (stands_for (h ++ [(k, r)]) q) v)
  | ListLen p => (p = Null /\ r = RNum 0) \/ exists vs, only (stands_for_list h p) vs /\ r = RNum (Z.of_nat (length vs))
  | Version p => (p = Null /\ r = RNum (-1)) \/ exists v, only (stands_for h p) v /\ r = RNum (Z.of_N (hd_version (ov_header v)))
  | Guid p | Info p => (p = Null /\ r = RPtr Null) \/ ((exists v, only (stands_for h p) v) /\ new_ptr h r)
  | LastError => (exists e, pending_error h = Some e) /\ new_ptr h r
  | Read p => exists s, only (says h p) s /\ r = RText s
  end.

(** Data on which the parser panics (the subject of C03). *)
Definition broken_data (k : call) : Prop :=
  match k with
  | FromData (Some d) => exists w, voucher_deserialize c chk d = Panic w
  | ManyFromData (Some d) => exists w, voucher_read_many c chk d = Panic w
  | _ => False
  end.
End Spec.

(** A failure according to the documentation, with "last error is set". *)
Definition documented_failure (k : call) (r : reply) : Prop :=
  match k with
  | FromData _ | ManyFromData _ | Guid _ => r = RPtr Null
  | Version _ => r = RNum (-1)
  | _ => False
  end.
