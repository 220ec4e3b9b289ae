(** The Go package around the C library (libfdo-data-go/*.go). *)
From Verif Require Import Base ValueModel Text Hex CborModel TypesModel VoucherModel LibModel.
Local Open Scope N_scope.

(** The library, and the C buffers the package has made with [C.CBytes] and not freed (ownershipvoucher.go:16, 61).  [C.CBytes] gives a
    buffer, not nil, also for an empty slice. *)
Record go := Go { g_lib : lib; g_buffers : list bytes }.
Definition fresh_go : go := Go fresh_lib [].
(** ownershipvoucher.go:10-12, 45-50: a list is its pointer, a voucher its pointer and [should_free]. *)
Inductive gcall :=
| GParse (d : bytes)
| GParseMany (d : bytes)
| GListFree (l : ptr)
| GLen (l : ptr)
| GGet (l : ptr) (i : Z)
| GFree (p : ptr) (should_free : bool)
| GVersion (p : ptr) (should_free : bool)
| GGuid (p : ptr) (should_free : bool)
| GInfo (p : ptr) (should_free : bool).
Inductive greply := GList (l : ptr) | GVoucher (p : ptr) (should_free : bool) | GError (s : str) | GNum (z : Z) | GText (s : str) | GUnit.
Inductive geffect := GDone (g : go) (r : greply) | GAborts | GUndefined.

Section Go.
Context (c : crypto) (chk : bool) (err_text : ferr -> str).
Let perform := perform c chk err_text.

(** A call of the C library, and what is done with its result. *)
Definition calls (k : call) (l : lib) (f : lib -> reply -> geffect) : geffect :=
  match perform k l with Done l' r => f l' r | Aborts => GAborts | Undefined => GUndefined end.
(** string.go:6-10; [C.GoString] of nil is the empty string *)
Definition from_fdo_string (p : ptr) (l : lib) (f : lib -> str -> geffect) : geffect :=
  match p with
  | Null => calls (FreeText Null) l (fun l _ => f l [])
  | _ => calls (Read p) l (fun l r => match r with RText s => calls (FreeText p) l (fun l _ => f l s) | _ => GUndefined end)
  end.
(** error.go:7-14; an error that is nil is printed as <nil> *)
Definition get_last_error (l : lib) (f : lib -> str -> geffect) : geffect :=
  calls LastError l (fun l r => match r with RPtr Null => f l (txt "<nil>") | RPtr p => from_fdo_string p l f | _ => GUndefined end).
(** ownershipvoucher.go:52-66 *)
Definition go_parse (d : bytes) (g : go) : geffect :=
  let b := g_buffers g ++ [d] in
  calls (FromData (Some d)) (g_lib g) (fun l r =>
    match r with
    | RPtr Null => get_last_error l (fun l s => GDone (Go l b) (GError (txt "failed to parse: " ++ s)))
    | RPtr p => GDone (Go l b) (GVoucher p true)
    | _ => GUndefined
    end).
(** ownershipvoucher.go:14-26 *)
Definition go_parse_many (d : bytes) (g : go) : geffect :=
  let b := g_buffers g ++ [d] in
  calls (ManyFromData (Some d)) (g_lib g) (fun l r =>
    match r with
    | RPtr Null => get_last_error l (fun l s => GDone (Go l b) (GError (txt "failed to parse ownership vouchers: " ++ s)))
    | RPtr p => GDone (Go l b) (GList p)
    | _ => GUndefined
    end).
(** ownershipvoucher.go:28-30 *)
Definition go_list_free (p : ptr) (g : go) : geffect := calls (ListFree p) (g_lib g) (fun l _ => GDone (Go l (g_buffers g)) GUnit).
(** ownershipvoucher.go:32-34 *)
Definition go_len (p : ptr) (g : go) : geffect :=
  calls (ListLen p) (g_lib g) (fun l r => match r with RNum z => GDone (Go l (g_buffers g)) (GNum z) | _ => GUndefined end).
(** [C.uint64_t(index)] of an int *)
Definition uint64 (i : Z) : N := Z.to_N (i mod 2 ^ 64).
(** ownershipvoucher.go:36-46 *)
Definition go_get (p : ptr) (i : Z) (g : go) : geffect :=
  calls (ListGet p (uint64 i)) (g_lib g) (fun l r =>
    match r with
    | RPtr Null => GDone (Go l (g_buffers g)) (GError (txt "no voucher"))
    | RPtr q => GDone (Go l (g_buffers g)) (GVoucher q false)
    | _ => GUndefined
    end).
(** ownershipvoucher.go:68-72 *)
Definition go_free (p : ptr) (should_free : bool) (g : go) : geffect :=
  if should_free then calls (Free p) (g_lib g) (fun l _ => GDone (Go l (g_buffers g)) GUnit) else GDone g GUnit.
(** ownershipvoucher.go:74-76; [uint32] of an int32 *)
Definition go_version (p : ptr) (g : go) : geffect :=
  calls (Version p) (g_lib g) (fun l r => match r with RNum z => GDone (Go l (g_buffers g)) (GNum (z mod 2 ^ 32)) | _ => GUndefined end).
(** ownershipvoucher.go:78-84 *)
Definition go_text (k : call) (g : go) : geffect :=
  calls k (g_lib g) (fun l r => match r with RPtr p => from_fdo_string p l (fun l s => GDone (Go l (g_buffers g)) (GText s)) | _ => GUndefined end).

Definition gperform (k : gcall) (g : go) : geffect :=
  match k with
  | GParse d => go_parse d g
  | GParseMany d => go_parse_many d g
  | GListFree p => go_list_free p g
  | GLen p => go_len p g
  | GGet p i => go_get p i g
  | GFree p f => go_free p f g
  | GVersion p _ => go_version p g
  | GGuid p _ => go_text (Guid p) g
  | GInfo p _ => go_text (Info p) g
  end.
End Go.
