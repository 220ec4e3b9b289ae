(** What a Go program may do with the package and what it may rely on, in terms of the calls made and their results only. *)
From Verif Require Import Base ValueModel Text Hex CborModel TypesModel VoucherModel LibModel LibSpec GoModel.
Local Open Scope N_scope.

Definition ghistory := list (gcall * greply).
Definition gmade (h : ghistory) (k : gcall) : Prop := exists r, In (k, r) h.
(** A voucher or a list the program has been given by parsing, and has not freed; an element of such a list. *)
Definition g_voucher (h : ghistory) (p : ptr) (f : bool) : Prop := (exists d, In (GParse d, GVoucher p f) h) /\ ~ gmade h (GFree p f).
Definition g_list (h : ghistory) (p : ptr) : Prop := (exists d, In (GParseMany d, GList p) h) /\ ~ gmade h (GListFree p).
Definition g_element (h : ghistory) (p : ptr) (f : bool) : Prop := exists l i, In (GGet l i, GVoucher p f) h /\ g_list h l.
(** The rules: nothing is used after it, or the list it is from, was freed, and nothing but an element is freed twice.  Elements may be freed
    as often as one likes, also after their list.  A length and an index are a Go int. *)
Definition gallowed (h : ghistory) (k : gcall) : Prop :=
  match k with
  | GParse d | GParseMany d => nlen d < 2 ^ 63
  | GListFree l | GLen l => g_list h l
  | GGet l i => g_list h l /\ (- 2 ^ 63 <= i < 2 ^ 63)%Z
  | GFree p f => g_voucher h p f \/ exists l i, In (GGet l i, GVoucher p f) h
  | GVersion p f | GGuid p f | GInfo p f => g_voucher h p f \/ g_element h p f
  end.

Section Spec.
Context (c : crypto) (chk : bool) (err_text : ferr -> str).
Inductive gprogram : ghistory -> go -> Prop :=
| G_start : gprogram [] fresh_go
| G_call h g k g' r : gprogram h g -> gallowed h k -> gperform c chk err_text k g = GDone g' r -> gprogram (h ++ [(k, r)]) g'.

(** What a list or voucher stands for *)
Definition g_stands_list (h : ghistory) (l : ptr) (vs : list voucher) : Prop := exists d, In (GParseMany d, GList l) h /\ voucher_read_many c chk d = Ok vs.
Definition g_stands (h : ghistory) (p : ptr) (f : bool) (v : voucher) : Prop :=
  (exists d, In (GParse d, GVoucher p f) h /\ voucher_deserialize c chk d = Ok v) \/
  (exists l i vs, In (GGet l i, GVoucher p f) h /\ g_stands_list h l vs /\ (0 <= i)%Z /\ nth_error vs (Z.to_nat i) = Some v).
(** The right result *)
Definition gright (h : ghistory) (k : gcall) (r : greply) : Prop :=
  match k with
  | GParse d =>
    match voucher_deserialize c chk d with
    | Ok _ => exists p, r = GVoucher p true /\ forall k', ~ In (k', GVoucher p true) h
    | Err e => r = GError (txt "failed to parse: " ++ err_text e)
    | Panic _ => False
    end
  | GParseMany d =>
    match voucher_read_many c chk d with
    | Ok _ => exists p, r = GList p /\ forall k', ~ In (k', GList p) h
    | Err e => r = GError (txt "failed to parse ownership vouchers: " ++ err_text e)
    | Panic _ => False
    end
  | GListFree _ | GFree _ _ => r = GUnit
  | GLen l => exists vs, only (g_stands_list h l) vs /\ r = GNum (Z.of_nat (length vs))
  | GGet l i =>
    exists vs, only (g_stands_list h l) vs /\
      if ((0 <=? i) && (i <? Z.of_nat (length vs)))%Z
      then exists v p, nth_error vs (Z.to_nat i) = Some v /\ r = GVoucher p false /\ only (g_stands (h ++ [(k, r)]) p false) v
      else r = GError (txt "no voucher")
  | GVersion p f => exists v, only (g_stands h p f) v /\ r = GNum (Z.of_N (hd_version (ov_header v)))
  | GGuid p f => exists v s, only (g_stands h p f) v /\ guid_text (hd_guid (ov_header v)) = Some s /\ r = GText s
  | GInfo p f => exists v, only (g_stands h p f) v /\ r = GText (hd_devinfo (ov_header v))
  end.
(** When a call ends the process: the parser panics (C03), or an error is to be told whose text has a NUL in it. *)
Definition gcrash (k : gcall) : Prop :=
  match k with
  | GParse d => match voucher_deserialize c chk d with Panic _ => True | Err e => has_nul (err_text e) = true | Ok _ => False end
  | GParseMany d => match voucher_read_many c chk d with Panic _ => True | Err e => has_nul (err_text e) = true | Ok _ => False end
  | _ => False
  end.
End Spec.
(** The program has freed all it was given. *)
Definition all_freed (h : ghistory) : Prop := (forall p f, ~ g_voucher h p f) /\ forall l, ~ g_list h l.
(** The data that were parsed *)
Definition parsed (h : ghistory) : list bytes := flat_map (fun x => match fst x with GParse d | GParseMany d => [d] | _ => [] end) h.
