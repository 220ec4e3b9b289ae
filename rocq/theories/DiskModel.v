(** * Disk encryption on the device
    client-linuxapp/src/reencrypt/{mod,rebind}.rs: rebinding a LUKS2 device with clevis, starting and resuming its
    re-encryption. *)
From Verif Require Import Base Text CborModel ValueModel SiModel DevSiModel HostModel.
Local Open Scope N_scope.

(** ** What is in the header of a LUKS2 device
    Tokens, with the kind libcryptsetup gives them (libcryptsetup_rs::CryptTokenInfo) and their JSON; [tk_pin]: what the
    token's secret was sealed with; key slots, with the passphrase that opens them; whether a re-encryption is under way. *)
Inductive json := JStr (s : str) | JArr (l : list json) | JObj (l : list (str * json)) | JOther.
Inductive tkind := Invalid | Internal (n : str) | InternalUnknown (n : str) | External (n : str) | ExternalUnknown (n : str).
Record token := Token { tk_kind : tkind; tk_json : json; tk_pin : str * str }.
Record luks := Luks { lk_tokens : N -> option token; lk_slots : N -> option bytes; lk_pending : bool }.
Definition del_at {X} (f : N -> option X) (i : N) : N -> option X := fun j => if j =? i then None else f j.
Definition put_at {X} (f : N -> option X) (i : N) (x : X) : N -> option X := fun j => if j =? i then Some x else f j.

(** ** What is done: calls of libcryptsetup and runs of clevis and cryptsetup.  Passwords go to their standard input. *)
Inductive dop :=
| DOpen | DLoad | DPath
| DStatus (i : N) | DJson (i : N)
| DPass (slot : N)
| DBind (pin config : str) (stdin : bytes)
| DRemove (i : N) | DDestroy (slot : N)
| DProgress
| DInit (slot : N) (stdin : bytes)
| DResume (stdin : bytes).
(** The machine: whether a call of the library works, depending on all that was done; what the programs do and return.
    A crash of the machine is a failure, since nothing is done after one. *)
Record dworld := DW {
  dw_io : list dop -> bool;
  dw_pass : list dop -> luks -> option bytes;
  dw_bind : list dop -> luks -> luks * bool;
  dw_crypt : list dop -> luks -> luks * bool }.
Record dstate := DSt { ds_lk : luks; ds_log : list dop }.
Definition dm (A : Type) : Type := dstate -> dstate * outcome unit A.
Definition dret {A} (a : A) : dm A := fun s => (s, Ok a).
Definition dfail {A} : dm A := fun s => (s, Err tt).
Definition dbind {A B} (m : dm A) (f : A -> dm B) : dm B := fun s =>
  match m s with (s1, Ok a) => f a s1 | (s1, Err e) => (s1, Err e) | (s1, Panic p) => (s1, Panic p) end.
Notation "'ddo!' x := m 'in' k" := (dbind m (fun x => k)) (at level 61, x pattern, m at next level, right associativity).

Section disk.
Context (w : dworld).
(** A call that reads *)
Definition dread {A} (o : dop) (f : luks -> A) : dm A := fun s =>
  let log := ds_log s ++ [o] in if dw_io w log then (DSt (ds_lk s) log, Ok (f (ds_lk s))) else (DSt (ds_lk s) log, Err tt).
(** A call that changes the header *)
Definition dcall (o : dop) (f : luks -> luks) : dm unit := fun s =>
  let log := ds_log s ++ [o] in if dw_io w log then (DSt (f (ds_lk s)) log, Ok tt) else (DSt (ds_lk s) log, Err tt).
(** Programs *)
Definition run_pass (slot : N) : dm bytes := fun s =>
  let log := ds_log s ++ [DPass slot] in
  match dw_pass w log (ds_lk s) with Some p => (DSt (ds_lk s) log, Ok p) | None => (DSt (ds_lk s) log, Err tt) end.
Definition run (prog : list dop -> luks -> luks * bool) (o : dop) : dm unit := fun s =>
  let log := ds_log s ++ [o] in
  match prog log (ds_lk s) with (lk, true) => (DSt lk log, Ok tt) | (lk, false) => (DSt lk log, Err tt) end.

(** rebind.rs:7-38 get_clevis_token: tokens 0 to 9 *)
Definition CLEVIS : str := txt "clevis".
Definition is_clevis (t : option token) : bool :=
  match t with Some (Token (ExternalUnknown n) _ _) => str_eqb n CLEVIS | _ => false end.
Fixpoint scan (l : list N) (found : option N) : dm (option N) :=
  match l with
  | [] => dret found
  | i :: r =>
    ddo! c := dread (DStatus i) (fun lk => is_clevis (lk_tokens lk i)) in
    if c : bool then match found with Some _ => dfail | None => scan r (Some i) end else scan r found
  end.
Definition LOOKED_AT : list N := [0; 1; 2; 3; 4; 5; 6; 7; 8; 9].
Definition get_clevis_token : dm N :=
  ddo! found := scan LOOKED_AT None in match found with Some i => dret i | None => dfail end.
(** rebind.rs:40-56 get_clevis_keyslot *)
Definition jget (j : json) (k : str) : option json :=
  match j with JObj l => option_map snd (find (fun x => str_eqb (fst x) k) l) | _ => None end.
Definition keyslot_of (j : json) : option N :=
  match jget j (txt "keyslots") with Some (JArr (JStr s :: _)) => parse_u32 s | _ => None end.
Definition get_clevis_keyslot (i : N) : dm N :=
  ddo! t := dread (DJson i) (fun lk => lk_tokens lk i) in
  match t with Some t => match keyslot_of (tk_json t) with Some n => dret n | None => dfail end | None => dfail end.
(** rebind.rs:58-97 *)
Definition get_clevis_token_slot_pass : dm (N * N * bytes) :=
  ddo! i := get_clevis_token in
  ddo! slot := get_clevis_keyslot i in
  ddo! _ := dread DPath (fun _ => tt) in
  ddo! pass := run_pass slot in
  dret (i, slot, pass).
(** rebind.rs:99-160; the password and a line feed go to clevis *)
Definition clevis_bind (pass : bytes) (pin config : str) : dm unit :=
  ddo! _ := dread DPath (fun _ => tt) in
  ddo! _ := run (dw_bind w) (DBind pin config (pass ++ [LF])) in
  dread DLoad (fun _ => tt).
(** rebind.rs:162-184 *)
Definition delete_clevis_token_and_slot (i slot : N) : dm unit :=
  ddo! _ := dcall (DRemove i) (fun lk => Luks (del_at (lk_tokens lk) i) (lk_slots lk) (lk_pending lk)) in
  dcall (DDestroy slot) (fun lk => Luks (lk_tokens lk) (del_at (lk_slots lk) slot) (lk_pending lk)).
(** rebind.rs:186-201 *)
Definition rebind_clevis (pin config : str) : dm unit :=
  ddo! (i, slot, pass) := get_clevis_token_slot_pass in
  ddo! _ := clevis_bind pass pin config in
  delete_clevis_token_and_slot i slot.

(** mod.rs:9-58 initiate_reencrypt *)
Definition initiate_reencrypt : dm unit :=
  ddo! (_, slot, pass) := get_clevis_token_slot_pass in
  ddo! _ := dread DPath (fun _ => tt) in
  run (dw_crypt w) (DInit slot pass).
(** mod.rs:60-140 perform_reencrypt *)
Definition perform_reencrypt : dm unit :=
  ddo! _ := dread DOpen (fun _ => tt) in
  ddo! _ := dread DLoad (fun _ => tt) in
  ddo! pending := dread DProgress lk_pending in
  if pending : bool then ddo! (_, _, pass) := get_clevis_token_slot_pass in run (dw_crypt w) (DResume pass)
  else dret tt.
(** serviceinfo.rs:308-364 execute_with_values, without what it reports *)
Definition encrypt_disk (pin config : str) (reencrypt : bool) : dm unit :=
  ddo! _ := dread DOpen (fun _ => tt) in
  ddo! _ := dread DLoad (fun _ => tt) in
  ddo! _ := rebind_clevis pin config in
  if reencrypt then initiate_reencrypt else dret tt.
End disk.

(** mod.rs:142-169 perform_required_reencrypts: the mapped devices in order, each with its UUID, its header and its machine;
    [None]: the list, or what is known of a device, could not be had *)
Definition LUKS2 : str := txt "CRYPT-LUKS2-".
Record mapped := Mapped { mp_info : option (option str); mp_world : dworld; mp_state : dstate }.
Fixpoint resume_all (l : list mapped) : list dstate * outcome unit unit :=
  match l with
  | [] => ([], Ok tt)
  | d :: r =>
    match mp_info d with
    | None => (map mp_state l, Err tt)
    | Some uuid =>
      if match uuid with Some u => starts_with LUKS2 u | None => false end then
        match perform_reencrypt (mp_world d) (mp_state d) with
        | (s, Ok _) => let '(ss, o) := resume_all r in (s :: ss, o)
        | (s, Err e) => (s :: map mp_state r, Err e)
        | (s, Panic p) => (s :: map mp_state r, Panic p)
        end
      else let '(ss, o) := resume_all r in (mp_state d :: ss, o)
    end
  end.
Definition perform_required_reencrypts (l : option (list mapped)) : list dstate * outcome unit unit :=
  match l with None => ([], Err tt) | Some l => resume_all l end.
