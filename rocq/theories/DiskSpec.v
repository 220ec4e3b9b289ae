(** What a disk can be opened with, and what clevis and cryptsetup do. *)
From Verif Require Import Base Text CborModel ValueModel SiModel DevSiModel HostModel DiskModel.
Local Open Scope N_scope.

(** Token [i] is clevis's, for key slot [slot], with this pin and configuration. *)
Definition bound (lk : luks) (i slot : N) (pc : str * str) : Prop :=
  exists j kvs s more, lk_tokens lk i = Some (Token (ExternalUnknown CLEVIS) j pc) /\ j = JObj kvs /\
    find (fun x => str_eqb (fst x) (txt "keyslots")) kvs = Some (txt "keyslots", JArr (JStr s :: more)) /\ parse_u32 s = Some slot.
Definition slot_there (lk : luks) (slot : N) : Prop := lk_slots lk slot <> None.
(** The disk can be opened without anybody typing: clevis has a token for a key slot that is there. *)
Definition opens_itself (lk : luks) (pc : str * str) : Prop := exists i slot, bound lk i slot pc /\ slot_there lk slot.
(** Everything in [lk] but this token and this slot is also in [lk'], and as it was. *)
Definition kept_but (i slot : N) (lk lk' : luks) : Prop :=
  (forall j t, lk_tokens lk j = Some t -> j <> i -> lk_tokens lk' j = Some t) /\ (forall j p, lk_slots lk j = Some p -> j <> slot -> lk_slots lk' j = Some p).
(** Nothing but this token and this slot is new. *)
Definition new_only (i slot : N) (lk lk' : luks) : Prop :=
  (forall j, lk_tokens lk j = None -> j <> i -> lk_tokens lk' j = None) /\ (forall j, lk_slots lk j = None -> j <> slot -> lk_slots lk' j = None).
Definition free_token (lk : luks) (i : N) : Prop := lk_tokens lk i = None.
Definition first_free (lk : luks) (i : N) : Prop := free_token lk i /\ forall j, j < i -> ~ free_token lk j.

(** clevis luks pass prints the passphrase of that slot, if it succeeds. *)
Definition pass_law (w : dworld) : Prop := forall log slot lk p, dw_pass w (log ++ [DPass slot]) lk = Some p -> lk_slots lk slot = Some p.
(** clevis luks bind takes nothing away; if it succeeds, there is one new token, the first that was free, for one new slot. *)
Definition bind_law (w : dworld) : Prop := forall log pin config stdin lk lk' ok, dw_bind w (log ++ [DBind pin config stdin]) lk = (lk', ok) ->
  (forall j t, lk_tokens lk j = Some t -> lk_tokens lk' j = Some t) /\ (forall j p, lk_slots lk j = Some p -> lk_slots lk' j = Some p) /\ lk_pending lk' = lk_pending lk /\
  (ok = true -> exists i slot, first_free lk i /\ lk_slots lk slot = None /\ bound lk' i slot (pin, config) /\ slot_there lk' slot /\ new_only i slot lk lk').
(** cryptsetup reencrypt changes neither tokens nor slots; if it succeeds, one is under way, or was finished. *)
Definition crypt_law (w : dworld) : Prop := forall log o lk lk' ok, dw_crypt w (log ++ [o]) lk = (lk', ok) ->
  lk_tokens lk' = lk_tokens lk /\ lk_slots lk' = lk_slots lk /\
  (ok = true -> match o with DInit _ _ => lk_pending lk' = true | DResume _ => lk_pending lk' = false | _ => True end).
Definition disk_laws (w : dworld) : Prop := pass_law w /\ bind_law w /\ crypt_law w.

(** ** A machine on which everything works *)
(** The library's calls work; clevis gives the passphrase of a slot that is there; it binds as long as one of the tokens, and
    of the slots, is free. *)
Definition MAX : N := 32.
Definition has_room (lk : luks) : Prop := (exists i, i < MAX /\ free_token lk i) /\ exists s, s < MAX /\ lk_slots lk s = None.
Definition all_fine (w : dworld) : Prop :=
  disk_laws w /\ (forall log, dw_io w log = true) /\
  (forall log slot lk p, lk_slots lk slot = Some p -> dw_pass w (log ++ [DPass slot]) lk = Some p) /\
  (forall log pin config pass slot lk, has_room lk -> lk_slots lk slot = Some pass -> exists lk',
     dw_bind w (log ++ [DBind pin config (pass ++ [LF])]) lk = (lk', true)) /\
  (forall log slot pass lk, lk_slots lk slot = Some pass -> snd (dw_crypt w (log ++ [DInit slot pass]) lk) = true) /\
  (forall log slot pass lk, lk_slots lk slot = Some pass -> snd (dw_crypt w (log ++ [DResume pass]) lk) = true).
(** One token of clevis, among the first ten *)
Definition one_binding (lk : luks) (i slot : N) (pc : str * str) : Prop :=
  i < 10 /\ bound lk i slot pc /\ slot_there lk slot /\ forall j, j < 10 -> is_clevis (lk_tokens lk j) = true -> j = i.
