(** What a service info configuration means, and who may talk to the service info API. *)
From Verif Require Import Base ValueModel Text TypesModel SiModel DevSiModel SiSpec SiApiModel.
Local Open Scope N_scope.

(** Text that can be sent. *)
Definition sendable (s : str) : Prop := forallb is_scalar s = true /\ nlen (utf8_enc s) < 18446744073709551616.

(** A number written in octal digits, perhaps after a plus sign. *)
Definition octal (s : str) (m : N) : Prop :=
  exists ds, (s = ds \/ s = 43 :: ds) /\ ds <> [] /\ Forall (fun x => 48 <= x <= 55) ds /\
  m = fold_left (fun a x => a * 8 + (x - 48)) ds 0 /\ m < 4294967296.

(** The write a configured file asks for: its contents, at its path, with its permissions (0600 if it has none). *)
Definition file_written (prefix : option str) (f : rawfile) (e : effect) : Prop :=
  exists p data mode, e = EWrite p data mode /\ placed prefix (rf_path f) p /\ rf_source f = Some data /\
  match rf_perms f with None => mode = 384 | Some s => octal s mode end.
Definition command_run (c : sicommand) : effect := ERun (sc_cmd c) (sc_args c).
Definition disk_bound (d : sidisk) : list effect :=
  [EOpen (sd_label d); ERebind (sd_label d) (sd_pin d) (sd_config d)] ++ (if sd_reencrypt d then [EReencrypt (sd_label d)] else []).
Definition user_made (u : inituser) : list effect :=
  (match iu_pw u with Some p => [ENewUserPw (iu_name u) p] | None => [] end) ++
  (match iu_keys u with Some ks => ENewUser (iu_name u) :: map (EKey (iu_name u)) ks | None => [] end).

(** The part of the configuration that concerns a module, if it was asked for. *)
Definition part {A} (asked : list simod) (m : simod) (x : option (list A)) : list A :=
  if existsb (simod_eqb m) asked then match x with Some l => l | None => [] end else [].

(** A configuration the device can carry out. *)
Definition file_fine (f : rawfile) : Prop :=
  sendable (rf_path f) /\ is_absolute (rf_path f) = true /\ segments (rf_path f) <> [] /\
  forall data, rf_source f = Some data -> bytes_ok data /\ nlen data <= 9223372036854775807.
Definition command_fine (c : sicommand) : Prop := sendable (sc_cmd c) /\ Forall sendable (sc_args c) /\ nlen (sc_args c) < 18446744073709551616.
Definition disk_fine (d : sidisk) : Prop := sendable (sd_label d) /\ sendable (sd_pin d) /\ sendable (sd_config d).
Definition user_fine (u : inituser) : Prop :=
  sendable (iu_name u) /\ (iu_pw u <> None \/ iu_keys u <> None) /\
  (forall p, iu_pw u = Some p -> sendable p) /\
  (forall ks, iu_keys u = Some ks -> ks <> [] /\ Forall (fun k => ~ In SEMI k) ks /\ sendable (join SEMI ks)).
Definition config_fine (s : settings rawfile) : Prop :=
  Forall file_fine (listed (st_files s)) /\ Forall command_fine (listed (st_commands s)) /\ Forall disk_fine (listed (st_disks s)) /\
  st_extra s = None.

(** A machine on which everything works: commands exit with 0. *)
Definition willing (w : machine) : Prop :=
  forall es e, match e with
               | ERun _ _ => exists out err, w (es ++ [e]) = Output out err (Some 0%Z)
               | _ => w (es ++ [e]) = Fine
               end.

(** The names in a "modules" value: an array whose first two elements are counters. *)
Definition lists_names (v : cval) (ns : list str) : Prop :=
  exists l, untag v = VArr l /\ map as_string (skipn 2 l) = map Some ns.
(** The module with this name. *)
Definition calls (n : str) (m : simod) : Prop := In (m, n) known_modules \/ (m = Unsupported n /\ ~ In n (map snd known_modules)).
(** The device named this module in its message. *)
Definition named (msg : silist) (m : simod) : Prop :=
  exists v ns n, In (DevMod, txt "modules", v) (si_iter msg) /\ lists_names v ns /\ In n ns /\ calls n m.

(** The answer the owner server gets when it asks the service info API for a device that has these modules. *)
Definition ask_api (t : tokens) (auth : str) (conf : settings sifile) (per_device : bytes -> option (option inituser)) (guid : bytes) : str -> option reply :=
  fun modules => match serve t conf per_device (HReq GET [txt "device_info"] (Some auth) (Some (Query 1 guid modules)) None) with
                 | Replied r => Some r
                 | _ => None
                 end.
