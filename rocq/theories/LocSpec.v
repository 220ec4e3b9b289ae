(** Where a device's credential is to be found, in words of paths and files. *)
From Verif Require Import Base CborModel ValueModel Text TypesModel VoucherModel Assoc SiModel DevSiModel ClientModel MfgClientModel LocModel.

(** The paths the documentation (HOWTO.md:808-835) names, in the order in which they count *)
Definition places (e : env) : list str :=
  FIRMWARE :: match ev_cred e with Some (EText p) => [p] | _ => [] end ++ [ETC].
(** A variable that is not text is an error, unless the firmware's credential comes first. *)
Definition readable (e : env) (p : str) : Prop := p = FIRMWARE \/ ev_cred e <> Some ENotText.
(** [p] is the first of these paths at which there is a file, and [b] is what is in it. *)
Definition used (e : env) (fs : files) (p : str) (b : bytes) : Prop :=
  readable e p /\ aget p fs = Some b /\ exists l r, places e = l ++ p :: r /\ forall q, In q l -> aget q fs = None.
(** If a file is put at [p], it is the one that counts. *)
Definition counts (e : env) (fs : files) (p : str) : Prop :=
  readable e p /\ exists l r, places e = l ++ p :: r /\ forall q, In q l -> aget q fs = None /\ q <> p.
(** None of these paths has a file. *)
Definition unused (e : env) (fs : files) : Prop := ev_cred e <> Some ENotText /\ forall p, In p (places e) -> aget p fs = None.

(** What is to be done with the file after onboarding: nothing with what the firmware gives, what the variables say with
    a file named by DEVICE_CREDENTIAL, deactivated in the default place. *)
Inductive to_be (e : env) : str -> deactivation -> Prop :=
| tb_firmware : to_be e FIRMWARE KeepIt
| tb_delete p : ev_cred e = Some (EText p) -> p <> FIRMWARE -> ev_delete e = true -> to_be e p DeleteIt
| tb_deactivate p : ev_cred e = Some (EText p) -> p <> FIRMWARE -> ev_delete e = false -> ev_deactivate e = true -> to_be e p DeactivateIt
| tb_keep p : ev_cred e = Some (EText p) -> p <> FIRMWARE -> ev_delete e = false -> ev_deactivate e = false -> to_be e p KeepIt
| tb_default : ev_cred e <> Some (EText ETC) -> to_be e ETC DeactivateIt.

(** The file [p] has a credential in it, active or not. *)
Definition has_credential (b : bytes) (info : str) (dc : devcred) : Prop := from_slice as_cred b = Ok (info, dc).
(** Carrying out service information does not touch the file [p]. *)
Definition spares (others : list devent -> files -> files) (p : str) : Prop := forall h fs, aget p (others h fs) = aget p fs.
(** A write the machine reports as done has been done completely. *)
Definition honest (wo : world) (how : list devent -> written) : Prop := forall h, wo_fx wo h = Fine -> how h = Whole.

(** Where the marker is: where DEVICE_ONBOARDING_EXECUTED_MARKER_FILE_PATH says, if it is text, and otherwise in the documented place. *)
Inductive marker_at (e : env) : str -> Prop :=
| ma_told p : ev_marker e = Some (EText p) -> marker_at e p
| ma_default : (forall p, ev_marker e <> Some (EText p)) -> marker_at e (txt "/etc/device_onboarding_performed").
(** Where the manufacturing client writes the credential: where DEVICE_CREDENTIAL_FILENAME says, or in the documented place if it is not set. *)
Inductive told_file (e : env) : str -> Prop :=
| tf_told p : ev_file e = Some (EText p) -> told_file e p
| tf_default : ev_file e = None -> told_file e (txt "/etc/device-credentials").

(** An environment in which nothing is said *)
Definition silent_env : env := Env None false false None None.
