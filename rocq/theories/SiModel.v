(** Service info: module names and the list of values exchanged in TO2
    (data-formats/src/constants/serviceinfo_names.rs, data-formats/src/types.rs:460-541, 735-835). *)
From Verif Require Import Base ValueModel Text.
Local Open Scope N_scope.

(** serviceinfo_names.rs:36-43, 105-109, 122-130, 148-152.  The nested enums are flattened: [DevMod] is
    Standard(DevMod); [Command], [SSHKey], [BinaryFile], [DiskEncryption] (DiskEncryptionClevis) and [Reboot] are in
    FedoraIot; [SubscriptionManager] is in RedHatCom. *)
Inductive simod := DevMod | Command | SSHKey | BinaryFile | DiskEncryption | Reboot | SubscriptionManager | Unsupported (s : str).

(** Text comparison (Rust [==] on str). *)
Definition text_eqb : str -> str -> bool := list_eqb N.eqb.

(** derived PartialEq *)
Definition simod_eqb (a b : simod) : bool :=
  match a, b with
  | DevMod, DevMod | Command, Command | SSHKey, SSHKey | BinaryFile, BinaryFile | DiskEncryption, DiskEncryption
  | Reboot, Reboot | SubscriptionManager, SubscriptionManager => true
  | Unsupported s, Unsupported t => text_eqb s t
  | _, _ => false
  end.

(** serviceinfo_names.rs:45-67 FromStr *)
Definition simod_of (s : str) : simod :=
  if text_eqb s (txt "org.fedoraiot.binaryfile") then BinaryFile
  else if text_eqb s (txt "org.fedoraiot.command") then Command
  else if text_eqb s (txt "org.fedoraiot.sshkey") then SSHKey
  else if text_eqb s (txt "org.fedoraiot.diskencryption-clevis") then DiskEncryption
  else if text_eqb s (txt "org.fedoraiot.reboot") then Reboot
  else if text_eqb s (txt "com.redhat.subscriptionmanager") then SubscriptionManager
  else if text_eqb s (txt "devmod") then DevMod
  else Unsupported s.

(** serviceinfo_names.rs:87-164 Display: the group's prefix, then the module's own name *)
Definition simod_text (m : simod) : str :=
  match m with
  | DevMod => txt "devmod"
  | Command => txt "org.fedoraiot." ++ txt "command"
  | SSHKey => txt "org.fedoraiot." ++ txt "sshkey"
  | BinaryFile => txt "org.fedoraiot." ++ txt "binaryfile"
  | DiskEncryption => txt "org.fedoraiot." ++ txt "diskencryption-clevis"
  | Reboot => txt "org.fedoraiot." ++ txt "reboot"
  | SubscriptionManager => txt "com.redhat." ++ txt "subscriptionmanager"
  | Unsupported s => s
  end.

(** types.rs:735-737 ServiceInfo: entries of a text "module:key" and the CBOR bytes of a value *)
Definition silist := list (str * bytes).

Definition COLON : N := 58.

(** types.rs:744-757 [add] *)
Definition si_add (l : silist) (m : simod) (key : str) (v : cval) : silist :=
  l ++ [(simod_text m ++ COLON :: key, enc v)].

(** types.rs:759-777 [add_modules] *)
Definition si_add_modules (l : silist) (ms : list simod) : silist :=
  let n := VInt (Z.of_N (nlen ms)) in
  let l1 := si_add l DevMod (txt "nummodules") n in
  si_add l1 DevMod (txt "modules") (VArr (VInt 0 :: n :: map (fun m => VText (utf8_enc (simod_text m))) ms)).

(** [str::find(':')] and [split_at]: the text before the first colon and the text from the colon on *)
Fixpoint split_colon (s : str) : option (str * str) :=
  match s with
  | [] => None
  | x :: r => if x =? COLON then Some ([], s) else option_map (fun p => (x :: fst p, snd p)) (split_colon r)
  end.

(** serde_cbor::Value reads only texts that are UTF-8. *)
Fixpoint texts_ok (v : cval) : bool :=
  match v with
  | VText b => match utf8_dec b with Some _ => true | None => false end
  | VArr l => forallb texts_ok l
  | VMap l => forallb (fun kv => texts_ok (fst kv) && texts_ok (snd kv)) l
  | VTag _ v => texts_ok v
  | _ => true
  end.
(** serde_cbor::from_slice into a Value (a map keeps its pairs as sent; nothing modelled looks into one) *)
Definition any_value (b : bytes) : option cval :=
  match dec_top b with Some v => if texts_ok v then Some v else None | None => None end.

Definition sientry := (simod * str * cval)%type.

(** types.rs:807-833 [ServiceInfoIter::next] repeated: it ends at the first entry without a colon or with an unreadable
    value, and so does the caller's loop. *)
Fixpoint si_iter (l : silist) : list sientry :=
  match l with
  | [] => []
  | (k, b) :: r =>
    match split_colon k with
    | None => []
    | Some (m, key) =>
      match any_value b with
      | None => []
      | Some v => (simod_of m, tl key, v) :: si_iter r
      end
    end
  end.

(** types.rs:783-797 [values]: an error instead of an early end; the key keeps its colon. *)
Fixpoint si_values (l : silist) : option (list (str * str * cval)) :=
  match l with
  | [] => Some []
  | (k, b) :: r =>
    match split_colon k with
    | None => None
    | Some (m, key) =>
      match any_value b with
      | None => None
      | Some v => option_map (cons (m, key, v)) (si_values r)
      end
    end
  end.

(** types.rs:475-541 CborSimpleTypeExt *)
Definition v_bool (v : cval) : option bool := match v with VBool b => Some b | _ => None end.
Definition v_bytes (v : cval) : option bytes := match v with VBytes b => Some b | _ => None end.
(** types.rs:490-502: [as u32] and [as u64] cut off high bits *)
Definition v_u32 (v : cval) : option N := match v with VInt z => Some (Z.to_N (z mod 4294967296)) | _ => None end.
Definition v_u64 (v : cval) : option N := match v with VInt z => Some (Z.to_N (z mod 18446744073709551616)) | _ => None end.
Definition v_str (v : cval) : option str := match v with VText b => utf8_dec b | _ => None end.
Fixpoint v_texts (l : list cval) : option (list str) :=
  match l with
  | [] => Some []
  | v :: r => match v_str v, v_texts r with Some s, Some ss => Some (s :: ss) | _, _ => None end
  end.
Definition v_strs (v : cval) : option (list str) := match v with VArr l => v_texts l | _ => None end.
