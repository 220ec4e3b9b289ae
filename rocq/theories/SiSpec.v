(** Specifications for service info: names, entries, activation, files, paths. *)
From Verif Require Import Base ValueModel Text TypesModel MsgModel SiModel DevSiModel.
Local Open Scope N_scope.

(** The FDO module names this implementation knows. *)
Definition known_modules : list (simod * str) :=
  [(DevMod, txt "devmod"); (Command, txt "org.fedoraiot.command"); (SSHKey, txt "org.fedoraiot.sshkey");
   (BinaryFile, txt "org.fedoraiot.binaryfile"); (DiskEncryption, txt "org.fedoraiot.diskencryption-clevis");
   (Reboot, txt "org.fedoraiot.reboot"); (SubscriptionManager, txt "com.redhat.subscriptionmanager")].
(** A module of its own: a known one, or an unknown one that does not have a known one's name. *)
Definition proper (m : simod) : Prop := forall s, m = Unsupported s -> ~ In s (map snd known_modules).

(** The FDO message numbers. *)
Definition message_numbers : list (mtype * N) :=
  [(Invalid, 0); (DIAppStart, 10); (DISetCredentials, 11); (DISetHMAC, 12); (DIDone, 13);
   (TO0Hello, 20); (TO0HelloAck, 21); (TO0OwnerSign, 22); (TO0AcceptOwner, 23);
   (TO1HelloRV, 30); (TO1HelloRVAck, 31); (TO1ProveToRV, 32); (TO1RVRedirect, 33);
   (TO2HelloDevice, 60); (TO2ProveOVHdr, 61); (TO2GetOVNextEntry, 62); (TO2OVNextEntry, 63);
   (TO2ProveDevice, 64); (TO2SetupDevice, 65); (TO2DeviceServiceInfoReady, 66); (TO2OwnerServiceInfoReady, 67);
   (TO2DeviceServiceInfo, 68); (TO2OwnerServiceInfo, 69); (TO2Done, 70); (TO2Done2, 71);
   (DIUNConnect, 210); (DIUNAccept, 211); (DIUNRequestKeyParameters, 212); (DIUNProvideKeyParameters, 213);
   (DIUNProvideKey, 214); (DIUNDone, 215); (MError, 255)].

(** The entry (text, bytes) of a list says: for module [m], [key] is [v]. *)
Definition says (e : str * bytes) (x : sientry) : Prop :=
  exists name, fst e = name ++ COLON :: snd (fst x) /\ ~ In COLON name /\ fst (fst x) = simod_of name /\ dec_top (snd e) = Some (snd x).

(** ** Effects *)
Definition module_of (e : effect) : simod :=
  match e with
  | EWrite _ _ _ => BinaryFile
  | ERun _ _ => Command
  | EOpen _ | ERebind _ _ _ | EReencrypt _ => DiskEncryption
  | ENewUserPw _ _ | ENewUser _ | EKey _ _ => SSHKey
  | ERegister _ _ | EInsights => SubscriptionManager
  end.
Fixpoint reads (l : list note) : list sientry :=
  match l with [] => [] | Read x :: r => x :: reads r | Did _ :: r => reads r end.
(** The module was activated and not deactivated since. *)
Definition activated (log : list note) (m : simod) : Prop :=
  exists l1 l2, log = l1 ++ Read (m, txt "active", VBool true) :: l2 /\ ~ In (Read (m, txt "active", VBool false)) l2.

(** ** Files *)
(** What was said to module [m] since it last did something: keys and values in order. *)
Definition gather (m : simod) (acc : list (str * cval)) (n : note) : list (str * cval) :=
  match n with
  | Read (m', key, v) => if simod_eqb m' m then acc ++ [(key, v)] else acc
  | Did e => if simod_eqb (module_of e) m then [] else acc
  end.
Definition gathered (m : simod) (log : list note) : list (str * cval) := fold_left (gather m) log [].
(** The values given under one key. *)
Definition given (key : str) (g : list (str * cval)) : list cval := map snd (filter (fun kv => text_eqb (fst kv) key) g).
(** The data parts: keys beginning with "data". *)
Definition parts (g : list (str * cval)) : list cval :=
  map snd (filter (fun kv => text_eqb (firstn 4 (fst kv)) (txt "data")) g).
(** The key announces a digest of type [t]. *)
Definition digest_key (key : str) (t : hashtype) : Prop :=
  exists rest, (rest = [] \/ exists r, rest = 45 :: r) /\
  ((key = txt "sha-256" ++ rest /\ t = Sha256) \/ (key = txt "sha-384" ++ rest /\ t = Sha384)).
(** Where a file name is deployed. *)
Definition placed (prefix : option str) (name p : str) : Prop :=
  exists rest, name = SLASH :: rest /\
  match prefix with
  | None => p = name
  | Some f => if is_absolute rest then p = rest
              else (p = f ++ rest /\ (f = [] \/ exists f', f = f' ++ [SLASH])) \/
                   (p = f ++ SLASH :: rest /\ f <> [] /\ ~ exists f', f = f' ++ [SLASH])
  end.
(** The file [data] with [mode] at [p] is what the entries [g] announced. *)
Definition announced (c : crypto) (prefix : option str) (g : list (str * cval)) (p : str) (data : bytes) (mode : N) : Prop :=
  exists name utf z ds g0 key t,
    given (txt "name") g = [VText utf] /\ utf8_dec utf = Some name /\ placed prefix name p /\
    given (txt "length") g = [VInt z] /\ (Z.of_N (nlen data) = z mod 18446744073709551616)%Z /\
    parts g = map VBytes ds /\ data = concat ds /\
    g = g0 ++ [(key, VBytes (c_hash c t data))] /\ digest_key key t /\
    ((given (txt "mode") g = [] /\ mode = 384) \/
     exists zm, given (txt "mode") g = [VInt zm] /\ (Z.of_N mode = zm mod 4294967296)%Z).

(** The command and arguments the entries [g] gave: the last arguments, none if there were none. *)
Definition ordered (g : list (str * cval)) (cmd : str) (args : list str) : Prop :=
  exists (utf : bytes) (g0 : list (str * cval)) (v : cval), given (txt "command") g = [VText utf] /\ utf8_dec utf = Some cmd /\ g = g0 ++ [(txt "execute", v)] /\
  (given (txt "args") g = [] /\ args = [] \/
   exists before us, given (txt "args") g = before ++ [VArr (map VText us)] /\ Forall2 (fun u a => utf8_dec u = Some a) us args).

(** The last word on it: the command may fail. *)
Definition tolerated (g : list (str * cval)) : Prop := exists before, given (txt "may_fail") g = before ++ [VBool true].

(** ** Paths, lexically: the names on the way from the root, ".." going up one level *)
Definition segments (p : str) : list str := filter (fun s => negb (text_eqb s []) && negb (text_eqb s [DOT])) (split_on SLASH p).
Definition UP : str := [DOT; DOT].
Fixpoint walk (at_ : list str) (segs : list str) : list str :=
  match segs with
  | [] => at_
  | s :: r => if text_eqb s UP then walk (removelast at_) r else walk (at_ ++ [s]) r
  end.
Definition resolve (p : str) : list str := walk [] (segments p).
Definition below (prefix p : str) : Prop :=
  is_absolute p = is_absolute prefix /\ exists more, resolve p = resolve prefix ++ more.
(** Going along these names one is never above where one began. *)
Fixpoint never_above (depth : nat) (segs : list str) : Prop :=
  match segs with
  | [] => True
  | s :: r => if text_eqb s UP then (match depth with O => False | S d => never_above d r end) else never_above (S depth) r
  end.

(** ** Well-formed lists *)
(** The list that results from adding these entries in order. *)
Definition si_of (l : list sientry) : silist := fold_left (fun acc x => si_add acc (fst (fst x)) (snd (fst x)) (snd x)) l [].
(** Every order to execute has a command given since the previous order. *)
Definition commands_complete (l : list sientry) : Prop :=
  forall a v b, l = a ++ (Command, txt "execute", v) :: b ->
  exists a1 u a2, a = a1 ++ (Command, txt "command", u) :: a2 /\ forall x, ~ In (Command, txt "execute", x) a2.
(** Every announced length is one a vector can have. *)
Definition lengths_fit (l : list sientry) : Prop :=
  forall z, In (BinaryFile, txt "length", VInt z) l -> (z mod 18446744073709551616 <= 9223372036854775807)%Z.
(** Every file name names something. *)
Definition names_real (l : list sientry) : Prop :=
  forall u name, In (BinaryFile, txt "name", VText u) l -> utf8_dec u = Some name -> segments name <> [].
