(** The owner tool (owner-tool/src/main.rs) and what it talks to: the manufacturing server's two export endpoints
    (manufacturing-server/src/main.rs:277-369). *)
From Verif Require Import Base CborModel ValueModel Text Assoc Hex TypesModel VoucherModel RvModel StoreModel Backend RvServerModel OwnerModel MfgModel
  ClientModel MfgClientModel.
Local Open Scope N_scope.

(** * What a command does to files *)
(** A path is the name of a file; different paths are different files (no links).  [fs::write] creates or truncates and
    then writes; [fs::rename] replaces.  File::create keeps the attributes of a file that is there ([fs_create]). *)
Inductive fsop := OCreate (n : name) | OAppend (n : name) (b : bytes) | ORename (a b : name).
Definition fs_append (n : name) (b : bytes) (d : dir) : dir :=
  match aget n d with Some f => aset n (File (f_data f ++ b) (f_xattr f)) d | None => d end.
Definition fs_op (o : fsop) (d : dir) : dir :=
  match o with OCreate n => fs_create n d | OAppend n b => fs_append n b d | ORename a b => fs_rename a b d end.
Definition fs_ops (l : list fsop) (d : dir) : dir := fold_left (fun d o => fs_op o d) l d.
Definition write_file (n : name) (b : bytes) : list fsop := [OCreate n; OAppend n b].
(** Where a command can be cut short, by a crash or because an operation fails: between two operations, or with part of
    the bytes written. *)
Inductive cut : dir -> list fsop -> dir -> Prop :=
| cut_here d l : cut d l d
| cut_writing d n written rest l : cut d (OAppend n (written ++ rest) :: l) (fs_append n written d)
| cut_later d o l d' : cut (fs_op o d) l d' -> cut d (o :: l) d'.
(** The commands below read everything first: what they then do, and what they report if all of that works. *)
Record command := Cmd { cm_ops : list fsop; cm_result : outcome unit unit }.
Definition read_path (d : dir) (p : name) : outcome unit bytes := match aget p d with Some f => Ok (f_data f) | None => Err tt end.

(** What openssl and serde_yaml read from files: a private key, a certificate, certificates, rendezvous information *)
Record readers := Readers {
  rd_pkey : bytes -> option bytes; rd_cert : bytes -> option bytes; rd_certs : bytes -> option (list bytes);
  rd_rv : bytes -> outcome unit rv_info }.
Definition plain_err {E A} (x : outcome E A) : outcome unit A := map_err (fun _ => tt) x.

Section tool.
Context (pm : pem_codec) (c : crypto) (chk : bool) (kf : keyfns) (rd : readers).

(** main.rs:150-163 *)
Definition load_private_key (d : dir) (p : name) : outcome unit bytes := let! b := read_path d p in of_option tt (rd_pkey rd b).
Definition load_x509 (d : dir) (p : name) : outcome unit bytes := let! b := read_path d p in of_option tt (rd_cert rd b).
Definition load_x509s (d : dir) (p : name) : outcome unit (list bytes) := let! b := read_path d p in of_option tt (rd_certs rd b).

(** ** main.rs:582-628 *)
Definition new_name (p : name) : name := p ++ txt ".new".
Definition extend_text (d : dir) (path keyfile certfile : name) (rnd : bytes) : outcome unit bytes :=
  let! raw := read_path d path in
  let! v := plain_err (from_pem_or_raw pm c chk raw) in
  if negb (hd_version (ov_header v) =? V1_1) then Err tt
  else
    let! sk := load_private_key d keyfile in
    let! cert := load_x509 d certfile in
    let! next := plain_err (pubkey_of_cert c (kf_type kf) (kf_der kf) cert) in
    match extend c chk v sk None next rnd with
    | (v', Ok _) => plain_err (to_pem pm v')
    | (_, Err _) => Err tt
    | (_, Panic w) => Panic w
    end.
Definition extend_cmd (d : dir) (path keyfile certfile : name) (rnd : bytes) : command :=
  match extend_text d path keyfile certfile rnd with
  | Ok t => Cmd (write_file (new_name path) t ++ [ORename (new_name path) path]) (Ok tt)
  | Err _ => Cmd [] (Err tt)
  | Panic w => Cmd [] (Panic w)
  end.

(** ** main.rs:311-450 *)
Record initargs := InitArgs {
  ia_id : str; ia_ov : name; ia_dc : name; ia_mfg : name; ia_cakey : name; ia_cachain : name; ia_rv : name }.
(** What is drawn: the device's key (the private key's DER encoding), its HMAC key, the GUID, what the certificate needs *)
Record draws := Draws { dr_sk : bytes; dr_secret : bytes; dr_guid : bytes; dr_cert : bytes }.
(** [mkcert]: main.rs:238-309, as in MfgModel *)
Context (mkcert : bytes -> bytes -> str -> bytes -> bytes -> option bytes).
Definition exists_path (d : dir) (p : name) : bool := match aget p d with Some _ => true | None => false end.
(** The voucher and the credential made from the inputs (main.rs:352-441) *)
Definition init_files (a : initargs) (dr : draws) (mfg : pubkey) (ca_sk : bytes) (ca : list bytes) (rv : rv_info) : outcome unit (bytes * bytes) :=
  match ca with
  | [] => Err tt
  | signer :: _ =>
    let! cert := of_option tt (mkcert signer ca_sk (ia_id a) (c_pub c (dr_sk dr)) (dr_cert dr)) in
    let ch := cert :: ca in
    plain_err (
      let! ch_hash := hash_from_data c Sha384 (concat ch) in
      let h := header_new V1_1 (dr_guid dr) rv (ia_id a) mfg (Some ch_hash) in
      let! hb := header_serialize h in
      let! kh := mfg_key_hash c h Sha384 in
      let cred := DevCred true V1_1 (dr_guid dr) rv kh (Plain (dr_secret dr) (dr_sk dr)) in
      let! hmac := hash_from_digest HmacSha384 (c_hmac c Sha384 (dr_secret dr) hb) in
      let! v := voucher_new h hmac (Some ch) in
      let! t := to_pem pm v in
      Ok (t, enc (cred_val (ia_id a) cred)))
  end.
Definition init_cmd (d : dir) (a : initargs) (dr : draws) : command :=
  match
    let! mcert := load_x509 d (ia_mfg a) in
    let! mfg := plain_err (pubkey_of_cert c (kf_type kf) (kf_der kf) mcert) in
    let! ca_sk := load_private_key d (ia_cakey a) in
    let! ca := load_x509s d (ia_cachain a) in
    let! rvb := read_path d (ia_rv a) in
    let! rv := rd_rv rd rvb in
    if exists_path d (ia_dc a) then Err tt
    else if exists_path d (ia_ov a) then Err tt
    else init_files a dr mfg ca_sk ca rv
  with
  | Ok (ov, dc) => Cmd (write_file (ia_ov a) ov ++ write_file (ia_dc a) dc) (Ok tt)
  | Err _ => Cmd [] (Err tt)
  | Panic w => Cmd [] (Panic w)
  end.

(** ** main.rs:452-476: printing a voucher in another form *)
Inductive outform := AsPem | AsCose.
Definition dump_form (d : dir) (path : name) (o : outform) : outcome unit bytes :=
  let! raw := read_path d path in
  let! v := plain_err (from_pem_or_raw pm c chk raw) in
  plain_err match o with AsCose => voucher_serialize v | AsPem => to_pem pm v end.

(** ** Importing into the owner's database, main.rs:674-776 *)
(** What the directory gives, one after another: an entry that cannot be listed, a file that cannot be read (or is a
    directory), the contents of a file *)
Inductive found := NoEntry | NoRead | Contents (b : bytes).
(** The database, each time it is used: the pool cannot be built ([expect], db/src/sqlite.rs:85-91), there is no
    connection, the statement fails, or it is executed *)
Inductive dbstate := NoPool | NoConn | Refuses | Works.
(** db/src/sqlite.rs:93-110.  INSERT fails on an existing key. *)
Definition insert_ov (t : table) (v : voucher) (s : dbstate) : table * outcome unit unit :=
  match guid_text (hd_guid (ov_header v)) with
  | None => (t, Panic P_UNWRAP)
  | Some k =>
    match voucher_serialize v with
    | Panic w => (t, Panic w)
    | Err _ => (t, Err tt)
    | Ok data =>
      match s, aget k t with
      | Works, None => (t ++ [(k, Row data None None None)], Ok tt)
      | _, _ => (t, Err tt)
      end
    end
  end.
(** One file; the result is an error where the tool notes one *)
Definition import_one (t : table) (b : bytes) (s : dbstate) : table * outcome unit unit :=
  match from_pem_or_raw pm c chk b with
  | Panic w => (t, Panic w)
  | Err _ => (t, Err tt)
  | Ok v =>
    match s with
    | NoPool => (t, Panic StoreModel.P_EXPECT)
    | NoConn => (t, Err tt)
    | _ => insert_ov t v s
    end
  end.
(** The files of a directory; the result is the list of noted errors, here the positions of the files *)
Fixpoint import_dir (t : table) (i : nat) (l : list (found * dbstate)) : table * outcome unit (list nat) :=
  match l with
  | [] => (t, Ok [])
  | (f, s) :: r =>
    let '(t1, x) := match f with Contents b => import_one t b s | _ => (t, Err tt) end in
    match x with
    | Panic w => (t1, Panic w)
    | Ok _ => import_dir t1 (S i) r
    | Err _ => match import_dir t1 (S i) r with (t2, Ok errs) => (t2, Ok (i :: errs)) | z => z end
    end
  end.
(** A single file (main.rs:754-774): the error, if any, is the tool's result *)
Definition import_file (t : table) (f : found) (s : dbstate) : table * outcome unit unit :=
  match f with Contents b => import_one t b s | _ => (t, Err tt) end.

(** ** The manufacturing server's vouchers *)
(** manufacturing-server/src/main.rs:280-316: the answer's body; a rejection is an error message (server.rs
    [handle_rejection]), whose body is [page]; [None]: the handler panics and the connection is closed *)
Context {W : Type} (be : backend voucher W).
Definition get_ov (page : bytes) (now : N) (w : W) (guid : str) : W * option (N * bytes) :=
  match guid_parse guid with
  | None => (w, Some (500, page))
  | Some g =>
    match guid_text g with
    | None => (w, None)
    | Some k =>
      match b_load be now w k with
      | (w1, Ok (Some v)) => (w1, match to_pem pm v with Ok t => Some (200, t) | Err _ => Some (500, page) | Panic _ => None end)
      | (w1, Ok None) => (w1, None)
      | (w1, Err _) => (w1, Some (500, page))
      | (w1, Panic _) => (w1, None)
      end
    end
  end.
(** main.rs:334-349: the files that go into the archive; a name that occurs again replaces the file *)
Fixpoint export_files (l : list voucher) (acc : list (name * bytes)) : outcome unit (list (name * bytes)) :=
  match l with
  | [] => Ok acc
  | v :: r =>
    match guid_text (hd_guid (ov_header v)), voucher_serialize v with
    | Some k, Ok b => export_files r (aset k b acc)
    | _, _ => Panic P_UNWRAP
    end
  end.
(** main.rs:318-369, given what [load_all_data] returned; [pack] makes the archive *)
Definition post_export (pack : list (name * bytes) -> bytes) (page : bytes) (all : outcome serr (list voucher)) : option (N * bytes) :=
  match all with
  | Err _ => Some (500, page)
  | Panic _ => None
  | Ok [] => Some (404, [])
  | Ok ovs => match export_files ovs [] with Ok fs => Some (200, pack fs) | _ => None end
  end.
(** owner-tool/src/main.rs:638-672.  [reply]: the status and the body that came back ([None]: the request failed).  The
    status is not looked at.  [dirpath] is an existing directory; a body is taken to be text as it is. *)
Definition export_cmd (file : name) (reply : option (N * bytes)) : command :=
  match reply with
  | None => Cmd [OCreate file] (Err tt)
  | Some (_, body) => Cmd (write_file file body) (Ok tt)
  end.
End tool.
