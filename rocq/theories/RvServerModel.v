(** The rendezvous server (rendezvous-server/src/{main,handlers_to0,handlers_to1}.rs) and its messages
    (data-formats/src/messages/v11/{to0,to1}.rs). *)
From Verif Require Import Base CborModel ValueModel Text Hex TypesModel VoucherModel RvModel StoreModel Backend MsgModel SessionModel.
Local Open Scope N_scope.

(** constants/mod.rs:411-421 (the others are in SessionModel.v) *)
Definition InvalidOwnershipVoucher : N := 2.
Definition ResourceNotFound : N := 6.

(** Replacing the error by an error code *)
Definition code {E A} (n : N) (o : outcome E A) : outcome N A := map_err (fun _ => n) o.

(** * Tokens: types.rs:1630-1666 (eat_from_map), 1886-1894 (get_eat) *)
Definition EAT_NONCE : Z := 10.
Definition EAT_UEID : Z := 11.
Definition EAT_FDO : Z := -257.
Definition I_EAT_NONCE : N := 20.
Definition I_EAT_UEID : N := 21.
Record eat := Eat { eat_payload : option cval; eat_nonce : bytes; eat_ueid : bytes; eat_claims : list (cval * cval) }.
(** HashMap<i64, Value> *)
Definition as_claims (v : cval) : option (list (cval * cval)) :=
  match as_map v with
  | Some m => if forallb (fun kv => match as_int (-9223372036854775808) 9223372036854775807 (fst kv) with Some _ => true | None => false end) m then Some m else None
  | None => None
  end.
(** An empty UEID panics (types.rs:327). *)
Definition eat_of_claims (m : list (cval * cval)) : outcome ferr eat :=
  match hdr_get EAT_NONCE m with
  | None => Err (FInconsistent I_EAT_NONCE)
  | Some v =>
    let! n := of_option FSerde (as_bstr16 v) in
    match hdr_get EAT_UEID m with
    | None => Err (FInconsistent I_EAT_UEID)
    | Some u =>
      let! ub := of_option FSerde (as_bytebuf u) in
      match from_ueid ub with
      | Panic p => Panic p
      | Err _ => Err (FInconsistent I_EAT_UEID)
      | Ok _ => Ok (Eat (hdr_get EAT_FDO m) n ub m)
      end
    end
  end.
Definition get_eat (c : crypto) (s : cose) (key : bytes) : outcome ferr eat :=
  let! m := cose_get_payload c (from_slice as_claims) s key in eat_of_claims m.

(** * What is stored: serializable.rs:92-122 *)
Record item := Item { si_key : pubkey; si_to1d : cose }.
Definition to_serr {A} (o : outcome ferr A) : outcome serr A := map_err (fun _ => SUnspecified) o.
Definition item_write (it : item) : outcome ferr bytes :=
  let! b := cose_serialize (si_to1d it) in
  map_err FArray (serialize_array (PA None [enc (pubkey_val (si_key it)); b])).
Definition item_read (c : crypto) (chk : bool) (s : bytes) : outcome ferr item :=
  let! a := map_err FArray (parse_array_data chk (Some 2) s) in
  let! k := get (from_slice (as_pubkey c)) a 0 in
  let! t := get (cose_deserialize chk) a 1 in
  Ok (Item k t).
(** A panic while reading a stored file is not told apart from an error. *)
Definition item_codec (c : crypto) (chk : bool) : codec item :=
  Codec (fun it => to_serr (item_write it)) (fun s => match item_read c chk s with Ok it => Some it | _ => None end).

(** * Messages *)
(** types.rs:584-607 *)
Record to0data := To0d { t0_voucher : voucher; t0_wait : N; t0_nonce : bytes }.
Definition to0data_read (c : crypto) (chk : bool) (s : bytes) : outcome ferr to0data :=
  let! a := map_err FArray (parse_array_data chk (Some 3) s) in
  let! v := get (voucher_deserialize c chk) a 0 in
  let! w := get (from_slice as_u32) a 1 in
  let! n := get (from_slice as_bstr16) a 2 in
  Ok (To0d v w n).
(** types.rs:544-550, 656-660 *)
Definition as_to2_addr (v : cval) : option to2_addr :=
  match as_fields v with
  | [i; d; p; t] =>
    match as_option as_ip i, as_option as_string d, as_u16 p, as_int 1 6 t with
    | Some i, Some d, Some p, Some t => Some (Addr i d p (Z.to_N t))
    | _, _, _, _ => None
    end
  | _ => None
  end.
Record to1payload := To1p { t1_addrs : list to2_addr; t1_hash : hash }.
Definition as_to1payload (v : cval) : option to1payload :=
  match as_fields v with
  | [l; h] => match as_list as_to2_addr l, as_hash h with Some l, Some h => Some (To1p l h) | _, _ => None end
  | _ => None
  end.
(** to0.rs:93-117 *)
Record ownersign := OwnerSign { os_to0d : bytes; os_to1d : cose }.
Definition ownersign_read (chk : bool) (s : bytes) : outcome ferr ownersign :=
  let! a := map_err FArray (parse_array_data chk (Some 2) s) in
  let! d := get (from_slice as_bytebuf) a 0 in
  let! t := get (cose_deserialize chk) a 1 in
  Ok (OwnerSign d t).
(** constants/mod.rs DeviceSigType (repr i16) *)
Definition ES256 : Z := -7.
Definition ES384 : Z := -35.
Definition as_sigtype (v : cval) : option Z :=
  match as_int (-32768) 32767 v with
  | Some z => if existsb (Z.eqb z) [ES256; ES384; (-257)%Z; (-258)%Z; 90%Z; 91%Z; 92%Z] then Some z else None
  | None => None
  end.
(** types.rs:190-195; to1.rs:10-14 *)
Definition as_siginfo (v : cval) : option (Z * bytes) :=
  match as_fields v with
  | [t; i] => match as_sigtype t, as_bytebuf i with Some t, Some i => Some (t, i) | _, _ => None end
  | _ => None
  end.
Definition siginfo_val (s : Z * bytes) : cval := VArr [VInt (fst s); VBytes (snd s)].
Record hellorv := HelloRV { hr_guid : bytes; hr_sig : Z * bytes }.
Definition as_hellorv (v : cval) : option hellorv :=
  match as_fields v with
  | [g; s] => match as_bstr16 g, as_siginfo s with Some g, Some s => Some (HelloRV g s) | _, _ => None end
  | _ => None
  end.
(** to0.rs:13-14 *)
Definition as_unit_struct (v : cval) : option unit := match untag v with VArr [] => Some tt | _ => None end.
Inductive rvmsg := MHello | MOwnerSign (m : ownersign) | MHelloRV (m : hellorv) | MProveToRV (token : cose).
Definition rv_parse (chk : bool) (im : mtype) (b : bytes) : outcome unit rvmsg :=
  map_err (fun _ => tt)
  match im with
  | TO0Hello => let! _ := from_slice as_unit_struct b in Ok MHello
  | TO0OwnerSign => let! m := ownersign_read chk b in Ok (MOwnerSign m)
  | TO1HelloRV => let! m := from_slice as_hellorv b in Ok (MHelloRV m)
  | TO1ProveToRV => let! m := cose_deserialize chk b in Ok (MProveToRV m)
  | _ => Err FNotImplemented
  end.

(** * The server *)
(** main.rs:25-29: the configuration *)
Record rvconf := RvConf { cf_max : N; cf_mfg : option x5bag; cf_dev : option x5bag }.
(** publickey.rs:135-149 (key_type_from_pkey), openssl's public_key_to_der *)
Record keyfns := Keyfns { kf_type : bytes -> option N; kf_der : bytes -> bytes }.
(** enhanced_types.rs:258-271; the order of a HashMap is the list's here *)
Fixpoint bag_contains_key (c : crypto) (bag : x5bag) (key : bytes) : outcome N bool :=
  match bag with
  | [] => Ok false
  | cert :: r => let! k := unwrap P_UNWRAP (c_cert_key c cert) in if bytes_eqb k key then Ok true else bag_contains_key c r key
  end.
(** Iterator::last over the entries: every entry is looked at *)
Fixpoint iter_last (c : crypto) (chk : bool) (v : voucher) (it : entry_iter) (fuel : nat) (acc : option (outcome ferr payload))
  : option (outcome ferr payload) :=
  match iter_next c chk v it with
  | (None, _) => acc
  | (Some (Panic w), _) => Some (Panic w)
  | (Some r, it') => match fuel with O => Some (Panic P_FUEL) | S f => iter_last c chk v it' f (Some r) end
  end.

(** The entries of a session that the handlers use *)
Record rvdata := RvData { sd_nonce3 : option str; sd_nonce4 : option str; sd_guid : option str }.
(** Around a request: the clock, the nonce drawn, and the store failing at one of its operations (or the server
    being stopped there) *)
Inductive iofault := IoOk | LoadFails | DataFails | MetaFails.
Record rvenv := RvEnv { e_now : N; e_nonce : bytes; e_fault : iofault }.

Section server.
Context (c : crypto) (chk : bool) (kf : keyfns) (cf : rvconf) {W : Type} (be : backend item W).

(** handlers_to0.rs:14-33 *)
Definition h_hello (w : W) (s : session rvdata) (e : rvenv) : W * hres rvdata :=
  (w, HReply (RvData (Some (nonce_text (e_nonce e))) (sd_nonce4 (ses_data s)) (sd_guid (ses_data s))) None (enc (VArr [bstr_val (e_nonce e)]))).

(** handlers_to0.rs:54-187: the GUID, what to store and for how long *)
Definition ownersign_check (correct : str) (m : ownersign) : outcome N (bytes * item * N) :=
  let! t := code InternalServerError (to0data_read c chk (os_to0d m)) in
  let! n := unwrap P_UNWRAP (nonce_parse correct) in
  let! same := nonce_eq n (t0_nonce t) in
  if negb same then Err InvalidMessageError else
  let v := t0_voucher t in
  let! trusted := (match cf_mfg cf with None => Ok true | Some bag => bag_contains_key c bag (pk_key (hd_mfg (ov_header v))) end) in
  if negb trusted then Err InvalidOwnershipVoucher else
  match iter_last c chk v (iter_entries v) (S (length (pa_items (ov_entries v)))) None with
  | None | Some (Err _) => Err InvalidOwnershipVoucher
  | Some (Panic p) => Panic p
  | Some (Ok owner) =>
    let! p := code InvalidOwnershipVoucher (cose_get_payload c (from_slice as_to1payload) (os_to1d m) (pk_key (p_key owner))) in
    let! h := code InternalServerError (hash_from_data c (h_type (t1_hash p)) (os_to0d m)) in
    let! _ := code InternalServerError (hash_compare (t1_hash p) h) in
    match ov_chain v with
    | None => Err InvalidOwnershipVoucher
    | Some ch =>
      let! leaf := code InvalidOwnershipVoucher (match cf_dev cf with Some bag => verify_from_x5bag c ch bag | None => insecure_verify c ch end) in
      let! key := code InternalServerError (pubkey_of_cert c (kf_type kf) (kf_der kf) leaf) in
      let wait := if cf_max cf <? t0_wait t then cf_max cf else t0_wait t in
      Ok (hd_guid (ov_header v), Item key (os_to1d m), wait)
    end
  end.
(** handlers_to0.rs:35-221.  The two store operations are awaited; here the handler runs in one piece. *)
Definition h_ownersign (w : W) (s : session rvdata) (m : ownersign) (e : rvenv) : W * hres rvdata :=
  match sd_nonce3 (ses_data s) with
  | None => (w, HReject InvalidMessageError)
  | Some correct =>
    match ownersign_check correct m with
    | Err n => (w, HReject n)
    | Panic _ => (w, HPanic)
    | Ok (g, it, wait) =>
      match guid_text g with
      | None => (w, HPanic)
      | Some k =>
        match e_fault e with
        | DataFails => (w, HReject InternalServerError)
        | _ =>
          match b_store be w k it with
          | (w1, Err _) => (w1, HReject InternalServerError)
          | (w1, Panic _) => (w1, HPanic)
          | (w1, Ok _) =>
            match e_fault e with
            | MetaFails => (w1, HReject InternalServerError)
            | _ =>
              match b_meta be (e_now e) w1 k Ttl (MDur wait) with
              | (w2, Err _) => (w2, HReject InternalServerError)
              | (w2, Panic _) => (w2, HPanic)
              | (w2, Ok _) => (w2, HReply (ses_data s) None (enc (VArr [VInt (Z.of_N wait)])))
              end
            end
          end
        end
      end
    end
  end.

(** handlers_to1.rs:10-77 *)
Definition h_hellorv (w : W) (s : session rvdata) (m : hellorv) (e : rvenv) : W * hres rvdata :=
  if negb ((fst (hr_sig m) =? ES256)%Z || (fst (hr_sig m) =? ES384)%Z) then (w, HReject InvalidMessageError)
  else if negb (nlen (snd (hr_sig m)) =? 0) then (w, HReject InvalidMessageError)
  else
    match guid_text (hr_guid m) with
    | None => (w, HPanic)
    | Some k =>
      match e_fault e with
      | LoadFails => (w, HReject InternalServerError)
      | _ =>
        match b_load be (e_now e) w k with
        | (w1, Err _) => (w1, HReject InternalServerError)
        | (w1, Panic _) => (w1, HPanic)
        | (w1, Ok None) => (w1, HReject ResourceNotFound)
        | (w1, Ok (Some _)) =>
          (w1, HReply (RvData (sd_nonce3 (ses_data s)) (Some (nonce_text (e_nonce e))) (Some k)) None
                 (enc (VArr [bstr_val (e_nonce e); siginfo_val (fst (hr_sig m), [])])))
        end
      end
    end.
(** handlers_to1.rs:79-159.  The token's UEID is not compared with the GUID.  Serializing a stored blob cannot fail
    ([loaded_serializes]); the model gives an error there, the code would send an error message with status 200
    (messages/mod.rs:40-62). *)
Definition h_prove (w : W) (s : session rvdata) (token : cose) (e : rvenv) : W * hres rvdata :=
  match sd_nonce4 (ses_data s) with
  | None => (w, HReject InvalidMessageError)
  | Some nt =>
    match nonce_parse nt with
    | None => (w, HPanic)
    | Some nonce4 =>
      match sd_guid (ses_data s) with
      | None => (w, HReject InvalidMessageError)
      | Some gt =>
        match guid_parse gt with
        | None => (w, HPanic)
        | Some g =>
          match guid_text g with
          | None => (w, HPanic)
          | Some k =>
            match e_fault e with
            | LoadFails => (w, HReject InvalidMessageError)
            | _ =>
              match b_load be (e_now e) w k with
              | (w1, Err _) => (w1, HReject InvalidMessageError)
              | (w1, Panic _) => (w1, HPanic)
              | (w1, Ok None) => (w1, HReject ResourceNotFound)
              | (w1, Ok (Some it)) =>
                match get_eat c token (pk_key (si_key it)) with
                | Err _ => (w1, HReject InvalidMessageError)
                | Panic _ => (w1, HPanic)
                | Ok t =>
                  match @nonce_eq unit nonce4 (eat_nonce t) with
                  | Ok true =>
                    match cose_serialize (si_to1d it) with
                    | Ok b => (w1, HReply (ses_data s) None b)
                    | Err _ => (w1, HReject InternalServerError)
                    | Panic _ => (w1, HPanic)
                    end
                  | Ok false => (w1, HReject InvalidMessageError)
                  | _ => (w1, HPanic)
                  end
                end
              end
            end
          end
        end
      end
    end
  end.

Definition rv_handle (im : mtype) (w : W) (s : session rvdata) (m : rvmsg) (e : rvenv) : W * hres rvdata :=
  match m with
  | MHello => h_hello w s e
  | MOwnerSign m => h_ownersign w s m e
  | MHelloRV m => h_hellorv w s m e
  | MProveToRV t => h_prove w s t e
  end.
(** main.rs:138-174 *)
Definition rv_routes : list (mtype * mtype) :=
  [(TO0Hello, TO0HelloAck); (TO0OwnerSign, TO0AcceptOwner); (TO1HelloRV, TO1HelloRVAck); (TO1ProveToRV, TO1RVRedirect)].
Definition rv_server : server W rvdata rvmsg rvenv := Server rv_routes (rv_parse chk) (RvData None None None) rv_handle.
(** main.rs:39-59: one round (of the store; SessionModel.v has that of the sessions) *)
Definition rv_maint (now : N) (w : W) : W := fst (b_maint be now w).
End server.
