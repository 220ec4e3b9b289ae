(** Model of data-formats/src/ownershipvoucher.rs. *)
From Verif Require Import Base CborModel ValueModel TypesModel.
Local Open Scope N_scope.

(** constants/mod.rs:18-24 ProtocolVersion (repr u16) *)
Definition V1_0 : N := 100.
Definition V1_1 : N := 101.
Definition as_version (v : cval) : option N :=
  match as_u16 v with
  | Some 100 => Some 100
  | Some 101 => Some 101
  | _ => None
  end.

(** ownershipvoucher.rs:440-450 *)
Record header := Header {
  hd_contents : parsed_array;
  hd_version : N;
  hd_guid : bytes;
  hd_rv : rv_info;
  hd_devinfo : str;
  hd_mfg : pubkey;
  hd_chain_hash : option hash
}.

(** ownershipvoucher.rs:36-46 *)
Record voucher := Voucher {
  ov_contents : parsed_array;
  ov_version : N;
  ov_header : header;
  ov_hmac : hash;
  ov_chain : option x5chain;
  ov_entries : parsed_array
}.

(** ownershipvoucher.rs:647-653 *)
Record payload := Payload {
  p_prev : hash;
  p_hdr : hash;
  p_extra : option (list (N * bytes));     (* keys of 64 bits; the order of a HashMap is arbitrary *)
  p_key : pubkey
}.

Definition extra_val (e : option (list (N * bytes))) : cval :=
  match e with
  | None => VNull
  | Some l => VMap (map (fun kv => (VInt (Z.of_N (fst kv)), VBytes (snd kv))) l)
  end.
Definition as_extra_entry (kv : cval * cval) : option (N * bytes) :=
  match as_int 0 18446744073709551615 (fst kv), as_bytebuf (snd kv) with
  | Some k, Some v => Some (Z.to_N k, v)
  | _, _ => None
  end.
Definition as_extra (v : cval) : option (list (N * bytes)) :=
  match untag v with
  | VMap l => all_some (map as_extra_entry l)
  | _ => None
  end.

Definition payload_val (p : payload) : cval :=
  VArr [hash_val (p_prev p); hash_val (p_hdr p); extra_val (p_extra p); pubkey_val (p_key p)].
Definition as_payload (c : crypto) (v : cval) : option payload :=
  match as_fields v with
  | [a; b; e; k] =>
    match as_hash a, as_hash b, as_option as_extra e, as_pubkey c k with
    | Some a, Some b, Some e, Some k => Some (Payload a b e k)
    | _, _, _, _ => None
    end
  | _ => None
  end.
Definition read_payload (c : crypto) (s : bytes) : outcome ferr payload := from_slice (as_payload c) s.

(** cborparser.rs:481-498 [get], [get_hash] with the reader of the item's type *)
Definition get {A} (rd : bytes -> outcome ferr A) (a : parsed_array) (n : nat) : outcome ferr A :=
  let! x := map_err FArray (get_raw a n) in rd x.
Definition get_hash (c : crypto) (a : parsed_array) (n : nat) (t : hashtype) : outcome ferr hash :=
  let! x := map_err FArray (get_raw a n) in hash_from_data c t x.

(** ownershipvoucher.rs:22, 549-557: [f as u8] keeps the low byte of the code point. *)
Definition check_device_info (s : str) : outcome ferr unit :=
  if forallb (fun ch => (32 <=? ch mod 256) && (ch mod 256 <? 127)) s then Ok tt
  else Err (FInconsistent I_DEVICE_INFO).

(** Rust [str::trim]: White_Space of Unicode. *)
Definition is_white (ch : N) : bool :=
  ((9 <=? ch) && (ch <=? 13)) || (ch =? 32) || (ch =? 133) || (ch =? 160) || (ch =? 5760)
  || ((8192 <=? ch) && (ch <=? 8202)) || (ch =? 8232) || (ch =? 8233) || (ch =? 8239)
  || (ch =? 8287) || (ch =? 12288).
Fixpoint trim_start (s : str) : str :=
  match s with
  | [] => []
  | ch :: r => if is_white ch then trim_start r else s
  end.
Definition trim (s : str) : str := rev (trim_start (rev (trim_start s))).

Definition text_val (s : str) : cval := VText (utf8_enc s).
Definition option_val {A} (f : A -> cval) (o : option A) : cval :=
  match o with None => VNull | Some x => f x end.

(** ownershipvoucher.rs:453-496 *)
Definition header_new (version : N) (guid : bytes) (rv : rv_info) (devinfo : str) (mfg : pubkey)
  (chain_hash : option hash) : header :=
  let devinfo := trim devinfo in
  Header (PA None [enc (VInt (Z.of_N version)); enc (bstr_val guid); enc (rv_info_val rv);
                   enc (text_val devinfo); enc (pubkey_val mfg); enc (option_val hash_val chain_hash)])
    version guid rv devinfo mfg chain_hash.

(** ownershipvoucher.rs:574-603 on a slice (trailing bytes ignored) *)
Definition header_deserialize (c : crypto) (chk : bool) (s : bytes) : outcome ferr header :=
  let! a := map_err FArray (parse_array_data chk (Some 6) s) in
  let! version := get (from_slice as_version) a 0 in
  let! guid := get (from_slice as_bstr16) a 1 in
  let! rv := get (from_slice as_rv_info) a 2 in
  let! devinfo := get (from_slice as_string) a 3 in
  let! _ := check_device_info devinfo in
  let! mfg := get (from_slice (as_pubkey c)) a 4 in
  let! ch := get (from_slice (as_option as_hash)) a 5 in
  Ok (Header a version guid rv devinfo mfg ch).

(** ownershipvoucher.rs:605-611 *)
Definition header_serialize (h : header) : outcome ferr bytes :=
  let! _ := check_device_info (hd_devinfo h) in
  map_err FArray (serialize_array (hd_contents h)).

(** ownershipvoucher.rs:529-546 *)
Definition hdr_info_hash (c : crypto) (h : header) (t : hashtype) : outcome ferr hash :=
  let! guid := get (from_slice as_bstr16) (hd_contents h) 1 in
  let! devinfo := get (from_slice as_string) (hd_contents h) 3 in
  hash_from_data c t (guid ++ utf8_enc devinfo).

(** ownershipvoucher.rs:518-523 *)
Definition mfg_key_hash (c : crypto) (h : header) (t : hashtype) : outcome ferr hash :=
  get_hash c (hd_contents h) 4 t.

(** ownershipvoucher.rs:49-68 *)
Definition voucher_of_array (c : crypto) (chk : bool) (a : parsed_array) : outcome ferr voucher :=
  let! version := get (from_slice as_version) a 0 in
  let! hb := get (from_slice as_bytebuf) a 1 in
  let! h := header_deserialize c chk hb in
  let! hmac := get (from_slice as_hash) a 2 in
  let! ch := get (from_slice (as_option (as_x5chain c))) a 3 in
  let! es := get (fun s => map_err FArray (parse_array_data chk None s)) a 4 in
  Ok (Voucher a version h hmac ch es).

(** ownershipvoucher.rs:72-85, from a stream: voucher and unread rest *)
Definition voucher_read (c : crypto) (chk : bool) (s : bytes) : outcome ferr (voucher * bytes) :=
  match parse_array chk (Some 5) s with
  | Err (EInvalidNumberOfElements 4 5) => Err (FUnsupportedVersion V1_0)
  | Err e => Err (FArray e)
  | Panic w => Panic w
  | Ok (a, rest) => let! v := voucher_of_array c chk a in Ok (v, rest)
  end.
Definition voucher_deserialize (c : crypto) (chk : bool) (s : bytes) : outcome ferr voucher :=
  let! (v, _) := voucher_read c chk s in Ok v.

(** ownershipvoucher.rs:87-92 *)
Definition voucher_serialize (v : voucher) : outcome ferr bytes :=
  map_err FArray (serialize_array (ov_contents v)).

(** ownershipvoucher.rs:95-104, serializable.rs:30-65 *)
Definition is_nodata_f (e : ferr) : bool := match e with FArray ENoData => true | _ => false end.
Definition voucher_read_many (c : crypto) (chk : bool) (s : bytes) : outcome ferr (list voucher) :=
  many_loop (voucher_read c chk) is_nodata_f (S (length s)) s.

(** ownershipvoucher.rs:143-175 *)
Definition voucher_new (h : header) (hmac : hash) (ch : option x5chain) : outcome ferr voucher :=
  let! hb := map_err FArray (serialize_array (hd_contents h)) in
  let! es := map_err FArray (serialize_array (PA None [])) in
  Ok (Voucher (PA None [enc (VInt (Z.of_N V1_1)); enc (VBytes hb); enc (hash_val hmac);
                        enc (option_val x5chain_val ch); es])
        V1_1 h hmac ch (PA None [])).

(** ownershipvoucher.rs:107-141 *)
Definition voucher_from_parts (c : crypto) (chk : bool) (version : N) (hb : bytes) (hmac : hash)
  (entries : parsed_array) : outcome ferr voucher :=
  let! es := map_err FArray (serialize_array entries) in
  let! h := header_deserialize c chk hb in
  Ok (Voucher (PA None [enc (VInt (Z.of_N version)); enc (VBytes hb); enc (hash_val hmac);
                        enc VNull; es])
        version h hmac None entries).

(** ownershipvoucher.rs:220-222 *)
Definition voucher_hash_type (v : voucher) : hashtype := inner_hash (h_type (ov_hmac v)).

(** ownershipvoucher.rs:243-245 [as u16] *)
Definition num_entries (v : voucher) : N := nlen (pa_items (ov_entries v)) mod 65536.

(** ownershipvoucher.rs:247-249: get() panics out of range (cborparser.rs:39-53, 486) *)
Definition entry (chk : bool) (v : voucher) (n : nat) : outcome ferr cose :=
  get (cose_deserialize chk) (ov_entries v) n.

(** ownershipvoucher.rs:251-263 *)
Definition hdr_hash (c : crypto) (v : voucher) (t : hashtype) : outcome ferr hash :=
  let! hb := get (from_slice as_bytebuf) (ov_contents v) 1 in
  let! hm := map_err FArray (get_raw (ov_contents v) 2) in
  hash_from_data c t (hb ++ hm).

(** ownershipvoucher.rs:265-297: what the new entry must point back to, if the key may extend. *)
Definition extend_check (c : crypto) (chk : bool) (v : voucher) (sk : bytes)
  (extra : option (list (N * bytes))) : outcome ferr (hash * hash) :=
  if match extra with Some _ => ov_version v <? V1_1 | None => false end
  then Err (FInvalidProtocolVersion (ov_version v))
  else
    let! hdrinfo := hdr_info_hash c (ov_header v) (voucher_hash_type v) in
    let es := pa_items (ov_entries v) in
    let! (last, owner) :=
      (match es with
       | [] => let! h := hdr_hash c v (voucher_hash_type v) in Ok (h, hd_mfg (ov_header v))
       | _ =>
         let i := (length es - 1)%nat in
         let! h := get_hash c (ov_entries v) i (voucher_hash_type v) in
         let! e := get (cose_deserialize chk) (ov_entries v) i in
         let! p := cose_get_payload_unverified (read_payload c) e in
         Ok (h, p_key p)
       end) in
    if negb (matches_pkey owner (c_pub c sk)) then Err FNonOwnerKey
    else Ok (last, hdrinfo).

(** ownershipvoucher.rs:265-316.  [&mut self]: the state after the call, also after a failure, and
    the result.  The entry is pushed before the contents are updated. *)
Definition extend (c : crypto) (chk : bool) (v : voucher) (sk : bytes)
  (extra : option (list (N * bytes))) (next : pubkey) (rnd : bytes) : voucher * outcome ferr unit :=
  match
    let! (last, hdrinfo) := extend_check c chk v sk extra in
    let! e := cose_new c chk (enc (payload_val (Payload last hdrinfo extra next))) [] sk rnd in
    cose_serialize e
  with
  | Err e => (v, Err e)
  | Panic w => (v, Panic w)
  | Ok raw =>
    let es := PA (pa_tag (ov_entries v)) (pa_items (ov_entries v) ++ [raw]) in
    let v1 := Voucher (ov_contents v) (ov_version v) (ov_header v) (ov_hmac v) (ov_chain v) es in
    match
      let! b := serialize_array es in set_raw (ov_contents v) 4 b
    with
    | Ok contents => (Voucher contents (ov_version v) (ov_header v) (ov_hmac v) (ov_chain v) es, Ok tt)
    | Err e => (v1, Err (FArray e))
    | Panic w => (v1, Panic w)
    end
  end.

(** * Iteration, ownershipvoucher.rs:329-427 *)
Record entry_iter := Iter { it_index : nat; it_errored : bool; it_key : pubkey }.

(** ownershipvoucher.rs:329-339 *)
Definition iter_entries (v : voucher) : entry_iter := Iter 0 false (hd_mfg (ov_header v)).

(** ownershipvoucher.rs:382-426 *)
Definition process_element (c : crypto) (v : voucher) (it : entry_iter) (e : cose)
  : outcome ferr payload :=
  let! p := cose_get_payload c (read_payload c) e (pk_key (it_key it)) in
  let! prev := (match it_index it with
                | O => hdr_hash c v (h_type (p_prev p))
                | S i => get_hash c (ov_entries v) i (h_type (p_prev p))
                end) in
  let! _ := hash_compare (p_prev p) prev in
  let! hi := hdr_info_hash c (ov_header v) (h_type (p_hdr p)) in
  let! _ := hash_compare (p_hdr p) hi in
  Ok p.

(** ownershipvoucher.rs:353-378: [None] ends the iteration. *)
Definition iter_next (c : crypto) (chk : bool) (v : voucher) (it : entry_iter)
  : option (outcome ferr payload) * entry_iter :=
  if it_errored it then (None, it)
  else if (length (pa_items (ov_entries v)) <=? it_index it)%nat then (None, it)
  else
    match get (cose_deserialize chk) (ov_entries v) (it_index it) with
    | Err e => (Some (Err e), Iter (it_index it) true (it_key it))
    | Panic w => (Some (Panic w), it)
    | Ok e =>
      match process_element c v it e with
      | Ok p => (Some (Ok p), Iter (S (it_index it)) false (p_key p))
      | Err x => (Some (Err x), Iter (S (it_index it)) true (it_key it))
      | Panic w => (Some (Panic w), it)
      end
    end.

(** The results of [k] successive calls of [next]. *)
Fixpoint iter_calls (c : crypto) (chk : bool) (v : voucher) (it : entry_iter) (k : nat)
  : list (option (outcome ferr payload)) :=
  match k with
  | O => []
  | S k' => let '(r, it') := iter_next c chk v it in r :: iter_calls c chk v it' k'
  end.

(** Collecting the iterator ([collect::<Result<Vec<_>>>]): all payloads, or the first error. *)
Fixpoint iter_collect (c : crypto) (chk : bool) (v : voucher) (it : entry_iter) (fuel : nat)
  : outcome ferr (list payload) :=
  match iter_next c chk v it with
  | (None, _) => Ok []
  | (Some (Err e), _) => Err e
  | (Some (Panic w), _) => Panic w
  | (Some (Ok p), it') =>
    match fuel with
    | O => Panic P_FUEL
    | S fuel' => let! l := iter_collect c chk v it' fuel' in Ok (p :: l)
    end
  end.
Definition verify_entries (c : crypto) (chk : bool) (v : voucher) : outcome ferr (list payload) :=
  iter_collect c chk v (iter_entries v) (length (pa_items (ov_entries v))).

(** PEM, ownershipvoucher.rs:177-218.  The pem crate is a pair of functions (encode a tag and
    contents; parse); the dispatch is modelled. *)
Record pem_codec := Pem {
  pem_encode : bytes -> bytes -> bytes;
  pem_parse : bytes -> option (bytes * bytes)
}.
Definition PEM_TAG : bytes := (* "OWNERSHIP VOUCHER" *)
  [79; 87; 78; 69; 82; 83; 72; 73; 80; 32; 86; 79; 85; 67; 72; 69; 82].
Definition from_pem (pm : pem_codec) (c : crypto) (chk : bool) (data : bytes) : outcome ferr voucher :=
  match data with
  | [] => Err FEmptyData
  | _ =>
    match pem_parse pm data with
    | None => Err FPem
    | Some (tag, contents) =>
      if negb (bytes_eqb tag PEM_TAG) then Err FInvalidPemTag else voucher_deserialize c chk contents
    end
  end.
(** ownershipvoucher.rs:204-213: data[1] is read without a length check. *)
Definition from_pem_or_raw (pm : pem_codec) (c : crypto) (chk : bool) (data : bytes) : outcome ferr voucher :=
  match data with
  | [] => Err FEmptyData
  | [_] => Panic P_INDEX
  | a :: b :: _ =>
    if (a =? b) && (a =? 45) then from_pem pm c chk data else voucher_deserialize c chk data
  end.
Definition to_pem (pm : pem_codec) (v : voucher) : outcome ferr bytes :=
  let! b := voucher_serialize v in Ok (pem_encode pm PEM_TAG b).
