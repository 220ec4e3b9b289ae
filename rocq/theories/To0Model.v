(** The owner server's registrations with the rendezvous servers (TO0) and its maintenance:
    owner-onboarding-server/src/main.rs. *)
From Verif Require Import Base CborModel ValueModel Text Hex TypesModel VoucherModel RvModel StoreModel Backend RvServerModel OwnerModel.
Local Open Scope N_scope.

(** * main.rs:438-474: the two times of the configuration, in seconds; None = the server does not start *)
Definition MAINTENANCE_INTERVAL : N := 60.                 (* main.rs:315 *)
Definition DEFAULT_REGISTRATION_PERIOD : N := 600.         (* util/src/servers/configuration/owner_onboarding_server.rs:41 *)
Definition DEFAULT_RE_REGISTRATION_WINDOW : N := 61.       (* the same file:43 *)
Definition registration_times (period window : option N) : option (N * N) :=
  match (match period with Some 0 => None | Some p => Some p | None => Some DEFAULT_REGISTRATION_PERIOD end) with
  | None => None
  | Some p =>
    match (match window with
           | Some w => if w =? 0 then None else if w <=? MAINTENANCE_INTERVAL then None else Some w
           | None => Some DEFAULT_RE_REGISTRATION_WINDOW
           end) with
    | None => None
    | Some w => if p <=? w then None else Some (p, w)
    end
  end.

(** * Messages *)
(** types.rs:544-550 (Serialize_tuple), 372-384 *)
Definition to2_addr_val (a : to2_addr) : cval :=
  VArr [option_val VBytes (ta_ip a); option_val text_val (ta_dns a); VInt (Z.of_N (ta_port a)); VInt (Z.of_N (ta_protocol a))].
(** types.rs:618-640, 609-615 *)
Definition to0data_bytes (v : voucher) (wait : N) (nonce : bytes) : outcome ferr bytes :=
  let! vb := voucher_serialize v in
  map_err FArray (serialize_array (PA None [vb; enc (VInt (Z.of_N wait)); enc (bstr_val nonce)])).
(** types.rs:656-670 *)
Definition to1payload_bytes (l : list to2_addr) (h : hash) : bytes := enc (VArr [VArr (map to2_addr_val l); hash_val h]).
(** messages/v11/to0.rs:119-133, 111-116 *)
Definition ownersign_bytes (to0d : bytes) (to1d : cose) : outcome ferr bytes :=
  let! b := cose_serialize to1d in
  map_err FArray (serialize_array (PA None [enc (VBytes to0d); b])).

(** * One voucher: main.rs:210-313 *)
(** main.rs:44-76: the configuration that is used here *)
Record to0conf := To0Conf { tc_trusted : option x5bag; tc_addrs : list to2_addr; tc_sk : bytes; tc_period : N; tc_window : N }.
(** What a rendezvous server does when called at a URL, the first time, the second time, ...: fails at Hello, or gives a
    nonce and answers an OwnerSign message with the seconds granted or an error; or the client panics over a response.  The
    transport is in To0ClientModel.v; that it does nothing else is C85_refines. *)
Definition rvnet := nat -> str -> outcome unit (bytes * (bytes -> outcome unit N)).
(** The calls made *)
Inductive contact := CHello (url : str) | CSign (url : str) (msg : bytes).

Section to0.
Context (c : crypto) (chk : bool) (sh : bytes -> str) (cf : to0conf).

(** main.rs:273-295; [rnd] is the signer's randomness *)
Definition sign_msg (v : voucher) (nonce3 rnd : bytes) : outcome ferr bytes :=
  let! to0d := to0data_bytes v (tc_period cf) nonce3 in
  let! h := hash_from_data c Sha384 to0d in
  let! to1d := cose_new c chk (to1payload_bytes (tc_addrs cf) h) [] (tc_sk cf) rnd in
  ownersign_bytes to0d to1d.
(** main.rs:250-312: a failing Hello goes on to the next URL, any later error ends it *)
Fixpoint try_urls (net : rvnet) (i : nat) (rnd : bytes) (v : voucher) (urls : list str) : list contact * option (outcome unit N) :=
  match urls with
  | [] => ([], None)
  | u :: r =>
    match net i u with
    | Err _ => let (cs, o) := try_urls net (S i) rnd v r in (CHello u :: cs, o)
    | Panic p => ([CHello u], Some (Panic p))
    | Ok (nonce3, answer) =>
      match sign_msg v nonce3 rnd with
      | Panic p => ([CHello u], Some (Panic p))
      | Err _ => ([CHello u], Some (Err tt))
      | Ok m => ([CHello u; CSign u m], Some (answer m))
      end
    end
  end.
(** main.rs:217-249 *)
Definition report_ov (net : rvnet) (rnd : bytes) (v : voucher) : list contact * outcome unit N :=
  if negb (hd_version (ov_header v) =? V1_1) then ([], Err tt)
  else
    match ov_chain v with
    | None => ([], Err tt)
    | Some ch =>
      match (match tc_trusted cf with Some bag => verify_from_x5bag c ch bag | None => insecure_verify c ch end) with
      | Panic p => ([], Panic p)
      | Err _ => ([], Err tt)
      | Ok _ =>
        match to_interpreted (hd_rv (ov_header v)) RvModel.Owner with
        | Panic p => ([], Panic p)
        | Err _ => ([], Err tt)
        | Ok l =>
          match try_urls net 0 rnd v (flat_map (get_urls sh) l) with
          | (cs, Some o) => (cs, o)
          | (cs, None) => (cs, Err tt)
          end
        end
      end
    end.

(** * A round of maintenance *)
(** The voucher store: the operations of Backend.v and the two queries; the second one is None where the server
    disables the check (main.rs:486-493). *)
Record ovstore (W : Type) := OvStore {
  ov_be : backend voucher W;
  ov_due : N -> W -> outcome serr (list voucher);
  ov_within : option (Z -> W -> outcome serr (list voucher))
}.
Arguments OvStore {W}. Arguments ov_be {W}. Arguments ov_due {W}. Arguments ov_within {W}.
(** main.rs:123-136: differs from onboarded, registered until before now *)
Definition dir_ovs : ovstore dir :=
  OvStore (dir_backend (voucher_codec c chk))
    (fun now d => dir_query (voucher_codec c chk) [(To2Performed, to_stored 0 (MBool true))] [(To0Wait, Z.of_N (unix_timestamp now))] d)
    None.
(** the database key is the voucher's GUID as text (db/src/sqlite.rs:92-106) *)
Definition guid_of (v : voucher) : str := match guid_text (hd_guid (ov_header v)) with Some k => k | None => [] end.
Definition db_ovs : ovstore table :=
  OvStore (db_backend (voucher_codec c chk) guid_of StoreModel.Owner)
    (db_query_ovs (voucher_codec c chk) StoreModel.Owner)
    (Some (db_query_window (voucher_codec c chk) StoreModel.Owner false)).

(** Around one report: the network, the signer's randomness, what request handlers do to the store before its outcome is
    recorded, when that is, and whether the store can be written then *)
Record around (W : Type) := Around { ar_net : rvnet; ar_rnd : bytes; ar_between : W -> W; ar_now : N; ar_write : bool }.
Arguments Around {W}. Arguments ar_net {W}. Arguments ar_rnd {W}. Arguments ar_between {W}. Arguments ar_now {W}. Arguments ar_write {W}.
(** What was done: for which voucher, the calls, the outcome *)
Record report := Report { rp_voucher : voucher; rp_calls : list contact; rp_outcome : outcome unit N }.

(** main.rs:86-117 (and 172-206, the same but for the log) over the vouchers of a query: an error of the store ends the
    loop, a failing registration does not *)
Fixpoint report_all {W} (be : backend voucher W) (env : nat -> around W) (i : nat) (vs : list voucher) (w : W)
  : W * list report * outcome serr unit :=
  match vs with
  | [] => (w, [], Ok tt)
  | v :: r =>
    let e := env i in
    let (cs, o) := report_ov (ar_net e) (ar_rnd e) v in
    let w1 := ar_between e w in
    let rp := Report v cs o in
    match o with
    | Panic p => (w1, [rp], Panic p)
    | Err _ =>
      match report_all be env (S i) r w1 with (w2, l, x) => (w2, rp :: l, x) end
    | Ok secs =>
      match guid_text (hd_guid (ov_header v)) with
      | None => (w1, [rp], Panic P_UNWRAP)
      | Some k =>
        if negb (ar_write e) then (w1, [rp], Err SDatabase)
        else
          match b_meta be (ar_now e) w1 k To0Wait (MDur secs) with
          | (w2, Err x) => (w2, [rp], Err x)
          | (w2, Panic p) => (w2, [rp], Panic p)
          | (w2, Ok _) => match report_all be env (S i) r w2 with (w3, l, x) => (w3, rp :: l, x) end
          end
      end
    end
  end.
(** main.rs:119-159, 161-171: the query, then the reports *)
Definition report_queried {W} (be : backend voucher W) (q : outcome serr (list voucher)) (env : nat -> around W) (w : W)
  : W * list report * outcome serr unit :=
  match q with
  | Ok vs => report_all be env 0 vs w
  | Err e => (w, [], Err e)
  | Panic p => (w, [], Panic p)
  end.
(** main.rs:324-341: one round, at [now1], with the window checked at [now2].  The store's own maintenance is taken to be
    over before the first query (they are joined).  Errors are only logged: main.rs:336-349, 144-155; a panic ends the task
    and with it the server (main.rs:615-631). *)
Definition maint_round {W} (st : ovstore W) (now1 now2 : N) (env1 env2 : nat -> around W) (w : W) : W * list report * outcome serr unit :=
  let w0 := fst (b_maint (ov_be st) now1 w) in
  match report_queried (ov_be st) (ov_due st now1 w0) env1 w0 with
  | (w1, l1, Panic p) => (w1, l1, Panic p)
  | (w1, l1, _) =>
    match ov_within st with
    | None => (w1, l1, Ok tt)
    | Some q =>
      match report_queried (ov_be st) (q (Z.of_N (unix_timestamp now2) + Z.of_N (tc_window cf))%Z w1) env2 w1 with
      | (w2, l2, Panic p) => (w2, l1 ++ l2, Panic p)
      | (w2, l2, _) => (w2, l1 ++ l2, Ok tt)
      end
    end
  end.
End to0.
Arguments OvStore {W}. Arguments ov_be {W}. Arguments ov_due {W}. Arguments ov_within {W}.
Arguments Around {W}. Arguments ar_net {W}. Arguments ar_rnd {W}. Arguments ar_between {W}. Arguments ar_now {W}. Arguments ar_write {W}.
