(** The server side of the HTTP protocol: sessions, order, encryption (http-wrapper/src/server.rs, lib.rs). *)
From Verif Require Import Base ValueModel Text Assoc MsgModel.
Local Open Scope N_scope.

(** * Encryption keys (http-wrapper/src/lib.rs:22-83) *)
(** data-formats/src/types.rs:978-981 *)
Inductive dkeys := Combined (sevk : bytes) | Split (sek svk : bytes).
Record ekeys := EKeys { ek_suite : option N; ek_keys : option dkeys }.
Definition unencrypted : ekeys := EKeys None None.
Definition ek_is_some (k : ekeys) : bool :=
  match ek_suite k, ek_keys k with Some _, Some _ => true | _, _ => false end.
Definition from_derived (suite : N) (k : dkeys) : ekeys := EKeys (Some suite) (Some k).

(** CoseEncrypt0 with AES-GCM: key, nonce, plaintext; and opening. *)
Record aead := Aead { seal : bytes -> bytes -> bytes -> option bytes; unseal : bytes -> bytes -> option bytes }.

Definition P_KEYS : N := 30.
Section enc.
Context (A : aead).
Definition ek_encrypt (k : ekeys) (nonce pt : bytes) : outcome unit bytes :=
  match ek_suite k with
  | None => Ok pt
  | Some _ => match ek_keys k with
              | Some (Combined sevk) => of_option tt (seal A sevk nonce pt)
              | _ => Panic P_KEYS
              end
  end.
Definition ek_decrypt (k : ekeys) (ct : bytes) : outcome unit bytes :=
  match ek_suite k with
  | None => Ok ct
  | Some _ => match ek_keys k with
              | Some (Combined sevk) => of_option tt (unseal A sevk ct)
              | _ => Panic P_KEYS
              end
  end.
End enc.

(** * Sessions *)
(** A session: the two entries the wrapper keeps (server.rs:172-173) and those of the handlers. *)
Record session (D : Type) := Ses { ses_last : option mtype; ses_keys : option ekeys; ses_data : D }.
Arguments Ses {D}. Arguments ses_last {D}. Arguments ses_keys {D}. Arguments ses_data {D}.
Definition keys_of {D} (s : session D) : ekeys := match ses_keys s with Some k => k | None => unencrypted end.

(** The session store: a map with expiry in seconds (C35: the ids are base64 text). *)
Definition sstore (D : Type) := list (name * (session D * option N)).
Definition SES_SEC : N := 1000000000.
Definition SESSION_TTL_SECS : N := 600.   (* server.rs:53 *)
(** server.rs:56-60 with directory.rs:231-258 *)
Definition ses_load {D} (now : N) (st : sstore D) (id : str) : sstore D * option (session D) :=
  match aget id st with
  | None => (st, None)
  | Some (s, Some e) => if e * SES_SEC <? now then (adel id st, None) else (st, Some s)
  | Some (s, None) => (st, Some s)
  end.
(** server.rs:62-75: first the record, which loses its expiry, then the expiry *)
Definition ses_put {D} (st : sstore D) (id : str) (s : session D) : sstore D := aset id (s, None) st.
Definition ses_ttl {D} (now : N) (st : sstore D) (id : str) : sstore D :=
  match aget id st with Some (s, _) => aset id (s, Some (now / SES_SEC + SESSION_TTL_SECS)) st | None => st end.
(** server.rs:83-85 with directory.rs:373-425 *)
Definition ses_maint {D} (now : N) (st : sstore D) : sstore D :=
  filter (fun e => match snd (snd e) with Some x => now <? x * SES_SEC | None => true end) st.

(** * Requests *)
(** What a handler (…/src/handlers*.rs) does: a reply with the session's new entries, an error, or a panic. *)
Inductive hres (D : Type) := HReply (d : D) (keys : option ekeys) (reply : bytes) | HReject (code : N) | HPanic.
Arguments HReply {D}. Arguments HReject {D}. Arguments HPanic {D}.

(** A server: its routes (request type, reply type), the deserializers of the request types, its handlers.
    [W] is everything else it keeps, [M] the parsed messages, [E] what a handler takes from its surroundings
    (randomness, time, headers, other servers). *)
Record server (W D M E : Type) := Server {
  sv_routes : list (mtype * mtype);
  sv_parse : mtype -> bytes -> outcome unit M;
  sv_new : D;
  sv_handle : mtype -> W -> session D -> M -> E -> W * hres D
}.
Arguments sv_routes {W D M E}. Arguments sv_parse {W D M E}. Arguments sv_new {W D M E}. Arguments sv_handle {W D M E}.
Arguments Server {W D M E}.

(** server.rs:385-395 at startup, and the trait bounds of fdo_request_filter (server.rs:378-384) *)
Definition route_ok (r : mtype * mtype) : bool :=
  let '(im, om) := r in client_msg im && server_msg om && valid_prev om (Some im).
Definition routes_ok {W D M E} (sv : server W D M E) : Prop := Forall (fun r => route_ok r = true) (sv_routes sv).

Record request (E : Type) := Req {
  rq_type : N;                 (* the number in the path *)
  rq_ctype : bool;             (* Content-Type is application/cbor *)
  rq_auth : option str;        (* Authorization header *)
  rq_body : bytes;
  rq_env : E;
  rq_new_token : str; rq_new_id : str;    (* Session::new() *)
  rq_nonce : bytes;            (* for encrypting the reply *)
  rq_load_ok : bool            (* the session store can be read *)
}.
Arguments Req {E}. Arguments rq_type {E}. Arguments rq_ctype {E}. Arguments rq_auth {E}. Arguments rq_body {E}.
Arguments rq_env {E}. Arguments rq_new_token {E}. Arguments rq_new_id {E}. Arguments rq_nonce {E}. Arguments rq_load_ok {E}.

(** What goes back: a message with status 200, an error message with status 500, or a dropped connection. *)
Inductive response := Answer (m : mtype) (body : bytes) (token : option str) | ErrorReply (code : N) (prev : mtype) | Dropped.

(** constants/mod.rs:411-421 *)
Definition MessageBodyError : N := 100.
Definition InvalidMessageError : N := 101.
Definition InternalServerError : N := 500.

Definition MAX_BODY : N := 16384.   (* server.rs:426 *)

(** server.rs:441-446 *)
Fixpoint take_word (s : str) : str := match s with [] => [] | c :: r => if c =? 32 then [] else c :: take_word r end.
Fixpoint drop_word (s : str) : str := match s with [] => [] | c :: r => if c =? 32 then r else drop_word r end.
Definition token_of (h : str) : str := if existsb (fun c => c =? 32) h then take_word (drop_word h) else h.

(** A request after its handler has run, on the way to storing its session and being answered. *)
Record pending (D : Type) := Pend {
  pd_im : mtype; pd_om : mtype; pd_id : str; pd_token : option str; pd_ses : session D; pd_reply : bytes; pd_nonce : bytes;
  pd_stored : bool }.
Arguments Pend {D}. Arguments pd_im {D}. Arguments pd_om {D}. Arguments pd_id {D}. Arguments pd_token {D}. Arguments pd_ses {D}.
Arguments pd_reply {D}. Arguments pd_nonce {D}. Arguments pd_stored {D}.

Section server.
Context {W D M E : Type} (A : aead) (id_of_token : str -> option str) (sv : server W D M E).

Definition route (n : N) : option (mtype * mtype) := find (fun r => mtype_num (fst r) =? n) (sv_routes sv).

(** server.rs:438-467: the session of a request: its id, its token if it is new, and its content *)
Definition find_session (now : N) (st : sstore D) (rq : request E) : sstore D * option (str * option str * session D) :=
  let new := (rq_new_id rq, Some (rq_new_token rq), Ses None None (sv_new sv)) in
  match rq_auth rq with
  | None => (st, Some new)
  | Some h =>
    match (if rq_load_ok rq then id_of_token (token_of h) else None) with
    | None => (st, None)
    | Some id => let '(st', s) := ses_load now st id in
                 (st', Some match s with Some s => (id, None, s) | None => new end)
    end
  end.

(** server.rs:175-239 *)
Inductive parsed := PMsg (m : M) | PError (r : response).
Definition parse_request (im : mtype) (s : session D) (body : bytes) : parsed :=
  if negb (valid_prev im (ses_last s)) then PError (ErrorReply InternalServerError im)
  else if enc_violated (enc_req im) (ek_is_some (keys_of s)) then PError (ErrorReply InternalServerError im)
  else match ek_decrypt A (keys_of s) body with
       | Panic _ => PError Dropped
       | Err _ => PError (ErrorReply InvalidMessageError im)
       | Ok pt => match sv_parse sv im pt with
                  | Ok m => PMsg m
                  | Err _ => PError (ErrorReply MessageBodyError Invalid)
                  | Panic _ => PError Dropped
                  end
       end.

(** What can be seen of a run: a handler was called (with what the server kept and what surrounded it then), a session was stored, a response was sent. *)
Inductive obs :=
| Ran (id : str) (im : mtype) (s : session D) (body : bytes) (m : M) (w : W) (e : E)
| Stored (id : str) (im om : mtype) (s : session D)
| Sent (r : response).

(** server.rs:418-488 up to and including the handler.  A request handler that awaits is run in one piece here. *)
Definition arrive (now : N) (w : W) (st : sstore D) (rq : request E) : W * sstore D * option (pending D) * list obs :=
  match route (rq_type rq) with
  | None => (w, st, None, [Sent (ErrorReply MessageBodyError Invalid)])
  | Some (im, om) =>
    if (MAX_BODY <? nlen (rq_body rq)) || negb (rq_ctype rq) then (w, st, None, [Sent (ErrorReply InternalServerError Invalid)])
    else
      match find_session now st rq with
      | (st1, None) => (w, st1, None, [Sent (ErrorReply InternalServerError im)])
      | (st1, Some (id, tok, s)) =>
        match parse_request im s (rq_body rq) with
        | PError r => (w, st1, None, [Sent r])
        | PMsg m =>
          let run := Ran id im s (rq_body rq) m w (rq_env rq) in
          match sv_handle sv im w s m (rq_env rq) with
          | (w', HReject code) => (w', st1, None, [run; Sent (ErrorReply code im)])
          | (w', HPanic) => (w', st1, None, [run; Sent Dropped])
          | (w', HReply d ks reply) =>
            (w', st1, Some (Pend im om id tok (Ses (Some om) (match ks with Some _ => ks | None => ses_keys s end) d) reply (rq_nonce rq) false), [run])
          end
        end
      end
  end.

(** server.rs:322-363 *)
Definition respond (p : pending D) : response :=
  let keys := keys_of (pd_ses p) in
  if enc_violated (enc_req (pd_om p)) (ek_is_some keys) then ErrorReply InvalidMessageError (pd_im p)
  else match ek_encrypt A keys (pd_nonce p) (pd_reply p) with
       | Panic _ => Dropped
       | Err _ => ErrorReply InvalidMessageError (pd_im p)
       | Ok body => Answer (pd_om p) body (pd_token p)
       end.

(** * The server as a system of concurrent requests *)
Record sys := Sys { y_now : N; y_world : W; y_store : sstore D; y_pend : list (pending D) }.
Inductive event :=
| EArrive (rq : request E)
| EData (n : nat) (ok : bool)      (* server.rs:63-65 for the n-th pending request, which may fail *)
| EMeta (n : nat) (ok : bool)      (* server.rs:66-74 and the response *)
| EGone (n : nat)                  (* the client hangs up: its request is dropped *)
| ETick (nanos : N)
| EMaint
| EWorld (f : W -> W).             (* something else the server does *)

Fixpoint remove_nth {T} (n : nat) (l : list T) : list T :=
  match l, n with [], _ => [] | _ :: r, O => r | x :: r, S n => x :: remove_nth n r end.
Fixpoint replace_nth {T} (n : nat) (y : T) (l : list T) : list T :=
  match l, n with [], _ => [] | _ :: r, O => y :: r | x :: r, S n => x :: replace_nth n y r end.

Definition sys_step (y : sys) (e : event) : sys * list obs :=
  let '(Sys now w st ps) := y in
  match e with
  | EArrive rq =>
    let '(w', st', p, os) := arrive now w st rq in
    (Sys now w' st' (ps ++ match p with Some p => [p] | None => [] end), os)
  | EData n ok =>
    match nth_error ps n with
    | Some p =>
      if pd_stored p then (y, [])
      else if ok then
        (Sys now w (ses_put st (pd_id p) (pd_ses p))
             (replace_nth n (Pend (pd_im p) (pd_om p) (pd_id p) (pd_token p) (pd_ses p) (pd_reply p) (pd_nonce p) true) ps),
         [Stored (pd_id p) (pd_im p) (pd_om p) (pd_ses p)])
      else (Sys now w st (remove_nth n ps), [Sent (ErrorReply InternalServerError (pd_im p))])
    | None => (y, [])
    end
  | EMeta n ok =>
    match nth_error ps n with
    | Some p =>
      if negb (pd_stored p) then (y, [])
      else if ok then (Sys now w (ses_ttl now st (pd_id p)) (remove_nth n ps), [Sent (respond p)])
      else (Sys now w st (remove_nth n ps), [Sent (ErrorReply InternalServerError (pd_im p))])
    | None => (y, [])
    end
  | EGone n => (Sys now w st (remove_nth n ps), [])
  | ETick d => (Sys (now + d) w st ps, [])
  | EMaint => (Sys now w (ses_maint now st) ps, [])
  | EWorld f => (Sys now (f w) st ps, [])
  end.
Fixpoint sys_run (y : sys) (es : list event) : sys * list obs :=
  match es with
  | [] => (y, [])
  | e :: r => let '(y1, o1) := sys_step y e in let '(y2, o2) := sys_run y1 r in (y2, o1 ++ o2)
  end.
Definition sys_init (now : N) (w : W) : sys := Sys now w [] [].

(** One request from arrival to response, with nothing in between. *)
Inductive fault := NoFault | DataFault | MetaFault | GoneFault.
Definition one_request (rq : request E) (f : fault) : list event :=
  EArrive rq :: match f with
                | NoFault => [EData 0 true; EMeta 0 true]
                | DataFault => [EData 0 false]
                | MetaFault => [EData 0 true; EMeta 0 false]
                | GoneFault => [EGone 0]
                end.
End server.
Arguments Ran {W D M E}. Arguments Stored {W D M E}. Arguments Sent {W D M E}. Arguments PMsg {M}. Arguments PError {M}.
Arguments Sys {W D}. Arguments y_now {W D}. Arguments y_world {W D}. Arguments y_store {W D}. Arguments y_pend {W D}.
Arguments EArrive {W E}. Arguments EData {W E}. Arguments EMeta {W E}. Arguments EGone {W E}. Arguments ETick {W E}. Arguments EMaint {W E}. Arguments EWorld {W E}.
Arguments sys_init {W D}. Arguments one_request {W E}.
