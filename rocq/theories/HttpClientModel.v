(** The client side of the HTTP protocol (http-wrapper/src/client.rs). *)
From Verif Require Import Base ValueModel Text MsgModel SessionModel.
Local Open Scope N_scope.

(** client.rs:141-149: the protocol version, base URL and reqwest client do not change. *)
Record hclient := HClient { hc_token : option str; hc_keys : ekeys; hc_last : option mtype; hc_kdf : option bool }.
(** client.rs:152-162 *)
Definition client_new : hclient := HClient None unencrypted None None.

(** What is put on the wire (client.rs:214-234): the number in the path, two headers, the body. *)
Record wire := Wire { wr_type : N; wr_auth : option str; wr_kdf : bool; wr_body : bytes }.
(** A header value: text, or bytes [HeaderValue::to_str] refuses. *)
Inductive hval := HText (s : str) | HOpaque.
(** What comes back; [hr_body = None] when reading the body fails. *)
Record hresponse := HResp { hr_success : bool; hr_kdf : option hval; hr_type : option hval; hr_auth : option hval; hr_body : option bytes }.

(** client.rs:17-44; the payloads of the variants are left out. *)
Inductive cerror := CSequenceRequest | CSequenceResponse | CRequestEncryption | CResponseEncryption | CSerialize | CCrypto
  | CNetwork | CNoType | CBadType | CWrongType | CParse | CServerError (body : bytes).

Definition P_AUTH_HEADER : N := 31.

(** [u8::from_str]: an optional plus sign, then digits, the value below 256 *)
Fixpoint digits_val (s : str) (acc : N) : option N :=
  match s with
  | [] => Some acc
  | c :: r => if (48 <=? c) && (c <=? 57) then digits_val r (10 * acc + (c - 48)) else None
  end.
Definition parse_u8 (s : str) : option N :=
  let ds := match s with c :: r => if c =? 43 then r else s | [] => s end in
  match ds with
  | [] => None
  | _ => match digits_val ds 0 with Some v => if v <? 256 then Some v else None | None => None end
  end.

Definition KDF_TRUE : str := txt "true".
Definition hval_eqb (h : hval) (s : str) : bool := match h with HText t => list_eqb N.eqb t s | HOpaque => false end.

Section client.
Context {M : Type} (A : aead) (parse : mtype -> bytes -> outcome unit M) (kdf_available : bool).

(** client.rs:177-238: everything before the request goes out.  [body] is the serialized message (None if it
    cannot be serialized).  [new_keys.is_some()] in line 198 is about the argument being given. *)
Definition prepare (c : hclient) (om sm : mtype) (body : option bytes) (new : option ekeys) (nonce : bytes) : hclient * outcome cerror wire :=
  if negb (valid_prev om (hc_last c)) then (c, Err CSequenceRequest)
  else if negb (valid_prev sm (Some om)) then (c, Err CSequenceResponse)
  else
    let c := HClient (hc_token c) (hc_keys c) (Some sm) (hc_kdf c) in
    if enc_violated (enc_req om) (ek_is_some (hc_keys c)) then (c, Err CRequestEncryption)
    else if enc_violated (enc_req sm) (ek_is_some (hc_keys c) || match new with Some _ => true | None => false end) then (c, Err CResponseEncryption)
    else match body with
         | None => (c, Err CSerialize)
         | Some b =>
           match ek_encrypt A (hc_keys c) nonce b with
           | Panic p => (c, Panic p)
           | Err _ => (c, Err CCrypto)
           | Ok b' =>
             (HClient (hc_token c) (match new with Some k => k | None => hc_keys c end) (hc_last c) (hc_kdf c),
              Ok (Wire (mtype_num om) (hc_token c) (negb kdf_available) b'))
           end
         end.

(** client.rs:255-271: the type in the response's header *)
Definition response_type (r : hresponse) : outcome cerror mtype :=
  match hr_type r with
  | None => if hr_success r then Err CNoType else Ok MError
  | Some HOpaque => Err CBadType
  | Some (HText s) => match parse_u8 s with
                      | None => Err CBadType
                      | Some n => of_option CBadType (mtype_of_num n)
                      end
  end.
(** client.rs:240-303; an error body that cannot be parsed is another error (line 302), kept as the bytes here *)
Definition receive (c : hclient) (sm : mtype) (resp : option hresponse) : hclient * outcome cerror M :=
  match resp with
  | None => (c, Err CNetwork)
  | Some r =>
    let kdf := match hc_kdf c with
               | Some b => Some b
               | None => Some (match hr_kdf r with Some h => hval_eqb h KDF_TRUE | None => false end)
               end in
    let c := HClient (hc_token c) (hc_keys c) (hc_last c) kdf in
    match response_type r with
    | Err e => (c, Err e)
    | Panic p => (c, Panic p)
    | Ok t =>
      match hr_auth r with
      | Some HOpaque => (c, Panic P_AUTH_HEADER)
      | a =>
        let c := HClient (match a with Some (HText s) => Some s | _ => hc_token c end) (hc_keys c) (hc_last c) kdf in
        if negb (mtype_eqb t (if hr_success r then sm else MError)) then (c, Err CWrongType)
        else match hr_body r with
             | None => (c, Err CNetwork)
             | Some body =>
               if hr_success r then
                 match ek_decrypt A (hc_keys c) body with
                 | Panic p => (c, Panic p)
                 | Err _ => (c, Err CCrypto)
                 | Ok pt => (c, match parse sm pt with Ok m => Ok m | Err _ => Err CParse | Panic p => Panic p end)
                 end
               else (c, Err (CServerError body))
             end
      end
    end
  end.

(** One call of [send_request], with what the other side did. *)
Record ccall := CCall { cl_om : mtype; cl_sm : mtype; cl_body : option bytes; cl_new : option ekeys; cl_nonce : bytes; cl_resp : option hresponse }.
Definition send_request (c : hclient) (x : ccall) : hclient * option wire * outcome cerror M :=
  match prepare c (cl_om x) (cl_sm x) (cl_body x) (cl_new x) (cl_nonce x) with
  | (c, Ok w) => let '(c, r) := receive c (cl_sm x) (cl_resp x) in (c, Some w, r)
  | (c, Err e) => (c, None, Err e)
  | (c, Panic p) => (c, None, Panic p)
  end.

(** A client's life: every call with what it sent and what it returned.  A panic ends it. *)
Record cstep := CStep { cs_call : ccall; cs_sent : option wire; cs_ret : outcome cerror M }.
Fixpoint client_run (c : hclient) (l : list ccall) : hclient * list cstep :=
  match l with
  | [] => (c, [])
  | x :: r =>
    let '(c1, w, ret) := send_request c x in
    match ret with
    | Panic _ => (c1, [CStep x w ret])
    | _ => let '(c2, t) := client_run c1 r in (c2, CStep x w ret :: t)
    end
  end.
End client.
Arguments CStep {M}. Arguments cs_call {M}. Arguments cs_sent {M}. Arguments cs_ret {M}.

(** What the client sees of the server's responses (server.rs:300-320; handle_rejection, server.rs:135-166, sends
    its own body, which the client only passes on). *)
Definition to_hresponse (kdf_available : bool) (r : response) (err_body : bytes) : option hresponse :=
  let kdf := if kdf_available then None else Some (HText KDF_TRUE) in
  match r with
  | Answer m body tok =>
    Some (HResp true kdf (Some (HText (dec_str (mtype_num m)))) (match tok with Some t => Some (HText (txt "Bearer " ++ t)) | None => None end) (Some body))
  | ErrorReply code prev => Some (HResp false kdf (Some (HText (dec_str (mtype_num MError)))) None (Some err_body))
  | Dropped => None
  end.
