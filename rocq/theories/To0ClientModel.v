(** The owner server's registrations, over HTTP: owner-onboarding-server/src/main.rs:210-313 with its ServiceClient.  The
    history is that of the requests made; [wo_resp] of the world is what comes back. *)
From Verif Require Import Base CborModel ValueModel Text TypesModel VoucherModel RvModel MsgModel SessionModel HttpClientModel RvServerModel SiModel DevSiModel OwnerModel ClientModel To0Model.
Local Open Scope N_scope.

(** data-formats/src/messages/v11/to0.rs:52-55 *)
Definition as_helloack (v : cval) : option bytes := match as_fields v with [n] => as_bstr16 n | _ => None end.
(** to0.rs:171-174 *)
Definition as_acceptowner (v : cval) : option N := match as_fields v with [n] => as_u32 n | _ => None end.

Section to0client.
Context (A : aead) (c : crypto) (chk : bool) (avail : bool) (sh : bytes -> str) (wo : world) (cf : to0conf).

(** main.rs:262-265; to0.rs:40-49 *)
Definition to0_hello : dm bytes :=
  do! b := ask A avail wo TO0Hello TO0HelloAck (Ok (enc (VArr []))) None in
  lift (from_slice as_helloack b).
(** main.rs:293-308 *)
Definition to0_ownersign (m : bytes) : dm N :=
  do! b := ask A avail wo TO0OwnerSign TO0AcceptOwner (Ok m) None in
  lift (from_slice as_acceptowner b).
(** main.rs:275-308 *)
Definition to0_sign (v : voucher) (nonce3 : bytes) : dm N :=
  do! rnd := draw wo 2 in
  do! m := lift (sign_msg c chk cf v nonce3 rnd) in
  to0_ownersign m.
(** main.rs:250-312 *)
Fixpoint to0_urls (v : voucher) (urls : list str) : dm N :=
  match urls with
  | [] => fail
  | u :: r => fun s => match with_client u to0_hello s with
                       | (s1, Ok nonce3) => to0_sign v nonce3 s1
                       | (s1, Err _) => to0_urls v r s1
                       | (s1, Panic p) => (s1, Panic p)
                       end
  end.
(** main.rs:217-249.  That there are no directives (241-243) is an error as well. *)
Definition to0_report (v : voucher) : dm N :=
  if negb (hd_version (ov_header v) =? V1_1) then fail
  else
    match ov_chain v with
    | None => fail
    | Some ch =>
      do! _ := lift (match tc_trusted cf with Some bag => verify_from_x5bag c ch bag | None => insecure_verify c ch end) in
      do! l := lift (to_interpreted (hd_rv (ov_header v)) RvModel.Owner) in
      to0_urls v (flat_map (get_urls sh) l)
    end.
End to0client.
