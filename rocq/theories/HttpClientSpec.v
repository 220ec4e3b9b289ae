(** What can be said of a client from its calls and what they sent and returned. *)
From Verif Require Import Base ValueModel Text MsgModel SessionModel HttpClientModel.
Local Open Scope N_scope.

Section spec.
Context {M : Type}.
Notation cstep := (cstep (M:=M)).
(** The message type of the last reply handed to the caller. *)
Fixpoint received_from (t : option mtype) (l : list cstep) : option mtype :=
  match l with
  | [] => t
  | x :: r => received_from (match cs_ret x with Ok _ => Some (cl_sm (cs_call x)) | _ => t end) r
  end.
Definition received := received_from None.
(** The calls that were not refused for their place in the protocol. *)
Definition attempted (x : cstep) : bool :=
  match cs_ret x with Err CSequenceRequest | Err CSequenceResponse => false | _ => true end.
Definition exchanged (l : list cstep) : list N :=
  flat_map (fun x => if attempted x then [mtype_num (cl_om (cs_call x)); mtype_num (cl_sm (cs_call x))] else []) l.
(** The reply type the last attempted call asked for. *)
Fixpoint expected_from (t : option mtype) (l : list cstep) : option mtype :=
  match l with [] => t | x :: r => expected_from (if attempted x then Some (cl_sm (cs_call x)) else t) r end.
Definition expected := expected_from None.
(** The keys handed over with the last request that was sent with new keys. *)
Fixpoint keys_from (k : ekeys) (l : list cstep) : ekeys :=
  match l with
  | [] => k
  | x :: r => keys_from (match cs_sent x, cl_new (cs_call x) with Some _, Some k' => k' | _, _ => k end) r
  end.
Definition keys_given := keys_from unencrypted.
(** A body sealed or opened under keys. *)
Definition sealed_under (A : aead) (k : ekeys) (nonce pt ct : bytes) : Prop :=
  exists suite key, k = EKeys (Some suite) (Some (Combined key)) /\ seal A key nonce pt = Some ct.
Definition opened_under (A : aead) (k : ekeys) (ct pt : bytes) : Prop :=
  exists suite key, k = EKeys (Some suite) (Some (Combined key)) /\ unseal A key ct = Some pt.
(** The calls a program can make: the trait bounds of send_request. *)
Definition typed (x : ccall) : Prop := client_msg (cl_om x) = true /\ server_msg (cl_sm x) = true.
(** New keys are keys. *)
Definition real_keys (x : ccall) : Prop := match cl_new x with Some k => ek_is_some k = true | None => True end.
End spec.

(** A client and a session of a server that have come equally far. *)
Definition no_space (t : str) : Prop := ~ In 32 t.
Definition in_sync {D} (idt : str -> option str) (now : N) (st : sstore D) (c : hclient) (id : str) (s : session D) : Prop :=
  (exists t, hc_token c = Some (txt "Bearer " ++ t) /\ no_space t /\ idt t = Some id) /\
  snd (ses_load now st id) = Some s /\ ses_last s = hc_last c /\ keys_of s = hc_keys c.
(** Opening undoes sealing. *)
Definition aead_roundtrip (A : aead) : Prop := forall k n p c, seal A k n p = Some c -> unseal A k c = Some p.
