(** A small server and a toy cipher, for the examples beside the theorems about sessions. *)
From Verif Require Import Base BaseFacts ValueModel Text MsgModel SessionModel SessionSpec HttpClientModel HttpClientSpec.
Local Open Scope N_scope.

Fixpoint strip (p l : bytes) : option bytes :=
  match p, l with [], _ => Some l | a :: p, b :: l => if a =? b then strip p l else None | _, [] => None end.
Definition toy_aead : aead := Aead (fun k n p => Some (224 :: k ++ p)) (fun k c => strip (224 :: k) c).
Lemma strip_app p l : strip p (p ++ l) = Some l.
Proof. induction p as [|a p IH]; [reflexivity|]. cbn. rewrite N.eqb_refl. exact IH. Qed.
Lemma toy_roundtrip : aead_roundtrip toy_aead.
Proof. intros k n p c H. inversion H; subst. apply (strip_app (224 :: k)). Qed.

(** Every request of the protocols; the reply is the request's body; [13] is rejected, [14] panics; some handlers set keys. *)
Definition toy_routes : list (mtype * mtype) :=
  [(DIAppStart, DISetCredentials); (DISetHMAC, DIDone); (TO0Hello, TO0HelloAck); (TO0OwnerSign, TO0AcceptOwner);
   (TO1HelloRV, TO1HelloRVAck); (TO1ProveToRV, TO1RVRedirect); (TO2HelloDevice, TO2ProveOVHdr); (TO2GetOVNextEntry, TO2OVNextEntry);
   (TO2ProveDevice, TO2SetupDevice); (TO2DeviceServiceInfoReady, TO2OwnerServiceInfoReady); (TO2DeviceServiceInfo, TO2OwnerServiceInfo);
   (TO2Done, TO2Done2); (DIUNConnect, DIUNAccept); (DIUNRequestKeyParameters, DIUNProvideKeyParameters); (DIUNProvideKey, DIUNDone)].
Definition toy_keys : ekeys := from_derived 1 (Combined [9; 9]).
Definition toy_handle (im : mtype) (w : N) (s : session N) (m : bytes) (e : unit) : N * hres N :=
  if bytes_eqb m [13] then (w, HReject 3) else if bytes_eqb m [14] then (w, HPanic)
  else (w + 1, HReply (ses_data s + 1) (match im with TO2ProveDevice | DIUNRequestKeyParameters => Some toy_keys | _ => None end) m).
Definition toy_server : server N N bytes unit := Server toy_routes (fun _ b => Ok b) 0 toy_handle.
Lemma toy_routes_ok : routes_ok toy_server.
Proof. repeat constructor. Qed.
(** the token of session id x is x itself *)
Definition toy_idt (t : str) : option str := Some t.
Definition toy_req (n : N) (auth : option str) (body : bytes) (newid : str) : request unit := Req n true auth body tt newid newid [] true.
Lemma toy_usable : usable toy_aead toy_keys.
Proof. exists 1, [9; 9]. split; [reflexivity|]. intros n p. discriminate. Qed.
Lemma toy_sendable : replies_sendable toy_aead toy_server.
Proof.
  exists (fun _ => True). split; [exact Logic.I|]. intros im om w s pt m e w' d ks reply RI V _ EV K _ HD. split; [exact Logic.I|]. cbn [sv_handle toy_server] in HD. unfold toy_handle in HD.
  destruct (bytes_eqb m [13]); [inversion HD|]. destruct (bytes_eqb m [14]); [inversion HD|]. inversion HD; subst; clear HD.
  split.
  - intros k X. destruct im; inversion X; subst; apply toy_usable.
  - unfold sv_routes, toy_server, toy_routes in RI. cbn [In] in RI.
    repeat (destruct RI as [X|RI]; [injection X as <- <-; first [reflexivity|exact EV]|]). contradiction.
Qed.
