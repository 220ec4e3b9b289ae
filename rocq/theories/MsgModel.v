(** Message types, their order and their encryption requirements (data-formats/src/messages/v11). *)
From Verif Require Import Base ValueModel Text.
Local Open Scope N_scope.

(** data-formats/src/constants/mod.rs:350-395 *)
Inductive mtype :=
| Invalid
| DIAppStart | DISetCredentials | DISetHMAC | DIDone
| TO0Hello | TO0HelloAck | TO0OwnerSign | TO0AcceptOwner
| TO1HelloRV | TO1HelloRVAck | TO1ProveToRV | TO1RVRedirect
| TO2HelloDevice | TO2ProveOVHdr | TO2GetOVNextEntry | TO2OVNextEntry | TO2ProveDevice | TO2SetupDevice
| TO2DeviceServiceInfoReady | TO2OwnerServiceInfoReady | TO2DeviceServiceInfo | TO2OwnerServiceInfo | TO2Done | TO2Done2
| DIUNConnect | DIUNAccept | DIUNRequestKeyParameters | DIUNProvideKeyParameters | DIUNProvideKey | DIUNDone
| MError.

(** [as u8] *)
Definition mtype_num (m : mtype) : N :=
  match m with
  | Invalid => 0
  | DIAppStart => 10 | DISetCredentials => 11 | DISetHMAC => 12 | DIDone => 13
  | TO0Hello => 20 | TO0HelloAck => 21 | TO0OwnerSign => 22 | TO0AcceptOwner => 23
  | TO1HelloRV => 30 | TO1HelloRVAck => 31 | TO1ProveToRV => 32 | TO1RVRedirect => 33
  | TO2HelloDevice => 60 | TO2ProveOVHdr => 61 | TO2GetOVNextEntry => 62 | TO2OVNextEntry => 63
  | TO2ProveDevice => 64 | TO2SetupDevice => 65 | TO2DeviceServiceInfoReady => 66 | TO2OwnerServiceInfoReady => 67
  | TO2DeviceServiceInfo => 68 | TO2OwnerServiceInfo => 69 | TO2Done => 70 | TO2Done2 => 71
  | DIUNConnect => 210 | DIUNAccept => 211 | DIUNRequestKeyParameters => 212 | DIUNProvideKeyParameters => 213
  | DIUNProvideKey => 214 | DIUNDone => 215
  | MError => 255
  end.
Definition all_mtypes : list mtype :=
  [Invalid; DIAppStart; DISetCredentials; DISetHMAC; DIDone; TO0Hello; TO0HelloAck; TO0OwnerSign; TO0AcceptOwner;
   TO1HelloRV; TO1HelloRVAck; TO1ProveToRV; TO1RVRedirect; TO2HelloDevice; TO2ProveOVHdr; TO2GetOVNextEntry; TO2OVNextEntry;
   TO2ProveDevice; TO2SetupDevice; TO2DeviceServiceInfoReady; TO2OwnerServiceInfoReady; TO2DeviceServiceInfo;
   TO2OwnerServiceInfo; TO2Done; TO2Done2; DIUNConnect; DIUNAccept; DIUNRequestKeyParameters; DIUNProvideKeyParameters;
   DIUNProvideKey; DIUNDone; MError].
(** constants/mod.rs:397-406 (num_derive's FromPrimitive) *)
Definition mtype_of_num (n : N) : option mtype := find (fun m => mtype_num m =? n) all_mtypes.

Definition mtype_eqb (a b : mtype) : bool := mtype_num a =? mtype_num b.

(** Message::is_valid_previous_message: v11/di.rs:37-39, 76-78, 111-113, 141-143; to0.rs:28-30, 74-76, 156-158,
    191-193; to1.rs:39-41, 82-84, 117-119, 156-158; to2.rs:77-79, 112-114, 147-152, 217-219, 252-254, 287-289, 330-332,
    367-369, 410-415, 462-464, 497-499, 532-534; diun.rs:56-58, 91-93, 142-144, 188-190, 231-233, 266-268;
    error.rs:59-61.  [Invalid] is no message; it gets the empty set. *)
Definition valid_prev (m : mtype) (prev : option mtype) : bool :=
  match m, prev with
  | DIAppStart, None | DIAppStart, Some DIUNDone => true
  | DISetCredentials, Some DIAppStart => true
  | DISetHMAC, Some DISetCredentials => true
  | DIDone, Some DISetHMAC => true
  | TO0Hello, None => true
  | TO0HelloAck, Some TO0Hello => true
  | TO0OwnerSign, Some TO0HelloAck => true
  | TO0AcceptOwner, Some TO0OwnerSign => true
  | TO1HelloRV, None => true
  | TO1HelloRVAck, Some TO1HelloRV => true
  | TO1ProveToRV, Some TO1HelloRVAck => true
  | TO1RVRedirect, Some TO1ProveToRV => true
  | TO2HelloDevice, None => true
  | TO2ProveOVHdr, Some TO2HelloDevice => true
  | TO2GetOVNextEntry, Some TO2ProveOVHdr | TO2GetOVNextEntry, Some TO2OVNextEntry => true
  | TO2OVNextEntry, Some TO2GetOVNextEntry => true
  | TO2ProveDevice, Some TO2OVNextEntry => true
  | TO2SetupDevice, Some TO2ProveDevice => true
  | TO2DeviceServiceInfoReady, Some TO2SetupDevice => true
  | TO2OwnerServiceInfoReady, Some TO2DeviceServiceInfoReady => true
  | TO2DeviceServiceInfo, Some TO2OwnerServiceInfoReady | TO2DeviceServiceInfo, Some TO2OwnerServiceInfo => true
  | TO2OwnerServiceInfo, Some TO2DeviceServiceInfo => true
  | TO2Done, Some TO2OwnerServiceInfo => true
  | TO2Done2, Some TO2Done => true
  | DIUNConnect, None => true
  | DIUNAccept, Some DIUNConnect => true
  | DIUNRequestKeyParameters, Some DIUNAccept => true
  | DIUNProvideKeyParameters, Some DIUNRequestKeyParameters => true
  | DIUNProvideKey, Some DIUNProvideKeyParameters => true
  | DIUNDone, Some DIUNProvideKey => true
  | MError, _ => true
  | _, _ => false
  end.

(** Message::encryption_requirement: di.rs:41-43, 80-82, 115-117, 145-147; to0.rs:32-34, 78-80, 160-162, 195-197;
    to1.rs:43-45, 86-88, 121-123, 160-162; to2.rs:81-83, 116-118, 154-156, 221-223, 256-258, 291-293, 334-336, 371-373,
    417-419, 466-468, 501-503, 536-538; diun.rs:60-62, 95-97, 146-148, 192-194, 235-237, 270-272; error.rs:63-65 *)
Inductive encreq := MustBe | MustNot.
Definition enc_req (m : mtype) : option encreq :=
  match m with
  | Invalid | MError | DIAppStart | DISetCredentials | DISetHMAC | DIDone => None
  | TO0Hello | TO0HelloAck | TO0OwnerSign | TO0AcceptOwner
  | TO1HelloRV | TO1HelloRVAck | TO1ProveToRV | TO1RVRedirect
  | TO2HelloDevice | TO2ProveOVHdr | TO2GetOVNextEntry | TO2OVNextEntry | TO2ProveDevice
  | DIUNConnect | DIUNAccept | DIUNRequestKeyParameters => Some MustNot
  | TO2SetupDevice | TO2DeviceServiceInfoReady | TO2OwnerServiceInfoReady | TO2DeviceServiceInfo | TO2OwnerServiceInfo
  | TO2Done | TO2Done2 | DIUNProvideKeyParameters | DIUNProvideKey | DIUNDone => Some MustBe
  end.

(** The marker traits ClientMessage and ServerMessage (the same files; ErrorMessage, which is both, is not
    used as a request or as the expected reply). *)
Definition client_msg (m : mtype) : bool :=
  match m with
  | DIAppStart | DISetHMAC | TO0Hello | TO0OwnerSign | TO1HelloRV | TO1ProveToRV | TO2HelloDevice | TO2GetOVNextEntry
  | TO2ProveDevice | TO2DeviceServiceInfoReady | TO2DeviceServiceInfo | TO2Done | DIUNConnect | DIUNRequestKeyParameters
  | DIUNProvideKey => true
  | _ => false
  end.
Definition server_msg (m : mtype) : bool :=
  match m with
  | DISetCredentials | DIDone | TO0HelloAck | TO0AcceptOwner | TO1HelloRVAck | TO1RVRedirect | TO2ProveOVHdr | TO2OVNextEntry
  | TO2SetupDevice | TO2OwnerServiceInfoReady | TO2OwnerServiceInfo | TO2Done2 | DIUNAccept | DIUNProvideKeyParameters
  | DIUNDone => true
  | _ => false
  end.

(** The encryption requirement, checked in the same words at server.rs:202-220, 331-347 and client.rs:185-209;
    [enc] is whether keys are there. *)
Definition enc_violated (r : option encreq) (enc : bool) : bool :=
  match r with Some MustBe => negb enc | Some MustNot => enc | None => false end.
