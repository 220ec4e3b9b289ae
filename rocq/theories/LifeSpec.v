(** The life of a device, from its manufacturer to its owner: what the servers have to trust. *)
From Verif Require Import Base CborModel ValueModel TypesModel VoucherModel CryptoSpec RvModel StoreModel Backend MsgModel SessionModel RvServerModel SiModel DevSiModel OwnerModel MfgModel MfgSpec To0Model To0Spec FactorySpec.
Local Open Scope N_scope.

(** A server with the certificates [bag] (none: any) accepts the chains that the manufacturer's authority makes. *)
Definition trusts_authority (c : crypto) (mkcert : bytes -> bytes -> str -> bytes -> bytes -> option bytes) (cf : mfconf) (bag : option x5bag) : Prop :=
  forall leaf key, from_authority mkcert cf leaf key ->
    match bag with Some b => verify_from_x5bag c (leaf :: mf_ca cf) b | None => insecure_verify c (leaf :: mf_ca cf) end = Ok leaf.
(** The rendezvous server allows the manufacturer's devices. *)
Definition allows_manufacturer (c : crypto) (cf : mfconf) (rcf : rvconf) : Prop :=
  match cf_mfg rcf with None => True | Some bag => forall key, c_cert_key c (mf_cert cf) = Some key -> bag_contains_key c bag key = Ok true end.
