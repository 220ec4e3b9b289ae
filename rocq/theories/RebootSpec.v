(** When an owner asks a device to reboot, in terms of the messages the device received. *)
From Verif Require Import Base CborModel ValueModel Text TypesModel KexModel MsgModel SessionModel HttpClientModel SiModel DevSiModel OwnerModel ClientModel ClientSpec.
Local Open Scope N_scope.

(** A message asks for a reboot, and does not take that back. *)
Definition asks_reboot (l : silist) : Prop :=
  exists pre post, si_iter l = pre ++ (Reboot, txt "reboot", VBool true) :: post /\ ~ In (Reboot, txt "reboot", VBool false) post.
(** [told h ls h']: from [h] on, in the answers to the device's service info messages, the owner tells the device [ls] and then
    that this is all; [h'] is what was done until then.  Between two messages the device only does things to its machine. *)
Inductive told (A : aead) (ko : kex_ops) (avail : bool) (wo : world) : list devent -> list silist -> list devent -> Prop :=
| told_all h url w ct pt more l : wr_type w = 68 -> came_back wo h url w ct -> says A ko avail ct pt -> from_slice as_osi pt = Ok (more, true, l) ->
    told A ko avail wo h [] (h ++ [TWire url w])
| told_more h url w ct pt l es ls h' : wr_type w = 68 -> came_back wo h url w ct -> says A ko avail ct pt -> from_slice as_osi pt = Ok (false, false, l) ->
    told A ko avail wo ((h ++ [TWire url w]) ++ map TFx es) ls h' -> told A ko avail wo h (l :: ls) h'.
