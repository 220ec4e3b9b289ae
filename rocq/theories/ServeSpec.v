(** A device and any server that it calls: how the device's world is the server's doing. *)
From Verif Require Import Base CborModel ValueModel Text Assoc Hex TypesModel VoucherModel CryptoSpec KexModel RvModel StoreModel StoreSpec Backend
  MsgModel SessionModel SessionSpec HttpClientModel HttpClientSpec RvServerModel RvServerSpec SiModel DevSiModel OwnerModel ClientModel.
Local Open Scope N_scope.

Section serve.
Context {W D M E : Type}.
(** What surrounds a request at the server: what happened there since the device's last one, what the handler depends on, and
    what the server draws for this one *)
Record surround := Surround { su_before : list (sevent W E); su_env : HttpClientModel.wire -> E; su_token : str; su_id : str; su_iv : bytes }.
(** The request that a wire of the device is at the server *)
Definition su_request (x : surround) (w : HttpClientModel.wire) : request E :=
  Req (wr_type w) true (wr_auth w) (wr_body w) (su_env x w) (su_token x) (su_id x) (su_iv x) true.
Definition replies_of (os : list (obs (W:=W) (D:=D) (M:=M) (E:=E))) : list response :=
  flat_map (fun o => match o with Sent r => [r] | _ => [] end) os.
(** The server [sv] behind [url]: [at_ h] is its state when the device has done [h].  What the device sends there is taken up and
    answered, and nothing else the device does concerns the server. *)
Record reached (A : aead) (idt : str -> option str) (sv : server W D M E) (av : bool) (wo : world) (url : str)
    (surr : list devent -> surround) (at_ : list devent -> sys (W:=W) (D:=D)) : Prop := {
  rc_wire : forall h w,
    let y := fst (sys_run A idt sv (at_ h) (sequential (su_before (surr h)))) in
    let r := sys_run A idt sv y (one_request (su_request (surr h) w) NoFault) in
    at_ (h ++ [TWire url w]) = fst r /\ wo_resp wo (h ++ [TWire url w]) = to_hresponse av (last (replies_of (snd r)) Dropped) [];
  rc_rest : forall h e, (forall w, e <> TWire url w) -> at_ (h ++ [e]) = at_ h }.
(** What happens at the server between two requests of the device: less than ten minutes pass; sessions are cleaned up; what
    is kept changes, but not that for the device; others make requests, in sessions of their own and that are [fair]. *)
Definition nanos (l : list (sevent W E)) : N := fold_right (fun e n => match e with STick d => d + n | _ => n end) 0 l.
Definition apart (A : aead) (idt : str -> option str) (sv : server W D M E) (fair : M -> E -> Prop) (id : str) (holds : W -> Prop) (e : sevent W E) : Prop :=
  match e with
  | STick _ | SMaint => True
  | SWorld f => forall w, holds w -> holds (f w)
  | SReq rq _ => rq_new_id rq <> id /\ (forall a, rq_auth rq = Some a -> idt (token_of a) <> Some id) /\
                 forall im s m, parse_request A sv im s (rq_body rq) = PMsg m -> fair m (rq_env rq)
  end.
Definition undisturbed (A : aead) (idt : str -> option str) (sv : server W D M E) (fair : M -> E -> Prop) (id : str) (holds : W -> Prop) (l : list (sevent W E)) : Prop :=
  nanos l <= 599 * SES_SEC /\ Forall (apart A idt sv fair id holds) l.
End serve.
Arguments surround W E : clear implicits.
