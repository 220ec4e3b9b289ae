(** What message orders are legal, and what runs of a server show. *)
From Verif Require Import Base MsgModel SessionModel.
Local Open Scope N_scope.

Fixpoint times {A} (n : nat) (l : list A) : list A := match n with O => [] | S n => l ++ times n l end.

(** The complete protocol runs of the FDO specification and of DIUN, as message numbers. *)
Inductive full_run : list N -> Prop :=
| RunTO0 : full_run [20; 21; 22; 23]
| RunTO1 : full_run [30; 31; 32; 33]
| RunTO2 entries rounds :
    full_run ([60; 61] ++ times (S entries) [62; 63] ++ [64; 65; 66; 67] ++ times (S rounds) [68; 69] ++ [70; 71])
| RunDI : full_run [10; 11; 12; 13]
| RunDIUN : full_run [210; 211; 212; 213; 214; 215; 10; 11; 12; 13].
Definition legal (l : list N) : Prop := exists rest, full_run (l ++ rest).

(** Message n may come right after message [prev], or first of all. *)
Definition follows (prev : option N) (n : N) : Prop :=
  match prev with None => exists b, full_run (n :: b) | Some p => exists a b, full_run (a ++ p :: n :: b) end.
(** The messages the specification wants encrypted, and those it wants in the clear (DI's it leaves open). *)
Definition encrypted_numbers : list N := [65; 66; 67; 68; 69; 70; 71; 213; 214; 215].
Definition plain_numbers : list N := [20; 21; 22; 23; 30; 31; 32; 33; 60; 61; 62; 63; 64; 210; 211; 212].

(** [subseq x y]: x is y with some elements left out. *)
Inductive subseq {A} : list A -> list A -> Prop :=
| SubNil : subseq [] []
| SubKeep a x y : subseq x y -> subseq (a :: x) (a :: y)
| SubSkip a x y : subseq x y -> subseq x (a :: y).

Section obs.
Context {W D M E : Type}.
(** The requests whose sessions were stored under an id: request and reply numbers, and the stored session. *)
Fixpoint stored_of (id : list N) (os : list (obs (W:=W) (D:=D) (M:=M) (E:=E))) : list (mtype * mtype * session D) :=
  match os with
  | [] => []
  | Stored id' im om s :: r => if list_eqb N.eqb id id' then (im, om, s) :: stored_of id r else stored_of id r
  | _ :: r => stored_of id r
  end.
Definition numbers (l : list (mtype * mtype * session D)) : list N :=
  flat_map (fun x => [mtype_num (fst (fst x)); mtype_num (snd (fst x))]) l.
End obs.

(** Histories in which requests do not overlap. *)
Section seq.
Context {W E : Type}.
Inductive sevent := SReq (rq : request E) (f : fault) | STick (nanos : N) | SMaint | SWorld (f : W -> W).
Definition expand (x : sevent) : list (event (W:=W) (E:=E)) :=
  match x with SReq rq f => one_request rq f | STick d => [ETick d] | SMaint => [EMaint] | SWorld f => [EWorld f] end.
Definition sequential (l : list sevent) : list event := flat_map expand l.
Definition new_ids (l : list sevent) : list (list N) :=
  flat_map (fun x => match x with SReq rq _ => [rq_new_id rq] | _ => [] end) l.
End seq.
Arguments sevent W E : clear implicits.

(** Keys that encryption works with. *)
Definition usable (A : aead) (k : ekeys) : Prop :=
  exists suite key, k = EKeys (Some suite) (Some (Combined key)) /\ forall nonce pt, seal A key nonce pt <> None.
(** Every reply a handler gives can be sent: the keys it sets are usable, and the session then has keys if the reply must
    be encrypted and none if it must not be; given something that is so of the data of every session. *)
Definition replies_sendable {W D M E} (A : aead) (sv : server W D M E) : Prop :=
  exists P : D -> Prop, P (sv_new sv) /\
  forall im om w s pt m e w' d ks reply, In (im, om) (sv_routes sv) -> valid_prev im (ses_last s) = true -> P (ses_data s) ->
    enc_violated (enc_req im) (ek_is_some (keys_of s)) = false -> (forall k, ses_keys s = Some k -> usable A k) ->
    sv_parse sv im pt = Ok m -> sv_handle sv im w s m e = (w', HReply d ks reply) ->
    P d /\ (forall k, ks = Some k -> usable A k) /\
    enc_violated (enc_req om) (ek_is_some (keys_of (Ses (Some om) (match ks with Some _ => ks | None => ses_keys s end) d))) = false.
