(** What a store is: a map from keys to records with an optional expiry and two further attributes.
    Written without reference to files or tables. *)
From Verif Require Import Base.
Local Open Scope N_scope.

Definition key := list N.

Record record (V : Type) := Rec {
  a_val : V;
  a_exp : option N;      (* expires after this second *)
  a_to2 : option bool;   (* onboarding completed? *)
  a_to0 : option N       (* registered until this second *)
}.
Arguments Rec {V}. Arguments a_val {V}. Arguments a_exp {V}. Arguments a_to2 {V}. Arguments a_to0 {V}.

Inductive attr := AExp | ATo2 | ATo0.
Inductive op (V : Type) :=
| OStore (k : key) (v : V)
| OCrash (k : key) (v : V) (written : option N)   (* the process dies during a store: [None] once the value
                                                     is in place, [Some n] after n bytes of the data *)
| OLoad (k : key)
| ODestroy (k : key)
| OExpire (k : key) (secs : N)                   (* expires secs from now *)
| OTo0 (k : key) (secs : N)
| OTo2 (k : key) (b : bool)
| ODel (k : key) (a : attr)
| OMaint
| OTick (nanos : N)
| ODue                                            (* list the values due for registration *)
| OAll.                                           (* list all values *)
Arguments OStore {V}. Arguments OCrash {V}. Arguments OLoad {V}. Arguments ODestroy {V}. Arguments OExpire {V}.
Arguments OTo0 {V}. Arguments OTo2 {V}. Arguments ODel {V}. Arguments OMaint {V}. Arguments OTick {V}.
Arguments ODue {V}. Arguments OAll {V}.

Inductive answer (V : Type) := AVal (v : option V) | ADone | AFail | AList (vs : list V) | APanic.
Arguments AVal {V}. Arguments ADone {V}. Arguments AFail {V}. Arguments AList {V}. Arguments APanic {V}.

(** Time in nanoseconds. *)
Definition second : N := 1000000000.

Section spec.
Context {V : Type}.
Definition amap := key -> option (record V).
Definition upd (m : amap) (k : key) (r : option (record V)) : amap :=
  fun k' => if list_eqb N.eqb k k' then r else m k'.

(** A record expires when its second has been passed; at that very second a load still returns it. *)
Definition expired (now : N) (r : record V) : bool :=
  match a_exp r with Some e => e * second <? now | None => false end.
(** Maintenance drops the records whose second has been reached. *)
Definition overdue (now : N) (r : record V) : bool :=
  match a_exp r with Some e => e * second <=? now | None => false end.
(** Due for registration: not onboarded, and not registered beyond now. *)
Definition due (now : N) (r : record V) : bool :=
  match a_to2 r with Some b => negb b | None => true end &&
  match a_to0 r with Some t => t <? now / second | None => true end.

(** [lists p m vs]: vs has exactly one value for each key whose record satisfies p. *)
Definition lists (p : record V -> bool) (m : amap) (vs : list V) : Prop :=
  exists ks, NoDup ks /\ (forall k, In k ks <-> exists r, m k = Some r /\ p r = true) /\
             map Some vs = map (fun k => option_map a_val (m k)) ks.

Definition modify (m : amap) (k : key) (f : record V -> record V) : amap :=
  upd m k (option_map f (m k)).

(** [step s o a s']: in state s = (time, map), operation o may answer a and lead to s'. *)
Inductive step : N * amap -> op V -> answer V -> N * amap -> Prop :=
| SStore now m k v : step (now, m) (OStore k v) ADone (now, upd m k (Some (Rec v None None None)))
| SCrashNew now m k v : step (now, m) (OCrash k v None) APanic (now, upd m k (Some (Rec v None None None)))
| SCrashOld now m k v n : step (now, m) (OCrash k v (Some n)) APanic (now, m)
| SLoadNone now m k : m k = None -> step (now, m) (OLoad k) (AVal None) (now, m)
| SLoadExp now m k r : m k = Some r -> expired now r = true -> step (now, m) (OLoad k) (AVal None) (now, upd m k None)
| SLoad now m k r : m k = Some r -> expired now r = false -> step (now, m) (OLoad k) (AVal (Some (a_val r))) (now, m)
| SDestroyNone now m k : m k = None -> step (now, m) (ODestroy k) AFail (now, m)
| SDestroy now m k r : m k = Some r -> step (now, m) (ODestroy k) ADone (now, upd m k None)
| SExpire now m k s : step (now, m) (OExpire k s) ADone
    (now, modify m k (fun r => Rec (a_val r) (Some (now / second + s)) (a_to2 r) (a_to0 r)))
| STo0 now m k s : step (now, m) (OTo0 k s) ADone
    (now, modify m k (fun r => Rec (a_val r) (a_exp r) (a_to2 r) (Some (now / second + s))))
| STo2 now m k b : step (now, m) (OTo2 k b) ADone
    (now, modify m k (fun r => Rec (a_val r) (a_exp r) (Some b) (a_to0 r)))
| SDelAbsent now m k a : m k = None -> step (now, m) (ODel k a) ADone (now, m)
| SDelUnset now m k a r : m k = Some r ->
    match a with AExp => a_exp r = None | ATo2 => a_to2 r = None | ATo0 => a_to0 r = None end ->
    step (now, m) (ODel k a) AFail (now, m)
| SDel now m k a r : m k = Some r ->
    match a with AExp => a_exp r <> None | ATo2 => a_to2 r <> None | ATo0 => a_to0 r <> None end ->
    step (now, m) (ODel k a) ADone (now, upd m k (Some match a with
      | AExp => Rec (a_val r) None (a_to2 r) (a_to0 r)
      | ATo2 => Rec (a_val r) (a_exp r) None (a_to0 r)
      | ATo0 => Rec (a_val r) (a_exp r) (a_to2 r) None
      end))
| SMaint now m : step (now, m) OMaint ADone
    (now, fun k => match m k with Some r => if overdue now r then None else Some r | None => None end)
| STick now m d : step (now, m) (OTick d) ADone (now + d, m)
| SDue now m vs : lists (due now) m vs -> step (now, m) ODue (AList vs) (now, m)
| SAll now m vs : lists (fun _ => true) m vs -> step (now, m) OAll (AList vs) (now, m).

(** Histories from a given state. *)
Inductive history : N * amap -> list (op V) -> list (answer V) -> Prop :=
| HNil s : history s [] []
| HCons s o a s' os ans : step s o a s' -> history s' os ans -> history s (o :: os) (a :: ans).

Definition empty : amap := fun _ => None.

(** Side conditions on operations. *)
Definition op_key (o : op V) : option key :=
  match o with
  | OStore k _ | OCrash k _ _ | OLoad k | ODestroy k | OExpire k _ | OTo0 k _ | OTo2 k _ | ODel k _ => Some k
  | OMaint | OTick _ | ODue | OAll => None
  end.
(** [lo] true: interrupted stores allowed but no listing; false: the other way round. *)
Definition op_allowed (lo : bool) (o : op V) : Prop :=
  match o with OCrash _ _ (Some _) => lo = true | ODue | OAll => lo = false | _ => True end.
(** times stay below 2^63 seconds *)
Definition op_time_ok (now : N) (o : op V) : Prop :=
  match o with OExpire _ s | OTo0 _ s => now / second + s < 2 ^ 63 | _ => True end.

Fixpoint times_ok (now : N) (os : list (op V)) : Prop :=
  match os with
  | [] => True
  | o :: r => op_time_ok now o /\ times_ok (match o with OTick d => now + d | _ => now end) r
  end.
End spec.
Arguments amap V : clear implicits.

(** Answers agree up to the order of lists. *)
From Coq Require Import Permutation.
Definition same_answer {V} (a b : answer V) : Prop :=
  match a, b with AList x, AList y => Permutation x y | _, _ => a = b end.

(** Keys without '_' and '.', such as GUIDs and base64 text. *)
Definition plain_key (k : key) : Prop := Forall (fun x => x <> 95 /\ x <> 46) k.
