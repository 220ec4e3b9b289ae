(** What overlapping calls of a directory store may do, told from what can be seen of them: when they begin and
    what they return. *)
From Verif Require Import Base ValueModel Text Assoc StoreModel OverlapModel.
Local Open Scope N_scope.

Section spec.
Context {V : Type} (c : codec V).

(** The file a call is about. *)
Definition target (o : qop V) : name :=
  match o with
  | QStore k _ | QLoad k | QMeta k _ _ | QDelMeta k _ | QDestroy k => get_path k
  | QSweep n => n
  end.
(** Names of temporary files; calls with a key are about other files (clean-up comes across all). *)
Definition temporary (n : name) : Prop := exists m, n = tmp_of m.
Definition proper (o : qop V) : Prop := match o with QSweep _ => True | _ => ~ temporary (target o) end.
Definition begun (l : list (move (V := V))) (o : qop V) : Prop := exists t, In (Begin t o) l.

(** The calls under way after what has been seen. *)
Fixpoint pending (calls : N -> option (qop V)) (h : list (seen (V := V))) : N -> option (qop V) :=
  match h with
  | [] => calls
  | HBegin t o :: r => pending (at_task t (Some o) calls) r
  | HGo _ _ :: r => pending calls r
  | HEnd t _ :: r => pending (at_task t None calls) r
  end.
Definition nobody {A} : N -> option A := fun _ => None.

(** Whenever a call begins, no call under way satisfies [bad] with it. *)
Fixpoint apart (bad : qop V -> qop V -> Prop) (calls : N -> option (qop V)) (h : list (seen (V := V))) : Prop :=
  match h with
  | [] => True
  | HBegin t o :: r => (forall t' o', calls t' = Some o' -> ~ bad o' o) /\ apart bad (at_task t (Some o) calls) r
  | HGo _ _ :: r => apart bad calls r
  | HEnd t _ :: r => apart bad (at_task t None calls) r
  end.
Definition same_file (a b : qop V) : Prop := target a = target b.
Definition is_store (o : qop V) : bool := match o with QStore _ _ => true | _ => false end.
Definition both_store (a b : qop V) : Prop := same_file a b /\ is_store a = true /\ is_store b = true.

(** * One call at a time *)
(** What a call does when no other is under way: StoreModel. *)
Definition unit_reply (x : dir * outcome serr unit) : dir * reply V :=
  (fst x, match snd x with Ok _ => Ok None | Err e => Err e | Panic w => Panic w end).
Definition sweep (now : N) (d : dir) (n : name) : dir * outcome serr unit :=
  match aget n d with
  | None => (d, Ok tt)
  | Some f => let '(l, x) := dir_maint now [(n, f)] in (match l with [] => adel n d | _ => d end, x)
  end.
Definition alone (now : N) (d : dir) (o : qop V) : dir * reply V :=
  match o with
  | QStore k v => unit_reply (dir_store c d k v)
  | QLoad k => dir_load c now d k
  | QMeta k m x => unit_reply (dir_set_meta now d k m x)
  | QDelMeta k m => unit_reply (dir_del_meta d k m)
  | QDestroy k => unit_reply (dir_destroy d k)
  | QSweep n => unit_reply (sweep now d n)
  end.
(** [replays calls d h d']: making the calls of h one at a time, each when it returned and at one of the times that
    passed in it, gives what they returned, and takes directory d to d'.  [calls]: the calls under way, with the
    times that have passed. *)
Fixpoint replays (calls : N -> option (qop V * list N)) (d : dir) (h : list (seen (V := V))) (d' : dir) : Prop :=
  match h with
  | [] => d = d'
  | HBegin t o :: r => replays (at_task t (Some (o, [])) calls) d r d'
  | HGo t now :: r =>
    replays (at_task t (match calls t with Some (o, ts) => Some (o, now :: ts) | None => None end) calls) d r d'
  | HEnd t res :: r =>
    exists o ts now d1, calls t = Some (o, ts) /\ In now ts /\ alone now d o = (d1, res) /\
      replays (at_task t None calls) d1 r d'
  end.

(** * Loads overlapping with anything *)
(** [regular last calls h]: stores succeed, and a load returns nothing, or the value that was the last stored under the
    name when the load began, or that of a store under way during the load.  [last]: the value stored last;
    [calls]: the calls under way, for loads with the values they may return. *)
Definition stored_under (calls : N -> option (qop V * (V -> Prop))) (n : name) (v : V) : Prop :=
  exists t k w, calls t = Some (QStore k v, w) /\ get_path k = n.
Definition also (n : name) (v : V) (calls : N -> option (qop V * (V -> Prop))) : N -> option (qop V * (V -> Prop)) :=
  fun t => match calls t with
           | Some (QLoad k, w) => Some (QLoad k, fun x => w x \/ get_path k = n /\ x = v)
           | x => x
           end.
Definition upd_name {A} (n : name) (x : A) (g : name -> A) : name -> A := fun m => if bytes_eqb m n then x else g m.
Fixpoint regular (last : name -> option V) (calls : N -> option (qop V * (V -> Prop))) (h : list (seen (V := V))) : Prop :=
  match h with
  | [] => True
  | HBegin t o :: r =>
    match o with
    | QStore k v => regular last (at_task t (Some (o, fun _ => False)) (also (get_path k) v calls)) r
    | QLoad k => regular last (at_task t (Some (o, fun v => last (get_path k) = Some v \/ stored_under calls (get_path k) v)) calls) r
    | _ => regular last (at_task t (Some (o, fun _ => False)) calls) r
    end
  | HGo _ _ :: r => regular last calls r
  | HEnd t res :: r =>
    match calls t with
    | Some (QStore k v, _) => res = Ok None /\ regular (upd_name (get_path k) (Some v) last) (at_task t None calls) r
    | Some (QLoad k, w) => (res = Ok None \/ exists v, res = Ok (Some v) /\ w v) /\ regular last (at_task t None calls) r
    | Some (QDestroy k, _) => regular (upd_name (get_path k) None last) (at_task t None calls) r
    | _ => regular last (at_task t None calls) r
    end
  end.
(** The values in a directory. *)
Definition values (d : dir) : name -> option V :=
  fun n => match aget n d with Some f => de c (f_data f) | None => None end.

(** Values can be written and read back, and the times of expiry stay below 2^63 seconds ([T]: all times passing are
    before it). *)
Definition expiry_ok (f : file) : Prop :=
  match aget (xname Ttl) (f_xattr f) with Some t => exists x, ttl_from_disk t = Ok x | None => True end.
Definition sound_op (T : N) (o : qop V) : Prop :=
  proper o /\
  match o with
  | QStore _ v => exists b, ser c v = Ok b /\ de c b = Some v
  | QMeta _ Ttl x => exists s, x = MDur s /\ T / SEC + s < 2 ^ 63
  | _ => True
  end.
Definition before (T : N) (l : list (move (V := V))) : Prop := forall t k now, In (Go t k now) l -> now < T.
(** A directory as stores leave it: records that can be read, and temporary files without attributes. *)
Definition left_by_stores (d : dir) : Prop := forall n f, In (n, f) d ->
  expiry_ok f /\ (temporary n -> f_xattr f = []) /\ (~ temporary n -> exists v, de c (f_data f) = Some v).

(** * A record stored without expiry stays *)
Definition changes (o : qop V) : bool :=
  match o with QStore _ _ | QMeta _ _ _ | QDelMeta _ _ | QDestroy _ => true | QLoad _ | QSweep _ => false end.
(** No call that would change the file begins. *)
Definition undisturbed (n : name) (h : list (seen (V := V))) : Prop :=
  forall t o, In (HBegin t o) h -> changes o = true -> target o <> n.
(** The loads from file n that begin and return in h return v. *)
Fixpoint finds (n : name) (v : V) (mine : N -> bool) (h : list (seen (V := V))) : Prop :=
  match h with
  | [] => True
  | HBegin t o :: r => finds n v (at_task t (match o with QLoad k => bytes_eqb (get_path k) n | _ => false end) mine) r
  | HGo _ _ :: r => finds n v mine r
  | HEnd t res :: r => (mine t = true -> res = Ok (Some v)) /\ finds n v (at_task t false mine) r
  end.
End spec.
