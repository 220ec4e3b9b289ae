(** How the all-in-one starts its servers, waits for them and ends: admin-tool/src/aio/execute.rs. *)
From Verif Require Import Base.
Local Open Scope N_scope.

(** execute.rs:12-17: the servers, in the order in which they are started and waited for *)
Inductive daemon := Mfg | Own | Rendezvous | Info.
Definition DAEMONS : list daemon := [Mfg; Own; Rendezvous; Info].
(** What is known of a child: running, ended with a status, or it cannot be told (execute.rs:122-146) *)
Inductive status := Alive | Ended (code : N) | Unknown.
(** execute.rs:246-258: an interrupt (SIGINT), or the first child that ended (execute.rs:155-179) *)
Inductive xend := Interrupted | Finished (d : daemon) (s : status).
(** What is done, with what came of it.  [XKill]: the child is killed, if it has not ended. *)
Inductive xevent :=
| XLog (d : daemon) (ok : bool)
| XSpawn (d : daemon) (ok : bool)
| XPing (port : N) (answered : bool)
| XCheck (d : daemon) (s : status)
| XSleep
| XReady
| XEnd (e : xend)
| XKill (d : daemon).
(** What the program depends on; each may depend on all that was done before.  [x_clock] is in milliseconds.  A ping
    always comes back here; the code sets no timeout for it. *)
Record xworld := XWorld {
  x_log : list xevent -> daemon -> bool;      (* both log files can be opened and written to *)
  x_spawn : list xevent -> daemon -> bool;    (* the program can be started *)
  x_ping : list xevent -> N -> bool;          (* something answers, with whatever status *)
  x_clock : list xevent -> N;
  x_status : list xevent -> daemon -> status;
  x_signal : list xevent -> bool;             (* the signal handler can be installed *)
  x_end : list xevent -> xend }.

(** execute.rs:18 *)
Definition MAX_WAIT : N := 2000.

Section execute.
Context (w : xworld) (ports : daemon -> N).

(** execute.rs:45-93, 231-234 *)
Fixpoint start_binaries (l : list daemon) (h : list xevent) : list xevent * bool :=
  match l with
  | [] => (h, true)
  | d :: r =>
    if x_log w h d then
      let h1 := h ++ [XLog d true] in
      if x_spawn w h1 d then start_binaries r (h1 ++ [XSpawn d true]) else (h1 ++ [XSpawn d false], false)
    else (h ++ [XLog d false], false)
  end.
(** execute.rs:112-147: one server; [None]: still waiting after [fuel] pings *)
Fixpoint wait_one (fuel : nat) (start : N) (d : daemon) (h : list xevent) : option (list xevent * bool) :=
  match fuel with
  | O => None
  | S f =>
    let ok := x_ping w h (ports d) in
    let h1 := h ++ [XPing (ports d) ok] in
    if ok then Some (h1, true)
    else if MAX_WAIT <? x_clock w h1 - start then Some (h1, false)
    else
      let s := x_status w h1 d in
      let h2 := h1 ++ [XCheck d s] in
      match s with
      | Alive => wait_one f start d (h2 ++ [XSleep])
      | _ => Some (h2, false)
      end
  end.
(** execute.rs:95-153 *)
Fixpoint wait_until_ready (fuel : nat) (start : N) (l : list daemon) (h : list xevent) : option (list xevent * bool) :=
  match l with
  | [] => Some (h, true)
  | d :: r => match wait_one fuel start d h with
              | Some (h1, true) => wait_until_ready fuel start r h1
              | x => x
              end
  end.
(** The children, and their end when the context is dropped: each was started with kill_on_drop (execute.rs:86).  On an
    interrupt the future that kills them (execute.rs:250-252) is dropped without being polled, so it is this that ends them. *)
Definition childs (h : list xevent) : list daemon := flat_map (fun e => match e with XSpawn d true => [d] | _ => [] end) h.
Definition drop (h : list xevent) (ok : bool) : list xevent * bool := (h ++ map XKill (childs h), ok).
(** execute.rs:220-260: all that is done, and whether it is a success *)
Definition execute (fuel : nat) : option (list xevent * bool) :=
  let (h, ok) := start_binaries DAEMONS [] in
  if negb ok then Some (drop h false)
  else match wait_until_ready fuel (x_clock w h) DAEMONS h with
       | None => None
       | Some (h1, false) => Some (drop h1 false)
       | Some (h1, true) =>
         let h2 := h1 ++ [XReady] in
         if x_signal w h2 then Some (drop (h2 ++ [XEnd (x_end w h2)]) true) else Some (drop h2 false)
       end.
End execute.
