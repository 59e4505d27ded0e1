(** Model of how connections are accepted: server.go:107-143 (retryListener), 630-660
    (Serve), and 378-393 (Shutdown, for the listeners). Durations are in milliseconds. *)
From Verif.Base Require Import Bytes.
From Coq Require Import NArith.

(** What the listener's Accept gives, one time after the other: a connection, an error that
    is temporary (no file descriptors left, a connection that was aborted), that it is
    closed, or another error. *)
Inductive outcome := Conn (c : N) | Temporary | IsClosed | Fatal.

(** server.go:126-133. *)
Definition next_delay (d : N) : N :=
  let d := if (d =? 0)%N then 5%N else (d * 2)%N in
  if (1000 <? d)%N then 1000%N else d.

(** server.go:122-143 (Accept): how long it sleeps, what it gives, the delay it keeps, and
    what is left. None: it still waits. *)
Fixpoint accept (d : N) (l : list outcome) : list N * option (outcome * N * list outcome) :=
  match l with
  | [] => ([], None)
  | Temporary :: l => let d := next_delay d in let '(ds, r) := accept d l in (d :: ds, r)
  | o :: l => ([], Some (o, 0%N, l))
  end.

(** server.go:649-659: what Serve does. [fuel] is at least the length of [l]. *)
Inductive act := Sleep (ms : N) | Handle (c : N) | Return (ok : bool).
Fixpoint serve (fuel : nat) (d : N) (l : list outcome) : list act :=
  match fuel with
  | O => []
  | S fuel =>
    let '(ds, r) := accept d l in
    map Sleep ds ++
    match r with
    | None => []
    | Some (Conn c, d, l) => Handle c :: serve fuel d l
    | Some (IsClosed, _, _) => [Return true]
    | Some (_, _, _) => [Return false]
    end
  end.

(** ** Stopping *)

(** A goroutine with Serve: before it is known to the server (635-637), known but not
    counted (639), accepting, returned from the loop (641-646), gone; and Shutdown: not
    called, listeners closed, past the wait. Users are left out (Model/Stop.v), and so are the
    errors that end the loop of Serve (above). One listener; others are alike. *)
Inductive serving := Fresh | Known | Counted | Left | Gone.
Inductive phase := Running | Waiting | Done.
(** [closed]: the listener was closed. *)
Record sys := Sys { a_serve : serving; a_closed : bool; a_phase : phase; a_got : list N }.
Inductive label := Go | Client (c : N) | Shut.

Definition step (s : sys) (x : label) : option sys :=
  match x with
  | Go =>
    match a_serve s with
    | Fresh => Some (Sys Known (a_closed s) (a_phase s) (a_got s))
    | Known => Some (Sys Counted (a_closed s) (a_phase s) (a_got s))
    | Counted => if a_closed s then Some (Sys Left true (a_phase s) (a_got s)) else None
    | Left => Some (Sys Gone (a_closed s) (a_phase s) (a_got s))
    | Gone => None
    end
  | Client c =>
    match a_serve s with
    | Counted => if a_closed s then None else Some (Sys Counted false (a_phase s) (a_got s ++ [c]))
    | _ => None
    end
  | Shut =>
    match a_phase s with
    | Running => Some (Sys (a_serve s) (match a_serve s with Known | Counted => true | _ => a_closed s end) Waiting (a_got s))
    | Waiting => match a_serve s with Counted | Left => None | _ => Some (Sys (a_serve s) (a_closed s) Done (a_got s)) end
    | Done => None
    end
  end.
Fixpoint run (s : sys) (l : list label) : option sys :=
  match l with [] => Some s | x :: l => match step s x with Some s => run s l | None => None end end.
Definition fresh : sys := Sys Fresh false Running [].
