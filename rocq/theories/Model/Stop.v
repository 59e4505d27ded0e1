(** Model of how the server stops (server.go:379-402, Shutdown): with the lock of the
    server held, every user's goroutine is sent an event; then it waits until they have
    all ended, and closes the database.

    Simplifications: events of a user either need nothing, or take the lock of the
    server for a moment (getUser, Stats, server.go:428-433, 713-722), or make a new user
    with it (createUser, 404-418: "user create" and the first login of somebody
    known to the authentication); commands that hold the lock or wait for others are in
    Model/Wait.v (C101). Listeners and the loop that disables inactive users, which end by
    themselves, are left out, and so are connections of the admin socket. *)
From Verif.Base Require Import Bytes.
From Coq Require Import NArith.

Inductive ev := EWork | ELock | ECreate (w : N) | EStop.

(** Where the goroutine of a user is: before [range u.events]; waiting for the lock, to go
    on or to make a user; returned from [run], waiting for the lock (server.go:443-454). *)
Inductive status := Idle | Needs (w : option N) | Ended.

(** Where Shutdown is: not called; sending to these users with the lock held; waiting for
    [stopWG]; the database is closed. *)
Inductive phase := Running | Stopping (l : list N) | Waiting | Closed.

(** Server.users, with the goroutine and the channel of each. *)
Definition entry := (status * list ev)%type.
Record sys := Sys { s_users : list (N * entry); s_phase : phase }.

Fixpoint get (u : N) (l : list (N * entry)) : option entry :=
  match l with [] => None | (v, x) :: l => if N.eqb v u then Some x else get u l end.
Definition set (u : N) (x : entry) (l : list (N * entry)) : list (N * entry) :=
  map (fun p => if N.eqb (fst p) u then (fst p, x) else p) l.
Definition del (u : N) (l : list (N * entry)) : list (N * entry) := filter (fun p => negb (N.eqb (fst p) u)) l.

(** user.go:559. *)
Definition room (q : list ev) : bool := Nat.ltb (length q) 64.
Definition held (p : phase) : bool := match p with Stopping _ => true | _ => false end.

(** An event for a user from a client or a network (not the end); a step of the user's
    goroutine; a panic in it; a step of Shutdown. *)
Inductive label := Push (u : N) (e : ev) | Go (u : N) | Crash (u : N) | Shut.

Definition step (s : sys) (x : label) : option sys :=
  match x with
  | Push u e =>
    match e, get u (s_users s) with
    | EStop, _ => None
    | _, Some (p, q) => if room q then Some (Sys (set u (p, q ++ [e]) (s_users s)) (s_phase s)) else None
    | _, None => None
    end
  | Go u =>
    match get u (s_users s) with
    | None => None
    | Some (Idle, []) => None
    | Some (Idle, e :: q) =>
      let p := match e with EWork => Idle | ELock => Needs None | ECreate w => Needs (Some w) | EStop => Ended end in
      Some (Sys (set u (p, q) (s_users s)) (s_phase s))
    | Some (Needs w, q) =>
      if held (s_phase s) then None
      else let l := set u (Idle, q) (s_users s) in
           Some (Sys (match w with
                      | Some w => match get w l with None => l ++ [(w, (Idle, []))] | Some _ => l end
                      | None => l
                      end) (s_phase s))
    | Some (Ended, _) => if held (s_phase s) then None else Some (Sys (del u (s_users s)) (s_phase s))
    end
  | Crash u =>
    match get u (s_users s) with
    | Some (Idle, EWork :: q) => Some (Sys (set u (Ended, q) (s_users s)) (s_phase s))
    | _ => None
    end
  | Shut =>
    match s_phase s with
    | Running => Some (Sys (s_users s) (Stopping (map fst (s_users s))))
    | Stopping [] => Some (Sys (s_users s) Waiting)
    | Stopping (u :: l) =>
      match get u (s_users s) with
      | Some (p, q) => if room q then Some (Sys (set u (p, q ++ [EStop]) (s_users s)) (Stopping l)) else None
      | None => None
      end
    | Waiting => match s_users s with [] => Some (Sys [] Closed) | _ => None end
    | Closed => None
    end
  end.

Fixpoint run (s : sys) (l : list label) : option sys :=
  match l with
  | [] => Some s
  | x :: l => match step s x with Some s' => run s' l | None => None end
  end.

Definition start (users : list N) : sys := Sys (map (fun u => (u, (Idle, []))) users) Running.
