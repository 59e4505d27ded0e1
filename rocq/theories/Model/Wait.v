(** Model of who waits for whom: each user has a goroutine that reads a channel of
    events with room for 64, user.go:559, 640-890, and some commands make it wait
    for the goroutines of other users. A sequence of labels is an interleaving. *)
From Verif.Base Require Import Bytes.
Open Scope nat_scope.

(** What a message of a client, or a command to the bouncer service, does to others.
    [CLocal n]: nothing; [n] lines are printed. [CUpdate w]: "user update" of [w],
    service.go:1085-1135. [CRun w c]: "user run" of [c] for [w], 1232-1278. [CDelete
    w]: "user delete" of [w] with the token, 1175-1225. [CCast]: a message to the
    mask of the server, downstream.go:2405-2430. [CNotice]: "server notice",
    service.go:1577-1620. *)
Inductive cmd := CLocal (n : nat) | CUpdate (w : N) | CRun (w : N) (c : cmd) | CDelete (w : N) | CCast | CNotice.

(** Channels made for one command: by whom, and the how many-th. *)
Definition token : Type := (N * N)%type.
Definition teqb (a b : token) : bool := N.eqb (fst a) (fst b) && N.eqb (snd a) (snd b).

(** Events, user.go:43-107: a message of a client, what administrators ask for. *)
Inductive ev := ELocal (c : cmd) | EUpdate (t : token) | ERun (t : token) (c : cmd) | EStop | ECast.

(** What is waited for: the result of an update, the lines and the result of a
    command, the end of a goroutine. *)
Inductive wait := WDone (t : token) | WRun (t : token) | WStop (w : N).

(** Where a goroutine is. [ret]: [None] for a message of a client, whose context
    ends after ten seconds (downstream.go:632); [Some t] for an [ERun t], whose
    context does not end and whose result goes to [t] (user.go:849-876). *)
Inductive status :=
| Idle
| Exec (ret : option token) (c : cmd)
| Send (ret : option token) (w : N) (e : ev) (wt : wait)
| Wait (ret : option token) (w : N) (wt : wait)
| Put (t : token) (last : bool) (k : status)      (* sends a line, or the result, to [t] *)
| Cast (ret : option token) (safe : bool) (l : list N)   (* holds the lock of the server *)
| Gone.

(** [s_pc], [s_q]: the goroutine and the channel of each user; [s_lock]: who holds
    the lock of the server; [s_done]: updates with a result; [s_ch]: what is in the
    channels for lines, each with room for one; [s_seq]: channels made so far. *)
Record sys := Sys { s_pc : N -> status; s_q : N -> list ev; s_lock : option N; s_done : list token; s_ch : list (token * bool); s_seq : N -> N }.

Definition upd {A} (f : N -> A) (u : N) (a : A) : N -> A := fun x => if N.eqb x u then a else f x.
Definition set_pc s u p := Sys (upd (s_pc s) u p) (s_q s) (s_lock s) (s_done s) (s_ch s) (s_seq s).
Definition set_q s u l := Sys (s_pc s) (upd (s_q s) u l) (s_lock s) (s_done s) (s_ch s) (s_seq s).
Definition set_lock s l := Sys (s_pc s) (s_q s) l (s_done s) (s_ch s) (s_seq s).
Definition set_done s l := Sys (s_pc s) (s_q s) (s_lock s) l (s_ch s) (s_seq s).
Definition set_ch s l := Sys (s_pc s) (s_q s) (s_lock s) (s_done s) l (s_seq s).
Definition set_seq s u n := Sys (s_pc s) (s_q s) (s_lock s) (s_done s) (s_ch s) (upd (s_seq s) u n).

(** user.go:559. *)
Definition room (s : sys) (w : N) : bool := length (s_q s w) <? 64.
Definition push (s : sys) (w : N) (e : ev) : sys := set_q s w (s_q s w ++ [e]).

(** The end of a command. *)
Definition finish (ret : option token) : status := match ret with None => Idle | Some t => Put t true Idle end.
(** user.go:862-876: the lines, then the result. *)
Fixpoint prints (t : token) (n : nat) : status := match n with O => Put t true Idle | S n => Put t false (prints t n) end.

Definition is_gone (p : status) : bool := match p with Gone => true | _ => false end.

Section Wait.
  Variable users : list N.   (* Server.users; goroutines that have ended are taken out *)
  Definition running (s : sys) : list N := filter (fun w => negb (is_gone (s_pc s w))) users.

  (** The next step of the goroutine of [u]; [None] while it is blocked. *)
  Definition exec (s : sys) (u : N) (ret : option token) (c : cmd) : option sys :=
    let free k := match s_lock s with None => k | Some _ => None end in   (* Server.getUser, server.go:427-432 *)
    let known w k := if existsb (N.eqb w) (running s) then k else Some (set_pc s u (finish ret)) in
    let t := (u, s_seq s u) in
    let s' := set_seq s u (N.succ (s_seq s u)) in
    match c with
    | CLocal n => Some (set_pc s u (match ret with None => Idle | Some t => prints t n end))
    | CUpdate w =>
        if N.eqb w u then Some (set_pc s u (finish ret))
        else free (known w (Some (set_pc s' u (Send ret w (EUpdate t) (WDone t)))))
    | CRun w c =>
        if N.eqb w u then Some (set_pc s u (Exec ret c))
        else free (known w (Some (set_pc s' u (Send ret w (ERun t c) (WRun t)))))
    | CDelete w => free (known w (Some (set_pc s u (Send ret w EStop (WStop w)))))
    | CCast => free (Some (set_pc (set_lock s (Some u)) u (Cast ret false (running s))))
    | CNotice => free (Some (set_pc (set_lock s (Some u)) u (Cast ret true (running s))))
    end.
  Definition take (s : sys) (u : N) : option sys :=
    match s_q s u with
    | [] => None
    | e :: l =>
        let s := set_q s u l in
        match e with
        | ELocal c => Some (set_pc s u (Exec None c))
        | EUpdate t => Some (set_done s (t :: s_done s))
        | ERun t c => Some (set_pc s u (Exec (Some t) c))
        | EStop => Some (set_pc s u Gone)
        | ECast => Some s
        end
    end.
  Definition in_ch (s : sys) (t : token) : option bool := option_map snd (find (fun p => teqb (fst p) t) (s_ch s)).
  Definition drop_ch (s : sys) (t : token) : sys := set_ch s (filter (fun p => negb (teqb (fst p) t)) (s_ch s)).
  Definition go (s : sys) (u : N) : option sys :=
    match s_pc s u with
    | Gone => None
    | Idle => take s u
    | Exec ret c => exec s u ret c
    | Send ret w e wt => if room s w then Some (set_pc (push s w e) u (Wait ret w wt)) else None
    | Wait ret w (WDone t) => if existsb (teqb t) (s_done s) then Some (set_pc s u (finish ret)) else None
    | Wait ret w (WRun t) =>
        match in_ch s t with
        | None => None
        | Some true => Some (set_pc (drop_ch s t) u (finish ret))
        | Some false => Some (set_pc (drop_ch s t) u (match ret with None => Wait ret w (WRun t) | Some t' => Put t' false (Wait ret w (WRun t)) end))
        end
    | Wait ret w (WStop w') => if is_gone (s_pc s w') then Some (set_pc s u (finish ret)) else None
    | Put t last k => match in_ch s t with None => Some (set_pc (set_ch s ((t, last) :: s_ch s)) u k) | Some _ => None end
    | Cast ret safe [] => Some (set_pc (set_lock s None) u (finish ret))
    | Cast ret safe (w :: l) => if room s w then Some (set_pc (push s w ECast) u (Cast ret safe l)) else None
    end.

  (** The context of a message of a client ends: sending stops (service.go:1121-1127,
      1253-1257, user.go:1270-1277, service.go:1605-1611), waiting for lines and for
      the end of another goroutine too, waiting for the result of an update does not
      (service.go:1128). Deleting oneself has a context that does not end. *)
  Definition give_up (s : sys) (u : N) : option sys :=
    match s_pc s u with
    | Send None w _ (WStop _) => if N.eqb w u then None else Some (set_pc s u Idle)
    | Send None _ _ _ => Some (set_pc s u Idle)
    | Wait None _ (WRun _) => Some (set_pc s u Idle)
    | Wait None w (WStop _) => if N.eqb w u then None else Some (set_pc s u Idle)
    | Cast None true (_ :: l) => Some (set_pc s u (Cast None true l))
    | _ => None
    end.

  (** A client of [u] has sent a message (its connection waits for room,
      conn.go, server.go:508); a step; the end of a context; a panic of the goroutine
      (server.go:443-447). *)
  Inductive label := LPush (u : N) (c : cmd) | LGo (u : N) | LGiveUp (u : N) | LCrash (u : N).
  Definition step (s : sys) (l : label) : option sys :=
    match l with
    | LPush u c => if room s u then Some (push s u (ELocal c)) else None
    | LGo u => go s u
    | LGiveUp u => give_up s u
    | LCrash u => match s_pc s u with Exec _ (CLocal _) => Some (set_pc s u Gone) | _ => None end
    end.
  Fixpoint run (s : sys) (l : list label) : option sys :=
    match l with
    | [] => Some s
    | x :: l' => match step s x with Some s' => run s' l' | None => None end
    end.

  Definition start : sys := Sys (fun _ => Idle) (fun _ => []) None [] [] (fun _ => 0%N).
End Wait.
