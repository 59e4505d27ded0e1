(** Model of how a connection gets its nickname: the fallback while registering
    (upstream.go:1818-1849, 2020-2045) and the later attempts to get the wanted
    one (upstream.go:229-237, 923-929, 1027-1048, 1083-1103, 1653-1686,
    2319-2381, downstream.go:1801-1840 and user.go:847-848). *)
From Verif.Base Require Import Bytes.
From Verif.Model Require Import Message CaseMap Modes Roster.
Open Scope nat_scope.

(** upstream.go:190-237, the parts in use. [n_want] is database.GetNick of the
    network (database/database.go:207-215), which has a value. [n_timer] is
    regainNickTimer with the nickname its function has captured; the case
    mapping is fixed. The backoff is set and cleared with the timer. *)
Record nst := Nst { n_cm : casemapping; n_want : bytes; n_reg : bool; n_nick : bytes; n_has : bool;
  n_pend : bytes; n_timer : option bytes; n_motd : bool; n_monitor : bool }.
Definition with_reg (s : nst) n := Nst (n_cm s) (n_want s) true n (n_has s) (n_pend s) (n_timer s) (n_motd s) (n_monitor s).
Definition with_name (s : nst) n := Nst (n_cm s) (n_want s) (n_reg s) n (n_has s) (n_pend s) (n_timer s) (n_motd s) (n_monitor s).
Definition with_has (s : nst) b := Nst (n_cm s) (n_want s) (n_reg s) (n_nick s) b (n_pend s) (n_timer s) (n_motd s) (n_monitor s).
Definition with_pend (s : nst) p := Nst (n_cm s) (n_want s) (n_reg s) (n_nick s) (n_has s) p (n_timer s) (n_motd s) (n_monitor s).
Definition with_timer (s : nst) t := Nst (n_cm s) (n_want s) (n_reg s) (n_nick s) (n_has s) (n_pend s) t (n_motd s) (n_monitor s).
Definition with_motd (s : nst) := Nst (n_cm s) (n_want s) (n_reg s) (n_nick s) (n_has s) (n_pend s) (n_timer s) true (n_monitor s).
Definition with_monitor (s : nst) b := Nst (n_cm s) (n_want s) (n_reg s) (n_nick s) (n_has s) (n_pend s) (n_timer s) (n_motd s) b.
Definition with_want (s : nst) w := Nst (n_cm s) w (n_reg s) (n_nick s) (n_has s) (n_pend s) (n_timer s) (n_motd s) (n_monitor s).

(** user.go:196-198 (equalCasemap). *)
Definition same_name (s : nst) (a b : bytes) : bool := beqb (casemap (n_cm s) a) (casemap (n_cm s) b).
Definition ours (s : nst) (n : bytes) : bool := same_name s (n_nick s) n.

(** What comes out: a NICK sent to the server, a message passed on to clients, a
    registrationError (the connection is given up), another error, a panic. *)
Inductive nout := OAsk (nick : bytes) | OForward (command : bytes) (params : list bytes) | OGiveUp | OBad | OPanic.

(** upstream.go:350-373 and 2020-2041: a new connection asks for the wanted
    nickname. *)
Definition new_nst (cm : casemapping) (want : bytes) : nst * list nout :=
  (Nst cm want false want true [] None false false, [OAsk want]).

(** upstream.go:2329-2354 (startRegainNickTimer). *)
Definition start_regain (s : nst) : nst * list nout :=
  match n_timer s with
  | Some _ => (s, [OPanic])
  | None => if ours s (n_want s) then (s, []) else (with_timer s (Some (n_want s)), [])
  end.

(** upstream.go:2319-2327 (stopRegainNickTimer). *)
Definition stop_regain (s : nst) : nst := with_timer s None.

(** upstream.go:2356-2381 (tryRegainNick), for eventTryRegainNick. *)
Definition try_regain (nick : bytes) (s : nst) : nst * list nout :=
  match n_timer s with
  | None => (s, [])
  | Some _ =>
      if negb (beqb (n_want s) nick) || ours s (n_want s) then (stop_regain s, [])
      else if nonempty (n_pend s) then (s, [])
      else (with_pend s (n_want s), [OAsk (n_want s)])
  end.

(** upstream.go:1845-1849. *)
Definition refused (s : nst) (command : bytes) (params : list bytes) : nst * list nout :=
  if n_reg s then (s, [OForward command params]) else (s, [OGiveUp]).

(** handleMessage for the messages that matter here; [from] is the name of the
    prefix. *)
Definition on_message (c from : bytes) (params : list bytes) (s : nst) : nst * list nout :=
  if beqb c (B "001") then (* RPL_WELCOME, 923-929 *)
    match params with
    | n :: _ => (with_reg s n, [])
    | [] => (s, [OBad])
    end
  else if beqb c (B "376") || beqb c (B "422") then (* RPL_ENDOFMOTD, ERR_NOMOTD, 1027-1048 *)
    if n_motd s then (s, [OForward c params])
    else
      let s := with_motd s in
      if n_monitor s then (s, []) else start_regain s
  else if beqb c (B "NICK") then (* 1083-1103, 1119-1125 *)
    match params with
    | new :: _ =>
        if ours s from then
          let s := with_name s new in
          let s := if same_name s (n_pend s) new then stop_regain (with_pend s []) else s in
          let s := if same_name s (n_want s) new then with_has s true else s in
          (s, [])
        else (s, [OForward c params])
    | [] => (s, [OBad])
    end
  else if beqb c (B "731") then (* RPL_MONOFFLINE, 1653-1686; the relaying is in Model/Monitor.v *)
    match params with
    | _ :: targets :: _ =>
        if negb (ours s (n_want s)) && negb (n_has s) && existsb (fun x => same_name s (prefix_name x) (n_want s)) (split_on "," targets)
        then (s, [OAsk (n_want s)]) else (s, [])
    | _ => (s, [OBad])
    end
  else if beqb c (B "433") then (* ERR_NICKNAMEINUSE, 1818-1849 *)
    if negb (n_reg s) && (length (n_nick s) + 1 <? 30) then
      let n := n_nick s ++ B "_" in
      (with_has (with_name s n) false, [OAsk n])
    else
      match params with
      | _ :: failed :: _ =>
          if same_name s (n_pend s) failed then (with_pend s [], []) else refused s c params
      | _ => (s, [OBad])
      end
  else if bmem c [B "464"; B "432"; B "436"; B "437"; B "463"; B "465"] then (* 1845-1849 *)
    refused s c params
  else (s, []).

Inductive nin :=
| NMsg (command from : bytes) (params : list bytes)
| NIsupport (monitor : bool) (* upstream.go:951-1017: whether MONITOR is among the parameters *)
| NTick (nick : bytes) (* user.go:847-848 *)
| NWant (nick : bytes). (* downstream.go:1801-1840: NICK by a client of the network, accepted by the checks *)

Definition nstep (i : nin) (s : nst) : nst * list nout :=
  match i with
  | NMsg c from params => on_message c from params s
  | NIsupport b => (with_monitor s b, [])
  | NTick nick => try_regain nick s
  | NWant nick => (with_want s nick, [OAsk nick])
  end.

Fixpoint nsteps (l : list nin) (s : nst) : nst * list nout :=
  match l with
  | [] => (s, [])
  | i :: l => let '(s, o) := nstep i s in let '(s, o') := nsteps l s in (s, o ++ o')
  end.

Definition asked (o : list nout) : list bytes := flat_map (fun x => match x with OAsk n => [n] | _ => [] end) o.
