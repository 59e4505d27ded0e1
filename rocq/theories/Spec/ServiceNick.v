(** The nickname of the service. *)
From Verif.Base Require Import Bytes.
From Verif.Model Require Import Message ServiceNick.
From Coq Require Import NArith.
Open Scope nat_scope.

(** A spelling of BouncerServ. *)
Definition spelled (x : bytes) : Prop := to_lower x = B "bouncerserv".

Definition textual (m : message) : Prop := In (m_command m) [B "PRIVMSG"; B "NOTICE"; B "TAGMSG"].
Definition complete (m : message) : Prop := exists t r, m_params m = t :: r /\ (m_command m = B "TAGMSG" \/ r <> []).
Definition source (server : bytes) (m : message) : bytes := match m_prefix m with Some p => p_name p | None => server end.
Definition target (m : message) : bytes := hd [] (m_params m).
(** [t] without leading sigils. *)
Definition bare (sigils t t' : bytes) : Prop :=
  exists pre, t = pre ++ t' /\ (forall c, In c pre -> In c sigils) /\ (forall c r, t' = c :: r -> ~ In c sigils).
(** The server is named if there is no source. *)
Definition sourced (server : bytes) (m : message) : message :=
  Message (m_tags m) (Some (match m_prefix m with Some p => p | None => Prefix server [] [] end)) (m_command m) (m_params m).

Definition strace := list (sev * list sout).
Inductive sruns (ok : sev -> Prop) (s0 : sst) : strace -> sst -> Prop :=
| SNil : sruns ok s0 [] s0
| SCons tr s e s' o : sruns ok s0 tr s -> ok e -> sstep s e = (s', o) -> sruns ok s0 ((e, o) :: tr) s'.

(** The service is not told to use its own nickname. *)
Definition polite (e : sev) : Prop :=
  match e with
  | SUserNick nick | SNetNick _ nick | SNetNew nick => ~ spelled nick
  | _ => True
  end.

(** The server of a network says that this is the nickname of the user. *)
Definition gives (e : sev) (nick : bytes) : Prop :=
  match e with
  | SUp _ n _ _ _ => n = nick
  | SMsg _ m _ => m_command m = B "NICK" /\ target m = nick
  | _ => False
  end.

(** The same as a test, and the messages to servers and for the service among the
    effects. *)
Definition spelledb (x : bytes) : bool := beqb (to_lower x) (B "bouncerserv").
Definition servers (o : list sout) : list (nat * message) := flat_map (fun x => match x with SServer n m => [(n, m)] | _ => [] end) o.
Definition runs (o : list sout) : list (N * bytes) := flat_map (fun x => match x with SRun c t => [(c, t)] | _ => [] end) o.
