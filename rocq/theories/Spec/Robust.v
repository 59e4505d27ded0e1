(** What a server must not send for the bouncer to keep running, and what may
    go wrong at a bad moment, in terms of the messages on the wire. *)
From Verif.Base Require Import Bytes.
From Verif.Model Require Import Message CaseMap Roster Robust.
Open Scope nat_scope.

(** A source that is written has a name. *)
Definition sourced (m : message) : Prop := forall p, m_prefix m = Some p -> p_name p <> [].

(** The welcome and changes of nickname give a nickname. *)
Definition nicknamed (m : message) : Prop :=
  (m_command m = B "001" \/ m_command m = B "NICK") -> forall n l, m_params m = n :: l -> n <> [].

(** A reply to an extended WHO for [fields] whose nickname is empty. *)
Definition nick_pos (fields : bytes) : nat := S (length (filter (fun k => amem k fields) (B "tcuihs"))).
Definition blank_whox (m : message) (s : pst) : Prop :=
  m_command m = B "354" /\
  exists q rest options, st_pend s (B "WHO") = q :: rest /\ nth_error (pd_params q) 1 = Some options /\
    nth_error (m_params m) (nick_pos (fst (Whox.parse_whox_options options))) = Some [].

(** A text when a detached channel that takes itself back is being joined and
    its members are not known yet. *)
Definition half_joined (m : message) (s : pst) : Prop :=
  (m_command m = B "PRIVMSG" \/ m_command m = B "NOTICE") /\ st_clients s <> [] /\
  exists name c u, cm_get (st_saved s) name = Some c /\ sv_detached c = true /\
    (sv_reattach c = FMessage \/ sv_reattach c = FHighlight) /\
    cm_get (r_chans (st_ro s)) (sv_name c) = Some u /\ uh_complete u = false.

(** The server accepts the login of a client that has begun another. *)
Definition login_restarted (m : message) (s : pst) : Prop :=
  m_command m = B "903" /\
  exists q rest c, st_pend s (B "AUTHENTICATE") = q :: rest /\ In c (st_clients s) /\ pc_id c = pd_client q /\ pc_sasl c = Some false.

Definition bad_moment (m : message) (s : pst) : Prop := blank_whox m s \/ half_joined m s \/ login_restarted m s.

Definition dead (o : life) : Prop := o = UserStopped \/ o = ProcessDown.

(** The lines of a run that are messages. *)
Definition lines (l : list pevent) : list bytes := flat_map (fun e => match e with ELine x => [x] | _ => [] end) l.
