(** What C100 says: the moments at which a user's bouncer may be stopped. *)
From Verif.Base Require Import Bytes.
From Verif.Model Require Import Message CaseMap Roster.
From Verif.Model Require Robust.
From Verif.Model Require Import Crash.

(** A message of a client whose account is disabled, or that was never welcomed. *)
Definition unwelcomed (u : ust) (e : event) : Prop :=
  exists id v m c, e = EMessage id v m /\ In c (u_clients u) /\ d_id c = id /\ d_closed c = false /\ d_user c = false.

(** A PRIVMSG to the bouncer service twice. *)
Definition twice (u : ust) (e : event) : Prop :=
  exists id v m targets l1 a l2 b l3, e = EMessage id v m /\ m_command m = B "PRIVMSG" /\ hd_error (m_params m) = Some targets
    /\ split_on "," targets = l1 ++ a :: l2 ++ b :: l3
    /\ casemap (v_cm v) a = B "bouncerserv" /\ casemap (v_cm v) b = B "bouncerserv".

(** A network's detached channel of which the server has not sent all members. *)
Definition half_joined (n : nw) : Prop :=
  exists k name c h, w_conn n = Some k /\ cm_get (w_saved n) name = Some c /\ Robust.sv_detached c = true
    /\ cm_get (r_chans (k_ro k)) (Robust.sv_name c) = Some h /\ uh_complete h = false.
(** Commands that can attach a channel. *)
Definition attaching (u : ust) (e : event) : Prop :=
  (exists id v m, e = EMessage id v m /\ (m_command m = B "JOIN" \/ m_command m = B "PRIVMSG")) \/ (exists v words, e = ERun v words).
Definition halfway (u : ust) (e : event) : Prop :=
  attaching u e /\ exists n, (In n (u_nets u) \/ In n (u_gone u)) /\ half_joined n.

(** A WHO for a channel's name under which a user is filed, or for a channel with a
    member filed as somebody who is not a member. *)
Definition odd_who (u : ust) (e : event) : Prop :=
  exists id v m mask n k, e = EMessage id v m /\ m_command m = B "WHO" /\ hd_error (m_params m) = Some mask
    /\ (In n (u_nets u) \/ In n (u_gone u)) /\ w_conn n = Some k
    /\ (  (is_channel (k_ro k) mask = true /\ exists uu, cm_get (r_users (k_ro k)) mask = Some uu)
       \/ (exists h nick ms uu, cm_get (r_chans (k_ro k)) mask = Some h /\ In (nick, ms) (cm_entries (uh_members h))
             /\ cm_get (r_users (k_ro k)) nick = Some uu /\ cm_get (uh_members h) (uu_nick uu) = None)).

(** A server's acceptance of a login for a client that has begun another one. *)
Definition other_login (u : ust) (e : event) : Prop :=
  exists net n k q l c x, e = ELogin net true /\ (In n (u_nets u) \/ In n (u_gone u)) /\ w_conn n = Some k
    /\ In (B "AUTHENTICATE", q :: l) (k_pend k) /\ q_client q = d_id c
    /\ In c (u_clients u) /\ d_sasl c = Some x /\ x_plain x = false.

Definition bad_moment (u : ust) (e : event) : Prop :=
  unwelcomed u e \/ twice u e \/ halfway u e \/ odd_who u e \/ other_login u e.

(** The database numbers networks from 1. *)
Definition numbered (e : event) : Prop :=
  match e with EMessage _ v _ | EUpdate v | ERun v _ => v_id v <> 0%N | _ => True end.
