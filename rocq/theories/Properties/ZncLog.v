(** Properties C17 and C54. *)
From Verif.Base Require Import Bytes.
From Verif.Model Require Import Message ZncLog.
From Verif.Spec Require Import ZncLog.
From Verif.Proof Require ZncLog.
From Coq Require Import ZArith.

(** C17: a message written to the log of the channel or peer [entity] and read
    back has the same command, sender nick, text and time of day. The target is
    [entity], or the own nick for a message the peer sent. ACTIONs must be in
    their usual form. *)
Theorem C17_message_roundtrip_partial : forall own entity events p target text h m s,
  clock h m s -> word (p_name p) -> chat_text text ->
  unmarshal_line own entity events (marshal_line p (B "PRIVMSG") [target; text] h m s) =
    Some (Some (LogMsg (Prefix (p_name p) [] []) (B "PRIVMSG")
      [if beqb entity (p_name p) then own else entity; text], (h, m, s))).
Proof. exact Proof.ZncLog.privmsg_roundtrip. Qed.
Print Assumptions C17_message_roundtrip_partial.

(** C17: notices, for all texts. *)
Theorem C17_notice_roundtrip : forall own entity events p target text h m s,
  clock h m s -> word (p_name p) ->
  unmarshal_line own entity events (marshal_line p (B "NOTICE") [target; text] h m s) =
    Some (Some (LogMsg (Prefix (p_name p) [] []) (B "NOTICE")
      [if beqb entity (p_name p) then own else entity; text], (h, m, s))).
Proof. exact Proof.ZncLog.notice_roundtrip. Qed.
Print Assumptions C17_notice_roundtrip.

(** The missing part of C17 is false: an ACTION in another form is read back
    with a different text. *)
Theorem C17_unusual_action_refuted : exists own entity p text x,
  word (p_name p) /\
  unmarshal_line own entity true (marshal_line p (B "PRIVMSG") [entity; text] 1 2 3) = Some (Some x) /\
  nth 1 (lm_params (fst x)) [] <> text.
Proof.
  exists (B "me"), (B "#chan"), (Prefix (B "bob") [] []), ("001"%char :: B "action waves"),
    (LogMsg (Prefix (B "bob") [] []) (B "PRIVMSG") [B "#chan"; "001"%char :: B "ACTION waves" ++ ["001"%char]], (1, 2, 3)%Z).
  split; [vm_compute; intuition discriminate|]. split; [vm_compute; reflexivity|]. vm_compute. discriminate.
Qed.
Print Assumptions C17_unusual_action_refuted.

(** C54: events written to the log of [entity] are read back with the same
    command, nick and parameters; user and host are kept for JOIN, PART and
    QUIT. An empty reason is the same as no reason. *)
Definition optional (reason : list bytes) : list bytes :=
  match reason with [] :: _ => [] | r :: _ => [r] | [] => [] end.

Theorem C54_event_roundtrip : forall own entity p h m s,
  clock h m s -> word (p_name p) -> ~ In ":"%char (p_name p) ->
  word (p_user p) -> word (p_host p) -> ~ In "@"%char (p_user p) ->
  let back c ps := unmarshal_line own entity true (marshal_line p c ps h m s) in
  let full c ps := Some (Some (LogMsg p c ps, (h, m, s))) in
  let nick c ps := Some (Some (LogMsg (Prefix (p_name p) [] []) c ps, (h, m, s))) in
  back (B "JOIN") [entity] = full (B "JOIN") [entity] /\
  (forall r, back (B "PART") (entity :: r) = full (B "PART") (entity :: optional r)) /\
  (forall r, back (B "QUIT") r = full (B "QUIT") (optional r)) /\
  (forall n, back (B "NICK") [n] = nick (B "NICK") [n]) /\
  (forall n r, word n -> ~ In ":"%char n -> back (B "KICK") (entity :: n :: r) = nick (B "KICK") (entity :: n :: optional r)) /\
  (forall t, back (B "TOPIC") [entity; t] = nick (B "TOPIC") [entity; t]) /\
  (forall ms, ms <> [] -> Forall word ms -> back (B "MODE") (entity :: ms) = nick (B "MODE") (entity :: ms)).
Proof.
  intros own entity p h m s Hc Hn Hcol Hu Hh Hat. cbv zeta.
  assert (O : forall r, opt_param (param 0 r) = optional r) by (intros [|[|c x] r]; reflexivity).
  split; [apply Proof.ZncLog.join_roundtrip; assumption|].
  split; [intros r; rewrite <- O; apply Proof.ZncLog.part_roundtrip; assumption|].
  split; [intros r; rewrite <- O; apply Proof.ZncLog.quit_roundtrip; assumption|].
  split; [intros n; apply Proof.ZncLog.nick_roundtrip; assumption|].
  split; [intros n r H1 H2; rewrite <- O; apply Proof.ZncLog.kick_roundtrip; assumption|].
  split; [intros t; apply Proof.ZncLog.topic_roundtrip; assumption|].
  intros ms H1 H2. apply Proof.ZncLog.mode_roundtrip; assumption.
Qed.
Print Assumptions C54_event_roundtrip.

(** C54: when events are not asked for, event lines are skipped. *)
Theorem C54_events_skipped : forall own entity p command params h m s,
  clock h m s ->
  (exists e rest, (command = B "JOIN" /\ params = [e]) \/ (In command [B "PART"; B "MODE"] /\ params = e :: rest)
     \/ (command = B "QUIT" /\ params = rest) \/ (command = B "NICK" /\ params = [e])
     \/ (exists n, (command = B "KICK" /\ params = e :: n :: rest) \/ (command = B "TOPIC" /\ params = [e; n]))) ->
  unmarshal_line own entity false (marshal_line p command params h m s) = Some None.
Proof.
  intros own entity p c ps h m s Hc (e & r & H).
  assert (L : exists l, Proof.ZncLog.event_line p c ps l).
  { destruct H as [[-> ->]|[[[<-|[<-|[]]] ->]|[[-> ->]|[[-> ->]|[n [[-> ->]|[-> ->]]]]]]]; eexists; constructor. }
  destruct L as [l Hl]. exact (Proof.ZncLog.event_skipped own entity p c ps l h m s Hc Hl).
Qed.
Print Assumptions C54_events_skipped.

Example C17_C54_nonvacuous :
  let p := Prefix (B "bob") (B "~b") (B "host.example") in
  marshal_line p (B "PRIVMSG") [B "#c"; B "<x> *** hi"] 9 5 59 = B "[09:05:59] <bob> <x> *** hi" /\
  unmarshal_line (B "me") (B "#c") true (B "[09:05:59] <bob> <x> *** hi") =
    Some (Some (LogMsg (Prefix (B "bob") [] []) (B "PRIVMSG") [B "#c"; B "<x> *** hi"], (9, 5, 59)%Z)) /\
  unmarshal_line (B "me") (B "bob") true (marshal_line p (B "PRIVMSG") [B "me"; "001"%char :: B "ACTION hi" ++ ["001"%char]] 0 0 0) =
    Some (Some (LogMsg (Prefix (B "bob") [] []) (B "PRIVMSG") [B "me"; "001"%char :: B "ACTION hi" ++ ["001"%char]], (0, 0, 0)%Z)) /\
  marshal_line p (B "PART") [B "#c"; B "bye (all)"] 1 2 3 = B "[01:02:03] *** Parts: bob (~b@host.example) (bye (all))" /\
  chat_text (B "<x> *** hi").
Proof.
  cbv zeta. split; [vm_compute; reflexivity|]. split; [vm_compute; reflexivity|]. split; [vm_compute; reflexivity|].
  split; [vm_compute; reflexivity|]. apply t_plain. intros t H. discriminate H.
Qed.
