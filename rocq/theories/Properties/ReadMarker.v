(** Property C29. *)
From Verif.Base Require Import Bytes.
From Verif.Model Require Import CaseMap TimeFmt ReadMarker.
From Verif.Spec Require Import TimeFmt ReadMarker.
From Verif.Proof Require ReadMarker.
From Coq Require Import ZArith Lia.
Open Scope Z_scope.

(** C29: whatever the server reports, to anyone and for any reason, is the latest of the times that
    clients set for the target, none of which is in the future of its command. *)
Theorem C29_reports_maximum : forall cm es e c cmd target text,
  Forall clock_ok (es ++ [e]) ->
  In (Report c cmd target text) (snd (mstep cm (mrun cm es) e)) ->
  casemap (cm (ev_net e)) target <> B "bouncerserv" ->
  exists v, marker cm (ev_net e) (casemap (cm (ev_net e)) target) (es ++ [e]) v /\ shown v text.
Proof. exact Proof.ReadMarker.reports. Qed.
Print Assumptions C29_reports_maximum.

(** C29: the marker never goes back, and does not exceed the time of the command that set it. *)
Theorem C29_forward_only : forall cm net t es e es' v v',
  Forall clock_ok (es ++ e :: es') ->
  marker cm net t es v -> marker cm net t (es ++ e :: es') v' ->
  v <= v' /\ (v < v' -> exists x, In x (e :: es') /\ ev_net x = net /\ v' <= ev_now x).
Proof.
  intros cm net t es e es' v v' _ (A1 & A2 & A3) (B1 & B2 & B3). split.
  - destruct A2 as [->|(x & X1 & X2)]; [exact B1|]. apply (B3 x v); [apply in_app_iff; left; exact X1|exact X2].
  - intros L. destruct B2 as [->|(x & X1 & X2)]; [lia|]. apply in_app_iff in X1 as [X1|X1]; [specialize (A3 x v' X1 X2); lia|].
    exists x. split; [exact X1|]. apply Proof.ReadMarker.sets_inv in X2 as (? & ? & ? & ts & _ & _ & X3 & _ & _ & _ & _ & ->).
    split; [exact X3|]. pose proof (Proof.ReadMarker.millis_le (Z.min ts (ev_now x))). lia.
Qed.
Print Assumptions C29_forward_only.

(** C29: an advance is told to every connection of the network that has one of the two
    capabilities. *)
Theorem C29_advance_broadcast : forall cm es e net t v v',
  Forall clock_ok (es ++ [e]) -> t <> B "bouncerserv" ->
  marker cm net t es v -> marker cm net t (es ++ [e]) v' -> v < v' ->
  exists target text, casemap (cm net) target = t /\ shown v' text /\ ev_net e = net /\
    forall c, In c (ev_conns e) ->
      (mc_marker c = true -> In (Report (mc_id c) (B "MARKREAD") target text) (snd (mstep cm (mrun cm es) e))) /\
      (mc_marker c = false -> mc_read c = true -> In (Report (mc_id c) (B "READ") target text) (snd (mstep cm (mrun cm es) e))).
Proof.
  intros cm es e net t v v' C N M M' L. destruct (Proof.ReadMarker.advances cm es e net t v v' C N M M' L) as (target & text & A & B & D & F).
  exists target, text. split; [exact A|]. split; [exact B|]. split; [exact D|]. intros c Hc. specialize (F c Hc). unfold report in F. split.
  - intros E. rewrite E in F. apply F. left; reflexivity.
  - intros E1 E2. rewrite E1, E2 in F. apply F. left; reflexivity.
Qed.
Print Assumptions C29_advance_broadcast.

(** C29: a well-formed command is answered, with the marker (by C29_reports_maximum). *)
Theorem C29_answered : forall cm es e cmd target criteria c,
  Forall clock_ok (es ++ [e]) ->
  ev_body e = MarkRead cmd target criteria -> casemap (cm (ev_net e)) target <> B "bouncerserv" ->
  criteria = [] \/ (exists text ts, criteria = B "timestamp=" ++ text /\ parse_time text = Some ts) ->
  ev_get e = true -> ev_store e = true -> In c (ev_conns e) -> mc_id c = mc_id (ev_from e) -> mc_marker c = true ->
  exists text, In (Report (mc_id c) (B "MARKREAD") target text) (snd (mstep cm (mrun cm es) e)).
Proof.
  intros cm es e cmd target criteria c C Eb N Hc Eg Es Ic Id Mk.
  destruct (Proof.ReadMarker.answers cm es e cmd target criteria c C Eb N Hc Eg Es Ic Id) as [text F].
  exists text. unfold report in F. rewrite Mk in F. apply F. left; reflexivity.
Qed.
Print Assumptions C29_answered.

(** Two clients; the second command is older, the third one in the future. *)
Definition ex_c1 := Mconn 1 true false.
Definition ex_c2 := Mconn 2 false true.
Definition ex_now : Z := (62135596800 + 1709210096) * 1000000000 + 789654321.
Definition ex_cm (net : Z) := CmRFC1459.
Definition ex_mark c crit := Mev 1 c [ex_c1; ex_c2] ex_now true true (MarkRead (B "MARKREAD") (B "#Foo[]") crit).
Definition ex_es := [ex_mark ex_c1 (B "timestamp=2024-02-29T12:00:00.000Z"); ex_mark ex_c2 (B "timestamp=2024-02-29T11:00:00.000Z")].

Example C29_nonvacuous :
  Forall clock_ok (ex_es ++ [ex_mark ex_c2 (B "timestamp=2025-01-01T00:00:00.000Z")]) /\
  casemap (ex_cm 1) (B "#FOO{}") = casemap (ex_cm 1) (B "#Foo[]") /\
  snd (mstep ex_cm (mrun ex_cm ex_es) (ex_mark ex_c2 [])) = [Report 2 (B "READ") (B "#Foo[]") (B "timestamp=2024-02-29T12:00:00.000Z")] /\
  snd (mstep ex_cm (mrun ex_cm ex_es) (Mev 1 ex_c1 [] ex_now true true (Forward (B "#foo{}")))) =
    [Report 1 (B "MARKREAD") (B "#foo{}") (B "timestamp=2024-02-29T12:00:00.000Z")] /\
  snd (mstep ex_cm (mrun ex_cm ex_es) (ex_mark ex_c2 (B "timestamp=2025-01-01T00:00:00.000Z"))) =
    [Report 1 (B "MARKREAD") (B "#Foo[]") (B "timestamp=2024-02-29T12:34:56.789Z");
     Report 2 (B "READ") (B "#Foo[]") (B "timestamp=2024-02-29T12:34:56.789Z")].
Proof.
  split.
  { repeat constructor; unfold clock_ok, in_years; cbn [ev_now ex_mark]; vm_compute; discriminate. }
  vm_compute. repeat split; reflexivity.
Qed.
