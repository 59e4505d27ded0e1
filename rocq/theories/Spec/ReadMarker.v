(** What the read marker of a target is: the latest time that a client set. *)
From Verif.Base Require Import Bytes.
From Verif.Model Require Import CaseMap TimeFmt ReadMarker.
From Verif.Spec Require Import TimeFmt.
From Coq Require Import ZArith.
Open Scope Z_scope.

(** The command sets the marker of the target [t] (folded) of the network [net] to [v]: a time
    given by the client, but not in the future, in milliseconds. *)
Inductive sets (cm : Z -> casemapping) (net : Z) (t : bytes) : mev -> Z -> Prop :=
| Sets e cmd target text ts :
    ev_body e = MarkRead cmd target (B "timestamp=" ++ text) -> parse_time text = Some ts ->
    ev_net e = net -> casemap (cm net) target = t -> t <> B "bouncerserv" ->
    ev_get e = true -> ev_store e = true ->
    sets cm net t e (millis (Z.min ts (ev_now e))).

(** [v] is the marker after the commands [es]; 0 is none. *)
Definition marker (cm : Z -> casemapping) (net : Z) (t : bytes) (es : list mev) (v : Z) : Prop :=
  0 <= v /\ (v = 0 \/ exists e, In e es /\ sets cm net t e v) /\
  forall e w, In e es -> sets cm net t e w -> w <= v.

(** How it is shown. *)
Definition shown (v : Z) (text : bytes) : Prop :=
  (v = 0 /\ text = B "*") \/ (v <> 0 /\ text = B "timestamp=" ++ format_time v).

(** The clock is not before the second millisecond of year 1. *)
Definition clock_ok (e : mev) : Prop := 1000000 <= ev_now e /\ in_years (ev_now e).
