(** Model of the rate of outgoing messages: the goroutine of newConn (conn.go:128-190) with the limiter of
    golang.org/x/time/rate. Times and durations are in nanoseconds. Tokens are counted in nanoseconds too: one message
    costs the delay. The library computes with floating point numbers, here the arithmetic is exact. *)
From Coq Require Import ZArith List Bool.
Import ListNotations.
Local Open Scope Z_scope.

Record limiter := Limiter { l_tok : Z; l_last : Z }.

(** The messages of a connection: one that was taken from the queue, [gap] after the previous one was written, and
    that took [late] to write; or a change of conn.rateLimit (upstream.go:1007-1008, see Model/Isupport.v). *)
Inductive ev := Msg (gap late : Z) | Rate (on : bool).

(** A message written: whether the limit applied, when it was taken from the queue, allowed, and written. *)
Record sent := Sent { s_limited : bool; s_taken : Z; s_allowed : Z; s_written : Z }.

Section Rate.
  (** conn.go:112-116 (connOptions). A delay of zero is no limit (rate.Every). *)
  Variables delay burst : Z.

  (** rate.NewLimiter: the bucket is full. *)
  Definition new_limiter (now : Z) : limiter := Limiter (burst * delay) now.

  (** rate.Limiter.advance and reserveN for one token: when the message may be sent. *)
  Definition reserve (l : limiter) (now : Z) : limiter * Z :=
    let elapsed := now - (if now <? l_last l then now else l_last l) in
    let t := Z.min (burst * delay) (l_tok l + elapsed) - delay in
    (Limiter t now, if t <? 0 then now - t else now).

  Record cst := Cst { c_now : Z; c_rate : bool; c_lim : limiter }.
  (** conn.go:133-148. *)
  Definition new_conn (now : Z) : cst := Cst now true (new_limiter now).

  (** conn.go:146-172: one turn of the loop. *)
  Definition turn (c : cst) (e : ev) : cst * list sent :=
    match e with
    | Rate on => (Cst (c_now c) on (c_lim c), [])
    | Msg gap late =>
        let taken := c_now c + gap in
        let '(l, allowed) := if c_rate c && negb (delay =? 0) then reserve (c_lim c) taken else (c_lim c, taken) in
        (Cst (allowed + late) (c_rate c) l, [Sent (c_rate c) taken allowed (allowed + late)])
    end.
  Fixpoint turns (c : cst) (es : list ev) : cst * list sent :=
    match es with
    | [] => (c, [])
    | e :: es => let '(c, o) := turn c e in let '(c, os) := turns c es in (c, o ++ os)
    end.
End Rate.

(** server.go:36-37, upstream.go:349-352. *)
Definition upstream_delay : Z := 2 * 1000 * 1000 * 1000.
Definition upstream_burst : Z := 10.
