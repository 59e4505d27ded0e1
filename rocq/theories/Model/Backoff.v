(** Model of the reconnection backoff, rate.go. Durations are int64 counts of
    nanoseconds. *)
From Coq Require Import ZArith List.
Import ListNotations.
Open Scope Z_scope.

(** Two's complement wrap-around of int64 arithmetic. *)
Definition wrap64 (z : Z) : Z := (z + 2 ^ 63) mod 2 ^ 64 - 2 ^ 63.

(** rate.go:9-12. *)
Record backoffer := Backoffer { bo_min : Z; bo_max : Z; bo_jitter : Z; bo_n : Z }.

(** rate.go:14-16. *)
Definition new_backoffer (min max jitter : Z) : backoffer := Backoffer min max jitter 0.

(** rate.go:18-20. *)
Definition bo_reset (b : backoffer) : backoffer := Backoffer (bo_min b) (bo_max b) (bo_jitter b) 0.

(** rate.go:22-40. [r] is the value drawn by rand.Int63n, if it is called. *)
Definition bo_next (b : backoffer) (r : Z) : Z * backoffer :=
  if bo_n b =? 0 then (0, Backoffer (bo_min b) (bo_max b) (bo_jitter b) 1)
  else
    let d := wrap64 (bo_n b * bo_min b) in
    let '(d, n) := if d >? bo_max b then (bo_max b, bo_n b) else (d, wrap64 (bo_n b * 2)) in
    let d := if bo_jitter b =? 0 then d else wrap64 (d + r) in
    (d, Backoffer (bo_min b) (bo_max b) (bo_jitter b) n).

Inductive bo_op := BoNext (draw : Z) | BoReset.

(** A history of calls; the delays returned by Next, in order. *)
Fixpoint bo_run (b : backoffer) (ops : list bo_op) : list Z :=
  match ops with
  | [] => []
  | BoNext r :: ops' => let '(d, b') := bo_next b r in d :: bo_run b' ops'
  | BoReset :: ops' => bo_run (bo_reset b) ops'
  end.
