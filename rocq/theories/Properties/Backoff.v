(** Property C35. *)
From Coq Require Import ZArith List Lia.
From Verif.Model Require Import Backoff.
From Verif.Spec Require Import Backoff.
From Verif.Proof Require Backoff.
Import ListNotations.
Open Scope Z_scope.

(** C35: in any history of attempts and resets, the first attempt after a
    start or a reset waits zero; attempt k+1 waits min(2^k * min, max) plus the
    drawn jitter. int64 arithmetic never overflows. *)
Theorem C35_backoff_delays : forall min max jitter ops,
  0 < min -> min <= max -> 0 <= jitter -> 2 * max + jitter < 2 ^ 63 ->
  (forall r, In (BoNext r) ops -> jitter <> 0 -> 0 <= r < jitter) ->
  expected min max jitter 0 ops (bo_run (new_backoffer min max jitter) ops).
Proof. intros min max jitter ops H1 H2 H3 H4 H5. exact (Proof.Backoff.run_expected min max jitter ops H1 H2 H3 H4 H5 0 0%nat eq_refl). Qed.
Print Assumptions C35_backoff_delays.

(** C35: no delay is negative or exceeds the maximum plus the jitter, and the
    delays without jitter never decrease. *)
Theorem C35_backoff_bounded : forall min max jitter ops,
  0 < min -> min <= max -> 0 <= jitter -> 2 * max + jitter < 2 ^ 63 ->
  (forall r, In (BoNext r) ops -> jitter <> 0 -> 0 <= r < jitter) ->
  Forall (fun d => 0 <= d <= max + jitter) (bo_run (new_backoffer min max jitter) ops) /\
  (forall k, base_delay min max k <= base_delay min max (S k)).
Proof.
  intros min max jitter ops H1 H2 H3 H4 H5. split.
  - exact (Proof.Backoff.expected_all min max jitter H1 H2 H3 ops 0%nat _ H5 (C35_backoff_delays min max jitter ops H1 H2 H3 H4 H5)).
  - intros k. exact (proj2 (Proof.Backoff.base_bounds min max k H1 H2)).
Qed.
Print Assumptions C35_backoff_bounded.

(** The server's settings: 1 min, 10 min, jitter 1 min (server.go:28-30). *)
Example C35_nonvacuous :
  let s := 1000000000 in
  bo_run (new_backoffer (60 * s) (600 * s) (60 * s))
    [BoNext 0; BoNext s; BoNext 0; BoNext 0; BoNext (59 * s); BoNext 0; BoNext s; BoReset; BoNext 0; BoNext (7 * s)]
  = [0; 61 * s; 120 * s; 240 * s; 539 * s; 600 * s; 601 * s; 0; 67 * s] /\
  2 * (600 * s) + 60 * s < 2 ^ 63.
Proof. split; vm_compute; reflexivity. Qed.
