(** What the delays should be. *)
From Coq Require Import ZArith List.
From Verif.Model Require Import Backoff.
Import ListNotations.
Open Scope Z_scope.

(** Delay before attempt [k] (counted from 0 since the start or the last
    success), without jitter. *)
Definition base_delay (min max : Z) (k : nat) : Z :=
  match k with
  | O => 0
  | S k' => Z.min (2 ^ Z.of_nat k' * min) max
  end.

(** [expected k ops ds]: [ds] are allowed delays for the calls [ops] when [k]
    attempts were made already. *)
Fixpoint expected (min max jitter : Z) (k : nat) (ops : list bo_op) (ds : list Z) : Prop :=
  match ops, ds with
  | [], [] => True
  | BoReset :: ops', _ => expected min max jitter 0 ops' ds
  | BoNext r :: ops', d :: ds' =>
      d = base_delay min max k + (if Nat.eqb k 0 then 0 else if jitter =? 0 then 0 else r)
      /\ expected min max jitter (S k) ops' ds'
  | _, _ => False
  end.
