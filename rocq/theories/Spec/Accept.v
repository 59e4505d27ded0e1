(** What it is to keep accepting connections. *)
From Verif.Base Require Import Bytes.
From Verif.Model Require Import Accept.
From Coq Require Import NArith.

(** How many temporary errors there were just now. *)
Fixpoint lately (l : list outcome) (k : nat) : nat :=
  match l with [] => k | Temporary :: l => lately l (S k) | _ :: l => lately l O end.

(** What is done about an outcome after [past]. *)
Definition answer (past : list outcome) (o : outcome) : act :=
  match o with
  | Conn c => Handle c
  | Temporary => Sleep (N.min 1000 (5 * 2 ^ N.of_nat (lately past 0)))
  | IsClosed => Return true
  | Fatal => Return false
  end.
Definition goes_on (o : outcome) : Prop := match o with Conn _ | Temporary => True | _ => False end.
