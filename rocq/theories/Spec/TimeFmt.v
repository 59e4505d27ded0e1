(** Times truncated to milliseconds, and the byte-wise order of texts. *)
From Verif.Base Require Import Bytes.
From Coq Require Import ZArith.
Open Scope Z_scope.

Definition millis (t : Z) : Z := t / 1000000 * 1000000.

(** 1 January of year 0 to 31 December of year 9999. *)
Definition in_years (t : Z) : Prop := -366 * 86400 * 1000000000 <= t < 3652059 * 86400 * 1000000000.

(** Byte-wise lexicographic order (SQLite's comparison of texts). *)
Inductive text_lt : bytes -> bytes -> Prop :=
| lt_prefix c s : text_lt [] (c :: s)
| lt_head c d s t : (code c < code d)%N -> text_lt (c :: s) (d :: t)
| lt_tail c s t : text_lt s t -> text_lt (c :: s) (c :: t).
