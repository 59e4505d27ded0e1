(** Random tokens are non-empty strings of hexadecimal digits. *)
From Verif.Base Require Import Bytes.

Definition tokens_ok (tokens : list bytes) : Prop :=
  Forall (fun t => t <> [] /\ forall c, In c t -> is_digit c = true \/ In c (B "abcdef")) tokens.
