(** Names that need no escaping. *)
From Verif.Base Require Import Bytes.

Definition plain (s : bytes) : Prop :=
  s <> [] /\ s <> B "." /\ s <> B ".." /\ ~ In "/"%char s /\ ~ In "\"%char s.
