(** What a quoted command is, and which network it is for. *)
From Verif.Base Require Import Bytes.
From Verif.Model Require Import Quote.

(** A command to write: it begins with its name, without tags or prefix, and is on one
    line. *)
Definition command (raw : bytes) : Prop :=
  (exists c r, raw = c :: r /\ ~ In c [" "; ":"; "@"]%char) /\ ~ In "010"%char raw /\ ~ In "013"%char raw.

(** The network called [name] in listings: by its name, or by its address if it has
    none (database/database.go:180-185). *)
Definition listed (name : bytes) (n : qnet) : Prop := q_name n = name /\ name <> [] \/ q_name n = [] /\ q_addr n = name.

(** What user.go:1041-1053 demands of the networks of a user. *)
Definition listed_apart (nets : list qnet) : Prop :=
  (forall i j a b name, nth_error nets i = Some a -> nth_error nets j = Some b -> listed name a -> listed name b -> i = j) /\
  (forall n name r, In n nets -> listed name n -> name <> [] /\ name <> "-"%char :: r).

(** No network is called like the address of another. *)
Definition no_mixing (nets : list qnet) : Prop :=
  forall i j a b, nth_error nets i = Some a -> nth_error nets j = Some b -> listed (q_addr b) a -> i = j.
