(** One process at a time. *)
From Verif.Base Require Import Bytes.
From Verif.Model Require Import Vapid.
From Coq Require Import NArith.

(** A process is started only when none is running. *)
Fixpoint one_at_a_time (s : st) (ops : list op) : Prop :=
  match ops with
  | [] => True
  | o :: ops => match o with Begin _ _ => v_procs s = [] | _ => True end /\ one_at_a_time (fst (step s o)) ops
  end.

(** Clients are shown one key, now and ever; everything sent is signed with that key
    and the private key it was made with; nothing is unsent for want of the key. *)
Definition one_key (ops : list op) (outs : list out) : Prop :=
  (forall p q a b, In (Shown p a) outs -> In (Shown q b) outs -> a = b) /\
  (forall p q a id k, In (Shown p a) outs -> In (Signed q id k) outs -> fst k = a) /\
  (forall p q id id' k k', In (Signed p id k) outs -> In (Signed q id' k') outs -> k = k') /\
  (forall p id k, In (Signed p id k) outs -> exists q, In (Generate q (Some k)) ops) /\
  (forall p id, ~ In (Unsent p id) outs).
