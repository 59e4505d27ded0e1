(** Specification of a member's statuses. *)
From Verif.Base Require Import Bytes.
From Verif.Model Require Import Membership.

(** Whether status [m] is held after a history: the last operation on it
    decides. *)
Definition held (h : list ms_op) (m : membership) : Prop :=
  exists h1 h2, h = h1 ++ MsAdd m :: h2 /\ ~ In (MsRemove m) h2.

(** [l] lists its elements in the order of [avail], each at most once. *)
Inductive in_order {A} : list A -> list A -> Prop :=
| IoNil avail : in_order [] avail
| IoTake x l avail : in_order l avail -> in_order (x :: l) (x :: avail)
| IoSkip x l avail : in_order l avail -> in_order l (x :: avail).

(** Only advertised statuses are added. *)
Definition adds_known (avail : list membership) (h : list ms_op) : Prop :=
  forall m, In (MsAdd m) h -> In m avail.
