(** Specification of the in-memory store: the list of logged messages. *)
From Verif.Base Require Import Bytes.
From Verif.Model Require Import MemStore.

(** A message stored for a target; only PRIVMSG and NOTICE are loggable. *)
Record event (A : Type) := Event { e_net : Z; e_entity : bytes; e_loggable : bool; e_msg : A }.
Arguments Event {A}. Arguments e_net {A}. Arguments e_entity {A}. Arguments e_loggable {A}. Arguments e_msg {A}.

(** The messages logged for a target, oldest first. *)
Definition target_log {A} (h : list (event A)) (net : Z) (entity : bytes) : list A :=
  map e_msg (filter (fun e => e_loggable e && Z.eqb (e_net e) net && beqb (e_entity e) entity) h).

(** The store after a history. *)
Definition mem_run {A} (cap : nat) (h : list (event A)) : mem_store A :=
  fold_left (fun st e => fst (mem_append cap st (e_net e) (e_entity e) (e_loggable e) (e_msg e))) h [].

(** The last [n] elements. *)
Definition last_of {A} (n : nat) (l : list A) : list A := skipn (length l - n) l.
