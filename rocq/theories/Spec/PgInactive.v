(** When users were last there, by the calls to a PostgreSQL database. *)
From Verif.Base Require Import Bytes.
From Verif.Model Require Import Message Sql Postgres.
From Verif.Spec Require Import Postgres.
From Coq Require Import ZArith NArith.
Open Scope N_scope.

(** The call changes or deletes the user of that number. *)
Definition p_concerns (id : N) (c : pcall) : Prop :=
  match c with
  | PStoreUser _ _ u => gu_id u <> 0 /\ gu_id u = id
  | PDeleteUser i => i = id
  | _ => False
  end.

Section Seen.
Variable raw_of : message -> bytes.

(** [p_seen p id name created last]: the user of that number in [p] was created with that
    name at [created], and the time of their last interaction was last stored as [last]. *)
Inductive p_seen : pg -> N -> bytes -> Z -> Z -> Prop :=
| p_seen_new p now fresh u p' id : p_reachable raw_of p -> gu_id u = 0 -> short 255 (gu_username u) ->
    p_store_user now fresh u p = Some (p', id) -> p_seen p' id (gu_username u) now (gu_interacted u)
| p_seen_again p id name created last now fresh u p' i : p_seen p id name created last -> gu_id u <> 0 -> gu_id u = id ->
    p_store_user now fresh u p = Some (p', i) -> p_seen p' id name created (gu_interacted u)
| p_seen_still p id name created last c : p_seen p id name created last -> ~ p_concerns id c ->
    p_seen (p_step raw_of p c) id name created last.

(** Users are created with names that fit. *)
Definition fits (c : pcall) : Prop := match c with PStoreUser _ _ u => short 255 (gu_username u) | _ => True end.
Inductive p_fitting : pg -> Prop :=
| p_fit_empty : p_fitting empty_pg
| p_fit_step p c : p_fitting p -> fits c -> p_fitting (p_step raw_of p c).
End Seen.
