(** When users were last there. *)
From Verif.Base Require Import Bytes.
From Verif.Model Require Import Message TimeFmt Sql.
From Verif.Spec Require Import TimeFmt Sql SqlQuery.
From Coq Require Import ZArith NArith.

Section Seen.
Variable raw_of : message -> bytes.

(** The call changes or deletes the user of that name. *)
Definition concerns (d : db) (name : bytes) (c : call) : Prop :=
  match c with
  | StoreUser _ u => gu_id u <> 0%N /\ gu_username u = name
  | DeleteUser id => exists r, In r (d_users d) /\ ur_username r = name /\ ur_id r = id
  | _ => False
  end.

(** [seen d name created last]: the user of that name in [d] was created at [created], and
    the time of their last interaction was last stored as [last] (zero: there was none). *)
Inductive seen : db -> bytes -> Z -> Z -> Prop :=
| seen_new d now u d' id : reachable raw_of d -> in_years now -> in_years (gu_interacted u) -> gu_id u = 0%N ->
    store_user now u d = Some (d', id) -> seen d' (gu_username u) now (gu_interacted u)
| seen_again d name created last now u d' id : seen d name created last -> in_years (gu_interacted u) -> gu_id u <> 0%N -> gu_username u = name ->
    store_user now u d = Some (d', id) -> seen d' name created (gu_interacted u)
| seen_still d name created last c : seen d name created last -> own_call d c -> ~ concerns d name c ->
    seen (step_db raw_of d c) name created last.

(** The times of the call are in years that can be written with four digits. *)
Definition timed (c : call) : Prop :=
  match c with StoreUser now u => in_years now /\ in_years (gu_interacted u) | _ => True end.

Inductive dated : db -> Prop :=
| dated_empty : dated empty_db
| dated_step d c : dated d -> own_call d c -> timed c -> dated (step_db raw_of d c).
End Seen.
