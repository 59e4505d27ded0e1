(** Model of the query for users who have not been there for long (SQLite). *)
From Verif.Base Require Import Bytes.
From Verif.Model Require Import TimeFmt Sql SqlQuery.
From Coq Require Import ZArith NArith.

(** sqlite.go:402-427 (ListInactiveUsernames): times are compared as texts; a comparison
    with NULL (the zero time) holds of nobody. *)
Definition inactive_usernames (limit : Z) (d : db) : list bytes :=
  match sqlite_value limit with
  | None => []
  | Some limit =>
    map ur_username (filter (fun r => text_ltb (match ur_interacted r with Some t => t | None => ur_created r end) limit) (d_users d))
  end.
