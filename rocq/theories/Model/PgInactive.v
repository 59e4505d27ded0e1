(** Model of the query for users who have not been there for long (PostgreSQL). *)
From Verif.Base Require Import Bytes.
From Verif.Model Require Import Postgres.
From Coq Require Import ZArith NArith.

(** postgres.go:312-336 (ListInactiveUsernames). The limit becomes a timestamp as other
    times do. *)
Definition p_inactive_usernames (limit : Z) (p : pg) : list bytes :=
  map pu_username (filter (fun r => Z.ltb (match pu_interacted r with Some t => t | None => pu_created r end) (pg_time limit)) (p_users p)).
