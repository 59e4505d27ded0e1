(** What is expected of an upgrade of the database. *)
From Coq Require Import NArith ZArith.
From Verif.Base Require Import Bytes.
From Verif.Model Require Import Migrate.

(** The tables without their rows. *)
Definition erased (x : db) : db := Db (map (fun p => (fst p, Table (t_cols (snd p)) (t_uniques (snd p)) (t_fks (snd p)) [])) (d_tables x)) (d_objects x).
(** The tables are those of a version: made by the first schema and the migrations up to that version. *)
Definition of_version (d : dialect) (now : value) (v1 : list stmt) (migrations : list (list stmt)) (v : nat) (x : db) : Prop :=
  exec_all d now (v1 ++ concat (firstn v migrations)) (Db [] []) = Some (erased x).
(** Every row has the columns of its table. *)
Definition conforms (x : db) : Prop := forall n t r, In (n, t) (d_tables x) -> In r (t_rows t) -> map fst r = map c_name (t_cols t).
(** The rows fulfil the constraints that refer to other tables and those on NULL. *)
Definition consistent (x : db) : Prop := forall n t r, In (n, t) (d_tables x) -> In r (t_rows t) ->
  (forall c, In c (t_cols t) -> c_notnull c = true -> ~ In (c_name c, Null) r) /\
  (forall f v, In f (t_fks t) -> In (f_col f, v) r -> v = Null \/ exists t' r', In (f_table f, t') (d_tables x) /\ In r' (t_rows t') /\ In (f_key f, v) r').

(** Values of columns for rows that are older than the column. *)
Inductive added (now : value) : bytes -> bytes -> value -> Prop :=
| add_admin : added now (B "User") (B "admin") (Int 0)
| add_realname : added now (B "User") (B "realname") Null
| add_nick : added now (B "User") (B "nick") Null
| add_created : added now (B "User") (B "created_at") now
| add_enabled : added now (B "User") (B "enabled") (Int 1)
| add_interacted : added now (B "User") (B "downstream_interacted_at") Null
| add_max : added now (B "User") (B "max_networks") (Int (-1))
| add_commands : added now (B "Network") (B "connect_commands") Null
| add_cert : added now (B "Network") (B "sasl_external_cert") Null
| add_key : added now (B "Network") (B "sasl_external_key") Null
| add_net_enabled : added now (B "Network") (B "enabled") (Int 1)
| add_away : added now (B "Network") (B "auto_away") (Int 1)
| add_certfp : added now (B "Network") (B "certfp") Null
| add_detached : added now (B "Channel") (B "detached") (Int 0)
| add_relay : added now (B "Channel") (B "relay_detached") (Int 0)
| add_reattach : added now (B "Channel") (B "reattach_on") (Int 0)
| add_after : added now (B "Channel") (B "detach_after") (Int 0)
| add_on : added now (B "Channel") (B "detach_on") (Int 0)
| add_msgid : added now (B "Channel") (B "detached_internal_msgid") Null.

(** A row is kept, except for some columns, and its new columns have these values. *)
Definition kept_row (now : value) (n : bytes) (but : list bytes) (r r' : row) : Prop :=
  (forall c v, ~ In c but -> In (c, v) r -> In (c, v) r') /\
  (forall c v, added now n c v -> ~ In c (map fst r) -> In (c, v) r').
(** All rows of all tables are kept. *)
Definition kept (now : value) (lost : list bytes) (x y : db) : Prop :=
  forall n t, In (n, t) (d_tables x) -> ~ In n lost ->
  exists t', In (n, t') (d_tables y) /\ Forall2 (kept_row now n []) (t_rows t) (t_rows t').
(** In old versions, users had no number of their own, and networks were of users by name. *)
Definition kept_old (now : value) (x y : db) : Prop :=
  (forall n t, In (n, t) (d_tables x) -> n <> B "Network" ->
     exists t', In (n, t') (d_tables y) /\ Forall2 (fun r r' => kept_row now n [B "rowid"] r r' /\ (n = B "User" -> forall v, In (B "rowid", v) r -> In (B "id", v) r')) (t_rows t) (t_rows t')) /\
  (forall networks users, In (B "Network", networks) (d_tables x) -> In (B "User", users) (d_tables x) ->
     exists networks' users' rows, In (B "Network", networks') (d_tables y) /\ In (B "User", users') (d_tables y) /\
       (forall r, In r rows <-> In r (t_rows networks) /\ exists u name, In u (t_rows users) /\ name <> Null /\ In (B "username", name) u /\ In (B "user", name) r) /\
       Forall2 (fun r r' => kept_row now (B "Network") [B "user"] r r' /\
         exists u' name v, In u' (t_rows users') /\ In (B "user", name) r /\ In (B "username", name) u' /\ In (B "id", v) u' /\ In (B "user", v) r') rows (t_rows networks')).

(** How SQLite understands the types of columns (datatype3.html, 3.1). *)
Fixpoint contains (s p : bytes) : bool := has_prefix s p || match s with [] => false | _ :: s => contains s p end.
Definition affinity (ty : bytes) : bytes :=
  if contains ty (B "INT") then B "INTEGER"
  else if contains ty (B "CHAR") || contains ty (B "CLOB") || contains ty (B "TEXT") then B "TEXT"
  else if contains ty (B "BLOB") || beqb ty [] then B "BLOB"
  else B "NUMERIC".
(** Same tables, with the same columns, keys and references, in any order. For some columns, only names and types are
    compared. *)
Definition same_set {A} (a b : list A) : Prop := forall x, In x a <-> In x b.
Definition columns (ty : bytes -> bytes) (but : list (bytes * bytes)) (n : bytes) (t : table) : list (bytes * bytes * option (bool * default)) :=
  map (fun c => (c_name c, ty (c_type c), if existsb (fun p => beqb (fst p) n && beqb (snd p) (c_name c)) but then None else Some (c_notnull c, c_default c))) (t_cols t).
Definition same_schema (ty : bytes -> bytes) (but : list (bytes * bytes)) (x y : db) : Prop :=
  same_set (d_objects x) (d_objects y) /\ same_set (map fst (d_tables x)) (map fst (d_tables y)) /\
  forall n t t', In (n, t) (d_tables x) -> In (n, t') (d_tables y) ->
    same_set (columns ty but n t) (columns ty but n t') /\ same_set (t_uniques t) (t_uniques t') /\ same_set (t_fks t) (t_fks t').

(** Some channel or delivery receipt is of some network. *)
Definition in_use (x : db) : Prop := exists n t r networks w v,
  (n = B "Channel" \/ n = B "DeliveryReceipt") /\ In (n, t) (d_tables x) /\ In r (t_rows t) /\ In (B "network", v) r /\ v <> Null /\
  In (B "Network", networks) (d_tables x) /\ In w (t_rows networks) /\ In (B "id", v) w.
(** Networks log in with mechanisms that soju knows. *)
Definition known_mechanisms (x : db) : Prop := forall t r v, In (B "Network", t) (d_tables x) -> In r (t_rows t) -> In (B "sasl_mechanism", v) r ->
  v = Null \/ v = Text (B "PLAIN") \/ v = Text (B "EXTERNAL").
