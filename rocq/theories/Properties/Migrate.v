(** C98: upgrades of the database. *)
From Coq Require Import NArith ZArith.
From Verif.Base Require Import Bytes.
From Verif.Model Require Import Migrate.
From Verif.Proof Require Migrate.
From Verif.Spec Require Import Migrate.

(** C98: when soju is started, either the database is of the current version afterwards, or nothing is changed. A
    database of the current version stays as it is, and one of a newer version is refused. *)
Theorem C98_atomic : forall d now schema migrations f ok f', upgrade d now schema migrations f = (ok, f') ->
  (if ok then version f' = length migrations else f' = f) /\
  (version f = length migrations -> ok = true /\ f' = f) /\
  (length migrations < version f -> ok = false).
Proof. exact Proof.Migrate.upgrade_atomic. Qed.
Print Assumptions C98_atomic.

(** C98: an upgraded database has the tables of a new one, with the same columns, keys and references; what else SQLite
    makes of types is the same, and the column that says when a user was created has a default, *)
Theorem C98_schema_sqlite_partial : forall now v x y w, 1 <= v < 25 -> of_version Sqlite now sqlite_v1 sqlite_migrations v x ->
  upgrade Sqlite now sqlite_schema sqlite_migrations (File v x) = (true, File w y) ->
  exists z, upgrade Sqlite now sqlite_schema sqlite_migrations (File 0 (Db [] [])) = (true, File w z) /\
    same_schema affinity [(B "User", B "created_at"); (B "WebPushSubscription", B "user")] y z.
Proof. exact Proof.Migrate.sqlite_same. Qed.
Print Assumptions C98_schema_sqlite_partial.
(** and with PostgreSQL they are exactly the same. *)
Theorem C98_schema_postgres : forall now v x y w, 1 <= v < 15 -> of_version Postgres now postgres_v1 postgres_migrations v x ->
  upgrade Postgres now postgres_schema postgres_migrations (File v x) = (true, File w y) ->
  exists z, upgrade Postgres now postgres_schema postgres_migrations (File 0 (Db [] [])) = (true, File w z) /\ same_schema (fun ty => ty) [] y z.
Proof. exact Proof.Migrate.postgres_same. Qed.
Print Assumptions C98_schema_postgres.

(** C98: all rows of all tables are kept, and new columns have values that leave everything as it was; *)
Theorem C98_kept_sqlite : forall now v x y w, 8 <= v < 25 -> of_version Sqlite now sqlite_v1 sqlite_migrations v x -> conforms x ->
  upgrade Sqlite now sqlite_schema sqlite_migrations (File v x) = (true, File w y) -> kept now [] x y.
Proof. exact Proof.Migrate.sqlite_kept. Qed.
Print Assumptions C98_kept_sqlite.
(** in old versions, where networks were of users by name, they are of the same users afterwards; *)
Theorem C98_kept_sqlite_old : forall now v x y w, 1 <= v <= 7 -> of_version Sqlite now sqlite_v1 sqlite_migrations v x -> conforms x ->
  upgrade Sqlite now sqlite_schema sqlite_migrations (File v x) = (true, File w y) -> kept_old now x y.
Proof. exact Proof.Migrate.sqlite_kept_old. Qed.
Print Assumptions C98_kept_sqlite_old.
(** with PostgreSQL, push subscriptions of old versions are dropped. *)
Theorem C98_kept_postgres : forall now v x y w, 1 <= v < 15 -> of_version Postgres now postgres_v1 postgres_migrations v x -> conforms x ->
  upgrade Postgres now postgres_schema postgres_migrations (File v x) = (true, File w y) ->
  kept now (if v <=? 7 then [B "WebPushSubscription"] else []) x y.
Proof. exact Proof.Migrate.postgres_kept. Qed.
Print Assumptions C98_kept_postgres.

(** C98: upgrading succeeds: with SQLite from version 14, *)
Theorem C98_succeeds_sqlite : forall now v x, now <> Null -> 14 <= v < 25 -> of_version Sqlite now sqlite_v1 sqlite_migrations v x -> conforms x -> consistent x ->
  exists y, upgrade Sqlite now sqlite_schema sqlite_migrations (File v x) = (true, File 25 y).
Proof. exact Proof.Migrate.sqlite_succeeds. Qed.
Print Assumptions C98_succeeds_sqlite.
(** with PostgreSQL from any version, if networks use no mechanism that soju does not know. *)
Theorem C98_succeeds_postgres : forall now v x, now <> Null -> 1 <= v < 15 -> of_version Postgres now postgres_v1 postgres_migrations v x -> conforms x ->
  (v <= 2 -> known_mechanisms x) -> exists y, upgrade Postgres now postgres_schema postgres_migrations (File v x) = (true, File 15 y).
Proof. exact Proof.Migrate.postgres_succeeds_spec. Qed.
Print Assumptions C98_succeeds_postgres.
(** C98: with SQLite, no database older than version 14 can be upgraded if one of its networks has a channel or a delivery
    receipt: the old table of networks cannot be dropped while other rows refer to it. *)
Theorem C98_fails_sqlite : forall now v x, 1 <= v <= 13 -> of_version Sqlite now sqlite_v1 sqlite_migrations v x -> conforms x -> in_use x ->
  upgrade Sqlite now sqlite_schema sqlite_migrations (File v x) = (false, File v x).
Proof. exact Proof.Migrate.sqlite_fails. Qed.
Print Assumptions C98_fails_sqlite.

(** ** Examples *)
Definition T (s : string) : value := Text (B s).
Definition clock := T "2026-11-16T00:00:00.000Z".
Definition at_version d v1 ms v := exec_all d clock (v1 ++ concat (firstn v ms)) (Db [] []).
(** Two users; one has two networks, with a channel each. *)
Definition users14 := [[Int 3; T "ann"; T "hash"; Int 1; Null]; [Int 7; T "bob"; Null; Int 0; T "Bob"]].
Definition networks14 :=
  [[Int 1; T "libera"; Int 3; T "irc.libera.chat"; Null; Null; Null; Null; Null; T "PLAIN"; T "ann"; T "pw"; Null; Null; Int 1];
   [Int 2; Null; Int 3; T "irc.oftc.net"; T "ann_"; Null; Null; Null; T "MODE +i"; Null; Null; Null; Null; Null; Int 0]].
Definition channels14 :=
  [[Int 1; Int 1; T "#soju"; Null; Int 0; Int 0; Int 0; Int 0; Int 0; Null]; [Int 2; Int 2; T "#debian"; T "key"; Int 1; Int 0; Int 0; Int 0; Int 0; Null]].
Definition x14 := Proof.Migrate.filled_with (at_version Sqlite sqlite_v1 sqlite_migrations 14) [(B "User", users14); (B "Network", networks14); (B "Channel", channels14)].
Example C98_nonvacuous_sqlite : of_version Sqlite clock sqlite_v1 sqlite_migrations 14 x14 /\ conforms x14 /\ consistent x14 /\
  exists y, upgrade Sqlite clock sqlite_schema sqlite_migrations (File 14 x14) = (true, File 25 y) /\
    option_map (fun t => map (map snd) (t_rows t)) (tfind (B "User") (d_tables y)) =
      Some [[Int 3; T "ann"; T "hash"; Int 1; Null; Null; clock; Int 1; Null; Int (-1)]; [Int 7; T "bob"; Null; Int 0; T "Bob"; Null; clock; Int 1; Null; Int (-1)]].
Proof.
  split; [vm_compute; reflexivity|]. split; [apply Proof.Migrate.conformsb_ok; vm_compute; reflexivity|]. split; [apply Proof.Migrate.consistentb_ok; vm_compute; reflexivity|].
  eexists. split; vm_compute; reflexivity.
Qed.
(** A database of version 1 without channels. *)
Definition x1 := Proof.Migrate.filled_with (at_version Sqlite sqlite_v1 sqlite_migrations 1)
  [(B "User", [[Int 3; T "ann"; T "hash"]; [Int 7; T "bob"; Null]]); (B "Network", [[Int 1; Null; T "bob"; T "irc.libera.chat"; T "bob"; Null; Null; Null; Null; Null; Null]])].
Example C98_nonvacuous_sqlite_old : of_version Sqlite clock sqlite_v1 sqlite_migrations 1 x1 /\ conforms x1 /\
  exists y, upgrade Sqlite clock sqlite_schema sqlite_migrations (File 1 x1) = (true, File 25 y) /\
    option_map (fun t => map (get (B "user")) (t_rows t)) (tfind (B "Network") (d_tables y)) = Some [Int 7].
Proof.
  split; [vm_compute; reflexivity|]. split; [apply Proof.Migrate.conformsb_ok; vm_compute; reflexivity|]. eexists. split; vm_compute; reflexivity.
Qed.
Definition px1 := Proof.Migrate.filled_with (at_version Postgres postgres_v1 postgres_migrations 1)
  [(B "User", [[Int 1; T "ann"; T "hash"; Int 1; Null]]);
   (B "Network", [[Int 1; Null; Int 1; T "irc.libera.chat"; T "ann"; Null; Null; Null; Null; T "EXTERNAL"; Null; Null; Blob [one]; Blob [zero]; Int 1]]);
   (B "Channel", [[Int 1; Int 1; T "#soju"; Null; Int 0; Null; Int 0; Int 0; Int 0; Int 0]])].
Example C98_nonvacuous_postgres : of_version Postgres clock postgres_v1 postgres_migrations 1 px1 /\ conforms px1 /\ known_mechanisms px1 /\
  exists y, upgrade Postgres clock postgres_schema postgres_migrations (File 1 px1) = (true, File 15 y).
Proof.
  split; [vm_compute; reflexivity|]. split; [apply Proof.Migrate.conformsb_ok; vm_compute; reflexivity|]. split.
  - assert (C : conforms px1) by (apply Proof.Migrate.conformsb_ok; vm_compute; reflexivity). apply Proof.Migrate.mechanisms_ok. vm_compute. reflexivity.
  - eexists. vm_compute. reflexivity.
Qed.

(** C98: a SQLite database of version 13 with one channel, which was in order, keeps soju from starting. *)
Definition networks13 := [[Int 1; T "libera"; Int 3; T "irc.libera.chat"; T "ann"; Null; Null; Null; Null; Null; Null; Null; Null; Null; Int 1]].
Definition x13 := Proof.Migrate.filled_with (at_version Sqlite sqlite_v1 sqlite_migrations 13)
  [(B "User", [[Int 3; T "ann"; T "hash"; Int 1; Null]]); (B "Network", networks13); (B "Channel", [[Int 1; Int 1; T "#soju"; Null; Int 0; Int 0; Int 0; Int 0; Int 0; Null]])].
Theorem C98_stuck_refuted : exists x, of_version Sqlite clock sqlite_v1 sqlite_migrations 13 x /\ conforms x /\ consistent x /\
  upgrade Sqlite clock sqlite_schema sqlite_migrations (File 13 x) = (false, File 13 x).
Proof.
  exists x13. split; [vm_compute; reflexivity|]. split; [apply Proof.Migrate.conformsb_ok; vm_compute; reflexivity|]. split; [apply Proof.Migrate.consistentb_ok; vm_compute; reflexivity|]. vm_compute. reflexivity.
Qed.
Print Assumptions C98_stuck_refuted.
(** C98: with SQLite, a push subscription that is not for one network is of nobody after the upgrade from version 16,
    which a new database does not allow. *)
Definition x16 := Proof.Migrate.filled_with (at_version Sqlite sqlite_v1 sqlite_migrations 16)
  [(B "User", [[Int 3; T "ann"; T "hash"; Int 1; Null]]); (B "WebPushSubscription", [[Int 1; clock; clock; Null; T "https://push.example/1"; T "v"; T "a"; T "p"]])].
Theorem C98_subscription_refuted : exists x y z t t', of_version Sqlite clock sqlite_v1 sqlite_migrations 16 x /\ conforms x /\ consistent x /\
  upgrade Sqlite clock sqlite_schema sqlite_migrations (File 16 x) = (true, File 25 y) /\
  upgrade Sqlite clock sqlite_schema sqlite_migrations (File 0 (Db [] [])) = (true, File 25 z) /\
  tfind (B "WebPushSubscription") (d_tables y) = Some t /\ map (get (B "user")) (t_rows t) = [Null] /\
  tfind (B "WebPushSubscription") (d_tables z) = Some t' /\ In (Column (B "user") (B "INTEGER") true (Const Null)) (t_cols t').
Proof.
  exists x16. do 4 eexists. split; [vm_compute; reflexivity|]. split; [apply Proof.Migrate.conformsb_ok; vm_compute; reflexivity|]. split; [apply Proof.Migrate.consistentb_ok; vm_compute; reflexivity|].
  split; [vm_compute; reflexivity|]. split; [vm_compute; reflexivity|]. split; [vm_compute; reflexivity|]. split; [vm_compute; reflexivity|]. split; [vm_compute; reflexivity|].
  do 3 right. left. reflexivity.
Qed.
Print Assumptions C98_subscription_refuted.
