(** Upgrades of the database when soju is started (database/sqlite.go, database/postgres.go).

    The SQL statements of the migrations are written as data, and executed on tables with columns, constraints and rows.
    The semantics of the statements is that of the two database systems, not taken from /repo: constraints are checked
    at the end of each statement; with foreign keys enabled (sqlite_mattn.go:14, sqlite_modernc.go:12), SQLite deletes
    the rows of a table before dropping it, which fails if other rows refer to them (lang_droptable.html, foreignkeys.html).
    Simplified: rows have an order, which INSERT ... SELECT keeps; values are not converted; names are compared as bytes. *)
From Coq Require Import NArith ZArith.
From Verif.Base Require Import Bytes.

Inductive dialect := Sqlite | Postgres.
Inductive value := Null | Int (z : Z) | Text (b : bytes) | Blob (b : bytes).
(** DEFAULT of a column: a constant or now(). *)
Inductive default := Const (v : value) | Now.
Record column := Column { c_name : bytes; c_type : bytes; c_notnull : bool; c_default : default }.
(** FOREIGN KEY(f_col) REFERENCES f_table(f_key), perhaps with ON DELETE CASCADE. *)
Record fkey := Fkey { f_col : bytes; f_table : bytes; f_key : bytes; f_cascade : bool }.
Definition row := list (bytes * value).
(** A table; PRIMARY KEY is UNIQUE and NOT NULL. *)
Record table := Table { t_cols : list column; t_uniques : list (list bytes); t_fks : list fkey; t_rows : list row }.
(** Tables, and other objects (indexes, triggers, types) by their definition. *)
Record db := Db { d_tables : list (bytes * table); d_objects : list bytes }.

(** A column of the table selected from, or of the one joined. *)
Inductive expr := ECol (c : bytes) | EJoin (c : bytes).
Inductive stmt :=
| Create (n : bytes) (cols : list column) (uniques : list (list bytes)) (fks : list fkey)
| AddColumn (n : bytes) (c : column) (fk : option fkey)
(** INSERT INTO n SELECT es FROM src [JOIN t ON src.c1 = t.c2] *)
| Copy (n : bytes) (es : list expr) (src : bytes) (joined : option (bytes * bytes * bytes))
| Drop (n : bytes)
| Rename (a b : bytes)
(** UPDATE n SET c = now *)
| SetNow (n c : bytes)
(** UPDATE n SET c = (SELECT t.c2 FROM t WHERE t.k2 = n.k) *)
| SetFrom (n c k t k2 c2 : bytes)
(** DELETE FROM n *)
| Clear (n : bytes)
(** ALTER TABLE n ALTER COLUMN c DROP NOT NULL / SET NOT NULL *)
| SetNotNull (n c : bytes) (b : bool)
(** ALTER TABLE n ALTER COLUMN c TYPE ty, an enumeration of these values *)
| Retype (n c ty : bytes) (values : list bytes)
(** CREATE of anything else *)
| Object (o : bytes).

Fixpoint get (c : bytes) (r : row) : value :=
  match r with
  | [] => Null
  | (c', v) :: r => if beqb c c' then v else get c r
  end.
Definition put (c : bytes) (v : value) (r : row) : row := map (fun p => if beqb c (fst p) then (c, v) else p) r.
Definition is_null (v : value) : bool := match v with Null => true | _ => false end.
Definition veqb (a b : value) : bool :=
  match a, b with
  | Int a, Int b => Z.eqb a b
  | Text a, Text b => beqb a b
  | Blob a, Blob b => beqb a b
  | _, _ => false
  end.

Fixpoint tfind (n : bytes) (l : list (bytes * table)) : option table :=
  match l with
  | [] => None
  | (n', t) :: l => if beqb n n' then Some t else tfind n l
  end.
Definition tset (n : bytes) (t : table) (l : list (bytes * table)) : list (bytes * table) := map (fun p => if beqb n (fst p) then (n, t) else p) l.
Definition tdel (n : bytes) (l : list (bytes * table)) : list (bytes * table) := filter (fun p => negb (beqb n (fst p))) l.

(** Constraints; NULLs differ from everything (both systems). *)
Definition same_key (u : list bytes) (r r' : row) : bool := forallb (fun c => veqb (get c r) (get c r')) u.
Fixpoint unique (u : list bytes) (rows : list row) : bool :=
  match rows with
  | [] => true
  | r :: rows => negb (existsb (same_key u r) rows) && unique u rows
  end.
Definition refers (f : fkey) (r r' : row) : bool := veqb (get (f_col f) r) (get (f_key f) r').
Definition fk_ok (x : list (bytes * table)) (f : fkey) (r : row) : bool :=
  is_null (get (f_col f) r) || match tfind (f_table f) x with Some t => existsb (refers f r) (t_rows t) | None => false end.
(** The constraints of a table on some of its columns. *)
Definition valid_on (x : list (bytes * table)) (cs : list bytes) (t : table) : bool :=
  forallb (fun c => negb (bmem (c_name c) cs && c_notnull c) || forallb (fun r => negb (is_null (get (c_name c) r))) (t_rows t)) (t_cols t) &&
  forallb (fun u => negb (existsb (fun c => bmem c cs) u) || unique u (t_rows t)) (t_uniques t) &&
  forallb (fun f => negb (bmem (f_col f) cs) || forallb (fk_ok x f) (t_rows t)) (t_fks t).

Definition names (t : table) : list bytes := map c_name (t_cols t).
Definition with_rows (t : table) (rows : list row) : table := Table (t_cols t) (t_uniques t) (t_fks t) rows.
Definition eval_default (now : value) (d : default) : value := match d with Const v => v | Now => now end.
Definition eval (r r2 : row) (e : expr) : value := match e with ECol c => get c r | EJoin c => get c r2 end.
Definition selected (x : list (bytes * table)) (es : list expr) (src : table) (joined : option (bytes * bytes * bytes)) : list (list value) :=
  match joined with
  | None => map (fun r => map (eval r []) es) (t_rows src)
  | Some (t, c1, c2) =>
      match tfind t x with
      | Some t => flat_map (fun r => map (fun r2 => map (eval r r2) es) (filter (fun r2 => veqb (get c1 r) (get c2 r2)) (t_rows t))) (t_rows src)
      | None => []
      end
  end.
(** The rows of another table refer to these. *)
Definition referenced (n : bytes) (rows : list row) (x : list (bytes * table)) : bool :=
  existsb (fun p => existsb (fun f => beqb (f_table f) n && existsb (fun r => existsb (refers f r) rows) (t_rows (snd p))) (t_fks (snd p))) x.
(** References by other tables follow when a table is renamed (lang_altertable.html). *)
Definition refollow (a b : bytes) (t : table) : table :=
  Table (t_cols t) (t_uniques t) (map (fun f => if beqb a (f_table f) then Fkey (f_col f) b (f_key f) (f_cascade f) else f) (t_fks t)) (t_rows t).
Definition is_nil {A} (l : list A) : bool := match l with [] => true | _ => false end.

(** One statement; [None] is an error. *)
Definition exec (d : dialect) (now : value) (s : stmt) (x : db) : option db :=
  let ts := d_tables x in
  let ret ts' := Some (Db ts' (d_objects x)) in
  match s with
  | Create n cols us fks => match tfind n ts with Some _ => None | None => ret (ts ++ [(n, Table cols us fks [])]) end
  | AddColumn n c fk =>
      match tfind n ts with
      | None => None
      | Some t =>
          if bmem (c_name c) (names t) then None
          else if c_notnull c && is_null (eval_default now (c_default c)) && match d with Sqlite => true | Postgres => negb (is_nil (t_rows t)) end then None
          else ret (tset n (Table (t_cols t ++ [c]) (t_uniques t) (t_fks t ++ match fk with Some f => [f] | None => [] end)
                              (map (fun r => r ++ [(c_name c, eval_default now (c_default c))]) (t_rows t))) ts)
      end
  | Copy n es src joined =>
      match tfind n ts, tfind src ts with
      | Some t, Some s =>
          let t' := with_rows t (t_rows t ++ map (combine (names t)) (selected ts es s joined)) in
          if (match joined with Some (t, _, _) => match tfind t ts with Some _ => true | None => false end | None => true end)
             && Nat.eqb (length es) (length (t_cols t)) && valid_on (tset n t' ts) (names t) t' then ret (tset n t' ts) else None
      | _, _ => None
      end
  | Drop n =>
      match tfind n ts with
      | None => None
      | Some t => if match d with Sqlite => referenced n (t_rows t) (tdel n ts) | Postgres => false end then None else ret (tdel n ts)
      end
  | Rename a b =>
      match tfind a ts, tfind b ts with
      | Some t, None => ret (map (fun p => (if beqb a (fst p) then b else fst p, refollow a b (snd p))) ts)
      | _, _ => None
      end
  | SetNow n c =>
      match tfind n ts with
      | None => None
      | Some t =>
          let t' := with_rows t (map (put c now) (t_rows t)) in
          if bmem c (names t) && valid_on (tset n t' ts) [c] t' then ret (tset n t' ts) else None
      end
  | SetFrom n c k t k2 c2 =>
      match tfind n ts, tfind t ts with
      | Some t1, Some t2 =>
          let t' := with_rows t1 (map (fun r => put c (match find (fun r2 => veqb (get k2 r2) (get k r)) (t_rows t2) with Some r2 => get c2 r2 | None => Null end) r) (t_rows t1)) in
          if bmem c (names t1) && bmem k (names t1) && bmem k2 (names t2) && bmem c2 (names t2) && valid_on (tset n t' ts) [c] t' then ret (tset n t' ts) else None
      | _, _ => None
      end
  | Clear n => match tfind n ts with Some t => ret (tset n (with_rows t []) ts) | None => None end
  | SetNotNull n c b =>
      match tfind n ts with
      | None => None
      | Some t =>
          let t' := Table (map (fun k => if beqb c (c_name k) then Column (c_name k) (c_type k) b (c_default k) else k) (t_cols t)) (t_uniques t) (t_fks t) (t_rows t) in
          if bmem c (names t) && forallb (fun r => negb (b && is_null (get c r))) (t_rows t) then ret (tset n t' ts) else None
      end
  | Retype n c ty values =>
      match tfind n ts with
      | None => None
      | Some t =>
          let t' := Table (map (fun k => if beqb c (c_name k) then Column (c_name k) ty (c_notnull k) (c_default k) else k) (t_cols t)) (t_uniques t) (t_fks t) (t_rows t) in
          if bmem c (names t) && forallb (fun r => match get c r with Null => true | Text b => bmem b values | _ => false end) (t_rows t) then ret (tset n t' ts) else None
      end
  | Object o => if bmem o (d_objects x) then None else Some (Db ts (d_objects x ++ [o]))
  end.
Fixpoint exec_all (d : dialect) (now : value) (l : list stmt) (x : db) : option db :=
  match l with
  | [] => Some x
  | s :: l => match exec d now s x with Some x => exec_all d now l x | None => None end
  end.

(** ** Upgrading
    (sqlite.go:285-322, postgres.go:183-226): the migrations run in a transaction, which is rolled back on errors.
    The version is PRAGMA user_version, or the row of the Config table (none: 0). *)
Record file := File { version : nat; contents : db }.
Definition upgrade (d : dialect) (now : value) (schema : list stmt) (migrations : list (list stmt)) (f : file) : bool * file :=
  let n := length migrations in
  if Nat.eqb (version f) n then (true, f)
  else if Nat.ltb n (version f) then (false, f)
  else match exec_all d now (if Nat.eqb (version f) 0 then schema else concat (skipn (version f) migrations)) (contents f) with
       | Some x => (true, File n x)
       | None => (false, f)
       end.

(** ** SQLite *)
(** Columns and references as they are written in sqlite.go:64-246 and sqlite_schema.sql: [n t], [n t NOT NULL],
    [n t NOT NULL DEFAULT v], REFERENCES t(id). *)
Definition nul (n t : bytes) : column := Column n t false (Const Null).
Definition req (n t : bytes) : column := Column n t true (Const Null).
Definition dfl (n t : bytes) (v : value) : column := Column n t true (Const v).
Definition fk (c t : bytes) : fkey := Fkey c t (B "id") false.
(** Types and tables. *)
Definition VC := B "VARCHAR(255)". Definition TX := B "TEXT". Definition IN := B "INTEGER". Definition BL := B "BLOB".
Definition user_t := B "User". Definition network_t := B "Network". Definition channel_t := B "Channel".
Definition delivery_t := B "DeliveryReceipt". Definition read_t := B "ReadReceipt". Definition config_t := B "WebPushConfig".
Definition subscription_t := B "WebPushSubscription". Definition message_t := B "Message". Definition target_t := B "MessageTarget".

(** sqlite.go:118-128, sqlite_schema.sql:52-60 *)
Definition delivery (t : bytes) : stmt :=
  Create delivery_t [req (B "id") IN; req (B "network") IN; req (B "target") t; nul (B "client") t; req (B "internal_msgid") t]
    [[B "id"]; [B "network"; B "target"; B "client"]] [fk (B "network") network_t].
(** sqlite.go:162-171, sqlite_schema.sql:62-69 *)
Definition read_receipt : stmt :=
  Create read_t [req (B "id") IN; req (B "network") IN; req (B "target") TX; req (B "timestamp") TX] [[B "id"]; [B "network"; B "target"]] [fk (B "network") network_t].
(** sqlite.go:173-179, sqlite_schema.sql:71-77 *)
Definition webpush_config : stmt :=
  Create config_t [req (B "id") IN; req (B "created_at") TX; req (B "vapid_key_public") TX; req (B "vapid_key_private") TX] [[B "id"]; [B "vapid_key_public"]] [].
(** sqlite.go:209-244 and the same in sqlite_schema.sql:94-127 *)
Definition messages : list stmt :=
  [Create message_t [req (B "id") IN; req (B "target") IN; req (B "raw") TX; req (B "time") TX; req (B "sender") TX; nul (B "text") TX] [[B "id"]] [fk (B "target") target_t];
   Object (B "CREATE INDEX MessageIndex ON Message(target, time)");
   Create target_t [req (B "id") IN; req (B "network") IN; req (B "target") TX] [[B "id"]; [B "network"; B "target"]] [fk (B "network") network_t];
   Object (B "CREATE VIRTUAL TABLE MessageFTS USING fts5 (text, content=Message, content_rowid=id)");
   Object (B "CREATE TRIGGER MessageFTSInsert AFTER INSERT ON Message");
   Object (B "CREATE TRIGGER MessageFTSDelete AFTER DELETE ON Message");
   Object (B "CREATE TRIGGER MessageFTSUpdate AFTER UPDATE ON Message")].

(** sqlite_schema.sql:1-127 *)
Definition sqlite_schema : list stmt :=
  [Create user_t [req (B "id") IN; req (B "username") TX; nul (B "password") TX; dfl (B "admin") IN (Int 0); nul (B "realname") TX; nul (B "nick") TX; req (B "created_at") TX;
     dfl (B "enabled") IN (Int 1); nul (B "downstream_interacted_at") TX; dfl (B "max_networks") IN (Int (-1))] [[B "id"]; [B "username"]] [];
   Create network_t [req (B "id") IN; nul (B "name") TX; req (B "user") IN; req (B "addr") TX; nul (B "nick") TX; nul (B "username") TX; nul (B "realname") TX; nul (B "certfp") TX; nul (B "pass") TX;
     nul (B "connect_commands") TX; nul (B "sasl_mechanism") TX; nul (B "sasl_plain_username") TX; nul (B "sasl_plain_password") TX; nul (B "sasl_external_cert") BL; nul (B "sasl_external_key") BL;
     dfl (B "auto_away") IN (Int 1); dfl (B "enabled") IN (Int 1)] [[B "id"]; [B "user"; B "addr"; B "nick"]; [B "user"; B "name"]] [fk (B "user") user_t];
   Create channel_t [req (B "id") IN; req (B "network") IN; req (B "name") TX; nul (B "key") TX; dfl (B "detached") IN (Int 0); nul (B "detached_internal_msgid") TX; dfl (B "relay_detached") IN (Int 0);
     dfl (B "reattach_on") IN (Int 0); dfl (B "detach_after") IN (Int 0); dfl (B "detach_on") IN (Int 0)] [[B "id"]; [B "network"; B "name"]] [fk (B "network") network_t];
   delivery TX; read_receipt; webpush_config;
   Create subscription_t [req (B "id") IN; req (B "created_at") TX; req (B "updated_at") TX; req (B "user") IN; nul (B "network") IN; req (B "endpoint") TX; nul (B "key_vapid") TX; nul (B "key_auth") TX;
     nul (B "key_p256dh") TX] [[B "id"]; [B "network"; B "endpoint"]] [fk (B "user") user_t; fk (B "network") network_t]] ++ messages.

(** sqlite_test.go:11-42: the schema of version 1. The row IDs of users are a column here. *)
Definition sqlite_v1 : list stmt :=
  [Create user_t [req (B "rowid") IN; req (B "username") VC; nul (B "password") VC] [[B "rowid"]; [B "username"]] [];
   Create network_t [req (B "id") IN; nul (B "name") VC; req (B "user") VC; req (B "addr") VC; req (B "nick") VC; nul (B "username") VC; nul (B "realname") VC; nul (B "pass") VC; nul (B "sasl_mechanism") VC;
     nul (B "sasl_plain_username") VC; nul (B "sasl_plain_password") VC] [[B "id"]; [B "user"; B "addr"; B "nick"]; [B "user"; B "name"]] [];
   Create channel_t [req (B "id") IN; req (B "network") IN; req (B "name") VC; nul (B "key") VC] [[B "id"]; [B "network"; B "name"]] [fk (B "network") network_t]].

Definition user_new := B "UserNew". Definition network_new := B "NetworkNew".
(** sqlite.go:71-81 *)
Definition migration6 : list stmt :=
  [Create user_new [req (B "id") IN; req (B "username") VC; nul (B "password") VC; dfl (B "admin") IN (Int 0)] [[B "id"]; [B "username"]] [];
   Copy user_new [ECol (B "rowid"); ECol (B "username"); ECol (B "password"); ECol (B "admin")] user_t None;
   Drop user_t; Rename user_new user_t].
(** sqlite.go:82-111 *)
Definition migration7 : list stmt :=
  [Create network_new [req (B "id") IN; nul (B "name") VC; req (B "user") IN; req (B "addr") VC; req (B "nick") VC; nul (B "username") VC; nul (B "realname") VC; nul (B "pass") VC;
     nul (B "connect_commands") (B "VARCHAR(1023)"); nul (B "sasl_mechanism") VC; nul (B "sasl_plain_username") VC; nul (B "sasl_plain_password") VC; nul (B "sasl_external_cert") BL;
     nul (B "sasl_external_key") BL] [[B "id"]; [B "user"; B "addr"; B "nick"]; [B "user"; B "name"]] [fk (B "user") user_t];
   Copy network_new [ECol (B "id"); ECol (B "name"); EJoin (B "id"); ECol (B "addr"); ECol (B "nick"); ECol (B "username"); ECol (B "realname"); ECol (B "pass"); ECol (B "connect_commands");
     ECol (B "sasl_mechanism"); ECol (B "sasl_plain_username"); ECol (B "sasl_plain_password"); ECol (B "sasl_external_cert"); ECol (B "sasl_external_key")]
     network_t (Some (user_t, B "user", B "username"));
   Drop network_t; Rename network_new network_t].
(** sqlite.go:132-161 *)
Definition migration13 : list stmt :=
  [Create network_new [req (B "id") IN; nul (B "name") TX; req (B "user") IN; req (B "addr") TX; nul (B "nick") TX; nul (B "username") TX; nul (B "realname") TX; nul (B "pass") TX;
     nul (B "connect_commands") TX; nul (B "sasl_mechanism") TX; nul (B "sasl_plain_username") TX; nul (B "sasl_plain_password") TX; nul (B "sasl_external_cert") BL;
     nul (B "sasl_external_key") BL; dfl (B "enabled") IN (Int 1)] [[B "id"]; [B "user"; B "addr"; B "nick"]; [B "user"; B "name"]] [fk (B "user") user_t];
   Copy network_new [ECol (B "id"); ECol (B "name"); ECol (B "user"); ECol (B "addr"); ECol (B "nick"); ECol (B "username"); ECol (B "realname"); ECol (B "pass"); ECol (B "connect_commands");
     ECol (B "sasl_mechanism"); ECol (B "sasl_plain_username"); ECol (B "sasl_plain_password"); ECol (B "sasl_external_cert"); ECol (B "sasl_external_key"); ECol (B "enabled")] network_t None;
   Drop network_t; Rename network_new network_t].

(** sqlite.go:64-246 *)
Definition sqlite_migrations : list (list stmt) :=
  [[];
   [AddColumn network_t (nul (B "connect_commands") (B "VARCHAR(1023)")) None];
   [AddColumn channel_t (dfl (B "detached") IN (Int 0)) None];
   [AddColumn network_t (nul (B "sasl_external_cert") BL) None];
   [AddColumn network_t (nul (B "sasl_external_key") BL) None];
   [AddColumn user_t (dfl (B "admin") IN (Int 0)) None];
   migration6;
   migration7;
   [AddColumn channel_t (dfl (B "relay_detached") IN (Int 0)) None; AddColumn channel_t (dfl (B "reattach_on") IN (Int 0)) None;
    AddColumn channel_t (dfl (B "detach_after") IN (Int 0)) None; AddColumn channel_t (dfl (B "detach_on") IN (Int 0)) None];
   [delivery VC];
   [AddColumn channel_t (nul (B "detached_internal_msgid") VC) None];
   [AddColumn network_t (dfl (B "enabled") IN (Int 1)) None];
   [AddColumn user_t (nul (B "realname") VC) None];
   migration13;
   [read_receipt];
   [webpush_config;
    Create subscription_t [req (B "id") IN; req (B "created_at") TX; req (B "updated_at") TX; nul (B "network") IN; req (B "endpoint") TX; nul (B "key_vapid") TX; nul (B "key_auth") TX; nul (B "key_p256dh") TX]
      [[B "id"]; [B "network"; B "endpoint"]] [fk (B "network") network_t]];
   [AddColumn subscription_t (nul (B "user") IN) (Some (fk (B "user") user_t));
    SetFrom subscription_t (B "user") (B "network") network_t (B "id") (B "user")];
   [AddColumn user_t (nul (B "nick") TX) None];
   [AddColumn network_t (dfl (B "auto_away") IN (Int 1)) None];
   [AddColumn network_t (nul (B "certfp") TX) None];
   [AddColumn user_t (dfl (B "created_at") TX (Text [])) None; SetNow user_t (B "created_at")];
   [AddColumn user_t (dfl (B "enabled") IN (Int 1)) None];
   [AddColumn user_t (nul (B "downstream_interacted_at") TX) None];
   messages;
   [AddColumn user_t (dfl (B "max_networks") IN (Int (-1))) None]].

(** ** PostgreSQL *)
(** REFERENCES t(id) ON DELETE CASCADE, and types (postgres_schema.sql) *)
Definition pfk (c t : bytes) : fkey := Fkey c t (B "id") true.
Definition SE := B "SERIAL". Definition TZ := B "TIMESTAMP WITH TIME ZONE". Definition BO := B "BOOLEAN". Definition BY := B "BYTEA".
(** postgres.go:43-51, postgres_schema.sql:61-67 *)
Definition p_read : stmt :=
  Create read_t [req (B "id") SE; req (B "network") IN; req (B "target") VC; req (B "timestamp") TZ] [[B "id"]; [B "network"; B "target"]] [pfk (B "network") network_t].
(** postgres.go:53-59, postgres_schema.sql:69-75 *)
Definition p_config : stmt :=
  Create config_t [req (B "id") SE; req (B "created_at") TZ; req (B "vapid_key_public") TX; req (B "vapid_key_private") TX] [[B "id"]; [B "vapid_key_public"]] [].
(** postgres.go:92-115; the same in postgres_schema.sql:90-112, in this order *)
Definition p_messages : list stmt :=
  [Create target_t [req (B "id") SE; req (B "network") IN; req (B "target") TX] [[B "id"]; [B "network"; B "target"]] [pfk (B "network") network_t];
   Object (B "CREATE TEXT SEARCH DICTIONARY search_simple_dictionary");
   Object (B "CREATE TEXT SEARCH CONFIGURATION search_simple");
   Create message_t [req (B "id") SE; req (B "target") IN; req (B "raw") TX; req (B "time") TZ; req (B "sender") TX; nul (B "text") TX; nul (B "text_search") (B "tsvector GENERATED")] [[B "id"]] [pfk (B "target") target_t];
   Object (B "CREATE INDEX MessageIndex ON Message (target, time)");
   Object (B "CREATE INDEX MessageSearchIndex ON Message USING GIN (text_search)")].
(** postgres_schema.sql:38-50, postgres_test.go *)
Definition p_channel : stmt :=
  Create channel_t [req (B "id") SE; req (B "network") IN; req (B "name") VC; nul (B "key") VC; dfl (B "detached") BO (Int 0); nul (B "detached_internal_msgid") VC; dfl (B "relay_detached") IN (Int 0);
     dfl (B "reattach_on") IN (Int 0); dfl (B "detach_after") IN (Int 0); dfl (B "detach_on") IN (Int 0)] [[B "id"]; [B "network"; B "name"]] [pfk (B "network") network_t].
(** postgres_schema.sql:52-59, postgres_test.go *)
Definition p_delivery : stmt :=
  Create delivery_t [req (B "id") SE; req (B "network") IN; req (B "target") VC; dfl (B "client") VC (Text []); req (B "internal_msgid") VC] [[B "id"]; [B "network"; B "target"; B "client"]] [pfk (B "network") network_t].
(** postgres.go:37, postgres_schema.sql:14 *)
Definition mechanism : stmt := Object (B "CREATE TYPE sasl_mechanism AS ENUM ('PLAIN', 'EXTERNAL')").

(** postgres_schema.sql:1-112 *)
Definition postgres_schema : list stmt :=
  [Create user_t [req (B "id") SE; req (B "username") VC; nul (B "password") VC; dfl (B "admin") BO (Int 0); nul (B "nick") VC; nul (B "realname") VC; Column (B "created_at") TZ true Now;
     dfl (B "enabled") BO (Int 1); nul (B "downstream_interacted_at") TZ; dfl (B "max_networks") IN (Int (-1))] [[B "id"]; [B "username"]] [];
   mechanism;
   Create network_t [req (B "id") SE; nul (B "name") VC; req (B "user") IN; req (B "addr") VC; nul (B "nick") VC; nul (B "username") VC; nul (B "realname") VC; nul (B "certfp") TX; nul (B "pass") VC;
     nul (B "connect_commands") (B "VARCHAR(1023)"); nul (B "sasl_mechanism") (B "sasl_mechanism"); nul (B "sasl_plain_username") VC; nul (B "sasl_plain_password") VC; nul (B "sasl_external_cert") BY;
     nul (B "sasl_external_key") BY; dfl (B "auto_away") BO (Int 1); dfl (B "enabled") BO (Int 1)] [[B "id"]; [B "user"; B "addr"; B "nick"]; [B "user"; B "name"]] [pfk (B "user") user_t];
   p_channel; p_delivery; p_read; p_config;
   Create subscription_t [req (B "id") SE; req (B "created_at") TZ; req (B "updated_at") TZ; req (B "user") IN; nul (B "network") IN; req (B "endpoint") TX; nul (B "key_vapid") TX; nul (B "key_auth") TX;
     nul (B "key_p256dh") TX] [[B "id"]; [B "network"; B "endpoint"]] [pfk (B "user") user_t; pfk (B "network") network_t]] ++ p_messages.

(** postgres_test.go:9-69: the schema of version 1, without the Config table *)
Definition postgres_v1 : list stmt :=
  [Create user_t [req (B "id") SE; req (B "username") VC; nul (B "password") VC; dfl (B "admin") BO (Int 0); nul (B "realname") VC] [[B "id"]; [B "username"]] [];
   Create network_t [req (B "id") SE; nul (B "name") VC; req (B "user") IN; req (B "addr") VC; req (B "nick") VC; nul (B "username") VC; nul (B "realname") VC; nul (B "pass") VC;
     nul (B "connect_commands") (B "VARCHAR(1023)"); nul (B "sasl_mechanism") VC; nul (B "sasl_plain_username") VC; nul (B "sasl_plain_password") VC; nul (B "sasl_external_cert") BY;
     nul (B "sasl_external_key") BY; dfl (B "enabled") BO (Int 1)] [[B "id"]; [B "user"; B "addr"; B "nick"]; [B "user"; B "name"]] [pfk (B "user") user_t];
   p_channel; p_delivery].

(** postgres.go:33-117 *)
Definition postgres_migrations : list (list stmt) :=
  [[];
   [SetNotNull network_t (B "nick") false];
   [mechanism; Retype network_t (B "sasl_mechanism") (B "sasl_mechanism") [B "PLAIN"; B "EXTERNAL"]];
   [p_read];
   [p_config;
    Create subscription_t [req (B "id") SE; req (B "created_at") TZ; req (B "updated_at") TZ; nul (B "network") IN; req (B "endpoint") TX; nul (B "key_vapid") TX; nul (B "key_auth") TX; nul (B "key_p256dh") TX]
      [[B "id"]; [B "network"; B "endpoint"]] [pfk (B "network") network_t]];
   [AddColumn subscription_t (nul (B "user") IN) (Some (pfk (B "user") user_t))];
   [AddColumn user_t (nul (B "nick") VC) None];
   [Clear subscription_t; SetNotNull subscription_t (B "user") true];
   [AddColumn network_t (dfl (B "auto_away") BO (Int 1)) None];
   [AddColumn network_t (nul (B "certfp") TX) None];
   [AddColumn user_t (Column (B "created_at") TZ true Now) None];
   [AddColumn user_t (dfl (B "enabled") BO (Int 1)) None];
   [AddColumn user_t (nul (B "downstream_interacted_at") TZ) None];
   p_messages;
   [AddColumn user_t (dfl (B "max_networks") IN (Int (-1))) None]].
