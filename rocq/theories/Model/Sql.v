(** The tables of the SQLite database and the functions writing to them
    (database/sqlite.go, database/sqlite_schema.sql).

    SQL itself is not soju code. Modelled of it: a statement sees the tables
    left by the previous one; a constraint (PRIMARY KEY, UNIQUE, FOREIGN KEY)
    violated after a statement makes the statement fail; the failure of a
    statement in a transaction undoes the transaction (tx.Rollback); NULL never
    equals anything but for IS; INSERT without an id takes the largest id plus
    one. Foreign keys are enforced (database/sqlite_mattn.go:14,
    sqlite_modernc.go:12). Not modelled: timeouts, the largest 64-bit id, the
    full-text index (kept by triggers from Message.text). NOT NULL columns are
    plain types. *)
From Verif.Base Require Import Bytes.
From Verif.Model Require Import Message TimeFmt Strip.
From Coq Require Import ZArith NArith.
Open Scope N_scope.

(** sqlite_schema.sql:1-12. Times are texts. *)
Record user_row := UserRow {
  ur_id : N; ur_username : bytes; ur_password : option bytes; ur_admin : bool;
  ur_realname : option bytes; ur_nick : option bytes; ur_created : bytes; ur_enabled : bool;
  ur_interacted : option bytes; ur_max : Z }.

(** sqlite_schema.sql:14-35. *)
Record net_row := NetRow {
  nr_id : N; nr_name : option bytes; nr_user : N; nr_addr : bytes; nr_nick : option bytes;
  nr_username : option bytes; nr_realname : option bytes; nr_certfp : option bytes; nr_pass : option bytes;
  nr_cmds : option bytes; nr_mech : option bytes; nr_puser : option bytes; nr_ppass : option bytes;
  nr_cert : option bytes; nr_key : option bytes; nr_away : bool; nr_enabled : bool }.

(** sqlite_schema.sql:37-50. *)
Record chan_row := ChanRow {
  cr_id : N; cr_network : N; cr_name : bytes; cr_key : option bytes; cr_detached : bool;
  cr_dmsgid : option bytes; cr_relay : Z; cr_reattach : Z; cr_after : Z; cr_on : Z }.

(** sqlite_schema.sql:52-60. *)
Record drcpt_row := DrcptRow {
  dr_id : N; dr_network : N; dr_target : bytes; dr_client : option bytes; dr_msgid : bytes }.

(** sqlite_schema.sql:62-69. *)
Record rrcpt_row := RrcptRow { rr_id : N; rr_network : N; rr_target : bytes; rr_time : option bytes }.

(** sqlite_schema.sql:79-92. *)
Record sub_row := SubRow {
  sr_id : N; sr_created : bytes; sr_updated : bytes; sr_user : N; sr_network : option N; sr_endpoint : bytes;
  sr_vapid : bytes; sr_auth : bytes; sr_p256dh : bytes }.

(** sqlite_schema.sql:94-102. *)
Record msg_row := MsgRow {
  mr_id : N; mr_target : N; mr_raw : bytes; mr_time : bytes; mr_sender : bytes; mr_text : option bytes }.

(** sqlite_schema.sql:105-111. *)
Record target_row := TargetRow { tr_id : N; tr_network : N; tr_target : bytes }.

(** The tables (WebPushConfig refers to nothing and is left out). *)
Record db := Db {
  d_users : list user_row; d_nets : list net_row; d_chans : list chan_row; d_drcpts : list drcpt_row;
  d_rrcpts : list rrcpt_row; d_subs : list sub_row; d_targets : list target_row; d_msgs : list msg_row }.

(** A database after the schema was created. *)
Definition empty_db : db := Db [] [] [] [] [] [] [] [].

Definition with_users v d := Db v (d_nets d) (d_chans d) (d_drcpts d) (d_rrcpts d) (d_subs d) (d_targets d) (d_msgs d).
Definition with_nets v d := Db (d_users d) v (d_chans d) (d_drcpts d) (d_rrcpts d) (d_subs d) (d_targets d) (d_msgs d).
Definition with_chans v d := Db (d_users d) (d_nets d) v (d_drcpts d) (d_rrcpts d) (d_subs d) (d_targets d) (d_msgs d).
Definition with_drcpts v d := Db (d_users d) (d_nets d) (d_chans d) v (d_rrcpts d) (d_subs d) (d_targets d) (d_msgs d).
Definition with_rrcpts v d := Db (d_users d) (d_nets d) (d_chans d) (d_drcpts d) v (d_subs d) (d_targets d) (d_msgs d).
Definition with_subs v d := Db (d_users d) (d_nets d) (d_chans d) (d_drcpts d) (d_rrcpts d) v (d_targets d) (d_msgs d).
Definition with_targets v d := Db (d_users d) (d_nets d) (d_chans d) (d_drcpts d) (d_rrcpts d) (d_subs d) v (d_msgs d).
Definition with_msgs v d := Db (d_users d) (d_nets d) (d_chans d) (d_drcpts d) (d_rrcpts d) (d_subs d) (d_targets d) v.

(** ** Constraints *)

(** A column of a UNIQUE constraint. *)
Inductive cell := CInt (n : N) | CText (s : bytes).

Definition ceqb (a b : cell) : bool :=
  match a, b with CInt m, CInt n => N.eqb m n | CText s, CText t => beqb s t | _, _ => false end.

(** Two rows violate a UNIQUE constraint if all their columns are equal and not NULL. *)
Fixpoint clash (k1 k2 : list (option cell)) : bool :=
  match k1, k2 with
  | [], [] => true
  | Some a :: k1, Some b :: k2 => ceqb a b && clash k1 k2
  | _, _ => false
  end.

Fixpoint uniqb {A} (key : A -> list (option cell)) (l : list A) : bool :=
  match l with [] => true | x :: l => negb (existsb (fun y => clash (key x) (key y)) l) && uniqb key l end.

(** FOREIGN KEY: NULL or the id of a row. *)
Definition refsb {A} (ids : list N) (col : A -> option N) (l : list A) : bool :=
  forallb (fun x => match col x with None => true | Some k => existsb (N.eqb k) ids end) l.

Definition user_ids d := map ur_id (d_users d).
Definition net_ids d := map nr_id (d_nets d).
Definition target_ids d := map tr_id (d_targets d).

(** The UNIQUE constraints and primary keys of the schema. *)
Definition text_cell (o : option bytes) : option cell := match o with None => None | Some s => Some (CText s) end.
Definition int_cell (o : option N) : option cell := match o with None => None | Some s => Some (CInt s) end.
Definition pk {A} (id : A -> N) (x : A) : list (option cell) := [Some (CInt (id x))].
Definition user_name_key u := [Some (CText (ur_username u))].
Definition net_addr_key n := [Some (CInt (nr_user n)); Some (CText (nr_addr n)); text_cell (nr_nick n)].
Definition net_name_key n := [Some (CInt (nr_user n)); text_cell (nr_name n)].
Definition chan_key c := [Some (CInt (cr_network c)); Some (CText (cr_name c))].
Definition drcpt_key r := [Some (CInt (dr_network r)); Some (CText (dr_target r)); text_cell (dr_client r)].
Definition rrcpt_key r := [Some (CInt (rr_network r)); Some (CText (rr_target r))].
Definition sub_key s := [int_cell (sr_network s); Some (CText (sr_endpoint s))].
Definition target_key t := [Some (CInt (tr_network t)); Some (CText (tr_target t))].

(** All constraints of sqlite_schema.sql. ReadReceipt.timestamp is NOT NULL. *)
Definition validb (d : db) : bool :=
  uniqb (pk ur_id) (d_users d) && uniqb user_name_key (d_users d)
  && (uniqb (pk nr_id) (d_nets d) && uniqb net_addr_key (d_nets d) && uniqb net_name_key (d_nets d)
      && refsb (user_ids d) (fun n => Some (nr_user n)) (d_nets d))
  && (uniqb (pk cr_id) (d_chans d) && uniqb chan_key (d_chans d)
      && refsb (net_ids d) (fun c => Some (cr_network c)) (d_chans d))
  && (uniqb (pk dr_id) (d_drcpts d) && uniqb drcpt_key (d_drcpts d)
      && refsb (net_ids d) (fun r => Some (dr_network r)) (d_drcpts d))
  && (uniqb (pk rr_id) (d_rrcpts d) && uniqb rrcpt_key (d_rrcpts d)
      && refsb (net_ids d) (fun r => Some (rr_network r)) (d_rrcpts d)
      && forallb (fun r => match rr_time r with None => false | Some _ => true end) (d_rrcpts d))
  && (uniqb (pk sr_id) (d_subs d) && uniqb sub_key (d_subs d)
      && refsb (user_ids d) (fun s => Some (sr_user s)) (d_subs d) && refsb (net_ids d) sr_network (d_subs d))
  && (uniqb (pk tr_id) (d_targets d) && uniqb target_key (d_targets d)
      && refsb (net_ids d) (fun t => Some (tr_network t)) (d_targets d))
  && (uniqb (pk mr_id) (d_msgs d) && refsb (target_ids d) (fun m => Some (mr_target m)) (d_msgs d)).

(** The outcome of a statement leading to the given tables. *)
Definition check (d : db) : option db := if validb d then Some d else None.

(** Statements of a transaction, one after the other. *)
Fixpoint exec (l : list (db -> db)) (d : db) : option db :=
  match l with
  | [] => Some d
  | st :: l => match check (st d) with None => None | Some d' => exec l d' end
  end.

(** The id SQLite gives to a new row. *)
Definition next_id (ids : list N) : N := N.succ (fold_right N.max 0 ids).

(** ** The structures of package database (database/database.go:86-275) *)

Record guser := GUser {
  gu_id : N; gu_username : bytes; gu_password : bytes; gu_nick : bytes; gu_realname : bytes; gu_admin : bool;
  gu_enabled : bool; gu_interacted : Z; gu_max : Z }.

(** Blobs are None when nil. *)
Record gnet := GNet {
  gn_id : N; gn_name : bytes; gn_addr : bytes; gn_nick : bytes; gn_username : bytes; gn_realname : bytes;
  gn_pass : bytes; gn_cmds : list bytes; gn_certfp : bytes; gn_mech : bytes; gn_puser : bytes; gn_ppass : bytes;
  gn_cert : option bytes; gn_key : option bytes; gn_away : bool; gn_enabled : bool }.

(** DetachAfter in nanoseconds. *)
Record gchan := GChan {
  gc_id : N; gc_name : bytes; gc_key : bytes; gc_detached : bool; gc_dmsgid : bytes; gc_relay : Z;
  gc_reattach : Z; gc_after : Z; gc_on : Z }.

Record gsub := GSub { gs_id : N; gs_endpoint : bytes; gs_auth : bytes; gs_p256dh : bytes; gs_vapid : bytes }.

(** database/database.go (toNullString). *)
Definition null_string (s : bytes) : option bytes := match s with [] => None | _ => Some s end.

(** sql.NullString.String. *)
Definition string_of (o : option bytes) : bytes := match o with None => [] | Some s => s end.

(** ** Users *)

(** sqlite.go:433-443, 447-456, the columns set by UPDATE. *)
Definition set_user (u : guser) (r : user_row) : user_row :=
  UserRow (ur_id r) (ur_username r) (null_string (gu_password u)) (gu_admin u) (null_string (gu_realname u))
    (null_string (gu_nick u)) (ur_created r) (gu_enabled u) (sqlite_value (gu_interacted u)) (gu_max u).

(** sqlite.go:429-471 (StoreUser); the result is the id of the user. *)
Definition store_user (now : Z) (u : guser) (d : db) : option (db * N) :=
  if N.eqb (gu_id u) 0 then
    let id := next_id (user_ids d) in
    let row := UserRow id (gu_username u) (null_string (gu_password u)) (gu_admin u) (null_string (gu_realname u))
                 (null_string (gu_nick u)) (format_time now) (gu_enabled u) (sqlite_value (gu_interacted u))
                 (gu_max u) in
    match check (with_users (d_users d ++ [row]) d) with None => None | Some d' => Some (d', id) end
  else
    match check (with_users (map (fun r => if beqb (ur_username r) (gu_username u) then set_user u r else r)
                                 (d_users d)) d) with
    | None => None | Some d' => Some (d', gu_id u)
    end.

(** sqlite.go:359-370, 388-396: a row as a structure; None when the time does not parse. *)
Definition load_user (r : user_row) : option guser :=
  match sqlite_scan (ur_interacted r) with
  | None => None
  | Some t => Some (GUser (ur_id r) (ur_username r) (string_of (ur_password r)) (string_of (ur_nick r))
                      (string_of (ur_realname r)) (ur_admin r) (ur_enabled r) t (ur_max r))
  end.

(** sqlite.go:378-400 (GetUser); None is an error, in particular sql.ErrNoRows. *)
Definition get_user (username : bytes) (d : db) : option guser :=
  match filter (fun r => beqb (ur_username r) username) (d_users d) with [] => None | r :: _ => load_user r end.

(** ids of the rows joined with a network of a user: sqlite.go:484-489, 495-500, 537-542. *)
Definition joined {A} (id net : A -> N) (rows : list A) (nets : list net_row) (u : N) : list N :=
  flat_map (fun r => flat_map (fun n => if N.eqb (net r) (nr_id n) && N.eqb (nr_user n) u then [id r] else []) nets) rows.

(** sqlite.go:506-512. *)
Definition joined_msgs (d : db) (u : N) : list N :=
  flat_map (fun m => flat_map (fun t => flat_map (fun n =>
    if N.eqb (mr_target m) (tr_id t) && N.eqb (tr_network t) (nr_id n) && N.eqb (nr_user n) u then [mr_id m] else [])
    (d_nets d)) (d_targets d)) (d_msgs d).

Definition in_ids (l : list N) (id : N) : bool := existsb (N.eqb id) l.

(** sqlite.go:473-556 (DeleteUser). *)
Definition delete_user (u : N) (d : db) : option db :=
  exec [ (fun d => with_drcpts (filter (fun r => negb (in_ids (joined dr_id dr_network (d_drcpts d) (d_nets d) u) (dr_id r))) (d_drcpts d)) d);
         (fun d => with_rrcpts (filter (fun r => negb (in_ids (joined rr_id rr_network (d_rrcpts d) (d_nets d) u) (rr_id r))) (d_rrcpts d)) d);
         (fun d => with_msgs (filter (fun m => negb (in_ids (joined_msgs d u) (mr_id m))) (d_msgs d)) d);
         (fun d => with_targets (filter (fun t => negb (in_ids (joined tr_id tr_network (d_targets d) (d_nets d) u) (tr_id t))) (d_targets d)) d);
         (fun d => with_subs (filter (fun s => negb (N.eqb (sr_user s) u)) (d_subs d)) d);
         (fun d => with_chans (filter (fun c => negb (in_ids (joined cr_id cr_network (d_chans d) (d_nets d) u) (cr_id c))) (d_chans d)) d);
         (fun d => with_nets (filter (fun n => negb (N.eqb (nr_user n) u)) (d_nets d)) d);
         (fun d => with_users (filter (fun r => negb (N.eqb (ur_id r) u)) (d_users d)) d) ] d.

(** ** Networks *)

(** The separator of connect commands. *)
Definition cmd_sep : bytes := B (String "013" (String "010" EmptyString)).

(** strings.Split(s, "\r\n"). *)
Fixpoint split_crlf (s : bytes) : list bytes :=
  match s with
  | [] => [[]]
  | c :: s' =>
    match s' with
    | [] => [[c]]
    | l :: s'' =>
      if aeqb c "013" && aeqb l "010" then [] :: split_crlf s''
      else match split_crlf s' with [] => [] | w :: ws => (c :: w) :: ws end
    end
  end.

(** sqlite.go:610-624: None is the error for an unknown mechanism; otherwise the
    three SASL columns and the two blobs. *)
Definition sasl_columns (n : gnet) : option (option bytes * option bytes * option bytes * option bytes * option bytes) :=
  if beqb (gn_mech n) [] then Some (None, None, None, gn_cert n, gn_key n)
  else if beqb (gn_mech n) (B "PLAIN") then
    Some (null_string (gn_mech n), null_string (gn_puser n), null_string (gn_ppass n), None, None)
  else if beqb (gn_mech n) (B "EXTERNAL") then Some (null_string (gn_mech n), None, None, gn_cert n, gn_key n)
  else None.

(** sqlite.go:606-673 (StoreNetwork); the result is the id of the network. *)
Definition store_network (user : N) (n : gnet) (d : db) : option (db * N) :=
  match sasl_columns n with
  | None => None
  | Some (mech, puser, ppass, cert, key) =>
    let row id owner :=
      NetRow id (null_string (gn_name n)) owner (gn_addr n) (null_string (gn_nick n)) (null_string (gn_username n))
        (null_string (gn_realname n)) (null_string (gn_certfp n)) (null_string (gn_pass n))
        (null_string (join cmd_sep (gn_cmds n))) mech puser ppass cert key (gn_away n) (gn_enabled n) in
    if N.eqb (gn_id n) 0 then
      let id := next_id (net_ids d) in
      match check (with_nets (d_nets d ++ [row id user]) d) with None => None | Some d' => Some (d', id) end
    else
      match check (with_nets (map (fun r => if N.eqb (nr_id r) (gn_id n) then row (nr_id r) (nr_user r) else r)
                                  (d_nets d)) d) with
      | None => None | Some d' => Some (d', gn_id n)
      end
  end.

(** sqlite.go:577-604. *)
Definition load_network (r : net_row) : gnet :=
  GNet (nr_id r) (string_of (nr_name r)) (nr_addr r) (string_of (nr_nick r)) (string_of (nr_username r))
    (string_of (nr_realname r)) (string_of (nr_pass r))
    (match nr_cmds r with None => [] | Some s => split_crlf s end)
    (string_of (nr_certfp r)) (string_of (nr_mech r)) (string_of (nr_puser r)) (string_of (nr_ppass r))
    (nr_cert r) (nr_key r) (nr_away r) (nr_enabled r).

(** sqlite.go:558-611 (ListNetworks). *)
Definition list_networks (user : N) (d : db) : list gnet :=
  map load_network (filter (fun r => N.eqb (nr_user r) user) (d_nets d)).

(** sqlite.go:675-721 (DeleteNetwork). *)
Definition delete_network (id : N) (d : db) : option db :=
  exec [ (fun d => with_msgs (filter (fun m => negb (in_ids (map tr_id (filter (fun t => N.eqb (tr_network t) id) (d_targets d))) (mr_target m))) (d_msgs d)) d);
         (fun d => with_targets (filter (fun t => negb (N.eqb (tr_network t) id)) (d_targets d)) d);
         (fun d => with_subs (filter (fun s => match sr_network s with None => true | Some n => negb (N.eqb n id) end) (d_subs d)) d);
         (fun d => with_drcpts (filter (fun r => negb (N.eqb (dr_network r) id)) (d_drcpts d)) d);
         (fun d => with_rrcpts (filter (fun r => negb (N.eqb (rr_network r) id)) (d_rrcpts d)) d);
         (fun d => with_chans (filter (fun c => negb (N.eqb (cr_network c) id)) (d_chans d)) d);
         (fun d => with_nets (filter (fun n => negb (N.eqb (nr_id n) id)) (d_nets d)) d) ] d.

(** ** Channels *)

(** int64(math.Ceil(d.Seconds())), on exact arithmetic. *)
Definition ceil_seconds (ns : Z) : Z := (- ((- ns) / 1000000000))%Z.

(** sqlite.go:757-792 (StoreChannel). *)
Definition store_channel (net : N) (c : gchan) (d : db) : option (db * N) :=
  let row id := ChanRow id net (gc_name c) (null_string (gc_key c)) (gc_detached c) (null_string (gc_dmsgid c))
                  (gc_relay c) (gc_reattach c) (ceil_seconds (gc_after c)) (gc_on c) in
  if N.eqb (gc_id c) 0 then
    let id := next_id (map cr_id (d_chans d)) in
    match check (with_chans (d_chans d ++ [row id]) d) with None => None | Some d' => Some (d', id) end
  else
    match check (with_chans (map (fun r => if N.eqb (cr_id r) (gc_id c) then row (cr_id r) else r) (d_chans d)) d) with
    | None => None | Some d' => Some (d', gc_id c)
    end.

(** sqlite.go:723-755 (ListChannels). *)
Definition load_channel (r : chan_row) : gchan :=
  GChan (cr_id r) (cr_name r) (string_of (cr_key r)) (cr_detached r) (string_of (cr_dmsgid r)) (cr_relay r)
    (cr_reattach r) (cr_after r * 1000000000) (cr_on r).

Definition list_channels (net : N) (d : db) : list gchan :=
  map load_channel (filter (fun r => N.eqb (cr_network r) net) (d_chans d)).

(** sqlite.go:794-800 (DeleteChannel). *)
Definition delete_channel (id : N) (d : db) : option db :=
  check (with_chans (filter (fun c => negb (N.eqb (cr_id c) id)) (d_chans d)) d).

(** ** Delivery receipts *)

(** [client IS ?]. *)
Definition null_eqb (a b : option bytes) : bool :=
  match a, b with None, None => true | Some x, Some y => beqb x y | _, _ => false end.

(** sqlite.go:848-864. *)
Definition insert_drcpt (net : N) (client : bytes) (r : bytes * bytes) (d : db) : db :=
  with_drcpts (d_drcpts d ++ [DrcptRow (next_id (map dr_id (d_drcpts d))) net (fst r) (null_string client) (snd r)]) d.

(** sqlite.go:832-868 (StoreClientDeliveryReceipts); a receipt is a target and a message id. *)
Definition store_drcpts (net : N) (client : bytes) (l : list (bytes * bytes)) (d : db) : option db :=
  exec ((fun d => with_drcpts (filter (fun r => negb (N.eqb (dr_network r) net && null_eqb (dr_client r) (null_string client)))
                                      (d_drcpts d)) d)
        :: map (insert_drcpt net client) l) d.

(** sqlite.go:802-830 (ListDeliveryReceipts): target, client, message id. *)
Definition list_drcpts (net : N) (d : db) : list (bytes * bytes * bytes) :=
  map (fun r => (dr_target r, string_of (dr_client r), dr_msgid r)) (filter (fun r => N.eqb (dr_network r) net) (d_drcpts d)).

(** ** Read receipts *)

(** sqlite.go:894-924 (StoreReadReceipt). *)
Definition store_rrcpt (net : N) (id : N) (target : bytes) (t : Z) (d : db) : option (db * N) :=
  if N.eqb id 0 then
    let id := next_id (map rr_id (d_rrcpts d)) in
    match check (with_rrcpts (d_rrcpts d ++ [RrcptRow id net target (sqlite_value t)]) d) with
    | None => None | Some d' => Some (d', id)
    end
  else
    match check (with_rrcpts (map (fun r => if N.eqb (rr_id r) id
                                             then RrcptRow (rr_id r) (rr_network r) (rr_target r) (sqlite_value t)
                                             else r) (d_rrcpts d)) d) with
    | None => None | Some d' => Some (d', id)
    end.

(** sqlite.go:870-892 (GetReadReceipt): None is an error, Some None no receipt,
    otherwise its id and time. *)
Definition get_rrcpt (net : N) (target : bytes) (d : db) : option (option (N * Z)) :=
  match filter (fun r => N.eqb (rr_network r) net && beqb (rr_target r) target) (d_rrcpts d) with
  | [] => Some None
  | r :: _ => match sqlite_scan (rr_time r) with None => None | Some t => Some (Some (rr_id r, t)) end
  end.

(** ** Web push subscriptions *)

(** sqlite.go:975-978, 1011-1014: network 0 is NULL. *)
Definition null_id (n : N) : option N := if N.eqb n 0 then None else Some n.

(** sqlite.go:1004-1046 (StoreWebPushSubscription). *)
Definition store_sub (now : Z) (user net : N) (s : gsub) (d : db) : option (db * N) :=
  if N.eqb (gs_id s) 0 then
    let id := next_id (map sr_id (d_subs d)) in
    let row := SubRow id (format_time now) (format_time now) user (null_id net) (gs_endpoint s) (gs_vapid s) (gs_auth s)
                 (gs_p256dh s) in
    match check (with_subs (d_subs d ++ [row]) d) with None => None | Some d' => Some (d', id) end
  else
    match check (with_subs (map (fun r => if N.eqb (sr_id r) (gs_id s)
                                          then SubRow (sr_id r) (sr_created r) (format_time now) (sr_user r) (sr_network r)
                                                 (sr_endpoint r) (gs_vapid s) (gs_auth s) (gs_p256dh s)
                                          else r) (d_subs d)) d) with
    | None => None | Some d' => Some (d', gs_id s)
    end.

(** sqlite.go:1048-1054 (DeleteWebPushSubscription). *)
Definition delete_sub (id : N) (d : db) : option db :=
  check (with_subs (filter (fun s => negb (N.eqb (sr_id s) id)) (d_subs d)) d).

(** [network IS ?] *)
Definition id_is (a b : option N) : bool :=
  match a, b with None, None => true | Some x, Some y => N.eqb x y | _, _ => false end.

(** sqlite.go:971-1002 (ListWebPushSubscriptions), without the times. *)
Definition list_subs (user net : N) (d : db) : list gsub :=
  map (fun r => GSub (sr_id r) (sr_endpoint r) (sr_auth r) (sr_p256dh r) (sr_vapid r))
    (filter (fun r => N.eqb (sr_user r) user && id_is (sr_network r) (null_id net)) (d_subs d)).

(** ** Messages *)

(** sqlite.go:1091-1100: [INSERT INTO MessageTarget ... ON CONFLICT DO NOTHING]. *)
Definition add_target (net : N) (name : bytes) (d : db) : db :=
  let row := TargetRow (next_id (target_ids d)) net name in
  if existsb (fun t => clash (target_key t) (target_key row)) (d_targets d) then d
  else with_targets (d_targets d ++ [row]) d.

(** sqlite.go:1113-1122: the time of a message, None for an invalid tag; [now] is time.Now. *)
Definition message_time (now : Z) (m : message) : option Z :=
  match find (fun kv => beqb (fst kv) (B "time")) (m_tags m) with
  | Some (_, v) => parse_time v
  | None => Some now
  end.

(** sqlite.go:1124-1131. *)
Definition message_text (m : message) : option bytes :=
  if beqb (m_command m) (B "PRIVMSG") || beqb (m_command m) (B "NOTICE") then
    match m_params m with _ :: t :: _ => Some (strip_ansi t) | _ => None end
  else None.

(** msg.Name; the callers never pass a message without prefix, on which the code would panic. *)
Definition message_sender (m : message) : bytes := match m_prefix m with Some p => p_name p | None => [] end.

(** ** PostgreSQL *)

(** [DELETE] with every foreign key [ON DELETE CASCADE] (postgres_schema.sql,
    postgres.go:369-375, 477-483), on the same tables: the rows that refer to a
    deleted row, directly or not, go as well. *)
Definition dead (ids : list N) (k : N) : bool := existsb (N.eqb k) ids.

Definition cascade (users nets : list N) (d : db) : db :=
  let targets := map tr_id (filter (fun t => dead nets (tr_network t)) (d_targets d)) in
  Db (filter (fun r => negb (dead users (ur_id r))) (d_users d))
     (filter (fun r => negb (dead nets (nr_id r))) (d_nets d))
     (filter (fun r => negb (dead nets (cr_network r))) (d_chans d))
     (filter (fun r => negb (dead nets (dr_network r))) (d_drcpts d))
     (filter (fun r => negb (dead nets (rr_network r))) (d_rrcpts d))
     (filter (fun r => negb (dead users (sr_user r) || match sr_network r with None => false | Some k => dead nets k end)) (d_subs d))
     (filter (fun r => negb (dead nets (tr_network r))) (d_targets d))
     (filter (fun r => negb (dead targets (mr_target r))) (d_msgs d)).

Definition pg_delete_user (u : N) (d : db) : db :=
  cascade [u] (map nr_id (filter (fun r => N.eqb (nr_user r) u) (d_nets d))) d.

Definition pg_delete_network (k : N) (d : db) : db := cascade [] [k] d.

Section Messages.
(** irc.Message.String. *)
Variable raw_of : message -> bytes.

(** sqlite.go:1102-1106, 1133-1145: [INSERT ... SELECT id ... FROM MessageTarget];
    also None for the zero time, which would be NULL (column NOT NULL). *)
Definition insert_msg (net : N) (name : bytes) (now : Z) (m : message) (d : db) : option (db * N) :=
  match message_time now m with
  | None => None
  | Some t =>
    match sqlite_value t with
    | None => None
    | Some ts =>
      let found := filter (fun r => N.eqb (tr_network r) net && beqb (tr_target r) name) (d_targets d) in
      let id := next_id (map mr_id (d_msgs d)) in
      match found with
      | r :: _ =>
        match check (with_msgs (d_msgs d ++ [MsgRow id (tr_id r) (raw_of m) ts (message_sender m) (message_text m)]) d) with
        | None => None
        | Some d' => Some (d', id)
        end
      | [] => Some (d, 0)
      end
    end
  end.

Fixpoint insert_msgs (net : N) (name : bytes) (now : Z) (l : list message) (d : db) : option (db * list N) :=
  match l with
  | [] => Some (d, [])
  | m :: l =>
    match insert_msg net name now m d with
    | None => None
    | Some (d', id) => match insert_msgs net name now l d' with None => None | Some (d'', ids) => Some (d'', id :: ids) end
    end
  end.

(** sqlite.go:1077-1152 (StoreMessages). [found] has one row at most (UNIQUE), so
    that one row is inserted. *)
Definition store_messages (net : N) (name : bytes) (now : Z) (l : list message) (d : db) : option (db * list N) :=
  match l with
  | [] => Some (d, [])
  | _ => match check (add_target net name d) with None => None | Some d' => insert_msgs net name now l d' end
  end.

(** ** The calls of the interface that write *)

Inductive call :=
| StoreUser (now : Z) (u : guser)
| DeleteUser (id : N)
| StoreNetwork (user : N) (n : gnet)
| DeleteNetwork (id : N)
| StoreChannel (net : N) (c : gchan)
| DeleteChannel (id : N)
| StoreDeliveryReceipts (net : N) (client : bytes) (l : list (bytes * bytes))
| StoreReadReceipt (net id : N) (target : bytes) (t : Z)
| StoreSubscription (now : Z) (user net : N) (s : gsub)
| DeleteSubscription (id : N)
| StoreMessages (net : N) (name : bytes) (now : Z) (l : list message).

Definition fst_opt {A B} (o : option (A * B)) : option A := match o with None => None | Some (a, _) => Some a end.

Definition perform (c : call) (d : db) : option db :=
  match c with
  | StoreUser now u => fst_opt (store_user now u d)
  | DeleteUser id => delete_user id d
  | StoreNetwork user n => fst_opt (store_network user n d)
  | DeleteNetwork id => delete_network id d
  | StoreChannel net c => fst_opt (store_channel net c d)
  | DeleteChannel id => delete_channel id d
  | StoreDeliveryReceipts net client l => store_drcpts net client l d
  | StoreReadReceipt net id target t => fst_opt (store_rrcpt net id target t d)
  | StoreSubscription now user net s => fst_opt (store_sub now user net s d)
  | DeleteSubscription id => delete_sub id d
  | StoreMessages net name now l => fst_opt (store_messages net name now l d)
  end.

(** A failing call leaves the database as it was. *)
Definition step_db (d : db) (c : call) : db := match perform c d with Some d' => d' | None => d end.
End Messages.
