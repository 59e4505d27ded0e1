(** Queries on stored messages (database/sqlite.go:1056-1075, 1154-1306) and the
    message store on top of them (msgstore/db.go).

    [ORDER BY] leaves the order of rows with equal keys open: the ordering is a
    parameter. So is the full-text search (FTS5, with quoteFTSQuery). *)
From Verif.Base Require Import Bytes.
From Verif.Model Require Import Message TimeFmt Sql.
From Coq Require Import ZArith NArith.
Open Scope N_scope.

(** SQLite's comparison of texts: byte by byte. *)
Fixpoint text_ltb (a b : bytes) : bool :=
  match a, b with
  | [], [] => false
  | [], _ :: _ => true
  | _ :: _, [] => false
  | x :: a, y :: b => if aeqb x y then text_ltb a b else N.ltb (code x) (code y)
  end.

(** database/database.go:21-30 (MessageOptions). The zero time is 0. Limit is
    never negative (downstream.go, user.go). *)
Record options := Options {
  o_after_id : N; o_after : Z; o_before : Z; o_limit : nat; o_events : bool; o_sender : bytes; o_text : bytes;
  o_last : bool }.

Section Query.
(** [ORDER BY m.time ASC]. *)
Variable by_time : list msg_row -> list msg_row.
(** [ORDER BY m.time DESC]. *)
Variable by_time_desc : list msg_row -> list msg_row.
(** [MessageFTS MATCH :text] on the text of a row. *)
Variable fts : bytes -> option bytes -> bool.

(** [m.target = t.id AND t.network = :network AND t.target = :target]. *)
Definition of_target (d : db) (net : N) (name : bytes) (m : msg_row) : bool :=
  existsb (fun t => N.eqb (mr_target m) (tr_id t) && N.eqb (tr_network t) net && beqb (tr_target t) name) (d_targets d).

(** The remaining conditions, sqlite.go:1235-1254. *)
Definition selected (o : options) (m : msg_row) : bool :=
  (N.eqb (o_after_id o) 0 || N.ltb (o_after_id o) (mr_id m))
  && (Z.eqb (o_after o) 0 || text_ltb (format_time (o_after o)) (mr_time m))
  && (Z.eqb (o_before o) 0 || text_ltb (mr_time m) (format_time (o_before o)))
  && (beqb (o_sender o) [] || beqb (mr_sender m) (o_sender o))
  && (beqb (o_text o) [] || fts (o_text o) (mr_text m))
  && (o_events o || match mr_text m with None => false | Some _ => true end).

(** sqlite.go:1226-1306 (ListMessages), up to the rows. *)
Definition list_rows (net : N) (name : bytes) (o : options) (d : db) : list msg_row :=
  let rows := filter (fun m => of_target d net name m && selected o m) (d_msgs d) in
  if o_last o then rev (firstn (o_limit o) (by_time_desc rows)) else firstn (o_limit o) (by_time rows).

(** sqlite.go:1280-1292: every row must parse. *)
Fixpoint parse_all (parse : bytes -> option message) (l : list msg_row) : option (list message) :=
  match l with
  | [] => Some []
  | r :: l =>
    match parse (mr_raw r) with
    | None => None
    | Some m => match parse_all parse l with None => None | Some ms => Some (m :: ms) end
    end
  end.

Definition list_messages (parse : bytes -> option message) (net : N) (name : bytes) (o : options) (d : db) : option (list message) :=
  parse_all parse (list_rows net name o d).

(** sqlite.go:1056-1075 (GetMessageLastID): 0 without messages. *)
Definition last_id (net : N) (name : bytes) (d : db) : N :=
  match by_time_desc (filter (of_target d net name) (d_msgs d)) with [] => 0 | m :: _ => mr_id m end.

(** ** msgstore/db.go *)

(** db.go:56-64 (LastMsgID), before the id is formatted (see MsgID). *)
Definition db_last_msg_id (net : N) (entity : bytes) (d : db) : N := last_id net entity d.

(** db.go:66-81 (LoadLatestID), after the id was parsed. *)
Definition db_load_latest (net : N) (entity : bytes) (id : N) (limit : nat) (d : db) : list msg_row :=
  list_rows net entity (Options id 0 0 limit false [] [] true) d.

(** db.go:123-135 (LoadBeforeTime). *)
Definition db_load_before (net : N) (entity : bytes) (start stop : Z) (limit : nat) (events : bool) (d : db) : list msg_row :=
  list_rows net entity (Options 0 stop start limit events [] [] true) d.

(** db.go:137-148 (LoadAfterTime). *)
Definition db_load_after (net : N) (entity : bytes) (start stop : Z) (limit : nat) (events : bool) (d : db) : list msg_row :=
  list_rows net entity (Options 0 start stop limit events [] [] false) d.

(** db.go:150-165 (Search). *)
Definition db_search (net : N) (entity : bytes) (start stop : Z) (limit : nat) (from text : bytes) (d : db) : list msg_row :=
  list_rows net entity (Options 0 start stop limit false from text true) d.

(** ** Targets *)

(** [ORDER BY latest] on targets with their latest time, which may be NULL. *)
Variable by_latest : list (bytes * option bytes) -> list (bytes * option bytes).
Variable by_latest_desc : list (bytes * option bytes) -> list (bytes * option bytes).

Definition text_max (a : option bytes) (b : bytes) : option bytes :=
  match a with None => Some b | Some x => if text_ltb x b then Some b else Some x end.

(** sqlite.go:1158-1168: the latest time among the messages of a target. *)
Definition latest (d : db) (events : bool) (t : N) : option bytes :=
  fold_left (fun a m => if N.eqb (mr_target m) t && (events || match mr_text m with None => false | Some _ => true end)
                        then text_max a (mr_time m) else a) (d_msgs d) None.

(** A comparison with NULL is not true. *)
Definition null_ltb (a b : option bytes) : bool := match a, b with Some x, Some y => text_ltb x y | _, _ => false end.

(** sqlite.go:1154-1224 (ListMessageLastPerTarget), the times as texts. *)
Definition list_latest (net : N) (o : options) (d : db) : list (bytes * option bytes) :=
  let rows := map (fun t => (tr_target t, latest d (o_events o) (tr_id t))) (filter (fun t => N.eqb (tr_network t) net) (d_targets d)) in
  let rows := filter (fun r => (Z.eqb (o_after o) 0 || null_ltb (Some (format_time (o_after o))) (snd r))
                            && (Z.eqb (o_before o) 0 || null_ltb (snd r) (Some (format_time (o_before o))))) rows in
  if o_last o then rev (firstn (o_limit o) (by_latest_desc rows)) else firstn (o_limit o) (by_latest rows).

(** db.go:91-121 (ListTargets). *)
Definition db_list_targets (net : N) (start stop : Z) (limit : nat) (events : bool) (d : db) : list (bytes * option bytes) :=
  list_latest net (if Z.ltb start stop then Options 0 start stop limit events [] [] false
                   else Options 0 stop start limit events [] [] true) d.
End Query.
