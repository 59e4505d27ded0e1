(** What is in the log files. *)
From Verif.Base Require Import Bytes.
From Verif.Model Require Import Message TimeFmt ZncLog FsStore LogPath Sql SqlQuery MigrateLogs.
From Verif.Spec Require Import TimeFmt Sql SqlQuery.
From Coq Require Import ZArith NArith Permutation Sorted.

(** A message in the log: its network, target and time. *)
Record item := Item { i_net : N; i_target : bytes; i_msg : log_msg; i_time : Z }.

(** [out] is made of one part for each element. *)
Definition in_turn {A B} (P : A -> list B -> Prop) (l : list A) (out : list B) : Prop :=
  exists parts, Forall2 P l parts /\ out = concat parts.

(** The messages of a file of a day. *)
Definition file_items (own : bytes) (net : N) (target : bytes) (e : bytes * bytes) (out : list item) : Prop :=
  exists day, entry_day (fst e) = Some day /\
  out = flat_map (fun l => match fs_parse own target true l with
                           | Some (Some (m, tod)) => [Item net target m (day * 86400000000000 + tod)%Z]
                           | _ => []
                           end) (scan_lines (snd e)).

(** Those of a folder: the files in the order of their names. *)
Definition target_items (own : bytes) (net : N) (t : bytes * list (bytes * bytes)) (out : list item) : Prop :=
  exists es, Permutation es (snd t) /\ StronglySorted (fun a b => ~ text_lt (fst b) (fst a)) es /\
  in_turn (file_items own net (fst t)) es out.

Definition network_items (root : bytes -> bytes -> option folder) (u : guser) (n : gnet) (out : list item) : Prop :=
  match root (escape_filename (gu_username u)) (escape_filename (log_name n)) with
  | None => out = []
  | Some f => in_turn (target_items (log_nick u n) (gn_id n)) f out
  end.

Definition all_items (root : bytes -> bytes -> option folder) (d : db) (users : list guser) (out : list item) : Prop :=
  in_turn (fun u => in_turn (network_items root u) (list_networks (gu_id u) d)) users out.

(** Every file is named after a day, and all its lines can be read, with a time between
    the years 0 and 9999 that is not the zero time. *)
Definition readable (root : bytes -> bytes -> option folder) (u : guser) (n : gnet) : Prop :=
  forall f target es name content, root (escape_filename (gu_username u)) (escape_filename (log_name n)) = Some f ->
    In (target, es) f -> In (name, content) es ->
    exists day, entry_day name = Some day /\ forall l, In l (scan_lines content) ->
    exists r, fs_parse (log_nick u n) target true l = Some r /\
    forall m tod, r = Some (m, tod) -> in_years (day * 86400000000000 + tod) /\ (day * 86400000000000 + tod)%Z <> 0%Z.

(** A message of the log is in the database: for its target, with its sender, text and time. *)
Definition arrived (raw_of : message -> bytes) (now : Z) (d : db) (i : item) (r : msg_row) : Prop :=
  row_of raw_of now (Message [(B "time", format_time (i_time i))] (Some (lm_prefix (i_msg i))) (lm_command (i_msg i)) (lm_params (i_msg i))) r /\
  stored_for d (i_net i) (i_target i) r /\
  (in_years (i_time i) -> row_at r (i_time i)).

(** The database has these messages more, and otherwise what it had. *)
Definition added (raw_of : message -> bytes) (now : Z) (d : db) (items : list item) (d' : db) : Prop :=
  exists rows, d_msgs d' = d_msgs d ++ rows /\ Forall2 (arrived raw_of now d') items rows /\
  (forall r k nm, In r (d_msgs d) -> (stored_for d' k nm r <-> stored_for d k nm r)) /\
  d_users d' = d_users d /\ d_nets d' = d_nets d /\ d_chans d' = d_chans d.

(** The name of the file of a day. *)
Definition day_file (day : Z) : bytes :=
  let '(y, m, d) := civil_of_days day in pad 4 y ++ B "-" ++ pad 2 m ++ B "-" ++ pad 2 d ++ B ".log".
