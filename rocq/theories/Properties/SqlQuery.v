(** C40, C73, C74: queries on the messages of the SQL database. *)
From Verif.Base Require Import Bytes.
From Verif.Model Require Import Message TimeFmt Sql SqlQuery.
From Verif.Spec Require Import TimeFmt Sql SqlQuery.
From Verif.Proof Require SqlQuery.
From Coq Require Import ZArith NArith Permutation Sorted.
Open Scope N_scope.

(** C40: a listing with any combination of bounds returns messages of that
    network and target which satisfy all bounds, each once, in chronological
    order, and up to the limit the earliest (or the latest). For every way of
    ordering messages of the same time. *)
Theorem C40_list : forall raw_of by_time by_time_desc fts d net name o,
  sorts time_asc by_time -> sorts time_desc by_time_desc ->
  written raw_of d -> in_years (o_after o) -> in_years (o_before o) ->
  answer fts d net name o (list_rows by_time by_time_desc fts net name o d).
Proof.
  intros raw_of by_time by_time_desc fts d net name o A D. exact (Proof.SqlQuery.list_answer raw_of by_time by_time_desc fts A D d net name o).
Qed.
Print Assumptions C40_list.

(** C40: the messages before [start] and after [stop], those closest to
    [start]. *)
Theorem C40_before : forall raw_of by_time by_time_desc fts d net name start stop limit events,
  sorts time_asc by_time -> sorts time_desc by_time_desc -> written raw_of d -> in_years start -> in_years stop -> start <> 0%Z -> stop <> 0%Z ->
  best not_later (fun r => In r (d_msgs d) /\ stored_for d net name r /\ counts events r /\
                           forall t, row_at r t -> (millis stop < millis t < millis start)%Z) limit true
    (db_load_before by_time by_time_desc fts net name start stop limit events d).
Proof.
  intros raw_of by_time by_time_desc fts d net name start stop limit events A D W Y1 Y2 N1 N2.
  exact (Proof.SqlQuery.before_answer raw_of by_time by_time_desc fts d net name start stop limit events A D W Y1 Y2 N1 N2).
Qed.
Print Assumptions C40_before.

(** C40: the messages after [start] and before [stop], those closest to
    [start]. *)
Theorem C40_after : forall raw_of by_time by_time_desc fts d net name start stop limit events,
  sorts time_asc by_time -> sorts time_desc by_time_desc -> written raw_of d -> in_years start -> in_years stop -> start <> 0%Z -> stop <> 0%Z ->
  best not_later (fun r => In r (d_msgs d) /\ stored_for d net name r /\ counts events r /\
                           forall t, row_at r t -> (millis start < millis t < millis stop)%Z) limit false
    (db_load_after by_time by_time_desc fts net name start stop limit events d).
Proof.
  intros raw_of by_time by_time_desc fts d net name start stop limit events A D W Y1 Y2 N1 N2.
  exact (Proof.SqlQuery.after_answer raw_of by_time by_time_desc fts d net name start stop limit events A D W Y1 Y2 N1 N2).
Qed.
Print Assumptions C40_after.

(** C40: storing messages for a network that exists adds a row for each, with
    its text, sender and time, under ids that increase; the rows of all other
    messages stay as they were. *)
Theorem C40_store : forall raw_of d net name now l, written raw_of d -> In net (map nr_id (d_nets d)) -> in_years now ->
  (forall m, In m l -> exists t, message_time now m = Some t /\ t <> 0%Z) ->
  exists d' ids rows, store_messages raw_of net name now l d = Some (d', ids) /\
    d_msgs d' = d_msgs d ++ rows /\ Forall2 (row_of raw_of now) l rows /\ map mr_id rows = ids /\ StronglySorted N.lt ids /\
    (forall r, In r rows -> stored_for d' net name r /\ forall r0, In r0 (d_msgs d) -> mr_id r0 < mr_id r) /\
    (forall r k nm, In r (d_msgs d) -> (stored_for d' k nm r <-> stored_for d k nm r)).
Proof. intros raw_of d net name now l. exact (Proof.SqlQuery.store_works raw_of d net name now l). Qed.
Print Assumptions C40_store.

(** C40: the messages returned are the ones stored, if each survives being
    written and parsed (C01). *)
Theorem C40_messages : forall raw_of by_time by_time_desc fts parse d net name o,
  (forall r, In r (list_rows by_time by_time_desc fts net name o d) -> exists m, mr_raw r = raw_of m /\ parse (raw_of m) = Some m) ->
  exists ms, list_messages by_time by_time_desc fts parse net name o d = Some ms /\
    Forall2 (fun r m => mr_raw r = raw_of m) (list_rows by_time by_time_desc fts net name o d) ms.
Proof. intros raw_of by_time by_time_desc fts parse d net name o. exact (Proof.SqlQuery.parse_all_ok raw_of parse _). Qed.
Print Assumptions C40_messages.

(** C73, for a target whose messages were stored in the order of their times:
    loading from a pointer taken earlier returns exactly the texts stored since,
    up to the limit the latest, whatever else happened to the database. *)
Theorem C73_exact_partial : forall raw_of by_time by_time_desc fts d d' net name limit,
  sorts time_asc by_time -> sorts time_desc by_time_desc -> written raw_of d -> later raw_of net d d' -> in_time_order d net name ->
  best not_later (fun r => stored_since d d' net name r /\ mr_text r <> None) limit true
    (db_load_latest by_time by_time_desc fts net name (db_last_msg_id by_time_desc net name d) limit d').
Proof.
  intros raw_of by_time by_time_desc fts d d' net name limit A D W L O.
  exact (Proof.SqlQuery.points_exact raw_of by_time by_time_desc fts A D d d' net name limit W L (Proof.SqlQuery.order_points raw_of by_time_desc D d net name W O)).
Qed.
Print Assumptions C73_exact_partial.

(** C73: the same with messages of the same millisecond, if the database orders
    them by id, as SQLite's index does. *)
Theorem C73_ties_partial : forall raw_of by_time by_time_desc fts d d' net name limit,
  sorts time_asc by_time -> sorts time_desc by_time_desc -> sorts time_id_desc by_time_desc ->
  written raw_of d -> later raw_of net d d' -> in_weak_time_order d net name ->
  best not_later (fun r => stored_since d d' net name r /\ mr_text r <> None) limit true
    (db_load_latest by_time by_time_desc fts net name (db_last_msg_id by_time_desc net name d) limit d').
Proof.
  intros raw_of by_time by_time_desc fts d d' net name limit A D Di W L O.
  exact (Proof.SqlQuery.points_exact raw_of by_time by_time_desc fts A D d d' net name limit W L (Proof.SqlQuery.weak_points raw_of by_time_desc fts D d net name W O Di)).
Qed.
Print Assumptions C73_ties_partial.

(** C73: in any case no text stored since the pointer is left out below the
    limit. *)
Theorem C73_none_lost : forall raw_of by_time by_time_desc fts d d' net name limit r,
  sorts time_asc by_time -> sorts time_desc by_time_desc -> written raw_of d -> later raw_of net d d' ->
  stored_since d d' net name r -> mr_text r <> None -> (length (d_msgs d') <= limit)%nat ->
  In r (db_load_latest by_time by_time_desc fts net name (db_last_msg_id by_time_desc net name d) limit d').
Proof. exact Proof.SqlQuery.none_lost. Qed.
Print Assumptions C73_none_lost.

(** C74: the targets returned are exactly those whose latest message lies
    between the times, in the order of these messages, up to the limit the ones
    closest to the first time. *)
Theorem C74_targets : forall raw_of by_latest by_latest_desc d net lo hi limit events (last : bool),
  sorts latest_asc by_latest -> sorts latest_desc by_latest_desc ->
  written raw_of d -> in_years lo -> in_years hi -> lo <> 0%Z -> hi <> 0%Z -> (lo < hi)%Z ->
  best target_not_later (target_between d net events lo hi) limit last
    (db_list_targets by_latest by_latest_desc net (if last then hi else lo) (if last then lo else hi) limit events d).
Proof.
  intros raw_of by_latest by_latest_desc d net lo hi limit events last A D.
  exact (Proof.SqlQuery.targets_answer raw_of by_latest by_latest_desc A D d net lo hi limit events last).
Qed.
Print Assumptions C74_targets.

(** ** Examples *)

Definition text_at (time text : bytes) : message :=
  Message [(B "time", time)] (Some (Prefix (B "bob") [] [])) (B "PRIVMSG") [B "#c"; text].
Definition join_at (time : bytes) : message := Message [(B "time", time)] (Some (Prefix (B "bob") [] [])) (B "JOIN") [B "#c"].

Definition query_calls (l : list message) : list call :=
  let net name := GNet 0 name (B "irc.example") [] [] [] [] [] [] [] [] [] None None true true in
  [StoreUser 5 (GUser 0 (B "ann") (B "h") [] [] false true 0 0); StoreNetwork 1 (net (B "one")); StoreNetwork 1 (net (B "two"));
   StoreMessages 1 (B "#c") 5 l; StoreMessages 1 (B "#d") 5 [text_at (B "2024-03-01T00:00:00.000Z") (B "other")];
   StoreMessages 2 (B "#c") 5 [text_at (B "2024-02-29T12:00:01.000Z") (B "elsewhere")]].

Definition query_db (l : list message) : db := fold_left (step_db format_message) (query_calls l) empty_db.

Definition t0 := B "2024-02-29T12:00:00.000Z".
Definition t1 := B "2024-02-29T12:00:01.000Z".
Definition t2 := B "2024-02-29T12:00:02.000Z".
Definition t3 := B "2024-02-29T12:00:03.000Z".
Definition at_ (s : bytes) : Z := match parse_time s with Some t => t | None => 0%Z end.
Definition no_fts (q : bytes) (t : option bytes) : bool := match t with Some s => has_prefix s q | None => false end.

Definition sample_query := query_db [text_at t0 (B "a"); text_at t2 (B "b"); join_at t2; text_at t1 (B "c"); text_at t3 (B "d")].

Import Proof.SqlQuery.

Example C40_nonvacuous : sorts time_asc sqlite_up /\ sorts time_desc sqlite_down /\ written format_message sample_query /\
  in_years (at_ t0) /\
  map mr_text (db_load_after sqlite_up sqlite_down no_fts 1 (B "#c") (at_ t0) (at_ t3) 5 false sample_query) = [Some (B "c"); Some (B "b")] /\
  map mr_text (db_load_after sqlite_up sqlite_down no_fts 1 (B "#c") (at_ t0) (at_ t3) 1 true sample_query) = [Some (B "c")] /\
  length (db_load_after sqlite_up sqlite_down no_fts 1 (B "#c") (at_ t0) (at_ t3) 5 true sample_query) = 3%nat /\
  map mr_text (db_load_before sqlite_up sqlite_down no_fts 1 (B "#c") (at_ t3) (at_ t0) 1 false sample_query) = [Some (B "b")] /\
  map mr_text (db_search sqlite_up sqlite_down no_fts 1 (B "#c") 0 0 5 (B "bob") (B "c") sample_query) = [Some (B "c")].
Proof.
  split; [exact up_sorts|]. split; [exact down_sorts|].
  split; [apply written_run; [apply written_empty|vm_compute; reflexivity]|].
  split; [apply (parse_in_years t0); vm_compute; reflexivity|]. vm_compute. tauto.
Qed.

Definition ordered_query := query_db [text_at t0 (B "a"); join_at t1].
Definition later_query := fold_left (step_db format_message)
  [StoreMessages 1 (B "#c") 5 [text_at t2 (B "b"); join_at t2]; DeleteNetwork 2; StoreMessages 1 (B "#c") 5 [text_at t1 (B "c")]] ordered_query.

Example C73_nonvacuous : written format_message ordered_query /\ later format_message 1 ordered_query later_query /\
  in_time_order ordered_query 1 (B "#c") /\ sorts time_id_desc sqlite_down /\
  db_last_msg_id sqlite_down 1 (B "#c") ordered_query = 2 /\
  map mr_text (db_load_latest sqlite_up sqlite_down no_fts 1 (B "#c") 2 10 later_query) = [Some (B "c"); Some (B "b")].
Proof.
  split; [apply written_run; [apply written_empty|vm_compute; reflexivity]|].
  split.
  { unfold later_query. cbn [fold_left].
    assert (Y : clock_call (StoreMessages 1 (B "#c") 5 [])) by (apply clock_callb_ok; vm_compute; reflexivity).
    apply later_step; [apply later_step; [apply later_step; [apply later_same| | |]| | |]| | |]; try exact I; try exact Y. discriminate. }
  split; [apply time_orderb_ok; vm_compute; reflexivity|]. split; [exact down_sorts_id|]. vm_compute. tauto.
Qed.

(** C73 does not hold in general: with a message stored after one with a later
    time, what was already stored when the pointer was taken is loaded again. *)
Theorem C73_order_refuted : exists d, written format_message d /\
  (forall r, ~ stored_since d d 1 (B "#c") r) /\
  map mr_text (db_load_latest sqlite_up sqlite_down no_fts 1 (B "#c") (db_last_msg_id sqlite_down 1 (B "#c") d) 10 d) = [Some (B "b")].
Proof.
  exists (query_db [text_at t2 (B "a"); text_at t1 (B "b")]).
  split; [apply written_run; [apply written_empty|vm_compute; reflexivity]|].
  split; [intros r (H1 & H2 & H3); tauto|vm_compute; reflexivity].
Qed.

Example C74_nonvacuous : sorts latest_asc latest_up /\ sorts latest_desc latest_down /\ written format_message sample_query /\
  db_list_targets latest_up latest_down 1 (at_ t0) (at_ (B "2025-01-01T00:00:00.000Z")) 5 false sample_query =
    [(B "#c", Some t3); (B "#d", Some (B "2024-03-01T00:00:00.000Z"))] /\
  db_list_targets latest_up latest_down 1 (at_ (B "2025-01-01T00:00:00.000Z")) (at_ t0) 1 false sample_query =
    [(B "#d", Some (B "2024-03-01T00:00:00.000Z"))].
Proof.
  split; [exact latest_up_sorts|]. split; [exact latest_down_sorts|].
  split; [apply written_run; [apply written_empty|vm_compute; reflexivity]|]. vm_compute. tauto.
Qed.
