(** What the queries on messages are to return. *)
From Verif.Base Require Import Bytes.
From Verif.Model Require Import Message TimeFmt Sql SqlQuery.
From Verif.Spec Require Import TimeFmt Sql.
From Coq Require Import ZArith NArith Permutation Sorted.

(** A row was stored for a target of a network. *)
Definition stored_for (d : db) (net : N) (name : bytes) (r : msg_row) : Prop :=
  exists t, In t (d_targets d) /\ tr_id t = mr_target r /\ tr_network t = net /\ tr_target t = name.

(** The time of a row, exact to a millisecond. *)
Definition row_at (r : msg_row) (t : Z) : Prop := in_years t /\ mr_time r = format_time t.

Definition not_later (r1 r2 : msg_row) : Prop :=
  forall t1 t2, row_at r1 t1 -> row_at r2 t2 -> (millis t1 <= millis t2)%Z.

(** The bounds of a query. *)
Definition in_bounds (fts : bytes -> option bytes -> bool) (o : options) (r : msg_row) : Prop :=
  (o_after_id o = 0%N \/ (o_after_id o < mr_id r)%N) /\
  (o_after o = 0%Z \/ forall t, row_at r t -> (millis (o_after o) < millis t)%Z) /\
  (o_before o = 0%Z \/ forall t, row_at r t -> (millis t < millis (o_before o))%Z) /\
  (o_sender o = [] \/ mr_sender r = o_sender o) /\
  (o_text o = [] \/ fts (o_text o) (mr_text r) = true) /\
  (o_events o = true \/ mr_text r <> None).

(** [out] is a right answer: of the elements wanted, in order, up to the limit,
    the first ones (or the last ones). *)
Definition best {A} (le : A -> A -> Prop) (want : A -> Prop) (limit : nat) (last : bool) (out : list A) : Prop :=
  exists rest,
    NoDup (out ++ rest) /\
    (forall x, In x (out ++ rest) <-> want x) /\
    StronglySorted le out /\
    length out = Nat.min limit (length (out ++ rest)) /\
    (forall x y, In x out -> In y rest -> if last then le y x else le x y).

(** What a listing is to return, in chronological order. *)
Definition answer (fts : bytes -> option bytes -> bool) (d : db) (net : N) (name : bytes) (o : options) (out : list msg_row) : Prop :=
  best not_later (fun r => In r (d_msgs d) /\ stored_for d net name r /\ in_bounds fts o r) (o_limit o) (o_last o) out.

(** Orderings by time: SQL leaves the order of equal keys open. *)
Definition sorts {A} (before : A -> A -> Prop) (f : list A -> list A) : Prop :=
  forall l, Permutation (f l) l /\ StronglySorted before (f l).

Definition time_asc (a b : msg_row) : Prop := ~ text_lt (mr_time b) (mr_time a).
Definition time_desc (a b : msg_row) : Prop := ~ text_lt (mr_time a) (mr_time b).

(** The clock is between the years 0 and 9999. *)
Definition clock_call (c : call) : Prop := match c with StoreMessages _ _ now _ => in_years now | _ => True end.

Inductive written (raw_of : message -> bytes) : db -> Prop :=
| written_empty : written raw_of empty_db
| written_step d c : written raw_of d -> own_call d c -> clock_call c -> written raw_of (step_db raw_of d c).

(** The message a row stands for. *)
Definition row_of (raw_of : message -> bytes) (now : Z) (m : message) (r : msg_row) : Prop :=
  mr_raw r = raw_of m /\ mr_sender r = message_sender m /\ mr_text r = message_text m /\
  exists t, message_time now m = Some t /\ row_at r t.

(** A call that does not delete the network. *)
Definition stays (net : N) (d : db) (c : call) : Prop :=
  match c with DeleteNetwork k => k <> net | DeleteUser u => ~ owns d u net | _ => True end.

(** [d'] comes after [d], in which the network stays. *)
Inductive later (raw_of : message -> bytes) (net : N) (d : db) : db -> Prop :=
| later_same : later raw_of net d d
| later_step d' c : later raw_of net d d' -> own_call d' c -> clock_call c -> stays net d' c -> later raw_of net d (step_db raw_of d' c).

(** Messages stored for a target since [d0]. *)
Definition stored_since (d0 d : db) (net : N) (name : bytes) (r : msg_row) : Prop :=
  In r (d_msgs d) /\ stored_for d net name r /\ ~ (In r (d_msgs d0) /\ stored_for d0 net name r).

(** In a target, a message stored later has a later time. *)
Definition in_time_order (d : db) (net : N) (name : bytes) : Prop :=
  forall r1 r2 t1 t2, In r1 (d_msgs d) -> In r2 (d_msgs d) -> stored_for d net name r1 -> stored_for d net name r2 ->
    (mr_id r1 < mr_id r2)%N -> row_at r1 t1 -> row_at r2 t2 -> (millis t1 < millis t2)%Z.

(** The same, with messages of the same time. *)
Definition in_weak_time_order (d : db) (net : N) (name : bytes) : Prop :=
  forall r1 r2, In r1 (d_msgs d) -> In r2 (d_msgs d) -> stored_for d net name r1 -> stored_for d net name r2 ->
    (mr_id r1 < mr_id r2)%N -> not_later r1 r2.

(** A descending order in which messages of the same time are ordered by id. *)
Definition time_id_desc (a b : msg_row) : Prop :=
  text_lt (mr_time b) (mr_time a) \/ (mr_time a = mr_time b /\ (mr_id b <= mr_id a)%N).

(** ** Targets *)

Definition counts (events : bool) (m : msg_row) : Prop := events = true \/ mr_text m <> None.

(** [u] is the time of the latest message of target [t]. *)
Definition is_latest (d : db) (events : bool) (t : N) (u : Z) : Prop :=
  (exists m, In m (d_msgs d) /\ mr_target m = t /\ counts events m /\ row_at m u) /\
  (forall m v, In m (d_msgs d) -> mr_target m = t -> counts events m -> row_at m v -> (millis v <= millis u)%Z).

(** A target listed with the time of its latest message, between two times. *)
Definition target_between (d : db) (net : N) (events : bool) (lo hi : Z) (x : bytes * option bytes) : Prop :=
  exists t u, In t (d_targets d) /\ tr_network t = net /\ x = (tr_target t, Some (format_time u)) /\
    is_latest d events (tr_id t) u /\ (millis lo < millis u < millis hi)%Z.

Definition target_not_later (x y : bytes * option bytes) : Prop :=
  forall u v, in_years u -> in_years v -> snd x = Some (format_time u) -> snd y = Some (format_time v) -> (millis u <= millis v)%Z.

(** [ORDER BY] on a column that may be NULL; NULL is the least value in SQLite. *)
Definition opt_lt (a b : option bytes) : Prop :=
  match a, b with None, Some _ => True | Some x, Some y => text_lt x y | _, _ => False end.

Definition latest_asc (a b : bytes * option bytes) : Prop := ~ opt_lt (snd b) (snd a).
Definition latest_desc (a b : bytes * option bytes) : Prop := ~ opt_lt (snd a) (snd b).
