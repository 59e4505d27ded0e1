(** What belongs to whom in the tables. *)
From Verif.Base Require Import Bytes.
From Verif.Model Require Import Message TimeFmt Sql.
From Coq Require Import ZArith NArith.

(** A user owns a network. *)
Definition owns (d : db) (u k : N) : Prop := exists n, In n (d_nets d) /\ nr_id n = k /\ nr_user n = u.

(** A message was stored for a network. *)
Definition msg_in (d : db) (m : msg_row) (k : N) : Prop :=
  exists t, In t (d_targets d) /\ tr_id t = mr_target m /\ tr_network t = k.

(** [d'] is [d] without the users [U], the networks [K], and everything that
    belongs to one of them; all else is there, and nothing else. *)
Record erased (d d' : db) (U K : N -> Prop) : Prop := {
  er_users : forall r, In r (d_users d') <-> In r (d_users d) /\ ~ U (ur_id r);
  er_nets : forall r, In r (d_nets d') <-> In r (d_nets d) /\ ~ K (nr_id r);
  er_chans : forall r, In r (d_chans d') <-> In r (d_chans d) /\ ~ K (cr_network r);
  er_drcpts : forall r, In r (d_drcpts d') <-> In r (d_drcpts d) /\ ~ K (dr_network r);
  er_rrcpts : forall r, In r (d_rrcpts d') <-> In r (d_rrcpts d) /\ ~ K (rr_network r);
  er_subs : forall r, In r (d_subs d') <-> In r (d_subs d) /\ ~ U (sr_user r) /\ (forall k, sr_network r = Some k -> ~ K k);
  er_targets : forall r, In r (d_targets d') <-> In r (d_targets d) /\ ~ K (tr_network r);
  er_msgs : forall r, In r (d_msgs d') <-> In r (d_msgs d) /\ ~ exists k, msg_in d r k /\ K k }.

(** Every reference leads to a row. *)
Record intact (d : db) : Prop := {
  in_nets : forall r, In r (d_nets d) -> In (nr_user r) (map ur_id (d_users d));
  in_chans : forall r, In r (d_chans d) -> In (cr_network r) (map nr_id (d_nets d));
  in_drcpts : forall r, In r (d_drcpts d) -> In (dr_network r) (map nr_id (d_nets d));
  in_rrcpts : forall r, In r (d_rrcpts d) -> In (rr_network r) (map nr_id (d_nets d));
  in_subs : forall r, In r (d_subs d) -> In (sr_user r) (map ur_id (d_users d));
  in_subs_net : forall r k, In r (d_subs d) -> sr_network r = Some k -> In k (map nr_id (d_nets d));
  in_targets : forall r, In r (d_targets d) -> In (tr_network r) (map nr_id (d_nets d));
  in_msgs : forall r, In r (d_msgs d) -> In (mr_target r) (map tr_id (d_targets d)) }.

(** No row refers to network [k]. *)
Record unused_net (d : db) (k : N) : Prop := {
  un_chans : forall r, In r (d_chans d) -> cr_network r <> k;
  un_drcpts : forall r, In r (d_drcpts d) -> dr_network r <> k;
  un_rrcpts : forall r, In r (d_rrcpts d) -> rr_network r <> k;
  un_subs : forall r, In r (d_subs d) -> sr_network r <> Some k;
  un_targets : forall r, In r (d_targets d) -> tr_network r <> k }.

(** No row refers to user [u]. *)
Definition unused_user (d : db) (u : N) : Prop :=
  (forall r, In r (d_nets d) -> nr_user r <> u) /\ (forall r, In r (d_subs d) -> sr_user r <> u).

(** Subscriptions are stored for a network of the same user, or for none
    (downstream.go:3265-3268, 3296). *)
Definition own_call (d : db) (c : call) : Prop :=
  match c with
  | StoreSubscription _ user net _ => net = 0%N \/ owns d user net
  | _ => True
  end.

(** Databases written through the interface only. *)
Inductive reachable (raw_of : message -> bytes) : db -> Prop :=
| reach_empty : reachable raw_of empty_db
| reach_step d c : reachable raw_of d -> own_call d c -> reachable raw_of (step_db raw_of d c).

(** ** What is read back after storing *)

(** The user read back: times have milliseconds. *)
Definition saved_user (id : N) (u : guser) : guser :=
  GUser id (gu_username u) (gu_password u) (gu_nick u) (gu_realname u) (gu_admin u) (gu_enabled u)
    (gu_interacted u / 1000000 * 1000000) (gu_max u).

(** The network read back: only the credentials of its SASL mechanism are kept,
    certificates also without mechanism. *)
Definition saved_network (id : N) (n : gnet) : gnet :=
  let plain := beqb (gn_mech n) (B "PLAIN") in
  GNet id (gn_name n) (gn_addr n) (gn_nick n) (gn_username n) (gn_realname n) (gn_pass n) (gn_cmds n) (gn_certfp n)
    (gn_mech n) (if plain then gn_puser n else []) (if plain then gn_ppass n else [])
    (if plain then None else gn_cert n) (if plain then None else gn_key n) (gn_away n) (gn_enabled n).

(** Connect commands without line breaks, and not one empty command alone. *)
Definition storable_cmds (l : list bytes) : Prop :=
  l <> [[]] /\ forall c a b, In c l -> c <> a ++ B (String "013" (String "010" EmptyString)) ++ b.

(** The channel read back: DetachAfter is rounded up to seconds. *)
Definition rounded_up (t t' : Z) : Prop := exists s, t' = (s * 1000000000)%Z /\ (t' - 1000000000 < t <= t')%Z.

Definition saved_channel (id : N) (c c' : gchan) : Prop :=
  gc_id c' = id /\ gc_name c' = gc_name c /\ gc_key c' = gc_key c /\ gc_detached c' = gc_detached c /\
  gc_dmsgid c' = gc_dmsgid c /\ gc_relay c' = gc_relay c /\ gc_reattach c' = gc_reattach c /\
  rounded_up (gc_after c) (gc_after c') /\ gc_on c' = gc_on c.
