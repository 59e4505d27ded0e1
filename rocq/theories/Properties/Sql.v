(** Properties C39 and C72. *)
From Verif.Base Require Import Bytes.
From Verif.Model Require Import Message TimeFmt Sql.
From Verif.Spec Require Import TimeFmt Sql.
From Verif.Proof Require Sql SqlStore.
From Coq Require Import ZArith NArith.
Open Scope N_scope.

(** C39: in every database written through the interface, deleting a user
    succeeds (no statement of the transaction violates a constraint), erases
    exactly what belongs to the user, and leaves no dangling reference. *)
Theorem C39_user : forall raw_of d u, reachable raw_of d ->
  exists d', delete_user u d = Some d' /\ erased d d' (eq u) (owns d u) /\ intact d'.
Proof.
  intros raw_of d u R. destruct (Proof.Sql.reachable_ok raw_of d R) as [V O].
  destruct (Proof.Sql.delete_user_erased d u V O) as (d' & H1 & H2 & H3). exists d'.
  split; [exact H1|]. split; [exact H3|exact (Proof.Sql.valid_intact d' H2)].
Qed.
Print Assumptions C39_user.

(** C39: likewise for a network. *)
Theorem C39_network : forall raw_of d k, reachable raw_of d ->
  exists d', delete_network k d = Some d' /\ erased d d' (fun _ => False) (eq k) /\ intact d'.
Proof.
  intros raw_of d k R. destruct (Proof.Sql.reachable_ok raw_of d R) as [V O].
  destruct (Proof.Sql.delete_network_erased d k V) as (d' & H1 & H2 & H3). exists d'.
  split; [exact H1|]. split; [exact H3|exact (Proof.Sql.valid_intact d' H2)].
Qed.
Print Assumptions C39_network.

(** C39: PostgreSQL, which deletes by cascade, erases the same rows. *)
Theorem C39_postgres : forall d,
  (forall u, erased d (pg_delete_user u d) (eq u) (owns d u)) /\
  (forall k, erased d (pg_delete_network k d) (fun _ => False) (eq k)).
Proof.
  intros d. split; [exact (Proof.Sql.pg_delete_user_erased d)|exact (Proof.Sql.pg_delete_network_erased d)].
Qed.
Print Assumptions C39_postgres.

(** C39: the id of a new network or user, which may be the id of a deleted one,
    has nothing attached to it. *)
Theorem C39_new_network : forall raw_of d u n d' k, reachable raw_of d -> gn_id n = 0 ->
  store_network u n d = Some (d', k) -> unused_net d' k /\ ~ In k (map nr_id (d_nets d)).
Proof.
  intros raw_of d u n d' k R. exact (Proof.Sql.store_network_fresh d u n d' k (proj1 (Proof.Sql.reachable_ok raw_of d R))).
Qed.
Print Assumptions C39_new_network.

Theorem C39_new_user : forall raw_of now d u d' k, reachable raw_of d -> gu_id u = 0 ->
  store_user now u d = Some (d', k) -> unused_user d' k /\ ~ In k (map ur_id (d_users d)).
Proof.
  intros raw_of now d u d' k R. exact (Proof.Sql.store_user_fresh now d u d' k (proj1 (Proof.Sql.reachable_ok raw_of d R))).
Qed.
Print Assumptions C39_new_user.

(** C72: a user stored, new or known, is read back with the same fields, and no
    other user changes. *)
Theorem C72_user : forall raw_of now d u d' id, reachable raw_of d -> in_years (gu_interacted u) ->
  store_user now u d = Some (d', id) ->
  (gu_id u <> 0 -> exists r, In r (d_users d) /\ ur_username r = gu_username u /\ ur_id r = gu_id u) ->
  get_user (gu_username u) d' = Some (saved_user id u) /\
  forall name, name <> gu_username u -> get_user name d' = get_user name d.
Proof.
  intros raw_of now d u d' id R. exact (Proof.SqlStore.store_user_read now d u d' id (proj1 (Proof.Sql.reachable_ok raw_of d R))).
Qed.
Print Assumptions C72_user.

(** C72: after storing a network, the networks listed for any user are the
    network stored, and those listed before but for its former version. *)
Theorem C72_network : forall raw_of d u n d' id, reachable raw_of d -> storable_cmds (gn_cmds n) ->
  store_network u n d = Some (d', id) -> (gn_id n <> 0 -> owns d u (gn_id n)) ->
  (gn_id n <> 0 -> id = gn_id n) /\
  forall u' x, In x (list_networks u' d') <->
    (u' = u /\ x = saved_network id n) \/ (In x (list_networks u' d) /\ gn_id x <> id).
Proof.
  intros raw_of d u n d' id R. exact (Proof.SqlStore.store_network_read d u n d' id (proj1 (Proof.Sql.reachable_ok raw_of d R))).
Qed.
Print Assumptions C72_network.

(** C72: likewise for channels. *)
Theorem C72_channel : forall raw_of d k c d' id, reachable raw_of d -> store_channel k c d = Some (d', id) ->
  (gc_id c <> 0 -> exists r, In r (d_chans d) /\ cr_id r = gc_id c) ->
  exists c', saved_channel id c c' /\
  forall k' x, In x (list_channels k' d') <->
    (k' = k /\ x = c') \/ (In x (list_channels k' d) /\ gc_id x <> id).
Proof.
  intros raw_of d k c d' id R. exact (Proof.SqlStore.store_channel_read d k c d' id (proj1 (Proof.Sql.reachable_ok raw_of d R))).
Qed.
Print Assumptions C72_channel.

(** C72: storing the delivery receipts of a client replaces them, and no others. *)
Theorem C72_delivery : forall raw_of d k client l d', reachable raw_of d -> store_drcpts k client l d = Some d' ->
  forall k' t c m, In (t, c, m) (list_drcpts k' d') <->
    (k' = k /\ c = client /\ In (t, m) l) \/ (In (t, c, m) (list_drcpts k' d) /\ ~ (k' = k /\ c = client)).
Proof.
  intros raw_of d k client l d' R. exact (Proof.SqlStore.store_drcpts_read d k client l d' (Proof.SqlStore.reachable_clients raw_of d R)).
Qed.
Print Assumptions C72_delivery.

(** C72: it succeeds for distinct targets on an existing network. *)
Theorem C72_delivery_works : forall raw_of d k client l, reachable raw_of d -> In k (map nr_id (d_nets d)) ->
  NoDup (map fst l) -> exists d', store_drcpts k client l d = Some d'.
Proof.
  intros raw_of d k client l R. exact (Proof.SqlStore.store_drcpts_works d k client l (proj1 (Proof.Sql.reachable_ok raw_of d R))).
Qed.
Print Assumptions C72_delivery_works.

(** C72: a read receipt stored is read back, and no other changes. *)
Theorem C72_read : forall raw_of d k i target t d' id, reachable raw_of d -> in_years t ->
  store_rrcpt k i target t d = Some (d', id) ->
  (i <> 0 -> exists v, get_rrcpt k target d = Some (Some (i, v))) ->
  get_rrcpt k target d' = Some (Some (id, millis t)) /\
  (i <> 0 -> id = i) /\
  forall k' target', (k', target') <> (k, target) -> get_rrcpt k' target' d' = get_rrcpt k' target' d.
Proof.
  intros raw_of d k i target t d' id R.
  exact (Proof.SqlStore.store_rrcpt_read d k i target t d' id (proj1 (Proof.Sql.reachable_ok raw_of d R))).
Qed.
Print Assumptions C72_read.

(** C72: likewise for push subscriptions. *)
Theorem C72_subscription : forall raw_of now d u k s d' id, reachable raw_of d -> store_sub now u k s d = Some (d', id) ->
  (gs_id s <> 0 -> exists s0, In s0 (list_subs u k d) /\ gs_id s0 = gs_id s /\ gs_endpoint s0 = gs_endpoint s) ->
  (gs_id s <> 0 -> id = gs_id s) /\
  forall u' k' x, In x (list_subs u' k' d') <->
    (u' = u /\ k' = k /\ x = GSub id (gs_endpoint s) (gs_auth s) (gs_p256dh s) (gs_vapid s)) \/
    (In x (list_subs u' k' d) /\ gs_id x <> id).
Proof.
  intros raw_of now d u k s d' id R. exact (Proof.SqlStore.store_sub_read now d u k s d' id (proj1 (Proof.Sql.reachable_ok raw_of d R))).
Qed.
Print Assumptions C72_subscription.

(** C72 does not hold for every list of connect commands: a single empty
    command is read back as no command. *)
Theorem C72_commands_refuted : exists n d', 
  store_network 1 n (step_db format_message empty_db (StoreUser 5 (GUser 0 (B "ann") [] [] [] false true 0 0))) = Some (d', 1) /\
  gn_cmds n = [[]] /\ map gn_cmds (list_networks 1 d') = [[]].
Proof.
  exists (GNet 0 (B "net") (B "irc.example") [] [] [] [] [[]] [] [] [] [] None None true true). eexists.
  split; [vm_compute; reflexivity|]. split; vm_compute; reflexivity.
Qed.

(** Two users with a network each, channels, receipts, subscriptions and messages. *)
Definition sample_calls : list call :=
  let net name := GNet 0 name (B "irc.example") [] [] [] [] [B "MODE a"; B "JOIN #b"] [] (B "PLAIN") (B "u") (B "p") None None true true in
  let chan := GChan 0 (B "#c") (B "key") true [] 0 0 1500000000 0 in
  let sub := GSub 0 (B "https://push.example/1") (B "a") (B "b") (B "c") in
  let text := Message [(B "time", B "2024-02-29T12:34:56.789Z")] (Some (Prefix (B "bob") [] [])) (B "PRIVMSG") [B "#c"; B "hi"] in
  [StoreUser 5 (GUser 0 (B "ann") (B "h") [] [] false true 0 0); StoreUser 5 (GUser 0 (B "joe") [] [] [] true true 0 3);
   StoreNetwork 1 (net (B "one")); StoreNetwork 2 (net (B "two"));
   StoreChannel 1 chan; StoreChannel 2 chan; StoreDeliveryReceipts 1 (B "phone") [(B "#c", B "id1")];
   StoreDeliveryReceipts 2 [] [(B "#c", B "id2")]; StoreReadReceipt 1 0 (B "#c") 7000000; StoreReadReceipt 2 0 (B "#c") 9000000;
   StoreSubscription 5 1 1 sub; StoreSubscription 5 1 0 sub; StoreSubscription 5 2 2 sub;
   StoreMessages 1 (B "#c") 5 [text; text]; StoreMessages 2 (B "#c") 5 [text]].

Definition sizes (d : db) : list nat :=
  [length (d_users d); length (d_nets d); length (d_chans d); length (d_drcpts d); length (d_rrcpts d); length (d_subs d);
   length (d_targets d); length (d_msgs d)].

Definition sample_db : db := fold_left (step_db format_message) sample_calls empty_db.

Example C39_nonvacuous : reachable format_message sample_db /\ sizes sample_db = [2; 2; 2; 2; 2; 3; 2; 3]%nat /\
  match delete_user 1 sample_db with Some d => sizes d = [1; 1; 1; 1; 1; 1; 1; 1]%nat | None => False end /\
  match delete_network 2 sample_db with Some d => sizes d = [2; 1; 1; 1; 1; 2; 1; 2]%nat | None => False end.
Proof.
  split; [|vm_compute; tauto]. apply Proof.Sql.reachable_run; [apply reach_empty|vm_compute; reflexivity].
Qed.

(** The networks, channels and receipts of the sample are read back. *)
Example C72_nonvacuous :
  map gn_cmds (list_networks 2 sample_db) = [[B "MODE a"; B "JOIN #b"]] /\ map gn_ppass (list_networks 2 sample_db) = [B "p"] /\
  map gc_after (list_channels 1 sample_db) = [2000000000%Z] /\ list_drcpts 2 sample_db = [(B "#c", [], B "id2")] /\
  get_rrcpt 1 (B "#c") sample_db = Some (Some (1, 7000000%Z)) /\ map gs_id (list_subs 1 0 sample_db) = [2] /\
  match get_user (B "joe") sample_db with Some u => gu_max u = 3%Z | None => False end /\
  match store_drcpts 2 [] [(B "#d", B "x"); (B "#e", B "y")] sample_db with
  | Some d => list_drcpts 2 d = [(B "#d", [], B "x"); (B "#e", [], B "y")]
  | None => False
  end.
Proof. vm_compute. tauto. Qed.
