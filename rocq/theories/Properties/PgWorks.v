(** C107: new users, networks and channels are stored in PostgreSQL. *)
From Verif.Base Require Import Bytes.
From Verif.Model Require Import Message Sql SqlQuery Postgres.
From Verif.Proof Require Postgres PgWorks.
From Verif.Spec Require Import Sql Postgres.
From Verif.Properties Require MigrateDb.
From Coq Require Import ZArith NArith Lia.
Open Scope N_scope.

Section Works.
Variable raw_of : message -> bytes.

(** A new user whose texts fit is stored, unless the name is taken. *)
Theorem C107_create_user p now fresh u : p_reachable raw_of p -> gu_id u = 0 -> short_user u -> (- 2 ^ 31 <= gu_max u < 2 ^ 31)%Z ->
  (forall v, In v (p_list_users p) -> gu_id v <> fresh /\ gu_username v <> gu_username u) ->
  exists p', p_store_user now fresh u p = Some (p', fresh).
Proof. intros R. exact (Proof.PgWorks.create_user p now fresh u (Proof.Postgres.reachable_valid raw_of p R)). Qed.

(** A new network, unless the user has another one with its name, or with its address and
    nickname; networks without name or nickname are no obstacle. *)
Theorem C107_create_network p fresh u n : p_reachable raw_of p -> gn_id n = 0 -> short_network n -> In (gn_mech n) [[]; B "PLAIN"; B "EXTERNAL"] ->
  (exists v, In v (p_list_users p) /\ gu_id v = u) -> (forall v x, In x (p_list_networks v p) -> gn_id x <> fresh) ->
  (forall x, In x (p_list_networks u p) -> gn_name x = gn_name n -> gn_name n = []) ->
  (forall x, In x (p_list_networks u p) -> gn_addr x = gn_addr n -> gn_nick x = gn_nick n -> gn_nick n = []) ->
  exists p', p_store_network fresh u n p = Some (p', fresh).
Proof. intros R. exact (Proof.PgWorks.create_network p fresh u n (Proof.Postgres.reachable_valid raw_of p R)). Qed.

(** A new channel, unless the network has one with its name. *)
Theorem C107_create_channel p fresh k c : p_reachable raw_of p -> gc_id c = 0 -> short_channel c ->
  (- 2 ^ 31 <= gc_relay c < 2 ^ 31)%Z -> (- 2 ^ 31 <= gc_reattach c < 2 ^ 31)%Z -> (- 2 ^ 31 <= gc_on c < 2 ^ 31)%Z -> (- 2 ^ 31 <= ceil_seconds (gc_after c) < 2 ^ 31)%Z ->
  (exists v x, In x (p_list_networks v p) /\ gn_id x = k) -> (forall k' x, In x (p_list_channels k' p) -> gc_id x <> fresh) ->
  (forall x, In x (p_list_channels k p) -> gc_name x <> gc_name c) ->
  exists p', p_store_channel fresh k c p = Some (p', fresh).
Proof. intros R. exact (Proof.PgWorks.create_channel p fresh k c (Proof.Postgres.reachable_valid raw_of p R)). Qed.
End Works.
Print Assumptions C107_create_user.
Print Assumptions C107_create_network.
Print Assumptions C107_create_channel.

(** The first user, a second network of theirs with the same address and no nickname, a
    channel of it; the second user of the same name is refused. *)
Definition w_user : guser := GUser 0 (B "alice") (B "hash") [] (B "Alice") false true 1234567 (-1).
Definition w_net (name : bytes) : gnet := GNet 0 name (B "irc.libera.chat") [] [] [] [] [] [] (B "PLAIN") (B "account") (B "pass") None None true true.
Definition w_chan : gchan := GChan 0 (B "#soju") [] true [] 0 0 0 0.
Definition w_calls : list pcall := [PStoreUser 1000 1 w_user; PStoreNetwork 1 1 (w_net (B "libera"))].
Definition w_db : pg := fold_left (p_step (fun _ => [])) w_calls empty_pg.

Example C107_create_nonvacuous :
  p_reachable (fun _ => []) w_db /\ short_user w_user /\ short_network (w_net (B "other")) /\ short_channel w_chan /\
  map gu_id (p_list_users w_db) = [1] /\ map gn_name (p_list_networks 1 w_db) = [B "libera"] /\ p_list_channels 1 w_db = [] /\
  p_store_user 1000 2 w_user w_db = None /\ p_store_network 2 1 (w_net (B "libera")) w_db = None /\
  (exists p', p_store_network 2 1 (w_net (B "other")) w_db = Some (p', 2) /\ exists p2, p_store_channel 1 2 w_chan p' = Some (p2, 1) /\ p_store_channel 2 2 w_chan p2 = None).
Proof.
  split; [apply p_reach_step; apply p_reach_step; apply p_reach_empty|].
  assert (A : forall k s, MigrateDb.asciib k s = true -> short k s) by exact MigrateDb.ascii_short.
  split; [repeat split; apply A; vm_compute; reflexivity|]. split.
  { repeat (split; [first [apply A; vm_compute; reflexivity|exists []; split; [intros ? []|reflexivity]]|]). apply A; vm_compute; reflexivity. }
  split; [repeat split; apply A; vm_compute; reflexivity|]. do 5 (split; [vm_compute; reflexivity|]).
  eexists. split; [vm_compute; reflexivity|]. eexists. split; vm_compute; reflexivity.
Qed.
