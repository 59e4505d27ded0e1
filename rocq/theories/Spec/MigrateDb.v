(** What the destination of a migration is to have. *)
From Verif.Base Require Import Bytes.
From Verif.Model Require Import Sql Postgres MigrateDb.
From Verif.Spec Require Import Sql Postgres.
From Coq Require Import ZArith NArith.
Open Scope N_scope.

(** Everything fits in the columns of the destination. *)
Definition fits (src : source) : Prop :=
  (forall u, In u (s_users src) -> short_user u) /\
  (forall v n, In n (s_nets src v) -> short_network n /\ storable_cmds (gn_cmds n)) /\
  (forall k c, In c (s_chans src k) -> short_channel c) /\
  (forall k t c m, In (t, c, m) (s_drcpts src k) -> short 255 t /\ short 255 c /\ short 255 m).

Definition same_sub (s x : gsub) : Prop :=
  gs_endpoint x = gs_endpoint s /\ gs_auth x = gs_auth s /\ gs_p256dh x = gs_p256dh s /\ gs_vapid x = gs_vapid s.

(** Network [k] of user [w] in [p] is network [n] of user [v], with its channels,
    delivery receipts and subscriptions, and no others. *)
Record copied_net (src : source) (v : N) (n : gnet) (p : pg) (w k : N) : Prop := {
  cn_net : In (saved_network k n) (p_list_networks w p);
  cn_chans : forall c, In c (s_chans src (gn_id n)) -> exists x, In x (p_list_channels k p) /\ saved_channel (gc_id x) c x;
  cn_only_chans : forall x, In x (p_list_channels k p) -> exists c, In c (s_chans src (gn_id n)) /\ saved_channel (gc_id x) c x;
  cn_drcpts : forall t c m, In (t, c, m) (p_list_drcpts k p) <-> In (t, c, m) (s_drcpts src (gn_id n));
  cn_subs : forall s, In s (s_subs src v (gn_id n)) -> exists x, In x (p_list_subs w k p) /\ same_sub s x;
  cn_only_subs : forall x, In x (p_list_subs w k p) -> exists s, In s (s_subs src v (gn_id n)) /\ same_sub s x }.

(** The networks of user [w] in [p] are those of user [v]. *)
Definition copied (src : source) (v : N) (p : pg) (w : N) : Prop :=
  (forall n, In n (s_nets src v) -> exists k, copied_net src v n p w k) /\
  (forall x, In x (p_list_networks w p) -> exists n, In n (s_nets src v) /\ x = saved_network (gn_id x) n /\ copied_net src v n p w (gn_id x)).

(** The users are numbered as they are listed, from one. *)
Definition numbered (l : list guser) : Prop := forall i u, nth_error l i = Some u -> gu_id u = N.of_nat (S i).

(** A source that PostgreSQL can hold: what the constraints of SQLite's schema say, and
    numbers and texts that fit. *)
Definition int32 (z : Z) : Prop := (- 2 ^ 31 <= z < 2 ^ 31)%Z.
Definition nets_apart (a b : gnet) : Prop :=
  (gn_name a = gn_name b -> gn_name b = []) /\ (gn_addr a = gn_addr b -> gn_nick a = gn_nick b -> gn_nick b = []).
Record holdable (src : source) : Prop := {
  h_fits : fits src;
  h_names : NoDup (map gu_username (s_users src));
  h_max : forall u, In u (s_users src) -> int32 (gu_max u);
  h_mech : forall v n, In n (s_nets src v) -> In (gn_mech n) [[]; B "PLAIN"; B "EXTERNAL"];
  h_nets : forall v, ForallOrdPairs nets_apart (s_nets src v);
  h_chans : forall k, NoDup (map gc_name (s_chans src k));
  h_ints : forall k c, In c (s_chans src k) -> int32 (gc_relay c) /\ int32 (gc_reattach c) /\ int32 (gc_on c) /\ int32 (ceil_seconds (gc_after c));
  h_drcpts : forall k, NoDup (map fst (s_drcpts src k));
  h_subs : forall v n, In n (s_nets src v) -> NoDup (map gs_endpoint (s_subs src v (gn_id n)));
  h_sub_texts : forall v k s, In s (s_subs src v k) -> text (gs_endpoint s) /\ text (gs_auth s) /\ text (gs_p256dh s) /\ text (gs_vapid s);
  h_configs : NoDup (map fst (s_configs src));
  h_config_texts : forall c, In c (s_configs src) -> text (fst c) /\ text (snd c) }.

(** What SQLite does not see to: lengths and numbers, and that no client has two receipts
    for a target (SQLite lets clients without a name have several). *)
Record widths (src : source) : Prop := {
  w_fits : fits src;
  w_max : forall u, In u (s_users src) -> int32 (gu_max u);
  w_ints : forall k c, In c (s_chans src k) -> int32 (gc_relay c) /\ int32 (gc_reattach c) /\ int32 (gc_on c) /\ int32 (ceil_seconds (gc_after c));
  w_drcpts : forall k, NoDup (map fst (s_drcpts src k));
  w_sub_texts : forall v k s, In s (s_subs src v k) -> text (gs_endpoint s) /\ text (gs_auth s) /\ text (gs_p256dh s) /\ text (gs_vapid s);
  w_configs : NoDup (map fst (s_configs src));
  w_config_texts : forall c, In c (s_configs src) -> text (fst c) /\ text (snd c) }.
