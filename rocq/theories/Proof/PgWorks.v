(** Creating users, networks, channels and subscriptions in PostgreSQL works. *)
From Verif.Base Require Import Bytes.
From Verif.Model Require Import Message TimeFmt Sql SqlQuery Postgres.
From Verif.Proof Require Import Sql SqlStore SqlQuery Postgres.
From Verif.Spec Require Import Sql SqlQuery Postgres.
From Coq Require Import ZArith NArith Lia.
Open Scope N_scope.

Ltac tables := cbn [p_users p_nets p_chans p_drcpts p_rrcpts p_subs p_targets p_msgs set_users set_nets set_chans set_drcpts set_subs puser_ids pnet_ids ptarget_ids].

Lemma refs_more {A B} (id : B -> N) (par : list B) b (col : A -> option N) l :
  refsb (map id par) col l = true -> refsb (map id (par ++ [b])) col l = true.
Proof. rewrite !refsb_iff. intros H x k Hx E. rewrite map_app. apply in_or_app. left. eauto. Qed.

Lemma pk_snoc {A} (id : A -> N) l x : uniqb (pk id) l = true -> ~ In (id x) (map id l) -> uniqb (pk id) (l ++ [x]) = true.
Proof.
  intros U F. apply uniqb_snoc; [exact U|]. intros y Hy. rewrite clash_refl_pk. apply N.eqb_neq. intros E. apply F. rewrite <- E. apply in_map. exact Hy.
Qed.

Lemma text_cell_clash a b : match text_cell a, text_cell b with Some x, Some y => ceqb x y | _, _ => false end = true -> exists s, a = Some s /\ b = Some s.
Proof. destruct a as [a|], b as [b|]; cbn; try discriminate. intros H. apply beqb_eq in H. subst b. eauto. Qed.

Lemma int4_ok z : (- 2 ^ 31 <= z < 2 ^ 31)%Z -> int4 z = true.
Proof. intros H. change (2 ^ 31)%Z with 2147483648%Z in H. unfold int4. apply andb_true_intro. split; apply Z.leb_le; lia. Qed.

Theorem create_user p now fresh u : pvalid p -> gu_id u = 0 -> short_user u -> (- 2 ^ 31 <= gu_max u < 2 ^ 31)%Z ->
  (forall v, In v (p_list_users p) -> gu_id v <> fresh /\ gu_username v <> gu_username u) ->
  exists p', p_store_user now fresh u p = Some (p', fresh).
Proof.
  intros V Z (S1 & S2 & S3 & S4) M F. unfold p_store_user. rewrite Z. cbn [N.eqb].
  destruct (short_ok _ _ S1) as (-> & -> & _). destruct (short_ok _ _ S2) as (-> & _ & _). destruct (short_ok _ _ S3) as (-> & _ & _).
  destruct (short_ok _ _ S4) as (-> & _ & _). rewrite (int4_ok _ M). cbn [andb]. set (row := PUser _ _ _ _ _ _ _ _ _ _).
  assert (L : forall r, In r (p_users p) -> pu_id r <> fresh /\ pu_username r <> gu_username u).
  { intros r Hr. apply (F (p_load_user r)). unfold p_list_users. apply in_map. exact Hr. }
  rewrite pcheck_ok; [eexists; reflexivity|]. destruct V. constructor; tables; try assumption; unfold puser_ids in *; tables; try (apply refs_more; assumption).
  - apply pk_snoc; [assumption|]. intros K. apply in_map_iff in K as (r & E & Hr). exact (proj1 (L r Hr) E).
  - apply uniqb_snoc; [assumption|]. intros y Hy. unfold pusername_key. cbn [clash ceqb pu_username row]. rewrite andb_true_r. apply beqb_neq. exact (proj2 (L y Hy)).
Qed.

Theorem create_network p fresh u n : pvalid p -> gn_id n = 0 -> short_network n -> In (gn_mech n) [[]; B "PLAIN"; B "EXTERNAL"] ->
  (exists v, In v (p_list_users p) /\ gu_id v = u) -> (forall v x, In x (p_list_networks v p) -> gn_id x <> fresh) ->
  (forall x, In x (p_list_networks u p) -> gn_name x = gn_name n -> gn_name n = []) ->
  (forall x, In x (p_list_networks u p) -> gn_addr x = gn_addr n -> gn_nick x = gn_nick n -> gn_nick n = []) ->
  exists p', p_store_network fresh u n p = Some (p', fresh).
Proof.
  intros V Z (S1 & S2 & S3 & S4 & S5 & S6 & S7 & S8 & S9 & S10) M (v & Hv & <-) F UN UA. unfold p_store_network.
  assert (C : exists mech pusr ppass cert key, sasl_columns n = Some (mech, pusr, ppass, cert, key) /\ vok 255 (string_of pusr) = true /\ vok 255 (string_of ppass) = true).
  { unfold sasl_columns. destruct (short_ok _ _ S9) as (O9 & _). destruct (short_ok _ _ S10) as (O10 & _). destruct M as [<-|[<-|[<-|[]]]].
    - do 5 eexists. split; [reflexivity|]. split; reflexivity.
    - do 5 eexists. split; [reflexivity|]. rewrite !string_null. split; assumption.
    - do 5 eexists. split; [reflexivity|]. split; reflexivity. }
  destruct C as (mech & pusr & ppass & cert & key & -> & O9 & O10). rewrite O9, O10, Z.
  change cmd_sep with (B (String "013" (String "010" EmptyString))).
  destruct (short_ok _ _ S1) as (-> & _ & E1). destruct (short_ok _ _ S2) as (-> & -> & _). destruct (short_ok _ _ S3) as (-> & _ & E3). rewrite E1, E3.
  destruct (short_ok _ _ S4) as (-> & _). destruct (short_ok _ _ S5) as (-> & _). rewrite (text_text_ok _ S6). destruct (short_ok _ _ S7) as (-> & _). destruct (short_ok _ _ S8) as (-> & _).
  cbn [andb N.eqb]. set (row := NetRow _ _ _ _ _ _ _ _ _ _ _ _ _ _ _ _ _).
  assert (L : forall r, In r (p_nets p) -> nr_user r = gu_id v -> In (load_network r) (p_list_networks (gu_id v) p)) by (intros r Hr E; apply in_p_list_networks; exists r; auto).
  rewrite pcheck_ok; [eexists; reflexivity|]. destruct V. constructor; tables; try assumption; unfold pnet_ids in *; tables; try (apply refs_more; assumption).
  - apply pk_snoc; [assumption|]. intros K. apply in_map_iff in K as (r & E & Hr). apply (F (nr_user r) (load_network r)); [|exact E]. apply in_p_list_networks. exists r. auto.
  - apply uniqb_snoc; [assumption|]. intros y Hy. apply not_true_is_false. unfold net_addr_key. cbn [clash ceqb nr_user nr_addr nr_nick row]. intros K. apply andb_prop in K as [K1 K].
    apply andb_prop in K as [K2 K3]. apply N.eqb_eq in K1. apply beqb_eq in K2.
    destruct (text_cell (nr_nick y)) as [a|] eqn:Ta; [|discriminate K3]. destruct (text_cell (null_string (gn_nick n))) as [b|] eqn:Tb; [|discriminate K3]. rewrite andb_true_r in K3.
    destruct (text_cell_clash (nr_nick y) (null_string (gn_nick n))) as (s & A1 & A2); [rewrite Ta, Tb; exact K3|].
    assert (E : gn_nick n = []) by (apply (UA (load_network y) (L y Hy K1)); [exact K2|]; cbn [gn_nick load_network]; rewrite A1, <- A2; apply string_null).
    rewrite E in A2. discriminate A2.
  - apply uniqb_snoc; [assumption|]. intros y Hy. apply not_true_is_false. unfold net_name_key. cbn [clash ceqb nr_user nr_name row]. intros K. apply andb_prop in K as [K1 K3].
    apply N.eqb_eq in K1.
    destruct (text_cell (nr_name y)) as [a|] eqn:Ta; [|discriminate K3]. destruct (text_cell (null_string (gn_name n))) as [b|] eqn:Tb; [|discriminate K3]. rewrite andb_true_r in K3.
    destruct (text_cell_clash (nr_name y) (null_string (gn_name n))) as (s & A1 & A2); [rewrite Ta, Tb; exact K3|].
    assert (E : gn_name n = []).
    { apply (UN (load_network y) (L y Hy K1)). cbn [gn_name load_network]. rewrite A1, <- A2. apply string_null. }
    rewrite E in A2. discriminate A2.
  - apply refsb_snoc; [assumption|]. intros k E. injection E as <-. unfold puser_ids. tables. unfold p_list_users in Hv. apply in_map_iff in Hv as (r & <- & Hr). exact (in_map pu_id _ _ Hr).
Qed.

Theorem create_channel p fresh k c : pvalid p -> gc_id c = 0 -> short_channel c ->
  (- 2 ^ 31 <= gc_relay c < 2 ^ 31)%Z -> (- 2 ^ 31 <= gc_reattach c < 2 ^ 31)%Z -> (- 2 ^ 31 <= gc_on c < 2 ^ 31)%Z -> (- 2 ^ 31 <= ceil_seconds (gc_after c) < 2 ^ 31)%Z ->
  (exists v x, In x (p_list_networks v p) /\ gn_id x = k) -> (forall k' x, In x (p_list_channels k' p) -> gc_id x <> fresh) ->
  (forall x, In x (p_list_channels k p) -> gc_name x <> gc_name c) ->
  exists p', p_store_channel fresh k c p = Some (p', fresh).
Proof.
  intros V Z (S1 & S2 & S3) I1 I2 I3 I4 (v & x & Hx & <-) F U. unfold p_store_channel. rewrite Z. cbn [N.eqb].
  destruct (short_ok _ _ S1) as (-> & -> & _). destruct (short_ok _ _ S2) as (-> & _). destruct (short_ok _ _ S3) as (-> & _). rewrite !int4_ok by assumption. cbn [andb].
  apply in_p_list_networks in Hx as (r0 & Hr0 & _ & ->). change (gn_id (load_network r0)) with (nr_id r0) in *. set (row := ChanRow _ _ _ _ _ _ _ _ _ _).
  rewrite pcheck_ok; [eexists; reflexivity|]. destruct V. constructor; tables; try assumption.
  - apply pk_snoc; [assumption|]. intros K. apply in_map_iff in K as (r & E & Hr). apply (F (cr_network r) (load_channel r)); [|exact E]. apply in_p_list_channels. exists r. auto.
  - apply uniqb_snoc; [assumption|]. intros y Hy. apply not_true_is_false. unfold chan_key. cbn [clash ceqb cr_network cr_name row]. intros K. apply andb_prop in K as [K1 K].
    rewrite andb_true_r in K. apply N.eqb_eq in K1. apply beqb_eq in K. apply (U (load_channel y)); [|exact K]. apply in_p_list_channels. exists y. auto.
  - apply refsb_snoc; [assumption|]. intros k E. injection E as <-. exact (in_map nr_id _ _ Hr0).
Qed.
