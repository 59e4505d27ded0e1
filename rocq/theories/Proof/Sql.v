(** Proofs about the tables. *)
From Verif.Base Require Import Bytes.
From Verif.Model Require Import Message TimeFmt Sql.
From Verif.Spec Require Import Sql.
From Coq Require Import ZArith NArith Permutation.
Open Scope N_scope.

(** ** Constraints *)

Lemma existsb_N k ids : existsb (N.eqb k) ids = true <-> In k ids.
Proof.
  rewrite existsb_exists. split.
  - intros [x [Hx E]]. apply N.eqb_eq in E. subst. exact Hx.
  - intros H. exists k. split; [exact H|apply N.eqb_refl].
Qed.

Lemma refsb_iff {A} ids (col : A -> option N) l :
  refsb ids col l = true <-> forall x k, In x l -> col x = Some k -> In k ids.
Proof.
  unfold refsb. rewrite forallb_forall. split.
  - intros H x k Hx Hk. specialize (H x Hx). rewrite Hk in H. apply existsb_N. exact H.
  - intros H x Hx. destruct (col x) as [k|] eqn:E; [|reflexivity]. apply existsb_N. exact (H x k Hx E).
Qed.

Lemma uniqb_filter {A} key (f : A -> bool) l : uniqb key l = true -> uniqb key (filter f l) = true.
Proof.
  induction l as [|x l IH]; [reflexivity|]. cbn [uniqb filter]. intros H. apply andb_prop in H. destruct H as [H1 H2].
  specialize (IH H2). destruct (f x); [|exact IH]. cbn [uniqb]. rewrite IH, andb_true_r.
  apply negb_true_iff in H1. apply negb_true_iff. apply not_true_is_false. intros K.
  apply existsb_exists in K. destruct K as [y [Hy Ky]]. apply filter_In in Hy.
  assert (existsb (fun y => clash (key x) (key y)) l = true) by (apply existsb_exists; exists y; tauto). congruence.
Qed.

Lemma clash_refl_pk {A} (id : A -> N) x y : clash (pk id x) (pk id y) = N.eqb (id x) (id y).
Proof. unfold pk. cbn. apply andb_true_r. Qed.

Lemma uniqb_pk {A} (id : A -> N) l x y : uniqb (pk id) l = true -> In x l -> In y l -> id x = id y -> x = y.
Proof.
  induction l as [|z l IH]; [intros _ []|]. cbn [uniqb]. intros H Hx Hy E. apply andb_prop in H. destruct H as [H1 H2].
  apply negb_true_iff in H1.
  assert (K : forall w, In w l -> id z <> id w).
  { intros w Hw Ez. assert (existsb (fun y => clash (pk id z) (pk id y)) l = true); [|congruence].
    apply existsb_exists. exists w. split; [exact Hw|]. rewrite clash_refl_pk. apply N.eqb_eq. exact Ez. }
  destruct Hx as [<-|Hx], Hy as [<-|Hy].
  - reflexivity.
  - exfalso. exact (K _ Hy E).
  - exfalso. exact (K _ Hx (eq_sym E)).
  - exact (IH H2 Hx Hy E).
Qed.

Record valid (d : db) : Prop := {
  v_users : uniqb (pk ur_id) (d_users d) = true;
  v_users_name : uniqb user_name_key (d_users d) = true;
  v_nets : uniqb (pk nr_id) (d_nets d) = true;
  v_nets_addr : uniqb net_addr_key (d_nets d) = true;
  v_nets_name : uniqb net_name_key (d_nets d) = true;
  v_nets_fk : refsb (user_ids d) (fun n => Some (nr_user n)) (d_nets d) = true;
  v_chans : uniqb (pk cr_id) (d_chans d) = true;
  v_chans_key : uniqb chan_key (d_chans d) = true;
  v_chans_fk : refsb (net_ids d) (fun c => Some (cr_network c)) (d_chans d) = true;
  v_drcpts : uniqb (pk dr_id) (d_drcpts d) = true;
  v_drcpts_key : uniqb drcpt_key (d_drcpts d) = true;
  v_drcpts_fk : refsb (net_ids d) (fun c => Some (dr_network c)) (d_drcpts d) = true;
  v_rrcpts : uniqb (pk rr_id) (d_rrcpts d) = true;
  v_rrcpts_key : uniqb rrcpt_key (d_rrcpts d) = true;
  v_rrcpts_fk : refsb (net_ids d) (fun c => Some (rr_network c)) (d_rrcpts d) = true;
  v_rrcpts_nn : forallb (fun r => match rr_time r with None => false | Some _ => true end) (d_rrcpts d) = true;
  v_subs : uniqb (pk sr_id) (d_subs d) = true;
  v_subs_key : uniqb sub_key (d_subs d) = true;
  v_subs_fk : refsb (user_ids d) (fun s => Some (sr_user s)) (d_subs d) = true;
  v_subs_fkn : refsb (net_ids d) sr_network (d_subs d) = true;
  v_targets : uniqb (pk tr_id) (d_targets d) = true;
  v_targets_key : uniqb target_key (d_targets d) = true;
  v_targets_fk : refsb (net_ids d) (fun c => Some (tr_network c)) (d_targets d) = true;
  v_msgs : uniqb (pk mr_id) (d_msgs d) = true;
  v_msgs_fk : refsb (target_ids d) (fun c => Some (mr_target c)) (d_msgs d) = true }.

Lemma valid_iff d : validb d = true <-> valid d.
Proof.
  unfold validb. rewrite !andb_true_iff. split.
  - intros H. constructor; tauto.
  - intros []. tauto.
Qed.

Lemma check_some d d' : check d = Some d' -> d' = d /\ valid d.
Proof.
  unfold check. destruct (validb d) eqn:E; [|discriminate]. intros H. injection H as <-. split; [reflexivity|].
  apply valid_iff. exact E.
Qed.

Lemma check_valid d : valid d -> check d = Some d.
Proof. intros H. unfold check. apply valid_iff in H. rewrite H. reflexivity. Qed.

Lemma valid_intact d : valid d -> intact d.
Proof.
  intros V. destruct V. constructor.
  - intros r H. exact (proj1 (refsb_iff _ _ _) v_nets_fk0 r _ H eq_refl).
  - intros r H. exact (proj1 (refsb_iff _ _ _) v_chans_fk0 r _ H eq_refl).
  - intros r H. exact (proj1 (refsb_iff _ _ _) v_drcpts_fk0 r _ H eq_refl).
  - intros r H. exact (proj1 (refsb_iff _ _ _) v_rrcpts_fk0 r _ H eq_refl).
  - intros r H. exact (proj1 (refsb_iff _ _ _) v_subs_fk0 r _ H eq_refl).
  - intros r k H E. exact (proj1 (refsb_iff _ _ _) v_subs_fkn0 r _ H E).
  - intros r H. exact (proj1 (refsb_iff _ _ _) v_targets_fk0 r _ H eq_refl).
  - intros r H. exact (proj1 (refsb_iff _ _ _) v_msgs_fk0 r _ H eq_refl).
Qed.

(** ** Deleting rows keeps the constraints *)

Lemma refsb_filter {A} ids col (f : A -> bool) l : refsb ids col l = true -> refsb ids col (filter f l) = true.
Proof.
  rewrite !refsb_iff. intros H x k Hx. apply filter_In in Hx. exact (H x k (proj1 Hx)).
Qed.

Ltac leaf := intros V; destruct V; constructor;
  cbn [d_users d_nets d_chans d_drcpts d_rrcpts d_subs d_targets d_msgs with_users with_nets with_chans with_drcpts with_rrcpts with_subs with_targets with_msgs];
  try assumption; try (apply uniqb_filter; assumption); try (apply refsb_filter; assumption).

Lemma valid_chans f d : valid d -> valid (with_chans (filter f (d_chans d)) d).
Proof. leaf. Qed.
Lemma valid_drcpts f d : valid d -> valid (with_drcpts (filter f (d_drcpts d)) d).
Proof. leaf. Qed.
Lemma valid_rrcpts f d : valid d -> valid (with_rrcpts (filter f (d_rrcpts d)) d).
Proof.
  leaf. rewrite forallb_forall in *. intros x Hx. apply filter_In in Hx. exact (v_rrcpts_nn0 x (proj1 Hx)).
Qed.
Lemma valid_subs f d : valid d -> valid (with_subs (filter f (d_subs d)) d).
Proof. leaf. Qed.
Lemma valid_msgs f d : valid d -> valid (with_msgs (filter f (d_msgs d)) d).
Proof. leaf. Qed.

Lemma valid_targets f d : valid d ->
  (forall m t, In m (d_msgs d) -> In t (d_targets d) -> tr_id t = mr_target m -> f t = true) ->
  valid (with_targets (filter f (d_targets d)) d).
Proof.
  intros V H. revert V. leaf.
  apply refsb_iff. intros m k Hm E. injection E as <-.
  apply (proj1 (refsb_iff _ _ _)) with (x := m) (k := mr_target m) in v_msgs_fk0; try assumption; try reflexivity.
  unfold target_ids in v_msgs_fk0. apply in_map_iff in v_msgs_fk0. destruct v_msgs_fk0 as [t [Et Ht]].
  unfold target_ids. cbn. apply in_map_iff. exists t. split; [exact Et|]. apply filter_In. split; [exact Ht|].
  exact (H m t Hm Ht Et).
Qed.

Lemma kept_refs {A B} (id : B -> N) (f : B -> bool) (par : list B) (col : A -> option N) l :
  refsb (map id par) col l = true ->
  (forall x y, In x l -> In y par -> col x = Some (id y) -> f y = true) ->
  refsb (map id (filter f par)) col l = true.
Proof.
  rewrite !refsb_iff. intros R H x k Hx E. specialize (R x k Hx E). apply in_map_iff in R. destruct R as [y [Ey Hy]].
  subst k. apply in_map. apply filter_In. split; [exact Hy|]. exact (H x y Hx Hy E).
Qed.

Lemma valid_nets f d : valid d ->
  (forall n, In n (d_nets d) -> f n = false ->
     (forall r, In r (d_chans d) -> cr_network r <> nr_id n) /\ (forall r, In r (d_drcpts d) -> dr_network r <> nr_id n) /\
     (forall r, In r (d_rrcpts d) -> rr_network r <> nr_id n) /\ (forall r, In r (d_subs d) -> sr_network r <> Some (nr_id n)) /\
     (forall r, In r (d_targets d) -> tr_network r <> nr_id n)) ->
  valid (with_nets (filter f (d_nets d)) d).
Proof.
  intros V H. revert V. leaf; unfold net_ids in *; cbn; (eapply kept_refs; [eassumption|]);
    intros x y Hx Hy E; (destruct (f y) eqn:Ef; [reflexivity|]); exfalso; destruct (H y Hy Ef) as (H1 & H2 & H3 & H4 & H5).
  - injection E as E. exact (H1 _ Hx E).
  - injection E as E. exact (H2 _ Hx E).
  - injection E as E. exact (H3 _ Hx E).
  - exact (H4 _ Hx E).
  - injection E as E. exact (H5 _ Hx E).
Qed.

Lemma valid_users f d : valid d ->
  (forall u, In u (d_users d) -> f u = false ->
     (forall r, In r (d_nets d) -> nr_user r <> ur_id u) /\ (forall r, In r (d_subs d) -> sr_user r <> ur_id u)) ->
  valid (with_users (filter f (d_users d)) d).
Proof.
  intros V H. revert V. leaf; unfold user_ids in *; cbn; (eapply kept_refs; [eassumption|]);
    intros x y Hx Hy E; (destruct (f y) eqn:Ef; [reflexivity|]); exfalso; destruct (H y Hy Ef) as (H1 & H2).
  - injection E as E. exact (H1 _ Hx E).
  - injection E as E. exact (H2 _ Hx E).
Qed.

(** ** Subscriptions belong to the owner of their network *)

Definition subs_owned (d : db) : Prop :=
  forall s k, In s (d_subs d) -> sr_network s = Some k -> owns d (sr_user s) k.

(** ** Deleting a user *)

Lemma in_joined {A} (id net : A -> N) rows nets u k :
  In k (joined id net rows nets u) <->
  exists r n, In r rows /\ In n nets /\ id r = k /\ net r = nr_id n /\ nr_user n = u.
Proof.
  unfold joined. rewrite in_flat_map. split.
  - intros [r [Hr H]]. apply in_flat_map in H. destruct H as [n [Hn H]].
    destruct (N.eqb_spec (net r) (nr_id n)) as [E1|E1]; cbn [andb] in H; [|destruct H].
    destruct (N.eqb_spec (nr_user n) u) as [E2|E2]; [|destruct H]. destruct H as [H|[]].
    exists r, n. tauto.
  - intros (r & n & Hr & Hn & E1 & E2 & E3). exists r. split; [exact Hr|]. apply in_flat_map. exists n. split; [exact Hn|].
    rewrite E2, E3, !N.eqb_refl. left. exact E1.
Qed.

(** With ids that identify rows, the rows selected are those of the user. *)
Lemma joined_row {A} (id net : A -> N) rows nets u r : uniqb (pk id) rows = true -> In r rows ->
  (in_ids (joined id net rows nets u) (id r) = true <-> exists n, In n nets /\ nr_id n = net r /\ nr_user n = u).
Proof.
  intros U Hr. unfold in_ids. rewrite existsb_N, in_joined. split.
  - intros (r' & n & Hr' & Hn & E1 & E2 & E3). assert (r' = r) by (eapply uniqb_pk; eassumption). subst r'.
    exists n. split; [exact Hn|]. split; [symmetry; exact E2|exact E3].
  - intros (n & Hn & E1 & E2). exists r, n. repeat split; auto.
Qed.

Lemma joined_msgs_row d u m : uniqb (pk mr_id) (d_msgs d) = true -> In m (d_msgs d) ->
  (in_ids (joined_msgs d u) (mr_id m) = true <-> exists k, msg_in d m k /\ owns d u k).
Proof.
  intros U Hm. unfold in_ids. rewrite existsb_N. unfold joined_msgs. rewrite in_flat_map. split.
  - intros [m' [Hm' H]]. apply in_flat_map in H. destruct H as [t [Ht H]]. apply in_flat_map in H. destruct H as [n [Hn H]].
    destruct (N.eqb_spec (mr_target m') (tr_id t)) as [E1|]; cbn [andb] in H; [|destruct H].
    destruct (N.eqb_spec (tr_network t) (nr_id n)) as [E2|]; cbn [andb] in H; [|destruct H].
    destruct (N.eqb_spec (nr_user n) u) as [E3|]; [|destruct H]. destruct H as [H|[]].
    assert (m' = m) by (eapply uniqb_pk; eassumption). subst m'.
    exists (nr_id n). split; [exists t; auto|exists n; auto].
  - intros (k & [t (Ht & E1 & E2)] & [n (Hn & E3 & E4)]). exists m. split; [exact Hm|].
    apply in_flat_map. exists t. split; [exact Ht|]. apply in_flat_map. exists n. split; [exact Hn|].
    subst k. rewrite E1, E3, E4, !N.eqb_refl. left. reflexivity.
Qed.

Lemma negb_iff b P : (b = true <-> P) -> (negb b = true <-> ~ P).
Proof. destruct b; cbn; intros [H1 H2]; split; try congruence; try tauto. intros _ H. discriminate (H2 H). Qed.

Definition s1 u d := with_drcpts (filter (fun r => negb (in_ids (joined dr_id dr_network (d_drcpts d) (d_nets d) u) (dr_id r))) (d_drcpts d)) d.
Definition s2 u d := with_rrcpts (filter (fun r => negb (in_ids (joined rr_id rr_network (d_rrcpts d) (d_nets d) u) (rr_id r))) (d_rrcpts d)) d.
Definition s3 u d := with_msgs (filter (fun m => negb (in_ids (joined_msgs d u) (mr_id m))) (d_msgs d)) d.
Definition s4 u d := with_targets (filter (fun t => negb (in_ids (joined tr_id tr_network (d_targets d) (d_nets d) u) (tr_id t))) (d_targets d)) d.
Definition s5 u d := with_subs (filter (fun s => negb (N.eqb (sr_user s) u)) (d_subs d)) d.
Definition s6 u d := with_chans (filter (fun c => negb (in_ids (joined cr_id cr_network (d_chans d) (d_nets d) u) (cr_id c))) (d_chans d)) d.
Definition s7 u d := with_nets (filter (fun n => negb (N.eqb (nr_user n) u)) (d_nets d)) d.
Definition s8 u d := with_users (filter (fun r => negb (N.eqb (ur_id r) u)) (d_users d)) d.

Lemma exec_cons st l d : exec (st :: l) d = match check (st d) with None => None | Some d' => exec l d' end.
Proof. reflexivity. Qed.

Lemma exec_step st l d : valid (st d) -> exec (st :: l) d = exec l (st d).
Proof. intros V. rewrite exec_cons, (check_valid _ V). reflexivity. Qed.

(** The outcome table by table, with the joins evaluated in the first state. *)
Lemma delete_user_erased d u : valid d -> subs_owned d ->
  exists d', delete_user u d = Some d' /\ valid d' /\ erased d d' (eq u) (owns d u).
Proof.
  intros V O.
  set (d1 := s1 u d). set (d2 := s2 u d1). set (d3 := s3 u d2). set (d4 := s4 u d3). set (d5 := s5 u d4).
  set (d6 := s6 u d5). set (d7 := s7 u d6). set (d8 := s8 u d7).
  assert (V1 : valid d1) by (apply valid_drcpts; exact V).
  assert (V2 : valid d2) by (apply valid_rrcpts; exact V1).
  assert (V3 : valid d3) by (apply valid_msgs; exact V2).
  assert (R1 : forall r, In r (d_drcpts d8) <-> In r (d_drcpts d) /\ ~ owns d u (dr_network r)).
  { intros r. change (d_drcpts d8) with (d_drcpts d1). unfold d1, s1. cbn [d_drcpts with_drcpts].
    rewrite filter_In. split; intros [H1 H2]; (split; [exact H1|]);
      apply (negb_iff _ _ (joined_row dr_id dr_network _ (d_nets d) u r (v_drcpts d V) H1)); exact H2. }
  assert (R2 : forall r, In r (d_rrcpts d8) <-> In r (d_rrcpts d) /\ ~ owns d u (rr_network r)).
  { intros r. change (d_rrcpts d8) with (d_rrcpts d2). unfold d2, s2. cbn [d_rrcpts with_rrcpts].
    rewrite filter_In. split; intros [H1 H2]; (split; [exact H1|]);
      apply (negb_iff _ _ (joined_row rr_id rr_network _ (d_nets d) u r (v_rrcpts d V) H1)); exact H2. }
  assert (R3 : forall r, In r (d_msgs d8) <-> In r (d_msgs d) /\ ~ exists k, msg_in d r k /\ owns d u k).
  { intros r. change (d_msgs d8) with (d_msgs d3). unfold d3, s3. cbn [d_msgs with_msgs].
    rewrite filter_In. split; intros [H1 H2]; (split; [exact H1|]);
      apply (negb_iff _ _ (joined_msgs_row d2 u r (v_msgs d V) H1)); exact H2. }
  assert (R4 : forall r, In r (d_targets d8) <-> In r (d_targets d) /\ ~ owns d u (tr_network r)).
  { intros r. change (d_targets d8) with (d_targets d4). unfold d4, s4. cbn [d_targets with_targets].
    rewrite filter_In. split; intros [H1 H2]; (split; [exact H1|]);
      apply (negb_iff _ _ (joined_row tr_id tr_network _ (d_nets d) u r (v_targets d V) H1)); exact H2. }
  assert (R5 : forall r, In r (d_subs d8) <-> In r (d_subs d) /\ sr_user r <> u).
  { intros r. change (d_subs d8) with (d_subs d5). unfold d5, s5. cbn [d_subs with_subs].
    change (d_subs d4) with (d_subs d). rewrite filter_In, negb_true_iff, N.eqb_neq. tauto. }
  assert (R6 : forall r, In r (d_chans d8) <-> In r (d_chans d) /\ ~ owns d u (cr_network r)).
  { intros r. change (d_chans d8) with (d_chans d6). unfold d6, s6. cbn [d_chans with_chans].
    rewrite filter_In. split; intros [H1 H2]; (split; [exact H1|]);
      apply (negb_iff _ _ (joined_row cr_id cr_network _ (d_nets d) u r (v_chans d V) H1)); exact H2. }
  assert (R7 : forall r, In r (d_nets d8) <-> In r (d_nets d) /\ nr_user r <> u).
  { intros r. change (d_nets d8) with (d_nets d7). unfold d7, s7. cbn [d_nets with_nets].
    change (d_nets d6) with (d_nets d). rewrite filter_In, negb_true_iff, N.eqb_neq. tauto. }
  assert (R8 : forall r, In r (d_users d8) <-> In r (d_users d) /\ ur_id r <> u).
  { intros r. unfold d8, s8. cbn [d_users with_users].
    change (d_users d7) with (d_users d). rewrite filter_In, negb_true_iff, N.eqb_neq. tauto. }
  assert (V4 : valid d4).
  { apply valid_targets; [exact V3|]. intros m t Hm Ht E.
    change (d_targets d3) with (d_targets d) in *. change (d_nets d3) with (d_nets d).
    apply (negb_iff _ _ (joined_row tr_id tr_network _ (d_nets d) u t (v_targets d V) Ht)).
    intros K. apply R3 in Hm. destruct Hm as [_ Hm]. apply Hm. exists (tr_network t). split; [|exact K].
    exists t. auto. }
  assert (V5 : valid d5) by (apply valid_subs; exact V4).
  assert (V6 : valid d6) by (apply valid_chans; exact V5).
  assert (V7 : valid d7).
  { apply valid_nets; [exact V6|]. intros n Hn Ef. change (d_nets d6) with (d_nets d) in Hn.
    apply negb_false_iff in Ef. apply N.eqb_eq in Ef.
    assert (K : owns d u (nr_id n)) by (exists n; auto). repeat split; intros r Hr E.
    - apply R6 in Hr. rewrite E in Hr. tauto.
    - apply R1 in Hr. rewrite E in Hr. tauto.
    - apply R2 in Hr. rewrite E in Hr. tauto.
    - apply R5 in Hr. destruct Hr as [Hr Hu]. destruct (O r _ Hr E) as (n' & Hn' & E1 & E2).
      assert (n' = n) by (eapply (uniqb_pk nr_id); try exact (v_nets d V); assumption). subst n'. congruence.
    - apply R4 in Hr. rewrite E in Hr. tauto. }
  assert (V8 : valid d8).
  { apply valid_users; [exact V7|]. intros x Hx Ef. apply negb_false_iff in Ef. apply N.eqb_eq in Ef. rewrite Ef. split.
    - intros r Hr. apply R7 in Hr. tauto.
    - intros r Hr. apply R5 in Hr. tauto. }
  exists d8. split; [|split; [exact V8|]].
  - unfold delete_user. rewrite exec_step by exact V1. change (exec _ _) with
      (exec [s2 u; s3 u; s4 u; s5 u; s6 u; s7 u; s8 u] d1).
    rewrite !exec_step by assumption. reflexivity.
  - constructor.
    + intros r. rewrite R8. split; intros [H1 H2]; split; auto.
    + intros r. rewrite R7. split; intros [H1 H2]; (split; [exact H1|]).
      * intros (n & Hn & E1 & E2). assert (n = r) by (eapply (uniqb_pk nr_id); try exact (v_nets d V); assumption). subst n. auto.
      * intros E. apply H2. exists r. auto.
    + exact R6.
    + exact R1.
    + exact R2.
    + intros r. rewrite R5. split.
      * intros [H1 H2]. split; [exact H1|]. split; [auto|]. intros k Ek (n & Hn & E1 & E2).
        destruct (O r k H1 Ek) as (n' & Hn' & E3 & E4).
        assert (n' = n) by (eapply (uniqb_pk nr_id); try exact (v_nets d V); try assumption; congruence). subst n'. congruence.
      * intros (H1 & H2 & _). split; auto.
    + exact R4.
    + exact R3.
Qed.

(** ** Deleting a network *)

Lemma delete_network_erased d k : valid d ->
  exists d', delete_network k d = Some d' /\ valid d' /\ erased d d' (fun _ => False) (eq k).
Proof.
  intros V. unfold delete_network.
  match goal with |- context [exec [?a1; ?a2; ?a3; ?a4; ?a5; ?a6; ?a7] d] =>
    set (t1 := a1); set (t2 := a2); set (t3 := a3); set (t4 := a4); set (t5 := a5); set (t6 := a6); set (t7 := a7) end.
  set (d1 := t1 d). set (d2 := t2 d1). set (d3 := t3 d2). set (d4 := t4 d3). set (d5 := t5 d4). set (d6 := t6 d5). set (d7 := t7 d6).
  assert (R1 : forall r, In r (d_msgs d7) <-> In r (d_msgs d) /\ ~ exists k', msg_in d r k' /\ k = k').
  { intros r. change (d_msgs d7) with (d_msgs d1). unfold d1, t1. cbn [d_msgs with_msgs]. rewrite filter_In.
    apply and_iff_compat_l. apply negb_iff. unfold in_ids. rewrite existsb_N, in_map_iff. split.
    - intros (t & E & Ht). apply filter_In in Ht. destruct Ht as [Ht Ek]. apply N.eqb_eq in Ek.
      exists k. split; [exists t; auto|reflexivity].
    - intros (k' & (t & Ht & E & Ek) & <-). exists t. split; [exact E|]. apply filter_In. split; [exact Ht|]. apply N.eqb_eq. exact Ek. }
  assert (R2 : forall r, In r (d_targets d7) <-> In r (d_targets d) /\ k <> tr_network r).
  { intros r. change (d_targets d7) with (d_targets d2). unfold d2, t2. cbn [d_targets with_targets]. rewrite filter_In.
    change (d_targets d1) with (d_targets d). rewrite negb_true_iff, N.eqb_neq. split; intros [H1 H2]; split; auto. }
  assert (R3 : forall r, In r (d_subs d7) <-> In r (d_subs d) /\ ~ False /\ (forall j, sr_network r = Some j -> k <> j)).
  { intros r. change (d_subs d7) with (d_subs d3). unfold d3, t3. cbn [d_subs with_subs]. rewrite filter_In.
    change (d_subs d2) with (d_subs d). destruct (sr_network r) as [n|].
    - rewrite negb_true_iff, N.eqb_neq. split; intros H.
      + destruct H as [H1 H2]. split; [exact H1|]. split; [tauto|]. intros j E. injection E as <-. auto.
      + destruct H as (H1 & _ & H2). split; [exact H1|]. intros E. exact (H2 n eq_refl (eq_sym E)).
    - split; intros H; [split; [tauto|]; split; [tauto|]; discriminate|tauto]. }
  assert (R4 : forall r, In r (d_drcpts d7) <-> In r (d_drcpts d) /\ k <> dr_network r).
  { intros r. change (d_drcpts d7) with (d_drcpts d4). unfold d4, t4. cbn [d_drcpts with_drcpts]. rewrite filter_In.
    change (d_drcpts d3) with (d_drcpts d). rewrite negb_true_iff, N.eqb_neq. split; intros [H1 H2]; split; auto. }
  assert (R5 : forall r, In r (d_rrcpts d7) <-> In r (d_rrcpts d) /\ k <> rr_network r).
  { intros r. change (d_rrcpts d7) with (d_rrcpts d5). unfold d5, t5. cbn [d_rrcpts with_rrcpts]. rewrite filter_In.
    change (d_rrcpts d4) with (d_rrcpts d). rewrite negb_true_iff, N.eqb_neq. split; intros [H1 H2]; split; auto. }
  assert (R6 : forall r, In r (d_chans d7) <-> In r (d_chans d) /\ k <> cr_network r).
  { intros r. change (d_chans d7) with (d_chans d6). unfold d6, t6. cbn [d_chans with_chans]. rewrite filter_In.
    change (d_chans d5) with (d_chans d). rewrite negb_true_iff, N.eqb_neq. split; intros [H1 H2]; split; auto. }
  assert (R7 : forall r, In r (d_nets d7) <-> In r (d_nets d) /\ k <> nr_id r).
  { intros r. unfold d7, t7. cbn [d_nets with_nets]. rewrite filter_In.
    change (d_nets d6) with (d_nets d). rewrite negb_true_iff, N.eqb_neq. split; intros [H1 H2]; split; auto. }
  assert (V1 : valid d1) by (apply valid_msgs; exact V).
  assert (V2 : valid d2).
  { apply valid_targets; [exact V1|]. intros m t Hm Ht E. apply negb_true_iff, N.eqb_neq. intros Ek.
    apply R1 in Hm. destruct Hm as [_ Hm]. apply Hm. exists k. split; [|reflexivity]. exists t. auto. }
  assert (V3 : valid d3) by (apply valid_subs; exact V2).
  assert (V4 : valid d4) by (apply valid_drcpts; exact V3).
  assert (V5 : valid d5) by (apply valid_rrcpts; exact V4).
  assert (V6 : valid d6) by (apply valid_chans; exact V5).
  assert (V7 : valid d7).
  { apply valid_nets; [exact V6|]. intros n Hn Ef. apply negb_false_iff, N.eqb_eq in Ef. rewrite Ef. repeat split; intros r Hr E.
    - apply R6 in Hr. destruct Hr as [_ Hr]. auto.
    - apply R4 in Hr. destruct Hr as [_ Hr]. auto.
    - apply R5 in Hr. destruct Hr as [_ Hr]. auto.
    - apply R3 in Hr. destruct Hr as (_ & _ & Hr). exact (Hr _ E eq_refl).
    - apply R2 in Hr. destruct Hr as [_ Hr]. auto. }
  exists d7. split; [|split; [exact V7|]].
  - rewrite !exec_step by assumption. reflexivity.
  - constructor; try assumption. intros r. change (d_users d7) with (d_users d). tauto.
Qed.

(** ** All calls *)

Lemma fst_opt_some {A B} (o : option (A * B)) a : fst_opt o = Some a -> exists b, o = Some (a, b).
Proof. destruct o as [[x y]|]; [|discriminate]. cbn. intros H. injection H as <-. exists y. reflexivity. Qed.

Lemma exec_valid l : forall d d', valid d -> exec l d = Some d' -> valid d'.
Proof.
  induction l as [|st l IH]; intros d d' V H.
  - injection H as <-. exact V.
  - rewrite exec_cons in H. destruct (check (st d)) as [e|] eqn:E; [|discriminate]. apply check_some in E. destruct E as [-> E].
    exact (IH _ _ E H).
Qed.

Lemma exec_inv (P : db -> Prop) l : (forall st d, In st l -> P d -> P (st d)) ->
  forall d d', P d -> exec l d = Some d' -> P d'.
Proof.
  induction l as [|st l IH]; intros Hl d d' V H.
  - injection H as <-. exact V.
  - rewrite exec_cons in H. destruct (check (st d)) as [e|] eqn:E; [|discriminate]. apply check_some in E. destruct E as [-> E].
    apply (IH (fun st' d HIn => Hl st' d (or_intror HIn)) _ _ (Hl st d (or_introl eq_refl) V) H).
Qed.

(** Calls that touch neither networks nor subscriptions. *)
Definition same_ns (d d' : db) : Prop := d_nets d' = d_nets d /\ d_subs d' = d_subs d.

Lemma same_ns_owned d d' : same_ns d d' -> subs_owned d -> subs_owned d'.
Proof.
  intros [E1 E2] O s k Hs Ek. unfold owns. rewrite E2 in Hs. rewrite E1. exact (O s k Hs Ek).
Qed.

Section Calls.
Variable raw_of : message -> bytes.

Lemma insert_msg_some net name now m d d' id : valid d -> insert_msg raw_of net name now m d = Some (d', id) ->
  valid d' /\ same_ns d d' /\ d_users d' = d_users d /\ d_chans d' = d_chans d /\ d_targets d' = d_targets d /\
  d_drcpts d' = d_drcpts d /\ d_rrcpts d' = d_rrcpts d.
Proof.
  intros V. unfold insert_msg. destruct (message_time now m) as [t|]; [|discriminate].
  destruct (sqlite_value t) as [ts|]; [|discriminate].
  destruct (filter _ (d_targets d)) as [|r rs].
  - intros H. injection H as <- <-. split; [exact V|]. repeat split.
  - destruct (check _) as [e|] eqn:E; [|discriminate]. intros H. injection H as <- <-. apply check_some in E.
    destruct E as [-> E]. split; [exact E|]. repeat split.
Qed.

Lemma insert_msgs_some net name now l : forall d d' ids, valid d -> insert_msgs raw_of net name now l d = Some (d', ids) ->
  valid d' /\ same_ns d d' /\ d_users d' = d_users d /\ d_chans d' = d_chans d /\ d_targets d' = d_targets d /\
  d_drcpts d' = d_drcpts d /\ d_rrcpts d' = d_rrcpts d.
Proof.
  induction l as [|m l IH]; intros d d' ids V; cbn [insert_msgs].
  - intros H. injection H as <- <-. split; [exact V|]. repeat split.
  - destruct (insert_msg raw_of net name now m d) as [[e id]|] eqn:E; [|discriminate].
    destruct (insert_msgs raw_of net name now l e) as [[e' ids']|] eqn:E'; [|discriminate].
    intros H. injection H as <- <-. apply insert_msg_some in E; [|exact V].
    destruct E as (V1 & [A1 A2] & A3 & A4 & A5 & A6 & A7). apply IH in E'; [|exact V1].
    destruct E' as (V2 & [B1 B2] & B3 & B4 & B5 & B6 & B7). split; [exact V2|]. unfold same_ns. repeat split; congruence.
Qed.

Lemma add_target_ns net name d : same_ns d (add_target net name d).
Proof. unfold add_target. destruct (existsb _ _); split; reflexivity. Qed.

Ltac chk H := match type of H with context [check ?x] => let E := fresh "E" in
  destruct (check x) as [?|] eqn:E; [|discriminate]; apply check_some in E; destruct E as [-> E] end.

Lemma perform_valid d c d' : valid d -> subs_owned d -> perform raw_of c d = Some d' -> valid d'.
Proof.
  intros V O H. destruct c; cbn [perform] in H.
  - apply fst_opt_some in H. destruct H as [i H]. unfold store_user in H. destruct (N.eqb (gu_id u) 0); chk H; injection H as <- <-; assumption.
  - exact (exec_valid _ _ _ V H).
  - apply fst_opt_some in H. destruct H as [i H]. unfold store_network in H.
    destruct (sasl_columns n) as [[[[[? ?] ?] ?] ?]|]; [|discriminate].
    destruct (N.eqb (gn_id n) 0); chk H; injection H as <- <-; assumption.
  - exact (exec_valid _ _ _ V H).
  - apply fst_opt_some in H. destruct H as [i H]. unfold store_channel in H. destruct (N.eqb (gc_id c) 0); chk H; injection H as <- <-; assumption.
  - apply check_some in H. destruct H as [-> H]. exact H.
  - exact (exec_valid _ _ _ V H).
  - apply fst_opt_some in H. destruct H as [i H]. unfold store_rrcpt in H. destruct (N.eqb id 0); chk H; injection H as <- <-; assumption.
  - apply fst_opt_some in H. destruct H as [i H]. unfold store_sub in H. destruct (N.eqb (gs_id s) 0); chk H; injection H as <- <-; assumption.
  - apply check_some in H. destruct H as [-> H]. exact H.
  - apply fst_opt_some in H. destruct H as [i H]. unfold store_messages in H. destruct l as [|m l].
    + injection H as <- <-. exact V.
    + destruct (check (add_target net name d)) as [e|] eqn:E; [|discriminate]. apply check_some in E. destruct E as [-> E].
      apply insert_msgs_some in H; [|exact E]. tauto.
Qed.

Lemma perform_owned d c d' : valid d -> subs_owned d -> own_call d c -> perform raw_of c d = Some d' -> subs_owned d'.
Proof.
  intros V O Own H. destruct c; cbn [perform] in H.
  - apply fst_opt_some in H. destruct H as [i H]. apply (same_ns_owned d); [|exact O].
    unfold store_user in H. destruct (N.eqb (gu_id u) 0); chk H; injection H as <- <-; split; reflexivity.
  - destruct (delete_user_erased d id V O) as (d2 & H2 & _ & Er). rewrite H in H2. injection H2 as <-.
    intros s k Hs Ek. apply (er_subs _ _ _ _ Er) in Hs. destruct Hs as (Hs & Hu & Hk).
    destruct (O s k Hs Ek) as (n & Hn & E1 & E2). exists n. split; [|split; assumption].
    apply (er_nets _ _ _ _ Er). split; [exact Hn|]. rewrite E1. exact (Hk k Ek).
  - apply fst_opt_some in H. destruct H as [i H]. unfold store_network in H.
    destruct (sasl_columns n) as [[[[[? ?] ?] ?] ?]|]; [|discriminate].
    destruct (N.eqb (gn_id n) 0); chk H; injection H as <- <-; intros s k Hs Ek; destruct (O s k Hs Ek) as (r & Hr & E1 & E2).
    + exists r. split; [|split; assumption]. cbn [d_nets with_nets]. apply in_or_app. left. exact Hr.
    + eexists. split; [cbn [d_nets with_nets]; apply in_map; exact Hr|]. destruct (N.eqb (nr_id r) (gn_id n)); split; assumption.
  - destruct (delete_network_erased d id V) as (d2 & H2 & _ & Er). rewrite H in H2. injection H2 as <-.
    intros s k Hs Ek. apply (er_subs _ _ _ _ Er) in Hs. destruct Hs as (Hs & Hu & Hk).
    destruct (O s k Hs Ek) as (n & Hn & E1 & E2). exists n. split; [|split; assumption].
    apply (er_nets _ _ _ _ Er). split; [exact Hn|]. rewrite E1. exact (Hk k Ek).
  - apply fst_opt_some in H. destruct H as [i H]. apply (same_ns_owned d); [|exact O].
    unfold store_channel in H. destruct (N.eqb (gc_id c) 0); chk H; injection H as <- <-; split; reflexivity.
  - apply check_some in H. destruct H as [-> H]. exact O.
  - apply (same_ns_owned d); [|exact O]. unfold store_drcpts in H.
    refine (exec_inv (same_ns d) _ _ _ _ _ H); [|split; reflexivity].
    intros st e [<-|Hst] [E1 E2]; [split; assumption|]. apply in_map_iff in Hst. destruct Hst as (r & <- & _). split; assumption.
  - apply fst_opt_some in H. destruct H as [i H]. apply (same_ns_owned d); [|exact O].
    unfold store_rrcpt in H. destruct (N.eqb id 0); chk H; injection H as <- <-; split; reflexivity.
  - apply fst_opt_some in H. destruct H as [i H]. unfold store_sub in H. destruct (N.eqb (gs_id s) 0); chk H; injection H as <- <-.
    + intros r k Hr Ek. cbn [d_subs with_subs] in Hr. apply in_app_or in Hr. destruct Hr as [Hr|[<-|[]]].
      * exact (O r k Hr Ek).
      * cbn [sr_network] in Ek. cbn [sr_user]. unfold null_id in Ek. cbn [own_call] in Own.
        destruct (N.eqb_spec net 0) as [->|Hnz]; [discriminate|]. injection Ek as <-. destruct Own as [->|Own]; [congruence|exact Own].
    + intros r k Hr Ek. cbn [d_subs with_subs] in Hr. apply in_map_iff in Hr. destruct Hr as (r0 & Er & Hr0).
      destruct (N.eqb (sr_id r0) (gs_id s)); subst r; exact (O r0 k Hr0 Ek).
  - apply check_some in H. destruct H as [-> H]. intros s k Hs Ek. cbn [d_subs with_subs] in Hs. apply filter_In in Hs.
    exact (O s k (proj1 Hs) Ek).
  - apply fst_opt_some in H. destruct H as [i H]. apply (same_ns_owned d); [|exact O].
    unfold store_messages in H. destruct l as [|m l].
    + injection H as <- <-. split; reflexivity.
    + destruct (check (add_target net name d)) as [e|] eqn:E; [|discriminate]. apply check_some in E. destruct E as [-> E].
      apply insert_msgs_some in H; [|exact E]. destruct H as (_ & [H1 H2] & _).
      destruct (add_target_ns net name d) as [K1 K2]. split; congruence.
Qed.

Lemma empty_valid : valid empty_db.
Proof. apply valid_iff. reflexivity. Qed.

Lemma reachable_ok d : reachable raw_of d -> valid d /\ subs_owned d.
Proof.
  induction 1 as [|d c R [V O] Own].
  - split; [exact empty_valid|]. intros s k [].
  - unfold step_db. destruct (perform raw_of c d) as [d'|] eqn:E; [|split; assumption].
    split; [exact (perform_valid _ _ _ V O E)|exact (perform_owned _ _ _ V O Own E)].
Qed.
End Calls.

(** ** New ids *)

Lemma fold_max_le l x : In x l -> x <= fold_right N.max 0 l.
Proof.
  induction l as [|y l IH]; [intros []|]. cbn [fold_right]. intros [->|H]; [lia|]. specialize (IH H). lia.
Qed.

Lemma next_id_fresh l : ~ In (next_id l) l.
Proof. unfold next_id. intros H. apply fold_max_le in H. lia. Qed.

Lemma next_id_pos l : next_id l <> 0.
Proof. unfold next_id. lia. Qed.

Lemma store_network_fresh d u n d' id : valid d -> gn_id n = 0 -> store_network u n d = Some (d', id) ->
  unused_net d' id /\ ~ In id (map nr_id (d_nets d)).
Proof.
  intros V Hn H. unfold store_network in H. destruct (sasl_columns n) as [[[[[? ?] ?] ?] ?]|]; [|discriminate].
  rewrite Hn in H. cbn [N.eqb] in H. destruct (check _) as [e|] eqn:E; [|discriminate]. apply check_some in E. destruct E as [-> E].
  injection H as <- <-. pose proof (next_id_fresh (net_ids d)) as F. pose proof (valid_intact d V) as I.
  split; [|exact F]. constructor; cbn [d_chans d_drcpts d_rrcpts d_subs d_targets with_nets]; intros r Hr K; apply F; unfold net_ids at 2.
  - rewrite <- K. exact (in_chans _ I r Hr).
  - rewrite <- K. exact (in_drcpts _ I r Hr).
  - rewrite <- K. exact (in_rrcpts _ I r Hr).
  - exact (in_subs_net _ I r _ Hr K).
  - rewrite <- K. exact (in_targets _ I r Hr).
Qed.

Lemma store_user_fresh now d u d' id : valid d -> gu_id u = 0 -> store_user now u d = Some (d', id) ->
  unused_user d' id /\ ~ In id (map ur_id (d_users d)).
Proof.
  intros V Hn H. unfold store_user in H. rewrite Hn in H. cbn [N.eqb] in H.
  destruct (check _) as [e|] eqn:E; [|discriminate]. apply check_some in E. destruct E as [-> E].
  injection H as <- <-. pose proof (next_id_fresh (user_ids d)) as F. pose proof (valid_intact d V) as I.
  split; [|exact F]. split; cbn [d_nets d_subs with_users]; intros r Hr K; apply F; unfold user_ids at 2; rewrite <- K.
  - exact (in_nets _ I r Hr).
  - exact (in_subs _ I r Hr).
Qed.

(** ** PostgreSQL erases the same rows *)

Lemma dead_iff l k : dead l k = true <-> In k l.
Proof. apply existsb_N. Qed.

Lemma cascade_erased d users nets :
  erased d (cascade users nets d) (fun u => In u users) (fun k => In k nets).
Proof.
  constructor; intros r; unfold cascade;
    cbn [d_users d_nets d_chans d_drcpts d_rrcpts d_subs d_targets d_msgs]; rewrite filter_In; apply and_iff_compat_l.
  - apply negb_iff, dead_iff.
  - apply negb_iff, dead_iff.
  - apply negb_iff, dead_iff.
  - apply negb_iff, dead_iff.
  - apply negb_iff, dead_iff.
  - destruct (sr_network r) as [k|].
    + rewrite negb_orb, andb_true_iff, (negb_iff _ _ (dead_iff users (sr_user r))), (negb_iff _ _ (dead_iff nets k)).
      split; intros [H1 H2]; (split; [exact H1|]).
      * intros j E. injection E as <-. exact H2.
      * exact (H2 k eq_refl).
    + rewrite orb_false_r, (negb_iff _ _ (dead_iff users (sr_user r))). split; [intros H; split; [exact H|discriminate]|tauto].
  - apply negb_iff, dead_iff.
  - apply negb_iff. rewrite dead_iff, in_map_iff. split.
    + intros (t & E & Ht). apply filter_In in Ht. destruct Ht as [Ht K]. apply dead_iff in K. exists (tr_network t).
      split; [exists t; auto|exact K].
    + intros (k & (t & Ht & E1 & <-) & K). exists t. split; [exact E1|]. apply filter_In. split; [exact Ht|]. apply dead_iff. exact K.
Qed.

Lemma erased_ext d d' (U U' K K' : N -> Prop) : (forall x, U x <-> U' x) -> (forall x, K x <-> K' x) ->
  erased d d' U K -> erased d d' U' K'.
Proof.
  intros HU HK E0. destruct E0 as [er_users0 er_nets0 er_chans0 er_drcpts0 er_rrcpts0 er_subs0 er_targets0 er_msgs0]. constructor; intros r.
  - rewrite <- HU. apply er_users0.
  - rewrite <- HK. apply er_nets0.
  - rewrite <- HK. apply er_chans0.
  - rewrite <- HK. apply er_drcpts0.
  - rewrite <- HK. apply er_rrcpts0.
  - rewrite <- HU, er_subs0. split; intros (H1 & H2 & H3); (split; [exact H1|]; split; [exact H2|]); intros k E; specialize (H3 k E);
      rewrite HK in *; exact H3.
  - rewrite <- HK. apply er_targets0.
  - rewrite er_msgs0. split; intros (H1 & H2); (split; [exact H1|]); intros (k & H3 & H4); apply H2; exists k; rewrite HK in *; tauto.
Qed.

Lemma pg_delete_user_erased d u : erased d (pg_delete_user u d) (eq u) (owns d u).
Proof.
  unfold pg_delete_user. eapply erased_ext; [| |apply cascade_erased]; intros x; cbn [In].
  - split; [intros [H|[]]; exact H|tauto].
  - rewrite in_map_iff. unfold owns. split.
    + intros (n & E & Hn). apply filter_In in Hn. destruct Hn as [Hn K]. apply N.eqb_eq in K. exists n. auto.
    + intros (n & Hn & E1 & E2). exists n. split; [exact E1|]. apply filter_In. split; [exact Hn|]. apply N.eqb_eq. exact E2.
Qed.

Lemma pg_delete_network_erased d k : erased d (pg_delete_network k d) (fun _ => False) (eq k).
Proof.
  unfold pg_delete_network. eapply erased_ext; [| |apply cascade_erased]; intros x; cbn [In].
  - tauto.
  - split; [intros [H|[]]; exact H|tauto].
Qed.

(** ** Runs, for examples *)

Definition own_callb (d : db) (c : call) : bool :=
  match c with
  | StoreSubscription _ u k _ => N.eqb k 0 || existsb (fun n => N.eqb (nr_id n) k && N.eqb (nr_user n) u) (d_nets d)
  | _ => true
  end.

Fixpoint own_run (raw_of : message -> bytes) (d : db) (cs : list call) : bool :=
  match cs with [] => true | c :: cs => own_callb d c && own_run raw_of (step_db raw_of d c) cs end.

Lemma own_callb_ok d c : own_callb d c = true -> own_call d c.
Proof.
  destruct c; cbn [own_callb own_call]; auto. intros H. apply orb_prop in H. destruct H as [H|H].
  - left. apply N.eqb_eq. exact H.
  - right. apply existsb_exists in H. destruct H as (n & Hn & H). apply andb_prop in H. destruct H as [H1 H2].
    apply N.eqb_eq in H1, H2. exists n. auto.
Qed.

Lemma reachable_run raw_of cs : forall d, reachable raw_of d -> own_run raw_of d cs = true ->
  reachable raw_of (fold_left (step_db raw_of) cs d).
Proof.
  induction cs as [|c cs IH]; intros d R H; [exact R|]. cbn [own_run] in H. apply andb_prop in H. destruct H as [H1 H2].
  cbn [fold_left]. apply IH; [|exact H2]. apply reach_step; [exact R|apply own_callb_ok; exact H1].
Qed.
