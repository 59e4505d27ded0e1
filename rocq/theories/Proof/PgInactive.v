(** Proofs about inactive users (PostgreSQL). *)
From Verif.Base Require Import Bytes.
From Verif.Model Require Import Message Sql SqlQuery Postgres PgInactive.
From Verif.Spec Require Import Postgres PgInactive.
From Verif.Proof Require Import Postgres.
From Coq Require Import ZArith NArith Lia.
Open Scope N_scope.

Section Raw.
Variable raw_of : message -> bytes.

Lemma p_store_reachable p now fresh u p' id : p_reachable raw_of p -> p_store_user now fresh u p = Some (p', id) -> p_reachable raw_of p'.
Proof.
  intros R E. pose proof (p_reach_step raw_of p (PStoreUser now fresh u) R) as K. unfold p_step in K. cbn [p_perform] in K. rewrite E in K. exact K.
Qed.

Lemma p_seen_reachable p id name created last : p_seen raw_of p id name created last -> p_reachable raw_of p.
Proof.
  induction 1 as [p now fresh u p' id R _ _ E|p id name created last now fresh u p' i _ R _ _ E|p id name created last c _ R _].
  - exact (p_store_reachable _ _ _ _ _ _ R E).
  - exact (p_store_reachable _ _ _ _ _ _ R E).
  - apply p_reach_step. exact R.
Qed.

Lemma drcpts_users net client l : forall p p', p_insert_drcpts net client l p = Some p' -> p_users p' = p_users p.
Proof.
  induction l as [|[i [t m]] l IH]; intros p p' H; cbn [p_insert_drcpts] in H; [injection H as <-; reflexivity|].
  destruct (pcheck _ _) as [q|] eqn:E; [|discriminate]. apply pcheck_some in E as (-> & _). apply IH in H. exact H.
Qed.

Lemma msgs_users net name now l : forall p p', p_insert_msgs raw_of net name now l p = Some p' -> p_users p' = p_users p.
Proof.
  induction l as [|[i m] l IH]; intros p p' H; cbn [p_insert_msgs] in H; [injection H as <-; reflexivity|].
  destruct (p_insert_msg _ _ _ _ _ _ _) as [q|] eqn:E; [|discriminate]. apply IH in H. rewrite H. unfold p_insert_msg in E.
  destruct (message_time now m); [|discriminate]. destruct (filter _ _); [discriminate|]. apply pcheck_some in E as (-> & _). reflexivity.
Qed.

(** Calls other than StoreUser: the users that are left are those not concerned. *)
Lemma p_perform_users p c p' : pvalid p -> (forall now fresh u, c <> PStoreUser now fresh u) -> p_perform raw_of c p = Some p' ->
  forall r, In r (p_users p') <-> In r (p_users p) /\ ~ p_concerns (pu_id r) c.
Proof.
  intros V NS E r.
  assert (Same : p_users p' = p_users p -> (forall id, ~ p_concerns id c) -> In r (p_users p') <-> In r (p_users p) /\ ~ p_concerns (pu_id r) c).
  { intros -> N. specialize (N (pu_id r)). tauto. }
  destruct c; cbn [p_perform p_concerns] in *.
  - exfalso. exact (NS _ _ _ eq_refl).
  - destruct (delete_user_erases p id V) as (q & H & Er). rewrite E in H. injection H as <-. rewrite (pe_users _ _ _ _ Er r). split; intros [A C]; (split; [exact A|]); intros K; apply C; symmetry; exact K.
  - apply Same; [|auto]. unfold p_store_network in E. destruct (sasl_columns n) as [[[[[? ?] ?] ?] ?]|]; [|discriminate].
    destruct (N.eqb _ _); apply fst_with_id, pcheck_some in E; destruct E as (-> & _); reflexivity.
  - destruct (delete_network_erases p id V) as (q & H & Er). rewrite E in H. injection H as <-. rewrite (pe_users _ _ _ _ Er r). tauto.
  - apply Same; [|auto]. unfold p_store_channel in E. destruct (N.eqb _ _); apply fst_with_id, pcheck_some in E; destruct E as (-> & _); reflexivity.
  - apply Same; [|auto]. apply pcheck_some in E; destruct E as (-> & _); reflexivity.
  - apply Same; [|auto]. unfold p_store_drcpts in E. destruct (pcheck _ _) as [q|] eqn:F; [|discriminate]. apply pcheck_some in F. destruct F as (-> & _).
    apply drcpts_users in E. exact E.
  - apply Same; [|auto]. unfold p_store_rrcpt in E. destruct (N.eqb _ _); apply fst_with_id, pcheck_some in E; destruct E as (-> & _); reflexivity.
  - apply Same; [|auto]. unfold p_store_sub in E. destruct (N.eqb _ _); apply fst_with_id, pcheck_some in E; destruct E as (-> & _); reflexivity.
  - apply Same; [|auto]. apply pcheck_some in E; destruct E as (-> & _); reflexivity.
  - apply Same; [|auto]. unfold p_store_messages in E. destruct l as [|x l]; [injection E as <-; reflexivity|].
    destruct (p_add_target _ _ _ _) as [q|] eqn:F; [|discriminate].
    destruct (p_insert_msgs _ _ _ _ _ _) as [q'|] eqn:G; [|discriminate]. injection E as <-. apply msgs_users in G. rewrite G.
    unfold p_add_target in F. destruct (existsb _ _); apply pcheck_some in F; destruct F as (-> & _); reflexivity.
Qed.

Lemma p_seen_row p id name created last : p_seen raw_of p id name created last ->
  exists r, In r (p_users p) /\ pu_id r = id /\ pu_username r = name /\ pu_created r = pg_time created /\ pu_interacted r = pg_null_time last.
Proof.
  induction 1 as [p now fresh u p' id R E0 S E|p id name created last now fresh u p' i S IH E0 Ei E|p id name created last c S IH N].
  - unfold p_store_user in E. rewrite E0 in E. cbn [N.eqb] in E. apply with_id_some in E as [E ->]. apply pcheck_some in E as (-> & _). cbn [p_users set_users].
    eexists. split; [apply in_or_app; right; left; reflexivity|]. cbn. destruct (short_ok _ _ S) as (_ & C & _). auto.
  - destruct IH as (r & Hr & R0 & R1 & R2 & R3). unfold p_store_user in E. destruct (N.eqb_spec (gu_id u) 0) as [|_]; [contradiction|].
    apply with_id_some in E as [E _]. apply pcheck_some in E as (-> & _). cbn [p_users set_users].
    eexists. split; [apply in_update'; left; exists r; split; [exact Hr|]; split; [congruence|reflexivity]|]. cbn. auto.
  - destruct IH as (r & Hr & R0 & R1 & R2 & R3). exists r. split; [|auto]. unfold p_step. destruct (p_perform raw_of c p) as [p'|] eqn:E; [|exact Hr].
    pose proof (reachable_valid raw_of p (p_seen_reachable _ _ _ _ _ S)) as V.
    assert (Other : (forall now fresh u, c <> PStoreUser now fresh u) -> In r (p_users p')) by (intros NS; apply (p_perform_users p c p' V NS E); rewrite R0; auto).
    destruct c as [now fresh u| | | | | | | | | |]; try (apply Other; intros; discriminate). clear Other.
    cbn [p_perform] in E. unfold p_store_user in E. destruct (N.eqb_spec (gu_id u) 0) as [E0|E0]; apply fst_with_id, pcheck_some in E; destruct E as (-> & _); cbn [p_users set_users].
    + apply in_or_app. left. exact Hr.
    + apply in_update'. right. split; [exact Hr|]. intros K. apply N. split; [exact E0|congruence].
Qed.

Theorem p_listed p id name created last limit : p_seen raw_of p id name created last ->
  let t := if Z.eqb last 0 then created else last in
  ((t + 1000 < limit)%Z -> In name (p_inactive_usernames limit p)) /\ (In name (p_inactive_usernames limit p) -> (t < limit + 1000)%Z) /\
  ((t mod 1000 = 0)%Z -> (limit mod 1000 = 0)%Z -> (In name (p_inactive_usernames limit p) <-> (t < limit)%Z)).
Proof.
  intros S t. destruct (p_seen_row _ _ _ _ _ S) as (r & Hr & _ & R1 & R2 & R3). pose proof (reachable_valid raw_of p (p_seen_reachable _ _ _ _ _ S)) as V.
  assert (T : (match pu_interacted r with Some t => t | None => pu_created r end) = pg_time t).
  { rewrite R3, R2. unfold pg_null_time, t. destruct (Z.eqb last 0); reflexivity. }
  assert (L : In name (p_inactive_usernames limit p) <-> (pg_time t < pg_time limit)%Z).
  { rewrite <- T, <- Z.ltb_lt. unfold p_inactive_usernames. split.
    - intros H. apply in_map_iff in H as (r' & E & H). apply filter_In in H as [Hr' H]. rewrite (uniqb_puser _ r r' (pv_users_name p V) Hr Hr') by congruence. exact H.
    - intros H. apply in_map_iff. exists r. split; [exact R1|]. apply filter_In. auto. }
  destruct (pg_nearest t) as [_ A], (pg_nearest limit) as [_ C]. split; [intros H; apply L; lia|]. split; [intros H; apply L in H; lia|].
  intros M1 M2. rewrite L, (pg_time_whole t M1), (pg_time_whole limit M2). reflexivity.
Qed.

Lemma p_fitting_reachable p : p_fitting raw_of p -> p_reachable raw_of p.
Proof. induction 1 as [|p c _ IH _]; [apply p_reach_empty|apply p_reach_step; exact IH]. Qed.

Theorem p_everyone_seen p r : p_fitting raw_of p -> In r (p_users p) -> exists created last, p_seen raw_of p (pu_id r) (pu_username r) created last.
Proof.
  intros D. revert r. induction D as [|p c D IH T]; intros r Hr; [destruct Hr|].
  pose proof (reachable_valid raw_of p (p_fitting_reachable p D)) as V.
  destruct (p_perform raw_of c p) as [p'|] eqn:E.
  2:{ destruct (IH r) as (a & b & S). { unfold p_step in Hr. rewrite E in Hr. exact Hr. }
      exists a, b. assert (Q : p_step raw_of p c = p) by (unfold p_step; rewrite E; reflexivity). rewrite Q. exact S. }
  assert (Q : p_step raw_of p c = p') by (unfold p_step; rewrite E; reflexivity). rewrite Q in Hr.
  assert (Other : (forall now fresh u, c <> PStoreUser now fresh u) -> exists created last, p_seen raw_of (p_step raw_of p c) (pu_id r) (pu_username r) created last).
  { intros NS. apply (p_perform_users p c p' V NS E) in Hr as [Hr0 N]. destruct (IH r Hr0) as (a & b & S). exists a, b. apply p_seen_still; assumption. }
  destruct c as [now fresh u| | | | | | | | | | ]; try (apply Other; intros; discriminate). clear Other.
  cbn [p_perform fits] in *. destruct (p_store_user now fresh u p) as [[q i]|] eqn:F; [|discriminate]. injection E as ->. pose proof F as F'.
  unfold p_store_user in F'. destruct (N.eqb_spec (gu_id u) 0) as [E0|E0]; apply with_id_some in F'; destruct F' as [F' Ei]; apply pcheck_some in F'; destruct F' as (Eq & _); rewrite Eq in Hr; cbn [p_users set_users] in Hr.
  - apply in_app_or in Hr as [Hr|[<-|[]]].
    + destruct (IH r Hr) as (a & b & S). exists a, b. apply p_seen_still; [exact S|intros [K _]; exact (K E0)].
    + exists now, (gu_interacted u). rewrite Q. cbn [pu_id pu_username]. destruct (short_ok _ _ T) as (_ & -> & _). rewrite <- Ei. exact (p_seen_new raw_of p now fresh u p' i (p_fitting_reachable p D) E0 T F).
  - apply in_update' in Hr as [(r0 & Hr & Er & ->)|[Hr N]].
    + destruct (IH r0 Hr) as (a & b & S). exists a, (gu_interacted u). rewrite Q. exact (p_seen_again raw_of p (pu_id r0) (pu_username r0) a b now fresh u p' i S E0 (eq_sym Er) F).
    + destruct (IH r Hr) as (a & b & S). exists a, b. apply p_seen_still; [exact S|intros [_ K]; exact (N (eq_sym K))].
Qed.
End Raw.
