(** What SQLite's schema gives for the copy to PostgreSQL. *)
From Verif.Base Require Import Bytes.
From Verif.Model Require Import Message TimeFmt Sql Postgres MigrateDb.
From Verif.Proof Require Import Sql SqlStore.
From Verif.Spec Require Import Sql Postgres MigrateDb.
From Coq Require Import ZArith NArith Lia.
Open Scope N_scope.

Lemma uniqb_pairs {A} (key : A -> list (option cell)) l : uniqb key l = true -> ForallOrdPairs (fun a b => clash (key a) (key b) = false) l.
Proof.
  induction l as [|x l IH]; cbn [uniqb]; intros H; [constructor|]. apply andb_prop in H as [H1 H2]. constructor; [|exact (IH H2)].
  apply Forall_forall. intros y Hy. apply negb_true_iff in H1. apply not_true_is_false. intros C. assert (K : existsb (fun y => clash (key x) (key y)) l = true) by (apply existsb_exists; exists y; auto). congruence.
Qed.

Lemma pairs_map {A B} (f : A -> B) (R : A -> A -> Prop) (Q : B -> B -> Prop) l : (forall a b, In a l -> In b l -> R a b -> Q (f a) (f b)) -> ForallOrdPairs R l -> ForallOrdPairs Q (map f l).
Proof.
  intros I H. induction H as [|x l H1 H2 IH]; cbn [map]; [constructor|]. constructor.
  - apply Forall_forall. intros y Hy. apply in_map_iff in Hy as (z & <- & Hz). rewrite Forall_forall in H1. apply I; [left; reflexivity|right; exact Hz|exact (H1 z Hz)].
  - apply IH. intros a b Ha Hb. apply I; right; assumption.
Qed.

Lemma pairs_nodup {A} (l : list A) : ForallOrdPairs (fun a b => a <> b) l -> NoDup l.
Proof. intros H. induction H as [|x l H1 _ IH]; [constructor|]. constructor; [|exact IH]. intros K. rewrite Forall_forall in H1. exact (H1 x K eq_refl). Qed.

Lemma names_nodup l : uniqb user_name_key l = true -> NoDup (map gu_username (flat_map (fun r => match load_user r with Some u => [u] | None => [] end) l)).
Proof.
  intros H. apply uniqb_pairs in H. induction H as [|x l H1 _ IH]; cbn [flat_map map]; [constructor|]. rewrite map_app. unfold load_user at 1. destruct (sqlite_scan (ur_interacted x)); [|exact IH].
  cbn [map app gu_username]. constructor; [|exact IH]. intros K. apply in_map_iff in K as (u & E & Hu). apply in_flat_map in Hu as (r & Hr & Hu). unfold load_user in Hu.
  destruct (sqlite_scan (ur_interacted r)); [|destruct Hu]. destruct Hu as [<-|[]]. cbn [gu_username] in E. rewrite Forall_forall in H1. specialize (H1 r Hr).
  unfold user_name_key in H1. cbn [clash ceqb] in H1. rewrite E, beqb_refl in H1. discriminate H1.
Qed.

Section Reach.
Variable raw_of : message -> bytes.

(** Rows of networks have numbers, and mechanisms that are known. *)
Definition proper_nets (d : db) : Prop := forall r, In r (d_nets d) -> nr_id r <> 0 /\ In (string_of (nr_mech r)) [[]; B "PLAIN"; B "EXTERNAL"].

Lemma same_ns_proper d d' : same_ns d d' -> proper_nets d -> proper_nets d'.
Proof. intros [E _] P r Hr. apply P. congruence. Qed.

Lemma mech_known n mech a b c e : sasl_columns n = Some (mech, a, b, c, e) -> In (string_of mech) [[]; B "PLAIN"; B "EXTERNAL"].
Proof.
  unfold sasl_columns. destruct (beqb (gn_mech n) []) eqn:E0; [intros H; injection H as <- _; left; reflexivity|].
  destruct (beqb (gn_mech n) (B "PLAIN")) eqn:E1; [apply beqb_eq in E1; intros H; injection H as <- _; rewrite E1; right; left; reflexivity|].
  destruct (beqb (gn_mech n) (B "EXTERNAL")) eqn:E2; [apply beqb_eq in E2; intros H; injection H as <- _; rewrite E2; right; right; left; reflexivity|discriminate].
Qed.

Lemma perform_proper d c d' : valid d -> subs_owned d -> proper_nets d -> perform raw_of c d = Some d' -> proper_nets d'.
Proof.
  intros V O P H. destruct c; cbn [perform] in H.
  - apply fst_opt_some in H. destruct H as [i H]. apply (same_ns_proper d); [|exact P].
    unfold store_user in H. destruct (N.eqb (gu_id u) 0); chk H; injection H as <- <-; split; reflexivity.
  - destruct (delete_user_erased d id V O) as (d2 & H2 & _ & Er). rewrite H in H2. injection H2 as <-.
    intros r Hr. apply (er_nets _ _ _ _ Er) in Hr. exact (P r (proj1 Hr)).
  - apply fst_opt_some in H. destruct H as [i H]. unfold store_network in H.
    destruct (sasl_columns n) as [[[[[mech a] b] c] e]|] eqn:S; [|discriminate]. apply mech_known in S.
    destruct (N.eqb (gn_id n) 0); chk H; injection H as <- <-; intros r Hr; cbn [d_nets with_nets] in Hr.
    + apply in_app_or in Hr as [Hr|[<-|[]]]; [exact (P r Hr)|]. cbn [nr_id nr_mech]. split; [unfold next_id; lia|exact S].
    + apply in_map_iff in Hr as (r0 & <- & Hr0). destruct (P r0 Hr0) as [P1 P2]. destruct (N.eqb (nr_id r0) (gn_id n)); cbn [nr_id nr_mech]; auto.
  - destruct (delete_network_erased d id V) as (d2 & H2 & _ & Er). rewrite H in H2. injection H2 as <-.
    intros r Hr. apply (er_nets _ _ _ _ Er) in Hr. exact (P r (proj1 Hr)).
  - apply fst_opt_some in H. destruct H as [i H]. apply (same_ns_proper d); [|exact P].
    unfold store_channel in H. destruct (N.eqb (gc_id c) 0); chk H; injection H as <- <-; split; reflexivity.
  - apply check_some in H. destruct H as [-> H]. exact P.
  - apply (same_ns_proper d); [|exact P]. unfold store_drcpts in H.
    refine (exec_inv (same_ns d) _ _ _ _ _ H); [|split; reflexivity].
    intros st e [<-|Hst] [E1 E2]; [split; assumption|]. apply in_map_iff in Hst. destruct Hst as (r & <- & _). split; assumption.
  - apply fst_opt_some in H. destruct H as [i H]. apply (same_ns_proper d); [|exact P].
    unfold store_rrcpt in H. destruct (N.eqb id 0); chk H; injection H as <- <-; split; reflexivity.
  - apply fst_opt_some in H. destruct H as [i H]. unfold store_sub in H. destruct (N.eqb (gs_id s) 0); chk H; injection H as <- <-; exact P.
  - apply check_some in H. destruct H as [-> H]. exact P.
  - apply fst_opt_some in H. destruct H as [i H]. apply (same_ns_proper d); [|exact P].
    unfold store_messages in H. destruct l as [|m l].
    + injection H as <- <-. split; reflexivity.
    + destruct (check (add_target net name d)) as [e|] eqn:E; [|discriminate]. apply check_some in E. destruct E as [-> E].
      apply insert_msgs_some in H; [|exact E]. destruct H as (_ & [H1 H2] & _).
      destruct (add_target_ns net name d) as [K1 K2]. split; congruence.
Qed.

Lemma reachable_proper d : reachable raw_of d -> proper_nets d.
Proof.
  induction 1 as [|d c R P Own]; [intros r []|]. unfold step_db. destruct (perform raw_of c d) as [d'|] eqn:E; [|exact P].
  destruct (reachable_ok raw_of d R) as [V O]. exact (perform_proper d c d' V O P E).
Qed.

Lemma text_same a b : string_of a = string_of b -> string_of b <> [] -> exists s, a = Some s /\ b = Some s.
Proof. destruct a as [a|], b as [b|]; cbn; intros E N; try contradiction; [subst; eauto|subst; contradiction]. Qed.

Theorem holds d configs : reachable raw_of d -> widths (sqlite_source d configs) -> holdable (sqlite_source d configs).
Proof.
  intros R [W1 W2 W3 W4 W5 W6 W7]. destruct (reachable_ok raw_of d R) as [V _]. pose proof (reachable_proper d R) as P. constructor; try assumption; cbn [sqlite_source s_users s_nets s_chans s_subs].
  - apply names_nodup. exact (v_users_name d V).
  - intros v n Hn. apply in_map_iff in Hn as (r & <- & Hr). apply filter_In in Hr as [Hr _]. exact (proj2 (P r Hr)).
  - intros v. unfold list_networks. set (f := fun r => nr_user r =? v).
    assert (U : ForallOrdPairs (fun a b => clash (net_addr_key a) (net_addr_key b) = false /\ clash (net_name_key a) (net_name_key b) = false) (filter f (d_nets d))).
    { pose proof (uniqb_pairs _ _ (uniqb_filter _ f _ (v_nets_addr d V))) as U1. pose proof (uniqb_pairs _ _ (uniqb_filter _ f _ (v_nets_name d V))) as U2.
      induction U1 as [|x l U1 _ IH]; [constructor|]. inversion U2 as [|? ? U3 U4]; subst. constructor; [|exact (IH U4)]. rewrite Forall_forall in *. intros y Hy. auto. }
    revert U. apply pairs_map. intros a b Ha Hb [C1 C2]. apply filter_In in Ha as [_ Ha], Hb as [_ Hb]. unfold f in Ha, Hb. apply N.eqb_eq in Ha, Hb.
    unfold nets_apart. cbn [gn_name gn_addr gn_nick load_network]. split.
    + intros E. destruct (string_of (nr_name b)) eqn:Eb; [reflexivity|]. exfalso. destruct (text_same (nr_name a) (nr_name b)) as (s & A1 & A2); [congruence|rewrite Eb; discriminate|].
      unfold net_name_key in C2. rewrite A1, A2 in C2. cbn [text_cell clash ceqb] in C2. rewrite Ha, Hb, N.eqb_refl, beqb_refl in C2. discriminate C2.
    + intros E E'. destruct (string_of (nr_nick b)) eqn:Eb; [reflexivity|]. exfalso. destruct (text_same (nr_nick a) (nr_nick b)) as (s & A1 & A2); [congruence|rewrite Eb; discriminate|].
      unfold net_addr_key in C1. rewrite A1, A2 in C1. cbn [text_cell clash ceqb] in C1. rewrite Ha, Hb, E, N.eqb_refl, !beqb_refl in C1. discriminate C1.
  - intros k. unfold list_channels. rewrite map_map. apply pairs_nodup. set (f := fun r => cr_network r =? k).
    refine (pairs_map _ _ _ _ _ (uniqb_pairs _ _ (uniqb_filter _ f _ (v_chans_key d V)))). intros a b Ha Hb C. apply filter_In in Ha as [_ Ha], Hb as [_ Hb]. unfold f in Ha, Hb. apply N.eqb_eq in Ha, Hb.
    cbn [gc_name load_channel]. intros E. unfold chan_key in C. cbn [clash ceqb] in C. rewrite Ha, Hb, E, N.eqb_refl, beqb_refl in C. discriminate C.
  - intros v n Hn. apply in_map_iff in Hn as (r & <- & Hr). apply filter_In in Hr as [Hr _]. destruct (P r Hr) as [K0 _]. cbn [gn_id load_network]. set (k := nr_id r) in *.
    unfold list_subs. rewrite map_map. apply pairs_nodup. set (f := fun r => (sr_user r =? v) && id_is (sr_network r) (null_id k)).
    refine (pairs_map _ _ _ _ _ (uniqb_pairs _ _ (uniqb_filter _ f _ (v_subs_key d V)))). intros a b Ha Hb C. apply filter_In in Ha as [_ Ha], Hb as [_ Hb]. unfold f in Ha, Hb.
    apply andb_prop in Ha as [_ Ha], Hb as [_ Hb]. unfold null_id in Ha, Hb. destruct (N.eqb_spec k 0); [contradiction|]. cbn [gs_endpoint]. intros E. unfold sub_key in C.
    destruct (sr_network a) as [x|]; [|discriminate Ha]. destruct (sr_network b) as [y|]; [|discriminate Hb]. cbn [id_is] in Ha, Hb. apply N.eqb_eq in Ha, Hb. subst x y.
    cbn [int_cell clash ceqb] in C. rewrite E, N.eqb_refl, beqb_refl in C. discriminate C.
Qed.
End Reach.
