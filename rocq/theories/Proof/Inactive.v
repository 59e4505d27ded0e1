(** Proofs about inactive users. *)
From Verif.Base Require Import Bytes.
From Verif.Model Require Import Message TimeFmt Sql SqlQuery Inactive.
From Verif.Spec Require Import TimeFmt Sql SqlQuery Inactive.
From Verif.Proof Require Import Sql SqlStore SqlQuery.
From Coq Require Import ZArith NArith Lia.

Section Raw.
Variable raw_of : message -> bytes.

Lemma seen_reachable d name created last : seen raw_of d name created last -> reachable raw_of d.
Proof.
  induction 1 as [d now u d' id R _ _ _ E|d name created last now u d' id _ R _ _ _ E|d name created last c _ R O _]; [| |exact (reach_step raw_of d c R O)].
  - pose proof (reach_step raw_of d (StoreUser now u) R I) as K. unfold step_db in K. cbn [perform] in K. rewrite E in K. exact K.
  - pose proof (reach_step raw_of d (StoreUser now u) R I) as K. unfold step_db in K. cbn [perform] in K. rewrite E in K. exact K.
Qed.

(** A row stays if the call is not about it. *)
Lemma perform_users d c d' r : valid d -> subs_owned d -> In r (d_users d) -> ~ concerns d (ur_username r) c -> perform raw_of c d = Some d' -> In r (d_users d').
Proof.
  intros V O Hr N H. destruct c; cbn [perform concerns] in *.
  - apply fst_opt_some in H. destruct H as [i H]. unfold store_user in H. destruct (N.eqb_spec (gu_id u) 0) as [E0|E0]; chk H; injection H as <- <-; cbn [d_users with_users].
    + apply in_or_app. left. exact Hr.
    + apply in_map_iff. exists r. split; [|exact Hr]. destruct (beqb_spec (ur_username r) (gu_username u)) as [Eu|_]; [exfalso; apply N; split; [exact E0|symmetry; exact Eu]|reflexivity].
  - destruct (delete_user_erased d id V O) as (d2 & H2 & _ & Er). rewrite H in H2. injection H2 as <-. apply (er_users _ _ _ _ Er). split; [exact Hr|]. intros ->. apply N. exists r. auto.
  - apply fst_opt_some in H. destruct H as [i H]. unfold store_network in H. destruct (sasl_columns n) as [[[[[? ?] ?] ?] ?]|]; [|discriminate].
    destruct (N.eqb (gn_id n) 0); chk H; injection H as <- <-; exact Hr.
  - destruct (delete_network_erased d id V) as (d2 & H2 & _ & Er). rewrite H in H2. injection H2 as <-. apply (er_users _ _ _ _ Er). split; [exact Hr|]. intros [].
  - apply fst_opt_some in H. destruct H as [i H]. unfold store_channel in H. destruct (N.eqb (gc_id c) 0); chk H; injection H as <- <-; exact Hr.
  - apply check_some in H. destruct H as [-> H]. exact Hr.
  - unfold store_drcpts in H. refine (exec_inv (fun e => In r (d_users e)) _ _ _ _ Hr H).
    intros st e [<-|Hst] K; [exact K|]. apply in_map_iff in Hst. destruct Hst as (x & <- & _). exact K.
  - apply fst_opt_some in H. destruct H as [i H]. unfold store_rrcpt in H. destruct (N.eqb id 0); chk H; injection H as <- <-; exact Hr.
  - apply fst_opt_some in H. destruct H as [i H]. unfold store_sub in H. destruct (N.eqb (gs_id s) 0); chk H; injection H as <- <-; exact Hr.
  - apply check_some in H. destruct H as [-> H]. exact Hr.
  - apply fst_opt_some in H. destruct H as [i H]. unfold store_messages in H. destruct l as [|m l].
    + injection H as <- <-. exact Hr.
    + destruct (check (add_target net name d)) as [e|] eqn:E; [|discriminate]. apply check_some in E. destruct E as [-> E].
      apply insert_msgs_some in H; [|exact E]. destruct H as (_ & _ & -> & _). unfold add_target. destruct (existsb _ _); exact Hr.
Qed.

Lemma seen_row d name created last : seen raw_of d name created last -> in_years created /\ in_years last /\
  exists r, In r (d_users d) /\ ur_username r = name /\ ur_created r = format_time created /\ ur_interacted r = sqlite_value last.
Proof.
  induction 1 as [d now u d' id R Y1 Y2 E0 E|d name created last now u d' id S IH Y E0 En E|d name created last c S IH O N].
  - split; [exact Y1|]. split; [exact Y2|]. unfold store_user in E. rewrite E0 in E. cbn [N.eqb] in E. chk E. injection E as <- <-. cbn [d_users with_users].
    eexists. split; [apply in_or_app; right; left; reflexivity|]. auto.
  - destruct IH as (Y1 & _ & r & Hr & R1 & R2 & R3). split; [exact Y1|]. split; [exact Y|]. unfold store_user in E. destruct (N.eqb_spec (gu_id u) 0) as [|_]; [contradiction|].
    chk E. injection E as <- <-. cbn [d_users with_users]. exists (set_user u r). split; [apply in_map_iff; exists r; split; [|exact Hr]; rewrite R1, En, beqb_refl; reflexivity|]. auto.
  - destruct IH as (Y1 & Y2 & r & Hr & R1 & R2 & R3). split; [exact Y1|]. split; [exact Y2|]. exists r. split; [|auto]. unfold step_db.
    destruct (perform raw_of c d) as [d'|] eqn:E; [|exact Hr]. destruct (reachable_ok raw_of d (seen_reachable _ _ _ _ S)) as [V Ow].
    apply (perform_users d c d' r V Ow Hr); [rewrite R1; exact N|exact E].
Qed.

Theorem listed d name created last limit : seen raw_of d name created last -> in_years limit -> limit <> 0%Z ->
  (In name (inactive_usernames limit d) <-> (millis (if Z.eqb last 0 then created else last) < millis limit)%Z).
Proof.
  intros S Y L. destruct (seen_row _ _ _ _ S) as (Y1 & Y2 & r & Hr & R1 & R2 & R3). destruct (reachable_ok raw_of d (seen_reachable _ _ _ _ S)) as [V _].
  unfold inactive_usernames, sqlite_value at 1. destruct (Z.eqb_spec limit 0); [contradiction|].
  assert (T : (match ur_interacted r with Some t => t | None => ur_created r end) = format_time (if Z.eqb last 0 then created else last)).
  { rewrite R3, R2. unfold sqlite_value. destruct (Z.eqb last 0); reflexivity. }
  assert (Yt : in_years (if Z.eqb last 0 then created else last)) by (destruct (Z.eqb last 0); assumption).
  rewrite <- (format_lt_iff _ _ Yt Y), <- T, <- text_ltb_iff. split.
  - intros H. apply in_map_iff in H as (r' & E & H). apply filter_In in H as [Hr' H]. rewrite (uniqb_name _ r r' (v_users_name d V) Hr Hr') by congruence. exact H.
  - intros H. apply in_map_iff. exists r. split; [exact R1|]. apply filter_In. auto.
Qed.

Lemma dated_reachable d : dated raw_of d -> reachable raw_of d.
Proof. induction 1 as [|d c _ IH O _]; [apply reach_empty|exact (reach_step raw_of d c IH O)]. Qed.

(** Other calls add no users, and those left were not concerned. *)
Lemma perform_users_back d c d' r : valid d -> subs_owned d -> (forall now u, c <> StoreUser now u) -> perform raw_of c d = Some d' -> In r (d_users d') ->
  In r (d_users d) /\ ~ concerns d (ur_username r) c.
Proof.
  intros V O NS H Hr. destruct c; cbn [perform concerns] in *.
  - exfalso. exact (NS _ _ eq_refl).
  - destruct (delete_user_erased d id V O) as (d2 & H2 & _ & Er). rewrite H in H2. injection H2 as <-. apply (er_users _ _ _ _ Er) in Hr. destruct Hr as [Hr N]. split; [exact Hr|].
    intros (r2 & H2 & E1 & E2). apply N. rewrite (uniqb_name _ r r2 (v_users_name d V) Hr H2) by congruence. auto.
  - split; [|intros []]. apply fst_opt_some in H. destruct H as [i H]. unfold store_network in H. destruct (sasl_columns n) as [[[[[? ?] ?] ?] ?]|]; [|discriminate].
    destruct (N.eqb (gn_id n) 0); chk H; injection H as <- <-; exact Hr.
  - split; [|intros []]. destruct (delete_network_erased d id V) as (d2 & H2 & _ & Er). rewrite H in H2. injection H2 as <-. apply (er_users _ _ _ _ Er) in Hr. tauto.
  - split; [|intros []]. apply fst_opt_some in H. destruct H as [i H]. unfold store_channel in H. destruct (N.eqb (gc_id c) 0); chk H; injection H as <- <-; exact Hr.
  - split; [|intros []]. apply check_some in H. destruct H as [-> H]. exact Hr.
  - split; [|intros []]. unfold store_drcpts in H. refine (exec_inv (fun e => In r (d_users e) -> In r (d_users d)) _ _ _ _ (fun x => x) H Hr).
    intros st e [<-|Hst] K; [exact K|]. apply in_map_iff in Hst. destruct Hst as (x & <- & _). exact K.
  - split; [|intros []]. apply fst_opt_some in H. destruct H as [i H]. unfold store_rrcpt in H. destruct (N.eqb id 0); chk H; injection H as <- <-; exact Hr.
  - split; [|intros []]. apply fst_opt_some in H. destruct H as [i H]. unfold store_sub in H. destruct (N.eqb (gs_id s) 0); chk H; injection H as <- <-; exact Hr.
  - split; [|intros []]. apply check_some in H. destruct H as [-> H]. exact Hr.
  - split; [|intros []]. apply fst_opt_some in H. destruct H as [i H]. unfold store_messages in H. destruct l as [|m l].
    + injection H as <- <-. exact Hr.
    + destruct (check (add_target net name d)) as [e|] eqn:E; [|discriminate]. apply check_some in E. destruct E as [-> E].
      apply insert_msgs_some in H; [|exact E]. destruct H as (_ & _ & H & _). rewrite H in Hr. revert Hr. unfold add_target. destruct (existsb _ _); auto.
Qed.

(** Every user was seen. *)
Theorem everyone_seen d r : dated raw_of d -> In r (d_users d) -> exists created last, seen raw_of d (ur_username r) created last.
Proof.
  intros D. revert r. induction D as [|d c D IH O T]; intros r Hr; [destruct Hr|].
  destruct (reachable_ok raw_of d (dated_reachable d D)) as [V Ow].
  destruct (perform raw_of c d) as [d'|] eqn:E.
  2:{ destruct (IH r) as (a & b & S). { unfold step_db in Hr. rewrite E in Hr. exact Hr. }
      exists a, b. assert (Q : step_db raw_of d c = d) by (unfold step_db; rewrite E; reflexivity). rewrite Q. exact S. }
  assert (Q : step_db raw_of d c = d') by (unfold step_db; rewrite E; reflexivity). rewrite Q in Hr.
  assert (Other : (forall now u, c <> StoreUser now u) -> exists created last, seen raw_of (step_db raw_of d c) (ur_username r) created last).
  { intros NS. destruct (perform_users_back d c d' r V Ow NS E Hr) as [Hr0 N]. destruct (IH r Hr0) as (a & b & S). exists a, b. apply seen_still; assumption. }
  destruct c as [now u| | | | | | | | | | ]; try (apply Other; intros; discriminate). clear Other.
  destruct T as [T1 T2]. cbn [perform] in E. apply fst_opt_some in E. destruct E as [i E]. pose proof E as E'.
  unfold store_user in E'. destruct (N.eqb_spec (gu_id u) 0) as [E0|E0]; chk E'; injection E' as Ed Ei; rewrite <- Ed in Hr; cbn [d_users with_users] in Hr.
  - apply in_app_or in Hr as [Hr|[<-|[]]].
    + destruct (IH r Hr) as (a & b & S). exists a, b. apply seen_still; [exact S|exact O|intros [K _]; exact (K E0)].
    + exists now, (gu_interacted u). rewrite Q. exact (seen_new raw_of d now u d' i (dated_reachable d D) T1 T2 E0 E).
  - apply in_map_iff in Hr as (r0 & Er & Hr). destruct (IH r0 Hr) as (a & b & S). destruct (beqb_spec (ur_username r0) (gu_username u)) as [Eu|Nu].
    + exists a, (gu_interacted u). subst r. rewrite Q. exact (seen_again raw_of d (ur_username r0) a b now u d' i S T2 E0 (eq_sym Eu) E).
    + exists a, b. subst r0. apply seen_still; [exact S|exact O|intros [_ K]; exact (Nu (eq_sym K))].
Qed.
End Raw.
