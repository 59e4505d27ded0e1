(** Proofs about the timers that detach a channel. *)
From Coq Require Import ZArith List Bool Lia Permutation.
From Verif.Model Require Import AutoDetach.
From Verif.Spec Require Import AutoDetach.
Import ListNotations.
Local Open Scope Z_scope.

Definition only (s : st) : Prop := forall id due, In (id, due) (s_timers s) -> s_up s = Some (Some id).

Lemma drop_only s id : only s -> s_up s = Some (Some id) -> drop id (s_timers s) = [].
Proof.
  unfold only. intros H E. unfold drop. induction (s_timers s) as [|[i d] l IH]; [reflexivity|]. cbn [filter fst].
  assert (X : s_up s = Some (Some i)) by (apply (H i d); left; reflexivity). assert (i = id) by congruence. subst i. rewrite Nat.eqb_refl. cbn [negb].
  apply IH. intros j e Hj. apply (H j e). right. exact Hj.
Qed.
Lemma no_timers s : only s -> (forall id, s_up s <> Some (Some id)) -> s_timers s = [].
Proof. intros H N. destruct (s_timers s) as [|[i d] l] eqn:E; [reflexivity|]. exfalso. apply (N i). apply (H i d). rewrite E. left. reflexivity. Qed.

Lemma auto_same dur s : s_now (update_auto dur s) = s_now s /\ s_chan (update_auto dur s) = s_chan s /\ s_conn (update_auto dur s) = s_conn s /\
  s_pending (update_auto dur s) = s_pending s.
Proof. unfold update_auto. destruct (s_up s) as [[id|]|]; destruct (dur =? 0); repeat split. Qed.
Lemma auto_zero s : only s -> s_timers (update_auto 0 s) = [].
Proof.
  intros H. unfold update_auto. destruct (s_up s) as [[id|]|] eqn:E; cbn [Z.eqb set_up set_timers s_timers].
  - apply drop_only; assumption.
  - apply no_timers; [exact H|]. intros id. rewrite E. discriminate.
  - apply no_timers; [exact H|]. intros id. rewrite E. discriminate.
Qed.
Lemma auto_up dur s : s_up (update_auto dur s) = match s_up s with None => None | Some _ => Some (if dur =? 0 then None else Some (s_next s)) end.
Proof. unfold update_auto. destruct (s_up s) as [[id|]|] eqn:E; destruct (dur =? 0); try reflexivity; exact E. Qed.
Lemma auto_some dur s : only s -> dur <> 0 -> s_timers (update_auto dur s) = match s_up s with None => [] | Some _ => [(s_next s, s_now s + dur)] end.
Proof.
  intros H D. apply Z.eqb_neq in D. unfold update_auto. destruct (s_up s) as [[id|]|] eqn:E.
  - rewrite D. cbn [set_timers s_timers s_next s_now]. rewrite (drop_only s id H E). reflexivity.
  - rewrite D. cbn [s_timers s_next s_now]. rewrite (no_timers s H); [reflexivity|]. intros id. rewrite E. discriminate.
  - apply no_timers; [exact H|]. intros id. rewrite E. discriminate.
Qed.

Record safe (s : st) (t : Z) : Prop := {
  f_only : only s;
  f_time : t <= s_now s;
  f_valid : valid (s_chan s);
  f_conn : s_conn s = false -> s_up s = None;
  f_due : forall id due, In (id, due) (s_timers s) -> exists c, s_chan s = Some c /\ c_detached c = false /\ 0 < c_after c /\ due = t + c_after c;
  f_none : s_pending s <> [] -> s_timers s = [];
  f_pending : s_pending s <> [] -> forall c, s_chan s = Some c -> c_detached c = false -> 0 < c_after c /\ t + c_after c <= s_now s }.

Definition ready (s : st) : Prop :=
  only s /\ valid (s_chan s) /\ (s_conn s = false -> s_up s = None) /\ s_pending s = [] /\ (attached s \/ s_timers s = []).

Lemma channel_safe s : ready s -> safe (update_channel s) (s_now s).
Proof.
  intros (H1 & H2 & H3 & H4 & H5). unfold update_channel. destruct (s_chan s) as [c|] eqn:Ec.
  - destruct (c_detached c) eqn:Ed.
    + assert (T : s_timers s = []) by (destruct H5 as [(c' & A & B)|T]; [congruence|exact T]).
      split; rewrite ?T, ?H4; try assumption; try (rewrite Ec; assumption); try (intros; contradiction); try lia.
    + destruct (auto_same (c_after c) s) as (A1 & A2 & A3 & A4). cbn [valid] in H2.
      destruct (Z.eq_dec (c_after c) 0) as [E|E].
      * rewrite E in *. pose proof (auto_zero s H1) as T. split; rewrite ?T, ?A1, ?A2, ?A3, ?A4, ?H4.
        -- intros id due. rewrite T. intros [].
        -- lia.
        -- rewrite Ec. cbn. lia.
        -- intros X. rewrite auto_up, (H3 X). reflexivity.
        -- intros ? ? [].
        -- congruence.
        -- congruence.
      * pose proof (auto_some _ s H1 E) as T. split; rewrite ?A1, ?A2, ?A3, ?A4, ?H4.
        -- intros id due. rewrite T, auto_up. apply Z.eqb_neq in E. rewrite E. destruct (s_up s); [|intros []]. intros [X|[]]. injection X as <- <-. reflexivity.
        -- lia.
        -- rewrite Ec. exact H2.
        -- intros X. rewrite auto_up, (H3 X). reflexivity.
        -- intros id due. rewrite T. destruct (s_up s); [|intros []]. intros [X|[]]. injection X as <- <-. exists c. rewrite Ec. repeat split; try assumption. lia.
        -- congruence.
        -- congruence.
  - assert (T : s_timers s = []) by (destruct H5 as [(c' & A & B)|T]; [congruence|exact T]).
    split; rewrite ?T, ?H4, ?Ec; try assumption; try (intros; contradiction); try exact I; try lia.
Qed.

Lemma safe_ready s t : safe s t -> s_pending s = [] -> ready s.
Proof.
  intros [H1 H2 H3 H4 H5 H6 H7] P. split; [exact H1|]. split; [exact H3|]. split; [exact H4|]. split; [exact P|].
  destruct (s_timers s) as [|[id due] l] eqn:E; [right; reflexivity|]. left. destruct (H5 id due) as (c & A & B & _); [left; reflexivity|]. exists c. auto.
Qed.
Lemma detached_none s t c : safe s t -> s_chan s = Some c -> c_detached c = true -> s_timers s = [].
Proof.
  intros H E D. destruct (s_timers s) as [|[id due] l] eqn:T; [reflexivity|]. destruct (f_due s t H id due) as (c' & A & B & _); [rewrite T; left; reflexivity|]. congruence.
Qed.

Lemma attach_safe s t c : safe s t -> s_pending s = [] -> s_chan s = Some c -> c_detached c = true -> safe (attach c s) (s_now s).
Proof.
  intros H P E D. unfold attach. rewrite D. pose proof (detached_none s t c H E D) as T.
  apply (channel_safe (set_chan (Some (set_detached false c)) s)). destruct H as [H1 H2 H3 H4 H5 H6 H7]. rewrite E in H3.
  split; [exact H1|]. split; [exact H3|]. split; [exact H4|]. split; [exact P|]. right. exact T.
Qed.
Lemma quiet_safe s s' t : safe s t -> s_now s' = s_now s -> s_timers s' = [] -> s_pending s' = s_pending s -> (s_conn s' = false -> s_up s' = None) ->
  valid (s_chan s') -> (forall c, s_chan s' = Some c -> c_detached c = false -> s_chan s = Some c) -> safe s' t.
Proof.
  intros [H1 H2 H3 H4 H5 H6 H7] A B C D V E. split; try assumption.
  - intros id due. rewrite B. intros [].
  - rewrite A. exact H2.
  - intros id due. rewrite B. intros [].
  - intros _. exact B.
  - intros P c Hc Hd. rewrite C in P. rewrite A. exact (H7 P c (E c Hc Hd) Hd).
Qed.
Lemma detach_safe s t c : safe s t -> s_chan s = Some c -> safe (detach c s) t.
Proof.
  intros H E. unfold detach. destruct (c_detached c) eqn:D; [exact H|].
  set (s1 := set_chan (Some (set_detached true c)) s). destruct (auto_same 0 s1) as (A1 & A2 & A3 & A4).
  apply (quiet_safe s); [exact H|rewrite A1; reflexivity|apply auto_zero; exact (f_only s t H)|rewrite A4; reflexivity| | |].
  - rewrite A3. intros X. rewrite auto_up. unfold s1. cbn [set_chan s_up]. rewrite (f_conn s t H X). reflexivity.
  - rewrite A2. pose proof (f_valid s t H) as V. rewrite E in V. exact V.
  - rewrite A2. intros c' X. injection X as <-. discriminate.
Qed.

Lemma detach_ready c s : ready s -> s_chan s = Some c -> ready (detach c s) /\ s_now (detach c s) = s_now s.
Proof.
  intros R E. unfold detach. destruct (c_detached c) eqn:D; [auto|]. destruct R as (R1 & R2 & R3 & R4 & R5).
  set (s1 := set_chan (Some (set_detached true c)) s). destruct (auto_same 0 s1) as (A1 & A2 & A3 & A4). split; [|exact A1].
  assert (T : s_timers (update_auto 0 s1) = []) by (apply auto_zero; exact R1).
  split; [intros id due; rewrite T; intros []|]. split; [rewrite A2; rewrite E in R2; exact R2|]. split; [|split; [rewrite A4; exact R4|right; exact T]].
  rewrite A3, auto_up. intros X. cbn [s1 set_chan s_up]. rewrite (R3 X). reflexivity.
Qed.
Lemma attach_ready c s : ready s -> s_chan s = Some c -> ready (attach c s) /\ s_now (attach c s) = s_now s.
Proof.
  intros R E. unfold attach. destruct (c_detached c) eqn:D; [|auto]. set (s1 := set_chan (Some (set_detached false c)) s).
  destruct (auto_same (c_after (set_detached false c)) s1) as (A1 & A2 & A3 & A4).
  assert (N : s_now (update_channel s1) = s_now s /\ s_pending (update_channel s1) = s_pending s) by (unfold update_channel; cbn [s1 set_chan s_chan set_detached c_detached]; fold s1; rewrite A1, A4; auto).
  split; [|apply N]. apply (safe_ready _ (s_now s1)).
  - apply channel_safe. destruct R as (R1 & R2 & R3 & R4 & R5). rewrite E in R2. split; [exact R1|]. split; [exact R2|]. split; [exact R3|]. split; [exact R4|].
    right. destruct R5 as [(x & X1 & X2)|X]; [congruence|exact X].
  - rewrite (proj2 N). apply R.
Qed.

Lemma delete_safe s t b : safe s t -> safe (delete_channel b s) t.
Proof.
  intros H. unfold delete_channel. destruct (s_chan s) as [c|] eqn:E; [|exact H].
  destruct (auto_same 0 s) as (A1 & A2 & A3 & A4).
  assert (X : s_conn (update_auto 0 s) = false -> s_up (update_auto 0 s) = None) by (rewrite A3, auto_up; intros X; rewrite (f_conn s t H X); reflexivity).
  destruct b.
  - apply (quiet_safe s); [exact H|exact A1|apply auto_zero; exact (f_only s t H)|exact A4|exact X|exact I|]. discriminate.
  - apply (quiet_safe s); [exact H|exact A1|apply auto_zero; exact (f_only s t H)|exact A4|exact X|rewrite A2; exact (f_valid s t H)|]. rewrite A2. auto.
Qed.

Lemma safe_step s t o : safe s t -> orderly_step s o -> safe (step s o) (last_step s o t).
Proof.
  intros H [Hp Ho]. unfold last_step.
  assert (Act : activity s o = true -> s_pending s = []).
  { intros A. destruct (s_pending s); [reflexivity|]. assert (activity s o = false) by (apply Hp; discriminate). congruence. }
  clear Hp. destruct o; cbn [step activity] in *.
  - destruct H as [H1 H2 H3 H4 H5 H6 H7]. split; try assumption; cbn [s_now s_pending s_chan] in *.
    + lia.
    + intros P c A B. destruct (H7 P c A B). lia.
  - destruct (find _ (s_timers s)) as [[id' due]|] eqn:Ef; [|exact H]. apply find_some in Ef. destruct Ef as [Ef E1]. apply Nat.eqb_eq in E1. cbn [fst] in E1. subst id'.
    destruct (Z.leb_spec due (s_now s)) as [L|L]; [|exact H]. pose proof (f_only s t H _ _ Ef) as U. pose proof (drop_only s id (f_only s t H) U) as D.
    destruct (f_due s t H _ _ Ef) as (c & C1 & C2 & C3 & C4). rewrite D. destruct H as [H1 H2 H3 H4 H5 H6 H7].
    split; cbn [s_timers s_up s_now s_chan s_conn s_pending]; try assumption.
    + intros ? ? [].
    + intros ? ? [].
    + reflexivity.
    + intros _ c' A B. assert (c' = c) by congruence. subst c'. lia.
  - destruct (s_pending s) as [|id q] eqn:E; [exact H|].
    assert (H1 : safe (St (s_now s) (s_next s) (s_chan s) (s_conn s) (s_up s) (s_timers s) q) t).
    { destruct H as [H1 H2 H3 H4 H5 H6 H7]. split; try assumption; cbn [s_pending s_timers s_chan s_now] in *; intros X; [apply H6|apply H7]; rewrite E; discriminate. }
    set (s1 := St (s_now s) (s_next s) (s_chan s) (s_conn s) (s_up s) (s_timers s) q) in *.
    destruct (s_chan s1) as [c|] eqn:Ec; [exact (detach_safe _ t c H1 Ec)|exact H1].
  - destruct (s_conn s) eqn:Ec; [exact H|]. destruct H as [H1 H2 H3 H4 H5 H6 H7]. specialize (H4 Ec).
    assert (T : s_timers s = []) by (apply no_timers; [exact H1|]; intros id; rewrite H4; discriminate).
    split; cbn [s_timers s_up s_now s_chan s_conn s_pending]; try assumption.
    + intros id due. cbn [s_timers]. rewrite T. intros [].
    + discriminate.
  - destruct (auto_same 0 s) as (A1 & A2 & A3 & A4). apply (quiet_safe s); cbn [s_timers s_up s_now s_chan s_conn s_pending]; try assumption.
    + apply auto_zero. exact (f_only s t H).
    + reflexivity.
    + rewrite A2. exact (f_valid s t H).
    + rewrite A2. auto.
  - destruct (s_conn s) eqn:Ec; [|exact H]. specialize (Act eq_refl).
    assert (T : s_timers s = []) by (apply no_timers; [exact (f_only s t H)|]; intros id; rewrite Ho; discriminate).
    apply (channel_safe (set_up (Some None) s)). destruct H as [H1 H2 H3 H4 H5 H6 H7].
    split; [intros id due; cbn [set_up s_timers]; rewrite T; intros []|]. split; [exact H3|]. split; [cbn [set_up s_conn]; rewrite Ec; discriminate|]. split; [exact Act|].
    right. exact T.
  - destruct (auto_same 0 s) as (A1 & A2 & A3 & A4). apply (quiet_safe s); cbn [set_up s_timers s_up s_now s_chan s_conn s_pending]; try assumption.
    + apply auto_zero. exact (f_only s t H).
    + reflexivity.
    + rewrite A2. exact (f_valid s t H).
    + rewrite A2. auto.
  - contradiction.
  - destruct (s_conn s) eqn:Ec; cbn [negb andb] in *; [|destruct (s_chan s); exact H].
    destruct (s_chan s) as [c|] eqn:E; [|exact H].
    assert (F1 : counts true (c_on c) highlight = match c_on c with FMessage | FDefault => true | FHighlight => highlight | FNone => false end) by (destruct (c_on c); reflexivity).
    assert (F2 : counts false (c_reattach c) highlight = match c_reattach c with FMessage => true | FHighlight => highlight | _ => false end) by (destruct (c_reattach c); reflexivity).
    rewrite <- F1, <- F2. clear F1 F2. destruct (counts true (c_on c) highlight) eqn:C1; cbn [orb] in *.
    + specialize (Act eq_refl). destruct (c_detached c && counts false (c_reattach c) highlight) eqn:C2.
      * apply andb_true_iff in C2. pose proof (attach_safe s t c H Act E (proj1 C2)) as X.
        assert (N : s_now (attach c s) = s_now s /\ s_pending (attach c s) = s_pending s).
        { unfold attach. destruct (c_detached c); [|auto]. unfold update_channel. cbn [set_chan s_chan]. destruct (c_detached _); [auto|].
          destruct (auto_same (c_after (set_detached false c)) (set_chan (Some (set_detached false c)) s)) as (A1 & _ & _ & A4). rewrite A1, A4. auto. }
        rewrite <- (proj1 N). apply channel_safe. apply (safe_ready _ _ X). rewrite (proj2 N). exact Act.
      * apply channel_safe. apply (safe_ready _ _ H Act).
    + destruct (c_detached c && counts false (c_reattach c) highlight) eqn:C2; [|exact H]. apply andb_true_iff in C2.
      apply (attach_safe s t c H (Act eq_refl) E (proj1 C2)).
  - destruct (s_conn s) eqn:Ec; cbn [negb andb] in *; [|destruct (s_chan s); exact H].
    destruct (s_chan s) as [c|] eqn:E.
    + destruct (c_detached c) eqn:D; [exact (attach_safe s t c H (Act eq_refl) E D)|]. unfold attach. rewrite D. exact H.
    + specialize (Act eq_refl). destruct (safe_ready s t H Act) as (R1 & R2 & R3 & R4 & R5).
      assert (T : s_timers s = []) by (destruct R5 as [(c & X & _)|X]; [congruence|exact X]).
      split; cbn [set_chan s_timers s_up s_now s_chan s_conn s_pending]; try assumption; try lia.
      * cbn. lia.
      * rewrite T. intros ? ? [].
      * intros X. congruence.
      * intros X. congruence.
  - destruct (s_conn s); [apply delete_safe|]; destruct (s_chan s); exact H.
  - destruct (s_conn s) eqn:Ec; cbn [negb] in *; [|destruct (s_chan s); exact H]. destruct (s_chan s) as [c|] eqn:E; [exact (detach_safe s t c H E)|].
    assert (T : s_timers s = []).
    { destruct (s_timers s) as [|[id due] l] eqn:T; [reflexivity|]. destruct (f_due s t H id due) as (c' & A & B & _); [rewrite T; left; reflexivity|]. congruence. }
    apply (quiet_safe s); cbn [set_chan s_timers s_up s_now s_chan s_conn s_pending]; auto.
    + exact (f_conn s t H).
    + cbn. lia.
    + intros c X. injection X as <-. discriminate.
  - subst sigil. destruct (s_conn s) eqn:Ec; cbn [andb negb]; [|destruct (s_chan s); exact H].
    assert (A : s_pending s = []) by (destruct (s_chan s); apply Act; reflexivity).
    replace (match s_chan s with Some _ | _ => true end) with true by (destruct (s_chan s); reflexivity).
    apply channel_safe. exact (safe_ready s t H A).
  - destruct (s_chan s) as [c|] eqn:E; [exact H|].
    destruct (Z.ltb_spec after 0) as [L|L], (Z.leb_spec 0 after) as [M|M]; try lia.
    + exact H.
    + specialize (Act eq_refl). destruct (safe_ready s t H Act) as (R1 & R2 & R3 & R4 & R5).
      assert (T : s_timers s = []) by (destruct R5 as [(c & X & _)|X]; [congruence|exact X]).
      split; cbn [set_chan s_timers s_up s_now s_chan s_conn s_pending]; try assumption; try lia; try (rewrite T; intros ? ? []; fail); try (intros X; congruence).
  - destruct (s_chan s) as [c|] eqn:E; [|exact H].
    assert (V : from_opt after 0 <? 0 = negb match after with Some a => 0 <=? a | None => true end).
    { destruct after as [a|]; cbn [from_opt]; [|reflexivity]. destruct (Z.ltb_spec a 0), (Z.leb_spec 0 a); try reflexivity; lia. }
    rewrite V. destruct (match after with Some a => 0 <=? a | None => true end) eqn:W; cbn [negb]; [|exact H]. specialize (Act eq_refl).
    set (c' := Chan _ _ _ _). set (s1 := set_chan (Some c') s).
    assert (R : ready s1).
    { destruct (safe_ready s t H Act) as (R1 & R2 & R3 & R4 & R5). split; [exact R1|]. split; [|split; [exact R3|split; [exact R4|]]].
      - unfold s1, c'. cbn. rewrite E in R2. cbn in R2. destruct after as [a|]; cbn [from_opt]; [apply Z.leb_le in W; exact W|exact R2].
      - destruct R5 as [(x & X1 & X2)|X]; [left|right; exact X]. exists c'. split; [reflexivity|]. cbn. congruence. }
    change (s_now s) with (s_now s1). destruct det as [[]|].
    + destruct (detach_ready c' s1 R eq_refl) as [R2 N2]. rewrite <- N2. apply channel_safe, R2.
    + destruct (attach_ready c' s1 R eq_refl) as [R2 N2]. rewrite <- N2. apply channel_safe, R2.
    + apply channel_safe, R.
  - apply delete_safe; destruct (s_chan s); exact H.
  - destruct H as [H1 H2 H3 H4 H5 H6 H7]. destruct (s_chan s) eqn:E; (split; cbn [s_timers s_up s_now s_chan s_conn s_pending]; rewrite ?E; try assumption; try (intros ? ? []; fail); auto; intros X; congruence).
Qed.

Lemma safe_start t c : valid c -> safe (start t c) t.
Proof.
  intros V. split.
  - intros ? ? [].
  - cbn. lia.
  - exact V.
  - reflexivity.
  - intros ? ? [].
  - reflexivity.
  - cbn. congruence.
Qed.
Lemma safe_run os : forall s t, safe s t -> orderly s os -> safe (run s os) (last s os t).
Proof.
  induction os as [|o os IH]; intros s t H O; [exact H|]. destruct O as [O1 O2]. cbn [last]. exact (IH _ _ (safe_step s t o H O1) O2).
Qed.
Lemma handled s t c : safe s t -> s_chan s = Some c -> c_detached c = false -> is_detached (step s Handle) ->
  0 < c_after c /\ t + c_after c <= s_now s.
Proof.
  intros H E D (c' & X & Y). cbn [step] in X. destruct (s_pending s) as [|id q] eqn:P; [congruence|].
  apply (f_pending s t H); [rewrite P; discriminate|exact E|exact D].
Qed.

Lemma channel_chan s : s_chan (update_channel s) = s_chan s.
Proof. unfold update_channel. destruct (s_chan s) as [c|] eqn:E; [|exact E]. destruct (c_detached c); [exact E|]. rewrite (proj1 (proj2 (auto_same _ s))). exact E. Qed.
Lemma detach_chan c s : s_chan s = Some c -> s_chan (detach c s) = Some (set_detached true c).
Proof.
  intros E. unfold detach. destruct (c_detached c) eqn:D; [|rewrite (proj1 (proj2 (auto_same _ _))); reflexivity].
  rewrite E. destruct c as [d a o r]. cbn in D. rewrite D. reflexivity.
Qed.
Lemma attach_chan c s : s_chan s = Some c -> s_chan (attach c s) = Some (set_detached false c).
Proof.
  intros E. unfold attach. destruct (c_detached c) eqn:D; [rewrite channel_chan; reflexivity|].
  rewrite E. destruct c as [d a o r]. cbn in D. rewrite D. reflexivity.
Qed.

(** What detaches. *)
Lemma detaches s o : attached s -> is_detached (step s o) ->
  (o = Handle /\ s_pending s <> []) \/ (o = CPartDetach /\ s_conn s = true) \/ (exists a f g, o = SUpdate (Some true) a f g).
Proof.
  intros (c & E & D) (c' & E' & D'). destruct o; cbn [step] in E'; try (exfalso; cbn [s_chan] in E'; congruence).
  - exfalso. destruct (find _ _) as [[? ?]|]; [destruct (_ <=? _)|]; cbn in E'; congruence.
  - left. split; [reflexivity|]. intros P. rewrite P in E'. congruence.
  - exfalso. destruct (s_conn s); cbn in E'; congruence.
  - exfalso. cbn [s_chan] in E'. rewrite (proj1 (proj2 (auto_same _ s))) in E'. congruence.
  - exfalso. destruct (s_conn s); [rewrite channel_chan in E'; cbn in E'|]; congruence.
  - exfalso. cbn [set_up s_chan] in E'. rewrite (proj1 (proj2 (auto_same _ s))) in E'. congruence.
  - exfalso. cbn in E'. congruence.
  - exfalso. destruct (negb (s_conn s)); [congruence|]. rewrite E, D in E'. cbn [andb] in E'.
    destruct (match c_on c with FMessage | FDefault => true | FHighlight => highlight | FNone => false end); [rewrite channel_chan in E'|]; congruence.
  - exfalso. destruct (negb (s_conn s)); [congruence|]. rewrite E in E'. rewrite (attach_chan c s E) in E'. injection E' as <-. discriminate.
  - exfalso. destruct (s_conn s); [|congruence]. unfold delete_channel in E'. rewrite E in E'. destruct dbok; [discriminate|].
    rewrite (proj1 (proj2 (auto_same _ s))) in E'. congruence.
  - right. left. split; [reflexivity|]. destruct (s_conn s); [reflexivity|]. cbn [negb] in E'. congruence.
  - exfalso. destruct (s_conn s && negb sigil); [rewrite channel_chan in E'|]; congruence.
  - exfalso. rewrite E in E'. congruence.
  - rewrite E in E'. destruct (from_opt after 0 <? 0); [congruence|]. rewrite channel_chan in E'. destruct det as [[]|].
    + right. right. eauto.
    + rewrite attach_chan in E' by reflexivity. injection E' as <-. discriminate.
    + cbn in E'. injection E' as <-. cbn in D'. congruence.
  - exfalso. unfold delete_channel in E'. rewrite E in E'. destruct dbok; [discriminate|]. rewrite (proj1 (proj2 (auto_same _ s))) in E'. congruence.
Qed.

(** What attaches. *)
Lemma attaches s o : is_detached s -> attached (step s o) ->
  (exists h c, o = Msg h /\ s_conn s = true /\ s_chan s = Some c /\ counts false (c_reattach c) h = true) \/ (o = CJoin /\ s_conn s = true) \/
  (exists a f g, o = SUpdate (Some false) a f g).
Proof.
  intros (c & E & D) (c' & E' & D'). destruct o; cbn [step] in E'; try (exfalso; cbn [s_chan] in E'; congruence).
  - exfalso. destruct (find _ _) as [[? ?]|]; [destruct (_ <=? _)|]; cbn in E'; congruence.
  - exfalso. destruct (s_pending s) as [|id q]; [congruence|]. cbn [s_chan] in E'. rewrite E in E'. unfold detach in E'. rewrite D in E'. cbn in E'. congruence.
  - exfalso. destruct (s_conn s); cbn in E'; congruence.
  - exfalso. cbn [s_chan] in E'. rewrite (proj1 (proj2 (auto_same _ s))) in E'. congruence.
  - exfalso. destruct (s_conn s); [rewrite channel_chan in E'; cbn in E'|]; congruence.
  - exfalso. cbn [set_up s_chan] in E'. rewrite (proj1 (proj2 (auto_same _ s))) in E'. congruence.
  - exfalso. cbn in E'. congruence.
  - left. exists highlight, c. split; [reflexivity|]. destruct (s_conn s); cbn [negb] in E'; [|congruence]. split; [reflexivity|]. split; [exact E|]. rewrite E, D in E'. cbn [andb] in E'.
    destruct (counts false (c_reattach c) highlight) eqn:C; [reflexivity|]. exfalso.
    replace (match c_reattach c with FMessage => true | FHighlight => highlight | _ => false end) with false in E' by (destruct (c_reattach c); cbn in C; congruence).
    destruct (match c_on c with FMessage | FDefault => true | FHighlight => highlight | FNone => false end); [rewrite channel_chan in E'|]; congruence.
  - right. left. split; [reflexivity|]. destruct (s_conn s); [reflexivity|]. cbn [negb] in E'. congruence.
  - exfalso. destruct (s_conn s); [|congruence]. unfold delete_channel in E'. rewrite E in E'. destruct dbok; [discriminate|].
    rewrite (proj1 (proj2 (auto_same _ s))) in E'. congruence.
  - exfalso. destruct (negb (s_conn s)); [congruence|]. rewrite E in E'. unfold detach in E'. rewrite D in E'. congruence.
  - exfalso. destruct (s_conn s && negb sigil); [rewrite channel_chan in E'|]; congruence.
  - exfalso. rewrite E in E'. congruence.
  - rewrite E in E'. destruct (from_opt after 0 <? 0); [congruence|]. rewrite channel_chan in E'. destruct det as [[]|].
    + rewrite detach_chan in E' by reflexivity. injection E' as <-. discriminate.
    + right. right. eauto.
    + cbn in E'. injection E' as <-. cbn in D'. congruence.
  - exfalso. unfold delete_channel in E'. rewrite E in E'. destruct dbok; [discriminate|]. rewrite (proj1 (proj2 (auto_same _ s))) in E'. congruence.
Qed.
Lemma reattaches s h c : s_conn s = true -> s_chan s = Some c -> c_detached c = true -> counts false (c_reattach c) h = true -> attached (step s (Msg h)).
Proof.
  intros Hc E D C. cbn [step]. rewrite Hc, E, D. cbn [negb andb].
  replace (match c_reattach c with FMessage => true | FHighlight => h | _ => false end) with true by (destruct (c_reattach c); cbn in C; congruence).
  exists (set_detached false c). split; [|reflexivity].
  destruct (match c_on c with FMessage | FDefault => true | FHighlight => h | FNone => false end); rewrite ?channel_chan; apply attach_chan, E.
Qed.

(** A quiet channel has its timer. *)
Definition live (s : st) (t : Z) : Prop :=
  (s_conn s = false -> s_up s = None) /\ valid (s_chan s) /\ t <= s_now s /\
  (attached s -> forall c u, s_chan s = Some c -> 0 < c_after c -> s_up s = Some u ->
   s_pending s <> [] \/ exists id due, u = Some id /\ In (id, due) (s_timers s) /\ due <= t + c_after c).

Lemma auto_live dur s : dur <> 0 -> forall u, s_up (update_auto dur s) = Some u ->
  exists id, u = Some id /\ In (id, s_now s + dur) (s_timers (update_auto dur s)).
Proof.
  intros D u. apply Z.eqb_neq in D. unfold update_auto. destruct (s_up s) as [[i|]|] eqn:E; [| |congruence]; rewrite D; cbn [s_up s_timers set_timers s_next s_now];
  intros X; injection X as <-; eexists; (split; [reflexivity|]); apply in_app_iff; right; left; reflexivity.
Qed.
Lemma channel_live s : (s_conn s = false -> s_up s = None) -> valid (s_chan s) -> live (update_channel s) (s_now s).
Proof.
  intros Hc V. unfold update_channel. destruct (s_chan s) as [c|] eqn:E.
  - destruct (c_detached c) eqn:D.
    + split; [exact Hc|]. split; [rewrite E; exact V|]. split; [lia|]. intros (c' & A & B). congruence.
    + destruct (auto_same (c_after c) s) as (A1 & A2 & A3 & A4). split; [rewrite A3, auto_up; intros X; rewrite (Hc X); reflexivity|]. split; [rewrite A2, E; exact V|].
      split; [lia|]. rewrite A2. intros _ c' u X P U. assert (c' = c) by congruence. subst c'.
      destruct (auto_live (c_after c) s ltac:(lia) u U) as (id & B1 & B2). right. exists id, (s_now s + c_after c). split; [exact B1|]. split; [exact B2|lia].
  - split; [exact Hc|]. split; [rewrite E; exact I|]. split; [lia|]. intros (c' & A & B). congruence.
Qed.
Lemma idle_live s s' t : live s t -> s_now s' = s_now s -> (s_conn s' = false -> s_up s' = None) -> valid (s_chan s') ->
  (forall c u, s_chan s' = Some c -> c_detached c = false -> 0 < c_after c -> s_up s' = Some u -> False) -> live s' t.
Proof.
  intros (A & B & C & D) N Hc V F. split; [exact Hc|]. split; [exact V|]. split; [lia|]. intros (c & E1 & E2) c' u E3 P U. exfalso.
  apply (F c' u E3); [congruence|exact P|exact U].
Qed.
Lemma later_live s t t' : live s t -> t <= t' -> t' <= s_now s -> live s t'.
Proof.
  intros (A & B & C & D) L M. split; [exact A|]. split; [exact B|]. split; [exact M|]. intros X c u E P U. destruct (D X c u E P U) as [Y|(id & due & Y1 & Y2 & Y3)]; [left; exact Y|].
  right. exists id, due. split; [exact Y1|]. split; [exact Y2|lia].
Qed.
Lemma attach_live s c : (s_conn s = false -> s_up s = None) -> valid (s_chan s) -> s_chan s = Some c -> c_detached c = true ->
  live (attach c s) (s_now s) /\ s_now (attach c s) = s_now s.
Proof.
  intros A B E D. unfold attach. rewrite D. set (s1 := set_chan (Some (set_detached false c)) s). split.
  - apply (channel_live s1); [exact A|rewrite E in B; exact B].
  - unfold update_channel. cbn [s1 set_chan s_chan set_detached c_detached]. fold s1. rewrite (proj1 (auto_same _ _)). reflexivity.
Qed.
Lemma channel_now s : s_now (update_channel s) = s_now s.
Proof. unfold update_channel. destruct (s_chan s); [|reflexivity]. destruct (c_detached c); [reflexivity|]. apply auto_same. Qed.
Lemma auto_conn dur s : (s_conn s = false -> s_up s = None) -> s_conn (update_auto dur s) = false -> s_up (update_auto dur s) = None.
Proof. intros H X. rewrite (proj1 (proj2 (proj2 (auto_same dur s)))) in X. rewrite auto_up, (H X). reflexivity. Qed.

Lemma live_step s t o : live s t -> plain_step s o -> live (step s o) (last_step s o t).
Proof.
  intros H Hp. pose proof H as (Hc & Hv & Ht & Hl). unfold last_step. destruct o; cbn [step activity plain_step] in *.
  - split; [exact Hc|]. split; [exact Hv|]. split; [cbn [s_now]; lia|]. exact Hl.
  - destruct (find _ (s_timers s)) as [[id' due]|] eqn:Ef; [|exact H]. destruct (due <=? s_now s); [|exact H].
    split; [exact Hc|]. split; [exact Hv|]. split; [exact Ht|]. intros _ c u _ _ _. left. cbn [s_pending]. intros X. symmetry in X. exact (app_cons_not_nil _ _ _ X).
  - destruct (s_pending s) as [|id q] eqn:E; [exact H|].
    set (s1 := St (s_now s) (s_next s) (s_chan s) (s_conn s) (s_up s) (s_timers s) q). destruct (s_chan s1) as [c|] eqn:Ec.
    + apply (idle_live s); [exact H| | | |].
      * unfold detach. destruct (c_detached c); [reflexivity|]. apply (proj1 (auto_same 0 (set_chan (Some (set_detached true c)) s1))).
      * unfold detach. destruct (c_detached c); [exact Hc|]. apply auto_conn. exact Hc.
      * rewrite (detach_chan c s1 Ec). change (s_chan s1) with (s_chan s) in Ec. rewrite Ec in Hv. exact Hv.
      * rewrite (detach_chan c s1 Ec). intros c' u X. injection X as <-. discriminate.
    + change (s_chan s1) with (s_chan s) in Ec. apply (idle_live s); [exact H|reflexivity|exact Hc|exact Hv|]. intros c u X. cbn [s1 s_chan] in X. congruence.
  - destruct (s_conn s) eqn:E; [exact H|]. apply (idle_live s); [exact H|reflexivity|discriminate|exact Hv|]. intros c u _ _ _ X. discriminate.
  - destruct (auto_same 0 s) as (A1 & A2 & A3 & A4). apply (idle_live s); cbn [s_now s_conn s_up s_chan]; [exact H|exact A1|reflexivity|rewrite A2; exact Hv|]. intros c u _ _ _ X. discriminate.
  - destruct (s_conn s) eqn:E; [|exact H]. apply (channel_live (set_up (Some None) s)); [cbn [set_up s_conn]; congruence|exact Hv].
  - destruct (auto_same 0 s) as (A1 & A2 & A3 & A4). apply (idle_live s); cbn [set_up s_now s_conn s_up s_chan]; [exact H|exact A1|reflexivity|rewrite A2; exact Hv|]. intros c u _ _ _ X. discriminate.
  - apply (idle_live s); cbn [set_up s_now s_conn s_up s_chan]; [exact H|reflexivity|reflexivity|exact Hv|]. intros c u _ _ _ X. discriminate.
  - destruct (s_conn s) eqn:Ec; cbn [negb andb] in *; [|destruct (s_chan s); exact H].
    destruct (s_chan s) as [c|] eqn:E; [|exact H].
    assert (F1 : counts true (c_on c) highlight = match c_on c with FMessage | FDefault => true | FHighlight => highlight | FNone => false end) by (destruct (c_on c); reflexivity).
    assert (F2 : counts false (c_reattach c) highlight = match c_reattach c with FMessage => true | FHighlight => highlight | _ => false end) by (destruct (c_reattach c); reflexivity).
    rewrite <- F1, <- F2. clear F1 F2. assert (Hc' : s_conn s = false -> s_up s = None) by congruence. assert (Hv' : valid (s_chan s)) by (rewrite E; exact Hv).
    destruct (c_detached c && counts false (c_reattach c) highlight) eqn:C2.
    + apply andb_true_iff in C2. destruct (attach_live s c Hc' Hv' E (proj1 C2)) as [L N]. rewrite orb_true_r.
      destruct (counts true (c_on c) highlight); [|exact L]. rewrite <- N. apply channel_live; apply L.
    + rewrite orb_false_r. destruct (counts true (c_on c) highlight); [|exact H]. apply channel_live; assumption.
  - destruct (s_conn s) eqn:Ec; cbn [negb andb] in *; [|destruct (s_chan s); exact H].
    assert (Hc' : s_conn s = false -> s_up s = None) by congruence. destruct (s_chan s) as [c|] eqn:E.
    + assert (Hv' : valid (s_chan s)) by (rewrite E; exact Hv). destruct (c_detached c) eqn:D; [exact (proj1 (attach_live s c Hc' Hv' E D))|]. unfold attach. rewrite D. exact H.
    + apply (idle_live s); cbn [set_chan s_now s_conn s_up s_chan]; [|reflexivity|exact Hc'|cbn; lia|].
      * apply (later_live s t); [exact H|exact Ht|lia].
      * intros c u X _. injection X as <-. cbn. lia.
  - assert (K : live (delete_channel dbok s) t).
    { unfold delete_channel. destruct (s_chan s) as [c|] eqn:E; [|exact H]. subst dbok. apply (idle_live s); [exact H|apply auto_same|apply auto_conn; exact Hc|exact I|]. discriminate. }
    destruct (s_conn s); destruct (s_chan s); assumption.
  - destruct (s_conn s) eqn:Ec; cbn [negb] in *; [|destruct (s_chan s); exact H]. assert (Hc' : s_conn s = false -> s_up s = None) by congruence. destruct (s_chan s) as [c|] eqn:E.
    + apply (idle_live s); [exact H| | | |].
      * unfold detach. destruct (c_detached c); [reflexivity|]. apply (proj1 (auto_same 0 (set_chan (Some (set_detached true c)) s))).
      * unfold detach. destruct (c_detached c); [exact Hc'|]. apply auto_conn. exact Hc'.
      * rewrite (detach_chan c s E). exact Hv.
      * rewrite (detach_chan c s E). intros c' u X. injection X as <-. discriminate.
    + apply (idle_live s); cbn [set_chan s_now s_conn s_up s_chan]; [exact H|reflexivity|exact Hc'|cbn; lia|]. intros c u X. injection X as <-. discriminate.
  - destruct (s_conn s) eqn:Ec; cbn [andb]; [|destruct (s_chan s); exact H]. assert (Hc' : s_conn s = false -> s_up s = None) by congruence.
    replace (match s_chan s with Some _ | _ => true end) with true by (destruct (s_chan s); reflexivity).
    destruct sigil; cbn [negb]; [apply (later_live s t); [exact H|exact Ht|lia]|apply channel_live; assumption].
  - destruct (s_chan s) as [c|] eqn:E; [exact H|].
    assert (X : live (if after <? 0 then s else set_chan (Some (Chan false after on reattach)) s) t).
    { destruct (Z.ltb_spec after 0) as [L|L]; [exact H|]. apply (idle_live s); cbn [set_chan s_now s_conn s_up s_chan]; [exact H|reflexivity|exact Hc|exact L|]. intros c u _ _ _ X. congruence. }
    destruct (0 <=? after); [|exact X]. apply (later_live _ t); [exact X|exact Ht|]. destruct (after <? 0); cbn [set_chan s_now]; lia.
  - destruct (s_chan s) as [c|] eqn:E; [|exact H].
    assert (V : from_opt after 0 <? 0 = negb match after with Some a => 0 <=? a | None => true end).
    { destruct after as [a|]; cbn [from_opt]; [|reflexivity]. destruct (Z.ltb_spec a 0), (Z.leb_spec 0 a); try reflexivity; lia. }
    rewrite V. destruct (match after with Some a => 0 <=? a | None => true end) eqn:W; cbn [negb]; [|exact H].
    set (c' := Chan _ _ _ _). set (s1 := set_chan (Some c') s).
    assert (Hv1 : valid (Some c')) by (cbn; cbn in Hv; destruct after as [a|]; cbn [from_opt]; [apply Z.leb_le in W; exact W|exact Hv]).
    set (s2 := match det with Some true => detach c' s1 | Some false => attach c' s1 | None => s1 end).
    assert (K : s_now s2 = s_now s /\ (s_conn s2 = false -> s_up s2 = None) /\ valid (s_chan s2)).
    { unfold s2. destruct det as [[]|].
      - rewrite (detach_chan c' s1 eq_refl). split; [|split; [|exact Hv1]].
        + unfold detach. destruct (c_detached c'); [reflexivity|]. apply (proj1 (auto_same 0 (set_chan (Some (set_detached true c')) s1))).
        + unfold detach. destruct (c_detached c'); [exact Hc|]. apply auto_conn. exact Hc.
      - rewrite (attach_chan c' s1 eq_refl). split; [|split; [|exact Hv1]].
        + unfold attach. destruct (c_detached c'); [|reflexivity]. rewrite channel_now. reflexivity.
        + unfold attach. destruct (c_detached c'); [|exact Hc]. unfold update_channel. cbn [set_chan s_chan set_detached c_detached]. apply auto_conn. exact Hc.
      - split; [reflexivity|]. split; [exact Hc|exact Hv1]. }
    destruct K as (K1 & K2 & K3). rewrite <- K1. apply channel_live; assumption.
  - assert (K : live (delete_channel dbok s) t).
    { unfold delete_channel. destruct (s_chan s) as [c|] eqn:E; [|exact H]. subst dbok. apply (idle_live s); [exact H|apply auto_same|apply auto_conn; exact Hc|exact I|]. discriminate. }
    destruct (s_chan s); assumption.
  - replace (match s_chan s with Some _ | _ => false end) with false by (destruct (s_chan s); reflexivity).
    apply (idle_live s); cbn [s_now s_conn s_up s_chan]; [exact H|reflexivity|reflexivity|exact Hv|]. intros c u _ _ _ X. discriminate.
Qed.
Lemma live_start t c : valid c -> live (start t c) t.
Proof. intros V. split; [reflexivity|]. split; [exact V|]. split; [cbn; lia|]. intros _ c' u _ _ X. discriminate. Qed.
Lemma live_run os : forall s t, live s t -> plain s os -> live (run s os) (last s os t).
Proof.
  induction os as [|o os IH]; intros s t H O; [exact H|]. destruct O as [O1 O2]. cbn [last]. exact (IH _ _ (live_step s t o H O1) O2).
Qed.

(** The names of timers. *)
Definition fresh (s : st) : Prop := (forall id due, In (id, due) (s_timers s) -> (id < s_next s)%nat) /\ NoDup (map fst (s_timers s)).
Lemma nodup_drop id l : NoDup (map fst l) -> NoDup (map fst (drop id l)).
Proof.
  unfold drop. induction l as [|[i d] l IH]; [auto|]. cbn [map filter fst]. intros H. inversion_clear H as [|? ? H1 H2]. destruct (negb (Nat.eqb i id)); [|exact (IH H2)].
  cbn [map fst]. constructor; [|exact (IH H2)]. intros X. apply H1. apply in_map_iff in X. destruct X as (p & <- & X). apply filter_In in X. apply in_map, X.
Qed.
Lemma fresh_auto dur s : fresh s -> fresh (update_auto dur s).
Proof.
  assert (K : forall t, fresh s -> fresh (match t with Some id => set_timers (drop id (s_timers s)) s | None => s end)).
  { intros [id|] [A B]; [|split; assumption]. split; [|apply nodup_drop, B]. intros i d H. unfold set_timers in *. cbn [s_timers s_next] in *. apply filter_In in H. exact (A i d (proj1 H)). }
  intros H. unfold update_auto. destruct (s_up s) as [t|]; [|exact H]. specialize (K t H). destruct (dur =? 0); [exact K|].
  set (s1 := match t with Some id => set_timers (drop id (s_timers s)) s | None => s end) in *. destruct K as [A B]. split; cbn [s_timers s_next].
  - intros i d X. apply in_app_iff in X. destruct X as [X|[X|[]]]; [specialize (A i d X); lia|]. injection X as <- <-. lia.
  - rewrite map_app. cbn [map fst].
    apply (Permutation.Permutation_NoDup (Permutation.Permutation_app_comm [s_next s1] (map fst (s_timers s1)))). constructor; [|exact B].
    intros X. apply in_map_iff in X. destruct X as ([i d] & E & X). cbn in E. subst i. specialize (A _ _ X). lia.
Qed.
Lemma fresh_channel s : fresh s -> fresh (update_channel s).
Proof. intros H. unfold update_channel. destruct (s_chan s) as [c|]; [destruct (c_detached c)|]; try exact H. apply fresh_auto, H. Qed.
Lemma fresh_detach c s : fresh s -> fresh (detach c s).
Proof. intros H. unfold detach. destruct (c_detached c); [exact H|]. apply fresh_auto, H. Qed.
Lemma fresh_attach c s : fresh s -> fresh (attach c s).
Proof. intros H. unfold attach. destruct (c_detached c); [|exact H]. apply fresh_channel, H. Qed.
Lemma fresh_delete b s : fresh s -> fresh (delete_channel b s).
Proof. intros H. unfold delete_channel. destruct (s_chan s) as [c|]; [|exact H]. destruct b; apply (fresh_auto 0) in H; exact H. Qed.
Lemma fresh_step s o : fresh s -> fresh (step s o).
Proof.
  intros H. destruct o; cbn [step]; try exact H.
  - destruct (find _ (s_timers s)) as [[i due]|]; [|exact H]. destruct (due <=? s_now s); [|exact H]. destruct H as [A B].
    split; cbn [s_timers s_next]; [|apply nodup_drop, B]. intros i' d X. apply filter_In in X. exact (A i' d (proj1 X)).
  - destruct (s_pending s); [exact H|]. cbn [s_chan]. destruct (s_chan s); [apply fresh_detach|]; exact H.
  - destruct (s_conn s); exact H.
  - apply (fresh_auto 0) in H. exact H.
  - destruct (s_conn s); [apply fresh_channel|]; exact H.
  - apply (fresh_auto 0) in H. exact H.
  - destruct (negb (s_conn s)); [exact H|]. destruct (s_chan s) as [c|]; [|exact H].
    set (s1 := if _ && _ then attach c s else s). assert (K : fresh s1) by (unfold s1; destruct (_ && _); [apply fresh_attach|]; exact H).
    destruct (match c_on c with FMessage | FDefault => true | FHighlight => highlight | FNone => false end); [apply fresh_channel|]; exact K.
  - destruct (negb (s_conn s)); [exact H|]. destruct (s_chan s) as [c|]; [apply fresh_attach|]; exact H.
  - destruct (s_conn s); [apply fresh_delete|]; exact H.
  - destruct (negb (s_conn s)); [exact H|]. destruct (s_chan s) as [c|]; [apply fresh_detach|]; exact H.
  - destruct (s_conn s && negb sigil); [apply fresh_channel|]; exact H.
  - destruct (s_chan s); [exact H|]. destruct (after <? 0); exact H.
  - destruct (s_chan s) as [c|]; [|exact H]. destruct (from_opt after 0 <? 0); [exact H|]. apply fresh_channel.
    destruct det as [[]|]; [apply fresh_detach|apply fresh_attach|]; exact H.
  - apply fresh_delete, H.
  - split; [intros i d []|constructor].
Qed.
Lemma fresh_run os : forall s, fresh s -> fresh (run s os).
Proof. induction os as [|o os IH]; intros s H; [exact H|]. exact (IH _ (fresh_step s o H)). Qed.
Lemma find_fresh (l : list (nat * Z)) id d : NoDup (map fst l) -> In (id, d) l -> find (fun p => Nat.eqb (fst p) id) l = Some (id, d).
Proof.
  induction l as [|[i e] l IH]; [intros _ []|]. cbn [map fst find]. intros N. inversion_clear N as [|? ? N1 N2]. intros [X|X].
  - injection X as -> ->. rewrite Nat.eqb_refl. reflexivity.
  - destruct (Nat.eqb_spec i id) as [->|_]; [|exact (IH N2 X)]. exfalso. apply N1. apply in_map_iff. exists (id, d). auto.
Qed.

Lemma handle_detaches s c : s_chan s = Some c -> s_pending s <> [] -> is_detached (step s Handle).
Proof.
  intros E P. cbn [step]. destruct (s_pending s) as [|id q]; [contradiction|].
  set (s1 := St (s_now s) (s_next s) (s_chan s) (s_conn s) (s_up s) (s_timers s) q). change (s_chan s1) with (s_chan s). rewrite E.
  exists (set_detached true c). split; [exact (detach_chan c s1 E)|reflexivity].
Qed.
Lemma due s t c u : live s t -> fresh s -> s_chan s = Some c -> c_detached c = false -> 0 < c_after c -> s_up s = Some u ->
  exists id, forall d, t + c_after c <= s_now s + Z.max 0 d -> is_detached (run s [Tick d; Fire id; Handle]).
Proof.
  intros (_ & _ & _ & L) F E D P U. destruct (L (ex_intro _ c (conj E D)) c u E P U) as [X|(id & due0 & X1 & X2 & X3)].
  - exists 0%nat. intros d _. unfold run. cbn [fold_left]. set (s1 := step s (Tick d)). apply (handle_detaches _ c).
    + cbn [step]. destruct (find _ _) as [[? ?]|]; [destruct (_ <=? _)|]; exact E.
    + cbn [step]. destruct (find _ _) as [[? ?]|]; [destruct (_ <=? _)|]; try exact X. cbn [s_pending]. intros Y. symmetry in Y. exact (app_cons_not_nil _ _ _ Y).
  - exists id. intros d M. unfold run. cbn [fold_left]. set (s1 := step s (Tick d)).
    assert (Y : find (fun p => Nat.eqb (fst p) id) (s_timers s1) = Some (id, due0)) by (apply find_fresh; [apply F|exact X2]).
    apply (handle_detaches _ c).
    + cbn [step]. rewrite Y. destruct (due0 <=? s_now s1); exact E.
    + cbn [step]. rewrite Y. cbn [s1 step s_now]. destruct (Z.leb_spec due0 (s_now s + Z.max 0 d)); [|lia]. cbn [s_pending]. intros Z1. symmetry in Z1. exact (app_cons_not_nil _ _ _ Z1).
Qed.
