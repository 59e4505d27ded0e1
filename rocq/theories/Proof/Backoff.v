From Coq Require Import ZArith List Lia.
From Verif.Model Require Import Backoff.
From Verif.Spec Require Import Backoff.
Import ListNotations.
Open Scope Z_scope.

Lemma wrap64_id z : - 2 ^ 63 <= z < 2 ^ 63 -> wrap64 z = z.
Proof. intros H. unfold wrap64. rewrite Z.mod_small; lia. Qed.

(** The multiplier after [k] calls. *)
Definition mult_ok (min max n : Z) (k : nat) : Prop :=
  match k with
  | O => n = 0
  | S k' => 1 <= n /\ n <= 2 ^ Z.of_nat k' /\ (n = 2 ^ Z.of_nat k' \/ max < n * min) /\ (n = 1 \/ n * min <= 2 * max)
  end.

Lemma run_expected min max jitter ops : 0 < min -> min <= max -> 0 <= jitter -> 2 * max + jitter < 2 ^ 63 ->
  (forall r, In (BoNext r) ops -> jitter <> 0 -> 0 <= r < jitter) ->
  forall n k, mult_ok min max n k ->
  expected min max jitter k ops (bo_run (Backoffer min max jitter n) ops).
Proof.
  intros Hmin Hmax Hj Hb. induction ops as [|[r|] ops IH]; intros Hr n k Hk; [exact I| |].
  - cbn [bo_run]. destruct (bo_next (Backoffer min max jitter n) r) as [d b'] eqn:E. cbn [expected].
    assert (Hr' : jitter <> 0 -> 0 <= r < jitter) by (apply Hr; left; reflexivity).
    assert (IH' : forall n k, mult_ok min max n k -> expected min max jitter k ops (bo_run (Backoffer min max jitter n) ops)).
    { apply IH. intros x Hx. apply Hr. right. exact Hx. }
    unfold bo_next in E. cbn [bo_n bo_min bo_max bo_jitter] in E. destruct k as [|k].
    + cbn [mult_ok] in Hk. subst n. cbn [Z.eqb] in E. injection E as <- <-. split; [reflexivity|].
      apply IH'. cbn. lia.
    + destruct Hk as (H1 & H2 & H3 & H4).
      assert (E0 : (n =? 0) = false) by (apply Z.eqb_neq; lia). rewrite E0 in E.
      assert (Hnm : 0 <= n * min <= 2 * max) by (split; [nia|destruct H4 as [->|H4]; lia]).
      rewrite (wrap64_id (n * min)) in E by lia.
      assert (Hn2 : n * 2 < 2 ^ 63 \/ max < n * min) by nia.
      assert (Ebase : base_delay min max (S k) = Z.min (n * min) max).
      { cbn [base_delay]. destruct H3 as [<-|H3]; [reflexivity|].
        assert (n * min <= 2 ^ Z.of_nat k * min) by nia. lia. }
      rewrite Ebase. cbn [Nat.eqb].
      rewrite Z.gtb_ltb in E. destruct (Z.ltb_spec max (n * min)) as [Hgt|Hle].
      * injection E as <- <-. split.
        -- destruct (jitter =? 0) eqn:Ej; [lia|]. apply Z.eqb_neq in Ej. specialize (Hr' Ej). rewrite wrap64_id by lia. lia.
        -- apply IH'. cbn [mult_ok]. rewrite Nat2Z.inj_succ, Z.pow_succ_r by lia. lia.
      * injection E as <- <-. rewrite (wrap64_id (n * 2)) by lia. split.
        -- destruct (jitter =? 0) eqn:Ej; [lia|]. apply Z.eqb_neq in Ej. specialize (Hr' Ej). rewrite wrap64_id by lia. lia.
        -- apply IH'. cbn [mult_ok]. rewrite Nat2Z.inj_succ, Z.pow_succ_r by lia.
           assert (E2 : n * 2 * min = 2 * (n * min)) by ring. rewrite E2. lia.
  - cbn [bo_run expected]. apply IH; [|reflexivity]. intros r Hx. apply Hr. right. exact Hx.
Qed.

Lemma base_bounds min max k : 0 < min -> min <= max ->
  0 <= base_delay min max k <= max /\ base_delay min max k <= base_delay min max (S k).
Proof.
  intros H1 H2. destruct k as [|k]; cbn [base_delay]; [change (2 ^ Z.of_nat 0) with 1; lia|].
  rewrite Nat2Z.inj_succ, Z.pow_succ_r by lia.
  assert (0 < 2 ^ Z.of_nat k) by (apply Z.pow_pos_nonneg; lia). nia.
Qed.

Lemma expected_all min max jitter : 0 < min -> min <= max -> 0 <= jitter -> forall ops k ds,
  (forall r, In (BoNext r) ops -> jitter <> 0 -> 0 <= r < jitter) ->
  expected min max jitter k ops ds -> Forall (fun d => 0 <= d <= max + jitter) ds.
Proof.
  intros H1 H2 H3. induction ops as [|[r|] ops IH]; intros k ds Hr H; destruct ds as [|d ds]; try contradiction; try constructor.
  - destruct H as [-> _]. pose proof (base_bounds min max k H1 H2).
    destruct (Nat.eqb k 0); [lia|]. destruct (Z.eqb_spec jitter 0); [lia|].
    specialize (Hr r (or_introl eq_refl)). lia.
  - destruct H as [_ H]. apply (IH _ _ (fun x Hx => Hr x (or_intror Hx)) H).
  - cbn [expected] in H. pose proof (IH _ _ (fun x Hx => Hr x (or_intror Hx)) H) as F. inversion F; subst; assumption.
  - cbn [expected] in H. pose proof (IH _ _ (fun x Hx => Hr x (or_intror Hx)) H) as F. inversion F; subst; assumption.
Qed.
