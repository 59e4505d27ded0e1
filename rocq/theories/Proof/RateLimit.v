(** Proofs about the rate of messages. *)
From Coq Require Import ZArith List Lia Bool.
From Verif.Model Require Import RateLimit.
From Verif.Spec Require Import RateLimit.
Import ListNotations.
Local Open Scope Z_scope.

Lemma count_cons p m l : count p (m :: l) = (if p m then 1 else 0) + count p l.
Proof. unfold count. cbn [filter]. destruct (p m); cbn [length]; lia. Qed.
Lemma count_nil p : count p [] = 0.
Proof. reflexivity. Qed.
Lemma count_app p a b : count p (a ++ b) = count p a + count p b.
Proof. unfold count. rewrite filter_app, app_length. lia. Qed.
Lemma count_pos p l : 0 <= count p l.
Proof. unfold count. lia. Qed.
Lemma count_le p q l : (forall m, In m l -> p m = true -> q m = true) -> count p l <= count q l.
Proof.
  induction l as [|m l IH]; intros H; [rewrite !count_nil; lia|]. rewrite !count_cons.
  specialize (IH (fun x Hx => H x (or_intror Hx))). specialize (H m (or_introl eq_refl)). destruct (p m); [rewrite H by reflexivity; lia|].
  destruct (q m); lia.
Qed.

Section Rate.
  Variables delay burst : Z.
  Hypothesis Hd : 0 < delay.
  Hypothesis Hb : 0 < burst.
  Local Notation turn := (turn delay burst).
  Local Notation turns := (turns delay burst).
  Local Notation cap := (burst * delay).
  Definition avail (l : limiter) (now : Z) : Z := Z.min cap (l_tok l + (now - l_last l)).

  Definition good (c : cst) : Prop :=
    l_last (c_lim c) <= c_now c /\ l_tok (c_lim c) <= cap /\ 0 <= l_tok (c_lim c) + (c_now c - l_last (c_lim c)).
  Lemma cap_pos : delay <= cap.
  Proof. nia. Qed.
  Lemma good_new now : good (new_conn delay burst now).
  Proof. pose proof cap_pos. unfold good, new_conn, new_limiter. cbn [c_lim c_now l_tok l_last]. lia. Qed.

  Definition avail_c (c : cst) : Z := avail (c_lim c) (c_now c).

  (** What one message does. *)
  Lemma turn_msg c gap late : good c -> 0 <= gap -> 0 <= late ->
    exists c' m, turn c (Msg gap late) = (c', [m]) /\ good c' /\ s_limited m = c_rate c /\ c_rate c' = c_rate c /\
      s_taken m = c_now c + gap /\ s_taken m <= s_allowed m /\ s_allowed m <= s_taken m + (if c_rate c then delay else 0) /\
      s_written m = s_allowed m + late /\ c_now c' = s_written m /\
      (* tokens *)
      (if c_rate c then
         l_tok (c_lim c') = Z.min cap (l_tok (c_lim c) + (s_taken m - l_last (c_lim c))) - delay /\ l_last (c_lim c') = s_taken m /\
         0 <= l_tok (c_lim c') + (s_allowed m - s_taken m) /\
         (s_taken m < s_allowed m -> l_tok (c_lim c') < 0 /\ s_allowed m = s_taken m - l_tok (c_lim c'))
       else c_lim c' = c_lim c /\ s_allowed m = s_taken m).
  Proof.
    intros (G1 & G2 & G3) H1 H2. pose proof cap_pos. unfold RateLimit.turn.
    assert (Ez : (delay =? 0) = false) by (apply Z.eqb_neq; lia). rewrite Ez. cbn [negb andb]. rewrite Bool.andb_true_r.
    destruct (c_rate c) eqn:Er.
    - unfold reserve. assert (El : (c_now c + gap <? l_last (c_lim c)) = false) by (apply Z.ltb_ge; lia). rewrite El.
      set (t := Z.min cap (l_tok (c_lim c) + (c_now c + gap - l_last (c_lim c))) - delay).
      destruct (Z.ltb_spec t 0).
      + eexists. eexists. split; [reflexivity|]. unfold good. cbn [c_lim c_now c_rate l_tok l_last s_limited s_taken s_allowed s_written].
        repeat match goal with |- _ /\ _ => split end; try reflexivity; lia.
      + eexists. eexists. split; [reflexivity|]. unfold good. cbn [c_lim c_now c_rate l_tok l_last s_limited s_taken s_allowed s_written].
        repeat match goal with |- _ /\ _ => split end; try reflexivity; lia.
    - eexists. eexists. split; [reflexivity|]. unfold good. cbn [c_lim c_now c_rate l_tok l_last s_limited s_taken s_allowed s_written].
      repeat match goal with |- _ /\ _ => split end; try reflexivity; lia.
  Qed.
  Lemma turn_rate c b : turn c (Rate b) = (Cst (c_now c) b (c_lim c), []).
  Proof. reflexivity. Qed.

  Lemma turns_good es : forall c, good c -> Forall forward es -> good (fst (turns c es)).
  Proof.
    induction es as [|e es IH]; intros c G F; [exact G|]. inversion_clear F as [|? ? F1 F2]. cbn [RateLimit.turns].
    destruct e as [gap late|b].
    - destruct F1 as [A1 A2]. destruct (turn_msg c gap late G A1 A2) as (c' & m & -> & G' & _).
      specialize (IH c' G' F2). destruct (turns c' es). exact IH.
    - rewrite turn_rate. specialize (IH (Cst (c_now c) b (c_lim c)) G F2). destruct (turns _ es). exact IH.
  Qed.

  (** Messages written by [b] under the limit from a state: their cost is at most what is there and what comes. *)
  Lemma budget b es : forall c, good c -> Forall forward es -> c_now c <= b ->
    forall os c', turns c es = (c', os) ->
    (forall m, In m os -> c_now c <= s_written m) /\
    count (fun m => s_limited m && (s_written m <=? b)) os * delay <= avail_c c + (b - c_now c).
  Proof.
    induction es as [|e es IH]; intros c G F Hn os cf E.
    - injection E as <- <-. split; [intros m []|]. rewrite count_nil. destruct G as (G1 & G2 & G3). unfold avail_c, avail. pose proof cap_pos. lia.
    - inversion_clear F as [|? ? F1 F2]. cbn [RateLimit.turns] in E. destruct e as [gap late|r].
      + destruct F1 as [A1 A2]. destruct (turn_msg c gap late G A1 A2) as (c' & m & Et & G' & L1 & L2 & L3 & L4 & L5 & L6 & L7 & L8).
        rewrite Et in E. destruct (turns c' es) as [c'' os'] eqn:Er. injection E as <- <-.
        assert (X : c_now c <= c_now c') by lia.
        assert (Base : 0 <= avail_c c + (b - c_now c)) by (destruct G as (G1 & G2 & G3); unfold avail_c, avail; pose proof cap_pos; lia).
        destruct (Z_le_gt_dec (c_now c') b) as [Hle|Hgt].
        * destruct (IH c' G' F2 Hle os' c'' Er) as [I1 I2]. split.
          { intros x [<-|Hx]; [lia|]. specialize (I1 x Hx). lia. }
          rewrite count_cons. rewrite L1.
          assert (Hw : (s_written m <=? b) = true) by (apply Z.leb_le; lia). rewrite Hw, Bool.andb_true_r.
          revert I2. destruct G as (G1 & G2 & G3). unfold avail_c, avail. destruct (c_rate c).
          -- destruct L8 as (L8 & L9 & L10 & _). rewrite L9, L8. nia.
          -- destruct L8 as (L8 & L9). rewrite L8. nia.
        * assert (Late : forall cx ex cy oy, turns cx ex = (cy, oy) -> good cx -> Forall forward ex -> b < c_now cx -> count (fun m => s_limited m && (s_written m <=? b)) oy = 0 /\ (forall x, In x oy -> c_now cx <= s_written x)).
          { clear - Hd Hb. intros cx ex. revert cx. induction ex as [|e ex IHx]; intros cx cy oy E G F Hb'; [injection E as <- <-; split; [reflexivity|intros x []]|].
            inversion_clear F as [|? ? F1 F2]. cbn [RateLimit.turns] in E. destruct e as [g l|r].
            - destruct F1 as [A1 A2]. destruct (turn_msg cx g l G A1 A2) as (c' & m & Et & G' & L1 & L2 & L3 & L4 & L5 & L6 & L7 & L8).
              rewrite Et in E. destruct (turns c' ex) as [c'' os'] eqn:Er. injection E as <- <-.
              destruct (IHx c' c'' os' Er G' F2) as [I1 I2]; [lia|]. cbn [app]. rewrite count_cons, I1.
              assert (Hw : (s_written m <=? b) = false) by (apply Z.leb_gt; lia). rewrite Hw, Bool.andb_false_r. split; [reflexivity|].
              intros x [<-|Hx]; [lia|]. specialize (I2 x Hx). lia.
            - rewrite turn_rate in E. destruct (turns (Cst (c_now cx) r (c_lim cx)) ex) as [c'' os'] eqn:Er. injection E as <- <-.
              exact (IHx _ _ _ Er G F2 Hb'). }
          destruct (Late c' es c'' os' Er G' F2) as [I1 I2]; [lia|]. split.
          { intros x [<-|Hx]; [lia|]. specialize (I2 x Hx). lia. }
          cbn [app]. rewrite count_cons, I1.
          assert (Hw : (s_written m <=? b) = false) by (apply Z.leb_gt; lia). rewrite Hw, Bool.andb_false_r. lia.
      + rewrite turn_rate in E. destruct (turns (Cst (c_now c) r (c_lim c)) es) as [c'' os'] eqn:Er. injection E as <- <-.
        exact (IH (Cst (c_now c) r (c_lim c)) G F2 Hn os' c'' Er).
  Qed.

  Lemma avail_cap c : avail_c c <= cap.
  Proof. unfold avail_c, avail. lia. Qed.
  Lemma window_count a b (m : sent) os : (forall x, In x os -> a <= s_written x) ->
    count (in_window a b) os = count (fun m => s_limited m && (s_written m <=? b)) os.
  Proof.
    intros H. induction os as [|x os IH]; [reflexivity|]. rewrite !count_cons, IH by (intros y Hy; apply H; right; exact Hy).
    unfold in_window. assert (Hx : (a <=? s_written x) = true) by (apply Z.leb_le, H; left; reflexivity). rewrite Hx, Bool.andb_true_r. reflexivity.
  Qed.

  Lemma window a b es : forall c, good c -> Forall forward es -> a <= b -> forall os c', turns c es = (c', os) ->
    (count (in_window a b) os - 1) * delay <= cap + (b - a).
  Proof.
    pose proof cap_pos as Hc.
    induction es as [|e es IH]; intros c G F Hab os cf E.
    - injection E as <- <-. rewrite count_nil. lia.
    - inversion_clear F as [|? ? F1 F2]. cbn [RateLimit.turns] in E. destruct e as [gap late|r].
      + destruct F1 as [A1 A2]. destruct (turn_msg c gap late G A1 A2) as (c' & m & Et & G' & L1 & L2 & L3 & L4 & L5 & L6 & L7 & L8).
        rewrite Et in E. destruct (turns c' es) as [c'' os'] eqn:Er. injection E as <- <-. cbn [app]. rewrite count_cons.
        destruct (in_window a b m) eqn:Ew.
        * unfold in_window in Ew. apply Bool.andb_true_iff in Ew. destruct Ew as [Ew W2]. apply Bool.andb_true_iff in Ew. destruct Ew as [_ W1].
          apply Z.leb_le in W1, W2.
          destruct (budget b es c' G' F2) with (os := os') (c' := c'') as [I1 I2]; [lia|exact Er|].
          rewrite (window_count a b m os') by (intros x Hx; specialize (I1 x Hx); lia). pose proof (avail_cap c'). lia.
        * specialize (IH c' G' F2 Hab os' c'' Er). lia.
      + rewrite turn_rate in E. destruct (turns (Cst (c_now c) r (c_lim c)) es) as [c'' os'] eqn:Er. injection E as <- <-.
        exact (IH (Cst (c_now c) r (c_lim c)) G F2 Hab os' c'' Er).
  Qed.

  Lemma window_prompt a b es : forall c, good c -> Forall forward es -> Forall prompt es -> a <= b -> forall os c', turns c es = (c', os) ->
    count (in_window a b) os * delay <= cap + (b - a).
  Proof.
    pose proof cap_pos as Hc.
    induction es as [|e es IH]; intros c G F P Hab os cf E.
    - injection E as <- <-. rewrite count_nil. lia.
    - inversion_clear F as [|? ? F1 F2]. inversion_clear P as [|? ? P1 P2]. cbn [RateLimit.turns] in E. destruct e as [gap late|r].
      + destruct F1 as [A1 A2]. cbn [prompt] in P1. destruct (turn_msg c gap late G A1 A2) as (c' & m & Et & G' & L1 & L2 & L3 & L4 & L5 & L6 & L7 & L8).
        rewrite Et in E. destruct (turns c' es) as [c'' os'] eqn:Er. injection E as <- <-. cbn [app]. rewrite count_cons.
        destruct (in_window a b m) eqn:Ew.
        * unfold in_window in Ew. apply Bool.andb_true_iff in Ew. destruct Ew as [Ew W2]. apply Bool.andb_true_iff in Ew. destruct Ew as [W0 W1].
          apply Z.leb_le in W1, W2. rewrite L1 in W0. rewrite W0 in L8.
          destruct (budget b es c' G' F2) with (os := os') (c' := c'') as [I1 I2]; [lia|exact Er|].
          rewrite (window_count a b m os') by (intros x Hx; specialize (I1 x Hx); lia).
          assert (avail_c c' <= cap - delay); [|lia].
          destruct L8 as (L8 & L9 & L10 & L11). unfold avail_c, avail. rewrite L9, L8.
          destruct (Z_lt_le_dec (s_taken m) (s_allowed m)) as [Hlt|Hge].
          -- specialize (L11 Hlt). rewrite L8 in L11. destruct L11 as [L11 L12].
             rewrite L7, L6, P1, L12.
             assert (0 <= cap - delay) by lia. lia.
          -- assert (s_allowed m = s_taken m) by lia. rewrite L7, L6, P1. lia.
        * specialize (IH c' G' F2 P2 Hab os' c'' Er). lia.
      + rewrite turn_rate in E. destruct (turns (Cst (c_now c) r (c_lim c)) es) as [c'' os'] eqn:Er. injection E as <- <-.
        exact (IH (Cst (c_now c) r (c_lim c)) G F2 P2 Hab os' c'' Er).
  Qed.

  (** *** Waiting *)
  Lemma each es : forall c, good c -> Forall forward es -> forall os c', turns c es = (c', os) ->
    forall m, In m os -> s_taken m <= s_allowed m <= s_taken m + delay /\ (s_limited m = false -> s_allowed m = s_taken m).
  Proof.
    induction es as [|e es IH]; intros c G F os cf E m Hm.
    - injection E as <- <-. destruct Hm.
    - inversion_clear F as [|? ? F1 F2]. cbn [RateLimit.turns] in E. destruct e as [gap late|r].
      + destruct F1 as [A1 A2]. destruct (turn_msg c gap late G A1 A2) as (c' & x & Et & G' & L1 & L2 & L3 & L4 & L5 & L6 & L7 & L8).
        rewrite Et in E. destruct (turns c' es) as [c'' os'] eqn:Er. injection E as <- <-. destruct Hm as [<-|Hm].
        * split; [destruct (c_rate c); lia|]. intros X. rewrite L1 in X. rewrite X in L8. apply L8.
        * exact (IH c' G' F2 os' c'' Er m Hm).
      + rewrite turn_rate in E. destruct (turns (Cst (c_now c) r (c_lim c)) es) as [c'' os'] eqn:Er. injection E as <- <-.
        exact (IH (Cst (c_now c) r (c_lim c)) G F2 os' c'' Er m Hm).
  Qed.
  Lemma total es : forall c, good c -> Forall forward es -> forall os c', turns c es = (c', os) ->
    c_now c' <= c_now c + waiting es + count limited_only os * delay.
  Proof.
    induction es as [|e es IH]; intros c G F os cf E.
    - injection E as <- <-. cbn [waiting fold_right]. rewrite count_nil. lia.
    - inversion_clear F as [|? ? F1 F2]. cbn [RateLimit.turns] in E. destruct e as [gap late|r].
      + destruct F1 as [A1 A2]. destruct (turn_msg c gap late G A1 A2) as (c' & x & Et & G' & L1 & L2 & L3 & L4 & L5 & L6 & L7 & L8).
        rewrite Et in E. destruct (turns c' es) as [c'' os'] eqn:Er. injection E as <- <-. cbn [app]. rewrite count_cons.
        specialize (IH c' G' F2 os' c'' Er). unfold waiting in *. cbn [fold_right]. unfold limited_only at 1. rewrite L1. destruct (c_rate c); lia.
      + rewrite turn_rate in E. destruct (turns (Cst (c_now c) r (c_lim c)) es) as [c'' os'] eqn:Er. injection E as <- <-.
        exact (IH (Cst (c_now c) r (c_lim c)) G F2 os' c'' Er).
  Qed.

  (** A message waits only when the limit would be exceeded. *)
  Definition spent (pre : list sent) (c : cst) : Prop :=
    exists a, a <= l_last (c_lim c) /\ cap + (l_last (c_lim c) - a) - count (since a) pre * delay <= l_tok (c_lim c).
  Lemma needed es : forall pre c, good c -> Forall forward es -> spent pre c -> forall os c', turns c es = (c', os) ->
    forall l1 m l2, os = l1 ++ m :: l2 -> s_taken m < s_allowed m ->
    exists a, a <= s_taken m /\ cap + (s_taken m - a) < (count (since a) (pre ++ l1) + 1) * delay.
  Proof.
    induction es as [|e es IH]; intros pre c G F S os cf E l1 m l2 Eo Hw.
    - injection E as <- <-. destruct l1; discriminate.
    - inversion_clear F as [|? ? F1 F2]. cbn [RateLimit.turns] in E. destruct e as [gap late|r].
      + destruct F1 as [A1 A2]. destruct (turn_msg c gap late G A1 A2) as (c' & x & Et & G' & L1 & L2 & L3 & L4 & L5 & L6 & L7 & L8).
        rewrite Et in E. destruct (turns c' es) as [c'' os'] eqn:Er. injection E as <- <-.
        destruct S as (a & S1 & S2). destruct G as (G1 & G2 & G3).
        destruct l1 as [|y l1]; cbn [app] in Eo; injection Eo as <- Eo.
        * destruct (c_rate c); [|destruct L8; lia]. destruct L8 as (L8 & L9 & L10 & L11). specialize (L11 Hw). destruct L11 as [L11 _].
          rewrite app_nil_r. exists a. split; [lia|]. pose proof cap_pos. nia.
        * destruct (IH (pre ++ [x]) c' G' F2) with (os := os') (c' := c'') (l1 := l1) (m := m) (l2 := l2) as (z & Z1 & Z2); try assumption.
          -- unfold spent. destruct (c_rate c).
             ++ destruct L8 as (L8 & L9 & L10 & L11). rewrite L8, L9.
                destruct (Z_le_gt_dec cap (l_tok (c_lim c) + (s_taken x - l_last (c_lim c)))) as [Hc|Hc].
                ** exists (s_taken x). split; [lia|]. rewrite count_app, count_cons, count_nil. unfold since at 2. rewrite L1.
                   assert (X : (s_taken x <=? s_allowed x) = true) by (apply Z.leb_le; lia). rewrite X. cbn [andb].
                   pose proof (count_pos (since (s_taken x)) pre). nia.
                ** exists a. split; [lia|]. rewrite count_app, count_cons, count_nil. unfold since at 2. rewrite L1.
                   assert (X : (a <=? s_allowed x) = true) by (apply Z.leb_le; lia). rewrite X. cbn [andb]. nia.
             ++ destruct L8 as [-> _]. exists a. split; [exact S1|]. rewrite count_app. pose proof (count_pos (since a) [x]). nia.
          -- exists z. split; [exact Z1|]. rewrite <- app_assoc in Z2. exact Z2.
      + rewrite turn_rate in E. destruct (turns (Cst (c_now c) r (c_lim c)) es) as [c'' os'] eqn:Er. injection E as <- <-.
        exact (IH pre (Cst (c_now c) r (c_lim c)) G F2 S os' c'' Er l1 m l2 Eo Hw).
  Qed.
  Lemma spent_new now : spent [] (new_conn delay burst now).
  Proof. exists now. unfold new_conn, new_limiter. cbn [c_lim l_tok l_last]. rewrite count_nil. lia. Qed.
End Rate.

(** Without limit. *)
Lemma unlimited burst es : forall c, Forall forward es -> forall os c', turns 0 burst c es = (c', os) ->
  forall m, In m os -> s_allowed m = s_taken m.
Proof.
  induction es as [|e es IH]; intros c F os cf E m Hm.
  - injection E as <- <-. destruct Hm.
  - inversion_clear F as [|? ? F1 F2]. cbn [turns] in E. destruct e as [gap late|r]; cbn [turn] in E.
    + rewrite Bool.andb_false_r in E. destruct (turns 0 burst _ es) as [c'' os'] eqn:Er. injection E as <- <-. destruct Hm as [<-|Hm]; [reflexivity|].
      exact (IH _ F2 os' c'' Er m Hm).
    + destruct (turns 0 burst _ es) as [c'' os'] eqn:Er. injection E as <- <-. exact (IH _ F2 os' c'' Er m Hm).
Qed.
