From Verif.Base Require Import Bytes.
From Verif.Model Require Import Words.
From Verif.Spec Require Import Words.

Lemma is_space_iff r : is_space r = true <-> blank r.
Proof.
  unfold is_space, blank. rewrite existsb_exists. split.
  - intros (x & Hx & E). apply N.eqb_eq in E. subst. exact Hx.
  - intros H. exists r. split; [exact H|apply N.eqb_refl].
Qed.

Lemma not_space r : ~ blank r -> is_space r = false.
Proof. intros H. destruct (is_space r) eqn:E; [apply is_space_iff in E; contradiction|reflexivity]. Qed.

Lemma blank_not_special r : blank r -> r <> 34%N /\ r <> 39%N /\ r <> 92%N.
Proof.
  intros H. repeat split; intros ->; unfold blank in H; simpl in H;
  repeat (destruct H as [H|H]; [discriminate|]); exact H.
Qed.

Lemma last_cons {A} (w : list A) : forall r p, List.last (r :: w) p = List.last w r.
Proof.
  induction w as [|x w IH]; intros r p; [reflexivity|].
  change (List.last (r :: x :: w) p) with (List.last (x :: w) p). rewrite !IH. reflexivity.
Qed.

(** Between words: the last character was a blank. *)
Definition between (st : split_state) (words : list (list N)) : Prop :=
  exists p, is_space p = true /\ st = SplitState words [] false p r_space.

Lemma blank_step words p b : blank b -> is_space p = true ->
  split_step (SplitState words [] false p r_space) b = SplitState words [] false b r_space.
Proof.
  intros Hb Hp. destruct (blank_not_special b Hb) as (_ & _ & N3). unfold split_step.
  apply N.eqb_neq in N3. unfold r_backslash. rewrite N3. rewrite N.eqb_refl.
  apply is_space_iff in Hb. rewrite Hb, Hp. reflexivity.
Qed.

Lemma blanks_fold sp : blanks sp -> forall st words, between st words ->
  between (fold_left split_step sp st) words.
Proof.
  induction sp as [|b sp IH]; intros Hs st words Hb; [exact Hb|]. cbn [fold_left].
  apply IH; [intros r Hr; apply Hs; right; exact Hr|].
  destruct Hb as (p & Hp & ->). exists b. split; [apply is_space_iff; apply Hs; left; reflexivity|].
  apply blank_step; [apply Hs; left; reflexivity|exact Hp].
Qed.

(** After a word: its characters are collected and the last one is not blank. *)
Definition after (st : split_state) (words : list (list N)) (w : list N) : Prop :=
  exists p, is_space p = false /\ st = SplitState words w false p r_space.

Lemma quoted_fold q w : q = 34%N \/ q = 39%N -> forall words last p,
  exists p', fold_left split_step (escape_in q w) (SplitState words last false p q) =
  SplitState words (last ++ w) false p' q.
Proof.
  intros Hq. induction w as [|r w IH]; intros words last p.
  - exists p. simpl. rewrite app_nil_r. reflexivity.
  - assert (Qs : N.eqb q r_space = false) by (destruct Hq; subst; reflexivity).
    assert (E : exists p', fold_left split_step (if N.eqb r q || N.eqb r 92 then [92%N; r] else [r])
        (SplitState words last false p q) = SplitState words (last ++ [r]) false p' q).
    { destruct (N.eqb r q || N.eqb r 92) eqn:Er.
      - exists r. reflexivity.
      - apply orb_false_iff in Er as [E1 E2]. exists r. cbn [fold_left]. unfold split_step, r_backslash.
        rewrite E2, Qs. cbn [andb]. rewrite E1. destruct (N.eqb r r_dquote || N.eqb r r_squote); reflexivity. }
    destruct E as [p1 E1]. destruct (IH words (last ++ [r]) p1) as [p2 E2].
    exists p2. change (escape_in q (r :: w)) with ((if N.eqb r q || N.eqb r 92 then [92%N; r] else [r]) ++ escape_in q w).
    rewrite fold_left_app, E1, E2, <- app_assoc. reflexivity.
Qed.

(** Inside a word. *)
Lemma segment_fold w t : segment w t -> forall words last p,
  exists p', fold_left split_step t (SplitState words last false p r_space) = SplitState words (last ++ w) false p' r_space
    /\ (escaped_blank t \/ is_space p' = false).
Proof.
  assert (Q : forall q w words last p, q = 34%N \/ q = 39%N ->
    fold_left split_step ([q] ++ escape_in q w ++ [q]) (SplitState words last false p r_space)
      = SplitState words (last ++ w) false q r_space).
  { intros q x words last p Hq. rewrite !fold_left_app.
    assert (E0 : fold_left split_step [q] (SplitState words last false p r_space) = SplitState words last false q q)
      by (destruct Hq; subst; reflexivity).
    rewrite E0. destruct (quoted_fold q x Hq words last q) as [p' E1]. rewrite E1.
    destruct Hq; subst; reflexivity. }
  intros [r Hr|x|x|r] words last p.
  - exists r. assert (Hb : is_space r = false) by (apply not_space; intros H; apply Hr; left; exact H).
    split; [|right; exact Hb]. cbn [fold_left]. unfold split_step, r_backslash, r_dquote, r_squote.
    assert (N1 : N.eqb r 34 = false) by (apply N.eqb_neq; intros H; apply Hr; right; left; exact H).
    assert (N2 : N.eqb r 39 = false) by (apply N.eqb_neq; intros H; apply Hr; right; right; left; exact H).
    assert (N3 : N.eqb r 92 = false) by (apply N.eqb_neq; intros H; apply Hr; right; right; right; exact H).
    assert (N4 : N.eqb r r_space = false) by (apply N.eqb_neq; intros ->; discriminate).
    rewrite N1, N2, N3, N4, Hb, andb_false_r. reflexivity.
  - exists 34%N. split; [apply Q; left; reflexivity|right; reflexivity].
  - exists 39%N. split; [apply Q; right; reflexivity|right; reflexivity].
  - exists r. split; [reflexivity|]. destruct (is_space r) eqn:E; [left|right; reflexivity].
    exists r. split; [apply is_space_iff; exact E|reflexivity].
Qed.

Lemma pieces_fold w t : pieces w t -> forall words last p,
  exists p', fold_left split_step t (SplitState words last false p r_space) = SplitState words (last ++ w) false p' r_space.
Proof.
  induction 1 as [|w t w' t' Hs Hp IH]; intros words last p.
  - exists p. rewrite app_nil_r. reflexivity.
  - destruct (segment_fold w t Hs words last p) as (p1 & E1 & _).
    destruct (IH words (last ++ w) p1) as (p2 & E2). exists p2. rewrite fold_left_app, E1, E2, app_assoc. reflexivity.
Qed.

Lemma word_fold w t words st : writes w t -> between st words -> after (fold_left split_step t st) words w.
Proof.
  intros [w1 t1 w2 t2 H1 H2 Hn] (p & Hp & ->).
  destruct (pieces_fold w1 t1 H1 words [] p) as (p1 & E1).
  destruct (segment_fold w2 t2 H2 words w1 p1) as (p2 & E2 & [He|Hs]); [contradiction|].
  exists p2. split; [exact Hs|]. rewrite fold_left_app, E1. exact E2.
Qed.

Lemma end_word st words w b : after st words w -> blank b ->
  between (split_step st b) (words ++ [w]).
Proof.
  intros (p & Hp & ->) Hb. exists b. destruct (blank_not_special b Hb) as (_ & _ & N3).
  apply is_space_iff in Hb. split; [exact Hb|]. unfold split_step, r_backslash.
  apply N.eqb_neq in N3. rewrite N3, N.eqb_refl, Hb, Hp. reflexivity.
Qed.

Lemma finish_between st words : between st words -> split_finish st = inl words.
Proof. intros (p & Hp & ->). unfold split_finish. rewrite Hp. reflexivity. Qed.

Lemma finish_after st words w : after st words w -> split_finish st = inl (words ++ [w]).
Proof. intros (p & Hp & ->). unfold split_finish. rewrite Hp. reflexivity. Qed.

Lemma line_fold ws l : line_of ws l -> forall st words, between st words ->
  split_finish (fold_left split_step l st) = inl (words ++ ws).
Proof.
  induction 1 as [sp Hs|w t sp sp' Hs Hs' Hw|w t ws rest sp b Hs Hb Hw Hl IH]; intros st words Hst.
  - rewrite app_nil_r. apply finish_between. apply blanks_fold; assumption.
  - rewrite !fold_left_app.
    pose proof (word_fold w t words _ Hw (blanks_fold sp Hs st words Hst)) as Ha.
    destruct sp' as [|b sp'].
    + simpl. apply finish_after. exact Ha.
    + cbn [fold_left]. apply finish_between. apply blanks_fold.
      * intros r Hr. apply Hs'. right; exact Hr.
      * apply end_word; [exact Ha|apply Hs'; left; reflexivity].
  - rewrite !fold_left_app.
    pose proof (word_fold w t words _ Hw (blanks_fold sp Hs st words Hst)) as Ha.
    change (fold_left split_step [b] ?x) with (split_step x b).
    rewrite (IH _ (words ++ [w])) by (apply end_word; assumption). rewrite <- app_assoc. reflexivity.
Qed.

Lemma split_line ws l : line_of ws l -> split_words l = inl ws.
Proof.
  intros H. unfold split_words. rewrite (line_fold ws l H split_init []).
  - reflexivity.
  - exists r_space. split; reflexivity.
Qed.

(** After the words of a line and a blank. *)
Lemma line_between ws l b : line_of ws l -> blank b -> forall st words, between st words ->
  between (fold_left split_step (l ++ [b]) st) (words ++ ws).
Proof.
  intros H Hb. induction H as [sp Hs|w t sp sp' Hs Hs' Hw|w t ws rest sp b' Hs Hb' Hw Hl IH]; intros st words Hst.
  - rewrite app_nil_r. apply blanks_fold; [|exact Hst]. intros r Hr. apply in_app_or in Hr as [Hr|[<-|[]]]; [apply Hs; exact Hr|exact Hb].
  - rewrite <- !app_assoc, !fold_left_app.
    pose proof (word_fold w t words _ Hw (blanks_fold sp Hs st words Hst)) as Ha.
    destruct sp' as [|c sp'].
    + apply end_word; assumption.
    + rewrite <- fold_left_app. change ((c :: sp') ++ [b]) with (c :: (sp' ++ [b])). cbn [fold_left]. apply blanks_fold.
      * intros r Hr. apply in_app_or in Hr as [Hr|[<-|[]]]; [apply Hs'; right; exact Hr|exact Hb].
      * apply end_word; [exact Ha|apply Hs'; left; reflexivity].
  - rewrite <- !app_assoc. rewrite !fold_left_app. rewrite <- (fold_left_app _ rest [b]).
    pose proof (word_fold w t words _ Hw (blanks_fold sp Hs st words Hst)) as Ha.
    change (fold_left split_step [b'] ?x) with (split_step x b').
    replace (words ++ w :: ws) with ((words ++ [w]) ++ ws) by (rewrite <- app_assoc; reflexivity).
    apply IH. apply end_word; assumption.
Qed.

Lemma unterminated ws l b w t : line_of ws l -> blank b -> pieces w t ->
  split_words (l ++ [b] ++ t ++ [92%N]) = inr UnterminatedBackslash /\
  (forall q x, q = 34%N \/ q = 39%N ->
    split_words (l ++ [b] ++ t ++ [q] ++ escape_in q x) = inr UnterminatedQuote).
Proof.
  intros Hl Hb Hp.
  assert (H0 : between split_init []) by (exists r_space; split; reflexivity).
  destruct (line_between ws l b Hl Hb split_init [] H0) as (p & Hs & E).
  destruct (pieces_fold w t Hp ([] ++ ws) [] p) as (p1 & E1).
  split.
  - unfold split_words. rewrite app_assoc, (fold_left_app _ (l ++ [b])), E, !fold_left_app, E1. reflexivity.
  - intros q x Hq. unfold split_words. rewrite app_assoc, (fold_left_app _ (l ++ [b])), E, !fold_left_app, E1.
    assert (E0 : fold_left split_step [q] (SplitState ([] ++ ws) ([] ++ w) false p1 r_space) = SplitState ([] ++ ws) ([] ++ w) false q q)
      by (destruct Hq; subst; reflexivity).
    rewrite E0. destruct (quoted_fold q x Hq ([] ++ ws) ([] ++ w) q) as [p2 E2]. rewrite E2.
    unfold split_finish. destruct Hq; subst; reflexivity.
Qed.
