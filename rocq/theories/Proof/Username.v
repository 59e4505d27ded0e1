From Verif.Base Require Import Bytes.
From Verif.Model Require Import Username.

Definition no_sep (s : bytes) : Prop := ~ In "/"%char s /\ ~ In "@"%char s.

Lemma no_sep_cons c s : no_sep (c :: s) -> is_sep c = false /\ no_sep s.
Proof.
  intros [H1 H2]. split.
  - unfold is_sep. apply orb_false_iff. split; apply aeqb_neq; intros ->; [apply H1|apply H2]; left; reflexivity.
  - split; intros H; [apply H1|apply H2]; right; exact H.
Qed.

Lemma index_none s : no_sep s -> index_sep s = None.
Proof.
  induction s as [|c s IH]; intros H; [reflexivity|]. apply no_sep_cons in H as [H1 H2].
  simpl. rewrite H1, IH by exact H2. reflexivity.
Qed.

Lemma last_none s : no_sep s -> last_index_sep s = None.
Proof.
  induction s as [|c s IH]; intros H; [reflexivity|]. apply no_sep_cons in H as [H1 H2].
  simpl. rewrite H1, IH by exact H2. reflexivity.
Qed.

Lemma index_app a c s : no_sep a -> is_sep c = true -> index_sep (a ++ c :: s) = Some (length a).
Proof.
  intros Ha Hc. induction a as [|x a IH]; simpl.
  - rewrite Hc. reflexivity.
  - apply no_sep_cons in Ha as [H1 H2]. rewrite H1, IH by exact H2. reflexivity.
Qed.

Lemma last_app a c s : no_sep s -> is_sep c = true -> last_index_sep (a ++ c :: s) = Some (length a).
Proof.
  intros Hs Hc. induction a as [|x a IH]; simpl.
  - rewrite last_none, Hc by exact Hs. reflexivity.
  - rewrite IH. reflexivity.
Qed.

Lemma byte_at_app a c s : byte_at (a ++ c :: s) (length a) = c.
Proof. unfold byte_at. rewrite app_nth2, Nat.sub_diag by lia. reflexivity. Qed.

Lemma skipn_app_S {A} (a : list A) c s : skipn (S (length a)) (a ++ c :: s) = s.
Proof.
  change (c :: s) with ([c] ++ s). rewrite app_assoc.
  replace (S (length a)) with (length (a ++ [c])) by (rewrite app_length; simpl; lia).
  rewrite skipn_app, skipn_all, Nat.sub_diag. reflexivity.
Qed.

Lemma firstn_app_l {A} (a b : list A) : firstn (length a) (a ++ b) = a.
Proof. rewrite firstn_app, Nat.sub_diag, firstn_all. simpl. apply app_nil_r. Qed.

Lemma unmarshal_user u : no_sep u -> unmarshal_username u = (u, [], []).
Proof. intros H. unfold unmarshal_username. rewrite index_none, last_none by exact H. reflexivity. Qed.

Lemma unmarshal_one u c x :
  no_sep u -> no_sep x -> is_sep c = true ->
  unmarshal_username (u ++ c :: x) = if aeqb c "@" then (u, x, []) else (u, [], x).
Proof.
  intros Hu Hx Hc. unfold unmarshal_username. rewrite index_app, last_app by assumption.
  rewrite byte_at_app, skipn_app_S, firstn_app_l, Nat.ltb_irrefl.
  destruct (aeqb c "@"); reflexivity.
Qed.

Lemma unmarshal_two u c x d y :
  no_sep u -> no_sep x -> no_sep y -> is_sep c = true -> is_sep d = true ->
  unmarshal_username (u ++ c :: x ++ d :: y) =
    (let '(cl, net) := if aeqb d "@" then (y, []) else ([], y) in
     if aeqb c "@" then (u, x, net) else (u, cl, x)).
Proof.
  intros Hu Hx Hy Hc Hd. unfold unmarshal_username.
  rewrite index_app by assumption.
  assert (El : last_index_sep (u ++ c :: x ++ d :: y) = Some (length (u ++ c :: x))).
  { change (u ++ c :: x ++ d :: y) with (u ++ (c :: x) ++ d :: y). rewrite app_assoc. apply last_app; assumption. }
  rewrite El.
  assert (Eb : byte_at (u ++ c :: x ++ d :: y) (length (u ++ c :: x)) = d).
  { change (u ++ c :: x ++ d :: y) with (u ++ (c :: x) ++ d :: y). rewrite app_assoc. apply byte_at_app. }
  assert (Es : skipn (S (length (u ++ c :: x))) (u ++ c :: x ++ d :: y) = y).
  { change (u ++ c :: x ++ d :: y) with (u ++ (c :: x) ++ d :: y). rewrite app_assoc. apply skipn_app_S. }
  rewrite Eb, Es, byte_at_app, firstn_app_l.
  assert (Hlt : Nat.ltb (length u) (length (u ++ c :: x)) = true).
  { apply Nat.ltb_lt. rewrite app_length. simpl. lia. }
  rewrite Hlt.
  assert (Ex : slice (u ++ c :: x ++ d :: y) (S (length u)) (length (u ++ c :: x)) = x).
  { unfold slice. rewrite skipn_app_S. rewrite app_length. simpl.
    replace (length u + S (length x) - S (length u)) with (length x) by lia. apply firstn_app_l. }
  rewrite Ex. destruct (aeqb d "@"), (aeqb c "@"); reflexivity.
Qed.
