From Verif.Base Require Import Bytes.
From Verif.Model Require Import Strip.
From Verif.Spec Require Import Strip.

Lemma code_nat c : code c = N.of_nat (nat_of_ascii c).
Proof. unfold code, nat_of_ascii. rewrite N2Nat.id. reflexivity. Qed.

Lemma is_digit_iff c : is_digit c = true <-> digit c.
Proof.
  unfold is_digit, digit. rewrite code_nat, andb_true_iff, !N.leb_le. lia.
Qed.

Lemma is_hex_iff c : is_hex c = true <-> hex_digit c.
Proof.
  unfold is_hex, hex_digit. rewrite !orb_true_iff, is_digit_iff, code_nat, !andb_true_iff, !N.leb_le. unfold digit. lia.
Qed.

Lemma nat_ascii_inj a b : nat_of_ascii a = nat_of_ascii b -> a = b.
Proof. intros H. rewrite <- (ascii_nat_embedding a), <- (ascii_nat_embedding b), H. reflexivity. Qed.

Lemma toggles_iff c : amem c toggles = true <-> toggle c.
Proof.
  assert (G : Bool.eqb (amem c toggles) (existsb (Nat.eqb (nat_of_ascii c)) [2; 29; 31; 30; 17; 22; 15]) = true).
  { revert c. apply byte_forall. vm_compute. reflexivity. }
  apply Bool.eqb_prop in G. rewrite G. unfold toggle. rewrite existsb_exists. split.
  - intros (x & Hx & E). apply Nat.eqb_eq in E. rewrite E. exact Hx.
  - intros H. exists (nat_of_ascii c). split; [exact H|apply Nat.eqb_refl].
Qed.

Lemma color_iff c : aeqb c color_byte = true <-> nat_of_ascii c = 3.
Proof.
  rewrite aeqb_eq. split; [intros ->; reflexivity|]. intros H. apply nat_ascii_inj. exact H.
Qed.

Lemma hex_iff c : aeqb c hex_color_byte = true <-> nat_of_ascii c = 4.
Proof.
  rewrite aeqb_eq. split; [intros ->; reflexivity|]. intros H. apply nat_ascii_inj. exact H.
Qed.

Lemma comma_digit : is_digit "," = false.
Proof. reflexivity. Qed.

(** Longest colour arguments. *)
Lemma color_number_cases a : color_number a ->
  (exists x, a = [x] /\ is_digit x = true) \/ (exists x y, a = [x; y] /\ is_digit x = true /\ is_digit y = true).
Proof.
  intros [Hl Hd]. destruct a as [|x [|y [|z a]]]; simpl in Hl; try lia.
  - left. exists x. inversion Hd; subst. split; [reflexivity|apply is_digit_iff; assumption].
  - right. exists x, y. inversion Hd as [|? ? D1 D2]; subst. inversion D2; subst.
    split; [reflexivity|]. split; apply is_digit_iff; assumption.
Qed.

Lemma color_number_1 x : is_digit x = true -> color_number [x].
Proof. intros H. split; [left; reflexivity|]. constructor; [apply is_digit_iff; exact H|constructor]. Qed.

Lemma color_number_2 x y : is_digit x = true -> is_digit y = true -> color_number [x; y].
Proof.
  intros H1 H2. split; [right; reflexivity|].
  constructor; [apply is_digit_iff; exact H1|]. constructor; [apply is_digit_iff; exact H2|constructor].
Qed.

Definition color_args_b (a : bytes) : bool :=
  match a with
  | [] => true
  | [x] => is_digit x
  | [x; y] => is_digit x && is_digit y
  | [x; c; z] => is_digit x && aeqb c "," && is_digit z
  | [x; y; c; z] => (is_digit x && is_digit y && aeqb c "," && is_digit z) || (is_digit x && aeqb y "," && is_digit c && is_digit z)
  | [x; y; c; z; w] => is_digit x && is_digit y && aeqb c "," && is_digit z && is_digit w
  | _ => false
  end.

Lemma color_args_iff a : color_args color_number a <-> color_args_b a = true.
Proof.
  split.
  - intros [->|[H|(f & g & Hf & Hg & ->)]]; [reflexivity| |].
    + apply color_number_cases in H as [(x & -> & H)|(x & y & -> & H1 & H2)]; simpl; [exact H|rewrite H1, H2; reflexivity].
    + apply color_number_cases in Hf as [(x & -> & H)|(x & y & -> & H1 & H2)];
        apply color_number_cases in Hg as [(z & -> & G)|(z & w & -> & G1 & G2)]; simpl.
      * rewrite H, G. reflexivity.
      * rewrite H, G1, G2. simpl. rewrite ?orb_true_r; reflexivity.
      * rewrite H1, H2, G. reflexivity.
      * rewrite H1, H2, G1, G2. reflexivity.
  - intros H. destruct a as [|x [|y [|c [|z [|w [|v a]]]]]]; simpl in H; try discriminate.
    + left; reflexivity.
    + right; left. apply color_number_1; exact H.
    + apply andb_true_iff in H as [H1 H2]. right; left. apply color_number_2; assumption.
    + rewrite !andb_true_iff, aeqb_eq in H. destruct H as [[H1 ->] H2]. right; right.
      exists [x], [c]. split; [apply color_number_1; exact H1|]. split; [apply color_number_1; exact H2|reflexivity].
    + rewrite orb_true_iff, !andb_true_iff, !aeqb_eq in H. right; right.
      destruct H as [[[[H1 H2] ->] H3]|[[[H1 ->] H2] H3]].
      * exists [x; y], [z]. split; [apply color_number_2; assumption|]. split; [apply color_number_1; exact H3|reflexivity].
      * exists [x], [c; z]. split; [apply color_number_1; exact H1|]. split; [apply color_number_2; assumption|reflexivity].
    + rewrite !andb_true_iff, aeqb_eq in H. destruct H as [[[[H1 H2] ->] H3] H4]. right; right.
      exists [x; y], [z; w]. split; [apply color_number_2; assumption|]. split; [apply color_number_2; assumption|reflexivity].
Qed.

Lemma prefix_firstn {A} (a r s : list A) : s = a ++ r -> a = firstn (length a) s.
Proof. intros ->. rewrite firstn_app, Nat.sub_diag, firstn_all. simpl. rewrite app_nil_r. reflexivity. Qed.

Lemma longest_intro (P : bytes -> Prop) n s :
  n <= length s -> P (firstn n s) ->
  (forall m, n < m <= length s -> ~ P (firstn m s)) ->
  longest P (firstn n s) (skipn n s).
Proof.
  intros Hn H1 H2. split; [exact H1|]. rewrite firstn_skipn. intros a r E Pa.
  rewrite firstn_length. destruct (le_lt_dec (length a) n) as [Hle|Hlt].
  - apply (f_equal (@length ascii)) in E. rewrite app_length in E. lia.
  - exfalso. apply (H2 (length a)).
    + split; [exact Hlt|]. rewrite E, app_length. lia.
    + rewrite <- (prefix_firstn a r s E). exact Pa.
Qed.

Lemma color_args_b_long a : 5 < length a -> color_args_b a = false.
Proof. destruct a as [|? [|? [|? [|? [|? [|? ?]]]]]]; simpl; intros; try lia; reflexivity. Qed.

Ltac fin :=
  cbn -[is_digit aeqb];
  repeat match goal with
    | H : is_digit ?x = _ |- context [is_digit ?x] => rewrite H
    | H : aeqb ?x ?y = _ |- context [aeqb ?x ?y] => rewrite H
    end;
  change (aeqb "," ",") with true; change (is_digit ",") with false;
  rewrite ?andb_false_r, ?andb_true_r; cbn; rewrite ?andb_false_r; reflexivity.

Lemma color_longest s :
  color_len s <= length s /\
  longest (color_args color_number) (firstn (color_len s) s) (skipn (color_len s) s).
Proof.
  assert (G : color_len s <= length s /\ color_args_b (firstn (color_len s) s) = true /\
    forall m, color_len s < m -> m <= 5 -> m <= length s -> color_args_b (firstn m s) = false).
  { unfold color_len, digit_at, comma_at.
    destruct s as [|x s]; [cbn; split; [lia|split; [reflexivity|intros; lia]]|]. cbn [nth_error].
    destruct (is_digit x) eqn:Dx.
    2:{ split; [lia|]. split; [reflexivity|]. intros m H1 H2 H3.
        destruct m as [|[|[|[|[|[|m]]]]]]; try lia;
        destruct s as [|y [|z [|w [|v s]]]]; cbn [length] in H3; try lia;
        cbn [firstn color_args_b]; rewrite Dx; reflexivity. }
    destruct s as [|y s].
    { cbn [nth_error plus]. cbn. split; [lia|]. split; [exact Dx|]. intros; lia. }
    cbn [nth_error]. destruct (is_digit y) eqn:Dy; cbn [plus nth_error].
    - destruct s as [|z s]; [cbn; rewrite Dx, Dy; split; [lia|split; [reflexivity|intros; lia]]|].
      assert (Ny : aeqb y "," = false) by (apply aeqb_neq; intros ->; discriminate).
      destruct (aeqb z ",") eqn:Cz; cbn [andb].
      + apply aeqb_eq in Cz. subst z.
        destruct s as [|w s].
        { cbn. rewrite Dx, Dy. split; [lia|]. split; [reflexivity|].
          intros m H1 H2 H3. destruct m as [|[|[|[|m]]]]; try lia. fin. }
        destruct (is_digit w) eqn:Dw.
        * destruct s as [|v s].
          { cbn. rewrite Dx, Dy, Dw. split; [lia|]. split; [reflexivity|]. intros; lia. }
          destruct (is_digit v) eqn:Dv.
          -- cbn. rewrite Dx, Dy, Dw, Dv. split; [lia|]. split; [reflexivity|]. intros; lia.
          -- cbn [firstn color_args_b length]. rewrite Dx, Dy, Dw. cbn. split; [lia|]. split; [reflexivity|].
             intros m H1 H2 H3. destruct m as [|[|[|[|[|[|m]]]]]]; try lia. fin.
        * cbn [firstn color_args_b length]. rewrite Dx, Dy. split; [lia|]. split; [reflexivity|].
          intros m H1 H2 H3. destruct m as [|[|[|[|[|[|m]]]]]]; try lia.
          -- fin.
          -- fin.
          -- destruct s as [|v s]; [cbn in H3; lia|]. fin.
      + cbn [firstn color_args_b length]. rewrite Dx, Dy. split; [lia|]. split; [reflexivity|].
        intros m H1 H2 H3. destruct m as [|[|[|[|[|[|m]]]]]]; try lia.
        * fin.
        * destruct s as [|w s]; [cbn in H3; lia|]. fin.
        * destruct s as [|w [|v s]]; try (cbn in H3; lia). fin.
    - destruct (aeqb y ",") eqn:Cy; cbn [andb].
      + apply aeqb_eq in Cy. subst y. destruct s as [|z s].
        { cbn. rewrite Dx. split; [lia|]. split; [reflexivity|]. intros m H1 H2 H3. destruct m as [|[|[|m]]]; try lia.
          fin. }
        destruct (is_digit z) eqn:Dz.
        * destruct s as [|w s].
          { cbn. rewrite Dx, Dz. split; [lia|]. split; [reflexivity|]. intros; lia. }
          destruct (is_digit w) eqn:Dw.
          -- cbn. rewrite Dx, Dz, Dw. split; [lia|]. split; [reflexivity|].
             intros m H1 H2 H3. destruct m as [|[|[|[|[|[|m]]]]]]; try lia.
             destruct s as [|v s]; [cbn in H3; lia|]. fin.
          -- cbn [firstn color_args_b length]. rewrite Dx, Dz. cbn. split; [lia|]. split; [reflexivity|].
             intros m H1 H2 H3. destruct m as [|[|[|[|[|[|m]]]]]]; try lia.
             ++ fin.
             ++ destruct s as [|v s]; [cbn in H3; lia|]. fin.
        * cbn [firstn color_args_b length]. rewrite Dx. split; [lia|]. split; [reflexivity|].
          intros m H1 H2 H3. destruct m as [|[|[|[|[|[|m]]]]]]; try lia.
          -- fin.
          -- fin.
          -- destruct s as [|w s]; [cbn in H3; lia|]. fin.
          -- destruct s as [|w [|v s]]; try (cbn in H3; lia). fin.
      + cbn [firstn color_args_b length]. rewrite Dx. split; [lia|]. split; [reflexivity|].
        intros m H1 H2 H3. destruct m as [|[|[|[|[|[|m]]]]]]; try lia;
        destruct s as [|z [|w [|v s]]]; cbn in H3; try lia; fin. }
  destruct G as (G1 & G2 & G3). split; [exact G1|]. apply longest_intro; [exact G1|apply color_args_iff; exact G2|].
  intros m [H1 H2] H. apply color_args_iff in H. destruct (le_lt_dec m 5) as [H5|H5].
  - rewrite G3 in H by lia. discriminate.
  - rewrite color_args_b_long in H; [discriminate|]. rewrite firstn_length. lia.
Qed.

(** Longest hexadecimal arguments. *)
Lemma starts_hex_iff s : starts_hex s = true <-> 6 <= length s /\ hex_number (firstn 6 s).
Proof.
  unfold starts_hex, hex_number. destruct (Nat.ltb_spec (length s) 6).
  - split; [discriminate|lia].
  - rewrite forallb_forall, Forall_forall, firstn_length, Nat.min_l by lia.
    split.
    + intros Hf. split; [lia|]. split; [reflexivity|]. intros x Hx. apply is_hex_iff. apply Hf. exact Hx.
    + intros (_ & _ & Hf) x Hx. apply is_hex_iff. apply Hf. exact Hx.
Qed.

Lemma firstn_add {A} n m (s : list A) : firstn (n + m) s = firstn n s ++ firstn m (skipn n s).
Proof.
  revert s; induction n as [|n IH]; intros s; [reflexivity|]. destruct s as [|x s]; simpl; [rewrite firstn_nil; reflexivity|].
  rewrite IH. reflexivity.
Qed.

Lemma nth_error_skipn_hd {A} n (s : list A) c : nth_error s n = Some c -> skipn n s = c :: skipn (S n) s.
Proof.
  revert s; induction n as [|n IH]; intros s H; destruct s as [|x s]; simpl in *; try discriminate.
  - congruence.
  - apply IH. exact H.
Qed.

Lemma hex_longest s :
  hex_len s <= length s /\
  longest (color_args hex_number) (firstn (hex_len s) s) (skipn (hex_len s) s).
Proof.
  assert (L : forall a, color_args hex_number a -> length a = 0 \/ length a = 6 \/ length a = 13).
  { intros a [->|[[H _]|(f & g & [Hf _] & [Hg _] & ->)]]; [left; reflexivity|right; left; exact H|].
    right; right. rewrite !app_length. cbn [length B list_ascii_of_string]. lia. }
  assert (L6 : forall a, color_args hex_number a -> 6 <= length a -> hex_number (firstn 6 a)).
  { intros a [->|[H|(f & g & Hf & Hg & ->)]] H6; [simpl in H6; lia| |].
    - destruct H as [H1 H2]. rewrite firstn_all2 by lia. split; assumption.
    - rewrite firstn_app. destruct Hf as [F1 F2]. rewrite F1, Nat.sub_diag, firstn_O, app_nil_r.
      rewrite firstn_all2 by lia. split; assumption. }
  assert (L13 : forall a, color_args hex_number a -> length a = 13 -> exists f g, a = f ++ B "," ++ g /\ hex_number f /\ hex_number g).
  { intros a [->|[[H _]|(f & g & Hf & Hg & ->)]] H13; [simpl in H13; lia|lia|]. exists f, g. split; [reflexivity|split; assumption]. }
  unfold hex_len. destruct (starts_hex s) eqn:E1.
  - pose proof (proj1 (starts_hex_iff s) E1) as [N1 H1].
    destruct (comma_at s 6 && starts_hex (skipn 7 s)) eqn:E2.
    + apply andb_true_iff in E2 as [E2 E3]. apply starts_hex_iff in E3 as [N3 H3].
      rewrite skipn_length in N3. split; [lia|].
      apply longest_intro; [lia| |].
      * right; right. exists (firstn 6 s), (firstn 6 (skipn 7 s)). split; [exact H1|]. split; [exact H3|].
        change 13 with (6 + (1 + 6)). rewrite firstn_add. f_equal.
        unfold comma_at in E2. destruct (nth_error s 6) as [c|] eqn:En; [|discriminate]. apply aeqb_eq in E2. subst c.
        rewrite (nth_error_skipn_hd 6 s _ En). reflexivity.
      * intros m [Hm1 Hm2] Hc. apply L in Hc. rewrite firstn_length in Hc. lia.
    + split; [lia|]. apply longest_intro; [lia|right; left; exact H1|].
      intros m [Hm1 Hm2] Hc. pose proof (L _ Hc) as Hl. rewrite firstn_length in Hl.
      assert (m = 13) by lia. subst m.
      destruct (L13 _ Hc ltac:(rewrite firstn_length; lia)) as (f & g & Ea & Hf & Hg).
      apply andb_false_iff in E2.
      assert (Es : s = f ++ B "," ++ g ++ skipn 13 s).
      { rewrite <- (firstn_skipn 13 s) at 1. rewrite Ea. rewrite <- !app_assoc. reflexivity. }
      destruct Hf as [F1 F2]. destruct E2 as [E2|E2].
      * unfold comma_at in E2. rewrite Es in E2. rewrite nth_error_app2 in E2 by lia.
        rewrite F1 in E2. simpl in E2. discriminate.
      * assert (starts_hex (skipn 7 s) = true); [|congruence]. apply starts_hex_iff.
        assert (E7 : skipn 7 s = g ++ skipn 13 s).
        { rewrite Es at 1. change (f ++ B "," ++ g ++ skipn 13 s) with (f ++ ([","%char] ++ (g ++ skipn 13 s))).
          rewrite app_assoc. rewrite skipn_app. rewrite skipn_all2 by (rewrite app_length; simpl; lia).
          rewrite app_length, F1. reflexivity. }
        rewrite E7. destruct Hg as [G1 G2]. split; [rewrite app_length; lia|].
        rewrite firstn_app, G1, Nat.sub_diag, firstn_O, app_nil_r. rewrite firstn_all2 by lia. split; [exact G1|exact G2].
  - split; [lia|]. apply longest_intro; [lia|left; reflexivity|].
    intros m [Hm1 Hm2] Hc. pose proof (L _ Hc) as Hl. rewrite firstn_length in Hl.
    assert (Hlen : length (firstn m s) = m) by (rewrite firstn_length; lia).
    pose proof (L6 _ Hc ltac:(lia)) as H6. rewrite firstn_firstn in H6. rewrite Nat.min_l in H6 by lia.
    assert (starts_hex s = true); [|congruence]. apply starts_hex_iff. split; [lia|exact H6].
Qed.

Lemma strip_loop_skip n s : n <= length s -> strip_loop n s = strip_loop 0 (skipn n s).
Proof.
  revert n; induction s as [|c s IH]; intros n Hn; [destruct n; reflexivity|].
  destruct n as [|n]; [reflexivity|]. cbn [strip_loop skipn]. apply IH. simpl in Hn. lia.
Qed.

Lemma strip_loop_formatted s : formatted s (strip_loop 0 s).
Proof.
  assert (G : forall n s, length s <= n -> formatted s (strip_loop 0 s)).
  { clear s. induction n as [|n IH]; intros s Hn.
    - destruct s; [constructor|simpl in Hn; lia].
    - destruct s as [|c s]; [constructor|]. simpl in Hn. cbn [strip_loop].
      destruct (amem c toggles) eqn:Et; [apply fmt_toggle; [apply toggles_iff; exact Et|apply IH; lia]|].
      destruct (aeqb c color_byte) eqn:Ec.
      { apply aeqb_eq in Ec. subst c. destruct (color_longest s) as [H1 H2].
        rewrite strip_loop_skip by exact H1. rewrite <- (firstn_skipn (color_len s) s) at 1.
        change color_byte with (ascii_of_nat 3). apply fmt_color; [exact H2|]. apply IH. rewrite skipn_length. lia. }
      destruct (aeqb c hex_color_byte) eqn:Eh.
      { apply aeqb_eq in Eh. subst c. destruct (hex_longest s) as [H1 H2].
        rewrite strip_loop_skip by exact H1. rewrite <- (firstn_skipn (hex_len s) s) at 1.
        change hex_color_byte with (ascii_of_nat 4). apply fmt_hex; [exact H2|]. apply IH. rewrite skipn_length. lia. }
      apply fmt_plain; [| | |apply IH; lia].
      + intros H. apply toggles_iff in H. congruence.
      + intros H. apply color_iff in H. congruence.
      + intros H. apply hex_iff in H. congruence. }
  apply (G (length s)). lia.
Qed.

Lemma formatted_plain s : (forall c, In c s -> ~ formatting c) -> formatted s s.
Proof.
  induction s as [|c s IH]; intros H; constructor.
  - intros Ht. apply (H c); [left; reflexivity|left; exact Ht].
  - intros Ht. apply (H c); [left; reflexivity|right; left; exact Ht].
  - intros Ht. apply (H c); [left; reflexivity|right; right; exact Ht].
  - apply IH. intros x Hx. apply H. right; exact Hx.
Qed.

Lemma formatting_b c : amem c (toggles ++ [color_byte; hex_color_byte]) = true <-> formatting c.
Proof.
  unfold formatting. rewrite <- toggles_iff, <- color_iff, <- hex_iff, !amem_In, in_app_iff. simpl.
  rewrite !aeqb_eq. intuition.
Qed.

Lemma strip_formatted s : formatted s (strip_ansi s).
Proof.
  unfold strip_ansi. destruct (existsb _ s) eqn:E; [apply strip_loop_formatted|].
  apply formatted_plain. intros c Hc Hf.
  assert (existsb (fun c => amem c (toggles ++ [color_byte; hex_color_byte])) s = true); [|congruence].
  apply existsb_exists. exists c. split; [exact Hc|]. apply formatting_b. exact Hf.
Qed.

Lemma formatted_no_formatting s t : formatted s t -> forall c, In c t -> ~ formatting c.
Proof.
  induction 1 as [|c s t H1 H2 H3 _ IH|c s t _ _ IH|a s t _ _ IH|a s t _ _ IH]; intros x Hx;
    try (apply IH; exact Hx).
  - destruct Hx.
  - destruct Hx as [<-|Hx]; [intros [H|[H|H]]; auto|apply IH; exact Hx].
Qed.

Lemma subseq_skipn {A} (a : list A) l l' : subseq l l' -> subseq l (a ++ l').
Proof. intros H. induction a as [|x a IH]; simpl; [exact H|constructor; exact IH]. Qed.

Lemma formatted_subseq s t : formatted s t -> subseq t s.
Proof.
  induction 1 as [|c s t H1 H2 H3 _ IH|c s t _ _ IH|a s t _ _ IH|a s t _ _ IH].
  - constructor.
  - apply sub_take; exact IH.
  - apply sub_skip; exact IH.
  - apply sub_skip. apply subseq_skipn. exact IH.
  - apply sub_skip. apply subseq_skipn. exact IH.
Qed.

Lemma strip_plain s : (forall c, In c s -> ~ formatting c) -> strip_ansi s = s.
Proof.
  intros H. unfold strip_ansi. destruct (existsb _ s) eqn:E; [|reflexivity].
  apply existsb_exists in E as (c & Hc & Hf). apply formatting_b in Hf. exfalso. exact (H c Hc Hf).
Qed.

(** The specification determines the result. *)
Lemma longest_unique P a1 s1 a2 s2 : a1 ++ s1 = a2 ++ s2 -> longest P a1 s1 -> longest P a2 s2 -> a1 = a2 /\ s1 = s2.
Proof.
  intros E [P1 M1] [P2 M2].
  assert (length a1 = length a2).
  { apply Nat.le_antisymm; [eapply M2; [symmetry; exact E|exact P1]|eapply M1; [exact E|exact P2]]. }
  clear P1 M1 P2 M2. revert a2 E H. revert s1. induction a1 as [|x a1 IH]; intros s1 [|y a2] E H; simpl in *; try discriminate; [auto|].
  injection E as -> E. injection H as H. destruct (IH s1 a2 E H) as [-> ->]. auto.
Qed.

Lemma formatted_functional s t : formatted s t -> forall t', formatted s t' -> t = t'.
Proof.
  assert (T3 : ~ toggle (ascii_of_nat 3)) by (unfold toggle; simpl; intuition discriminate).
  assert (T4 : ~ toggle (ascii_of_nat 4)) by (unfold toggle; simpl; intuition discriminate).
  induction 1 as [|c s t H1 H2 H3 _ IH|c s t H1 _ IH|a s t H1 _ IH|a s t H1 _ IH]; intros t' H'.
  - inversion H'. reflexivity.
  - inversion H' as [|? ? ? ? ? ? ?|? ? ? ? ?|a' ? ? ? ?|a' ? ? ? ?]; subst.
    + f_equal. apply IH. assumption.
    + contradiction.
    + exfalso. apply H2. reflexivity.
    + exfalso. apply H3. reflexivity.
  - inversion H' as [|? ? ? ? ? ? ?|? ? ? ? ?|a' ? ? ? ?|a' ? ? ? ?]; subst; try contradiction.
    apply IH. assumption.
  - inversion H' as [|? ? ? N1 N2 N3 ?|? ? ? T ?|a' s' ? L' F' Ea|a' s' ? L' F' Ea]; subst.
    + exfalso. apply N2. reflexivity.
    + contradiction.
    + destruct (longest_unique _ _ _ _ _ Ea L' H1) as [-> ->]. apply IH. exact F'.
  - inversion H' as [|? ? ? N1 N2 N3 ?|? ? ? T ?|a' s' ? L' F' Ea|a' s' ? L' F' Ea]; subst.
    + exfalso. apply N3. reflexivity.
    + contradiction.
    + destruct (longest_unique _ _ _ _ _ Ea L' H1) as [-> ->]. apply IH. exact F'.
Qed.
