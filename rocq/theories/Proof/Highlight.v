From Verif.Base Require Import Bytes.
From Verif.Model Require Import Words Highlight.
From Verif.Spec Require Import Highlight.
From Coq Require Import NArith Lia.
Open Scope nat_scope.

Lemma prefixb_iff p : forall s, prefixb s p = true <-> exists r, s = p ++ r.
Proof.
  induction p as [|x p IH]; intros s; cbn [prefixb].
  - split; [intros _; exists s; reflexivity|destruct s; reflexivity].
  - destruct s as [|y s]; [split; [discriminate|intros (r & E); discriminate]|].
    rewrite andb_true_iff, N.eqb_eq, IH. split.
    + intros (-> & r & ->). exists r. reflexivity.
    + intros (r & E). injection E as -> ->. split; [reflexivity|exists r; reflexivity].
Qed.

Lemma index_some p : forall s i, index s p = Some i ->
  exists a b, s = a ++ p ++ b /\ length a = i /\ forall a' b', s = a' ++ p ++ b' -> i <= length a'.
Proof.
  induction s as [|c s IH]; intros i; cbn [index]; intros H.
  - destruct (prefixb [] p) eqn:E; [|discriminate]. injection H as <-. apply prefixb_iff in E as (r & E).
    exists [], r. split; [exact E|]. split; [reflexivity|]. intros. apply Nat.le_0_l.
  - destruct (prefixb (c :: s) p) eqn:E.
    + injection H as <-. apply prefixb_iff in E as (r & E). exists [], r. split; [exact E|]. split; [reflexivity|]. intros. apply Nat.le_0_l.
    + destruct (index s p) as [j|] eqn:Ej; [|discriminate]. injection H as <-.
      destruct (IH j eq_refl) as (a & b & -> & Hl & Hm). exists (c :: a), b. split; [reflexivity|]. split; [cbn; lia|].
      intros [|c' a'] b' E'.
      * exfalso. assert (X : prefixb (c :: a ++ p ++ b) p = true) by (apply prefixb_iff; exists b'; exact E'). congruence.
      * injection E' as _ E'. apply Hm in E'. cbn. lia.
Qed.

Lemma index_none p : forall s, index s p = None -> forall a b, s <> a ++ p ++ b.
Proof.
  induction s as [|c s IH]; cbn [index]; intros H a b E.
  - destruct (prefixb [] p) eqn:Ep; [discriminate|]. destruct a as [|x a]; [|discriminate].
    assert (X : prefixb [] p = true) by (apply prefixb_iff; exists b; exact E). congruence.
  - destruct (prefixb (c :: s) p) eqn:Ep; [discriminate|]. destruct (index s p) eqn:Ei; [discriminate|].
    destruct a as [|x a].
    + assert (X : prefixb (c :: s) p = true) by (apply prefixb_iff; exists b; exact E). congruence.
    + injection E as _ E. exact (IH eq_refl a b E).
Qed.

Lemma app_same {A} (a b a' b' : list A) : a ++ b = a' ++ b' -> length a = length a' -> a = a' /\ b = b'.
Proof.
  revert a'. induction a as [|x a IH]; intros [|y a'] E L; try discriminate.
  - split; [reflexivity|exact E].
  - injection E as -> E. cbn in L. destruct (IH a' E ltac:(lia)) as [-> ->]. split; reflexivity.
Qed.

Lemma app_shorter {A} (a b a' b' : list A) : a ++ b = a' ++ b' -> length a <= length a' -> exists m, a' = a ++ m /\ b = m ++ b'.
Proof.
  revert a'. induction a as [|x a IH]; intros a' E L.
  - exists a'. split; [reflexivity|exact E].
  - destruct a' as [|y a']; [cbn in L; lia|]. injection E as -> E. cbn in L. destruct (IH a' E ltac:(lia)) as (m & -> & ->). exists m. split; reflexivity.
Qed.

Lemma last_rune_snoc a c : last_rune (a ++ [c]) = c.
Proof. unfold last_rune. apply last_last. Qed.

Lemma scheme_iff r : scheme_char r = true <-> scheme r.
Proof.
  unfold scheme_char, scheme. rewrite !orb_true_iff, !andb_true_iff, !N.eqb_eq, !N.leb_le. tauto.
Qed.

Lemma scheme_not_space r : scheme r -> is_space r = false.
Proof.
  intros H. apply not_true_iff_false. intros X. unfold is_space in X. apply existsb_exists in X as (y & Hy & X).
  apply N.eqb_eq in X. subst y. unfold scheme in H. cbn [In] in Hy. lia.
Qed.

(** ** Words *)
Lemma from_last_space_app s : forall a, (forall x, In x s -> is_space x = false) ->
  from_last_space (a ++ s) = option_map (fun w => w ++ s) (from_last_space a).
Proof.
  intros a H. induction a as [|c a IH]; cbn [app].
  - cbn [from_last_space option_map]. induction s as [|d s IHs]; [reflexivity|]. cbn [from_last_space].
    rewrite (H d (or_introl eq_refl)). rewrite IHs; [reflexivity|]. intros x Hx. apply H. right. exact Hx.
  - cbn [from_last_space]. rewrite IH. destruct (from_last_space a); [reflexivity|]. cbn [option_map].
    destruct (is_space c); reflexivity.
Qed.

Lemma from_last_space_spec s :
  match from_last_space s with
  | Some w => exists pre c w', w = c :: w' /\ s = pre ++ w /\ is_space c = true /\ forall x, In x w' -> is_space x = false
  | None => forall x, In x s -> is_space x = false
  end.
Proof.
  induction s as [|c s IH]; cbn [from_last_space].
  - intros x [].
  - destruct (from_last_space s) as [w|].
    + destruct IH as (pre & d & w' & -> & -> & Hd & Hw). exists (c :: pre), d, w'. split; [reflexivity|]. split; [reflexivity|]. split; assumption.
    + destruct (is_space c) eqn:Ec.
      * exists [], c, s. split; [reflexivity|]. split; [reflexivity|]. split; assumption.
      * intros x [<-|Hx]; [exact Ec|exact (IH x Hx)].
Qed.

Definition word_part (s : text) : text := match from_last_space s with Some w => w | None => s end.

Lemma css_no_space x : In x css -> is_space x = false.
Proof. intros [<-|[<-|[<-|[]]]]; reflexivity. Qed.

Lemma uri_prefix_sound l : is_uri_prefix l = true -> in_uri is_space l.
Proof.
  unfold is_uri_prefix. pose proof (from_last_space_spec l) as H.
  assert (W : exists pre w, l = pre ++ w /\ (match from_last_space l with Some w => w | None => l end) = w /\ forall c w', w = c :: w' -> forall x, In x w' -> is_space x = false).
  { destruct (from_last_space l) as [w|].
    - destruct H as (pre & c & w' & E & -> & Hc & Hw). exists pre, w. split; [reflexivity|]. split; [reflexivity|].
      intros c0 w0 E0. rewrite E in E0. injection E0 as _ <-. exact Hw.
    - exists [], l. split; [reflexivity|]. split; [reflexivity|]. intros c w' -> x Hx. apply H. right. exact Hx. }
  destruct W as (pre & w & El & -> & Hw). destruct (index w css) as [i|] eqn:Ei; [|discriminate].
  apply index_some in Ei as (a & b & -> & Ha & _). rewrite firstn_app, <- Ha, Nat.sub_diag, firstn_all. cbn [firstn]. rewrite app_nil_r.
  intros Hs. apply scheme_iff in Hs. destruct a as [|x a _] using rev_ind.
  - unfold last_rune in Hs. cbn [last] in Hs. exfalso. revert Hs. unfold scheme, rune_error. lia.
  - rewrite last_rune_snoc in Hs. exists (pre ++ a), x, b. split; [rewrite El, <- !app_assoc; reflexivity|]. split; [exact Hs|].
    intros y Hy. destruct a as [|z a].
    + apply (Hw x (css ++ b) eq_refl). apply in_or_app. right. exact Hy.
    + apply (Hw z ((a ++ [x]) ++ css ++ b)); [rewrite <- !app_assoc; reflexivity|]. apply in_or_app. right. apply in_or_app. right. exact Hy.
Qed.

Lemma uri_prefix_complete l : occurs_once l css -> in_uri is_space l -> is_uri_prefix l = true.
Proof.
  intros Ho (a & c & b & E & Hc & Hb). unfold is_uri_prefix.
  assert (Ht : forall x, In x (c :: css ++ b) -> is_space x = false).
  { intros x [<-|Hx]; [apply scheme_not_space; exact Hc|]. apply in_app_or in Hx as [Hx|Hx]; [apply css_no_space; exact Hx|apply Hb; exact Hx]. }
  change [58; 47; 47]%N with css in E.
  assert (W : exists pre w0, a = pre ++ w0 /\ (match from_last_space l with Some w => w | None => l end) = w0 ++ c :: css ++ b).
  { rewrite E, (from_last_space_app (c :: css ++ b) a Ht). pose proof (from_last_space_spec a) as H. destruct (from_last_space a) as [w|]; cbn [option_map].
    - destruct H as (pre & d & w' & Ew & -> & _). exists pre, w. split; reflexivity.
    - exists [], a. split; reflexivity. }
  destruct W as (pre & w0 & -> & ->). destruct (index (w0 ++ c :: css ++ b) css) as [i|] eqn:Ei.
  2:{ exfalso. apply (index_none _ _ Ei (w0 ++ [c]) b). rewrite <- app_assoc. reflexivity. }
  apply index_some in Ei as (a' & b' & Ea & Hi & _).
  assert (Eq : pre ++ w0 ++ [c] = pre ++ a').
  { apply (Ho _ b _ b'); rewrite E, <- !app_assoc; [reflexivity|]. f_equal. exact Ea. }
  apply app_inv_head in Eq. subst a'. rewrite <- Hi, Ea, firstn_app, Nat.sub_diag, firstn_all. cbn [firstn]. rewrite app_nil_r, last_rune_snoc.
  apply scheme_iff. exact Hc.
Qed.

Section Highlight.
  Variable lon : N -> bool.
  Hypothesis Herr : lon rune_error = false.
  Notation boundary := (boundary lon).
  Notation word_char := (word_char lon).
  Notation isolated := (isolated lon is_space).
  Notation mention := (mention lon is_space).
  Notation no_overlap := (no_overlap lon).

  Lemma boundary_word r : boundary r = negb (word_char r).
  Proof.
    unfold boundary, Spec.Highlight.word_char. cbn [existsb]. rewrite !negb_orb. cbn [negb].
    destruct (N.eqb r 45), (N.eqb r 95), (N.eqb r 124), (lon r); reflexivity.
  Qed.
  Lemma boundary_error : boundary rune_error = true.
  Proof. unfold boundary. rewrite Herr. reflexivity. Qed.

  Lemma last_boundary l : boundary (last_rune l) = true <-> forall a c, l = a ++ [c] -> word_char c = false.
  Proof.
    split.
    - intros H a c ->. rewrite last_rune_snoc, boundary_word in H. apply negb_true_iff. exact H.
    - intros H. destruct l as [|c l _] using rev_ind; [exact boundary_error|]. rewrite last_rune_snoc, boundary_word, (H l c eq_refl). reflexivity.
  Qed.
  Lemma first_boundary r : boundary (first_rune r) = true <-> forall c b, r = c :: b -> word_char c = false.
  Proof.
    split.
    - intros H c b ->. cbn [first_rune hd] in H. rewrite boundary_word in H. apply negb_true_iff. exact H.
    - intros H. destruct r as [|c r]; [exact boundary_error|]. cbn [first_rune hd]. rewrite boundary_word, (H c r eq_refl). reflexivity.
  Qed.

  Lemma in_uri_suffix p l : in_uri is_space l -> in_uri is_space (p ++ l).
  Proof. intros (a & c & b & -> & H). exists (p ++ a), c, b. split; [rewrite <- app_assoc; reflexivity|exact H]. Qed.

  Lemma isolated_suffix p l r : isolated (p ++ l) r -> isolated l r.
  Proof.
    intros (H1 & H2 & H3). split; [|split; [exact H2|]].
    - intros a c ->. apply (H1 (p ++ a) c). rewrite <- app_assoc. reflexivity.
    - intros H. apply H3. apply in_uri_suffix. exact H.
  Qed.

  Lemma check_eq (a b nick : text) : let s := a ++ nick ++ b in
    firstn (length a) s = a /\ skipn (length a + length nick) s = b.
  Proof.
    cbv zeta. split.
    - rewrite firstn_app, Nat.sub_diag, firstn_all. cbn [firstn]. apply app_nil_r.
    - rewrite <- app_length, app_assoc, skipn_app, skipn_all, Nat.sub_diag. reflexivity.
  Qed.

  Lemma loop_complete nick : nick <> [] -> no_overlap nick ->
    forall fuel s, length s < fuel -> mention s nick -> highlight_loop lon fuel s nick = true.
  Proof.
    intros Hne Hno. induction fuel as [|fuel IH]; intros s Hf Hm; [lia|]. cbn [highlight_loop].
    destruct Hm as (l & r & Es & Hiso). destruct (index s nick) as [i|] eqn:Ei.
    2:{ exfalso. exact (index_none _ _ Ei l r Es). }
    apply index_some in Ei as (a & b & Ea & Hi & Hmin). pose proof (Hmin l r Es) as Hle. subst i.
    destruct (check_eq a b nick) as [C1 C2]. cbv zeta in C1, C2. rewrite <- Ea in C1, C2. rewrite C1, C2. clear C1 C2.
    destruct (boundary (last_rune a) && boundary (first_rune b) && negb (is_uri_prefix a)) eqn:Eck; [reflexivity|].
    rewrite Ea in Es. destruct (app_shorter _ _ _ _ Es Hle) as (m & -> & Em).
    destruct m as [|x0 m0] eqn:Hm0.
    - exfalso. cbn [app] in Em. rewrite app_nil_r in *. apply app_inv_head in Em. rewrite Em in Eck.
      destruct Hiso as (H1 & H2 & H3). apply last_boundary in H1. apply first_boundary in H2. rewrite H1, H2 in Eck. cbn [andb] in Eck.
      apply negb_false_iff in Eck. apply H3. apply uri_prefix_sound. exact Eck.
    - rewrite <- Hm0 in *. assert (Hmn : m <> []) by (rewrite Hm0; discriminate). clear x0 m0 Hm0.
      destruct (Nat.le_gt_cases (length nick) (length m)) as [Hlm|Hlm].
      + destruct (app_shorter _ _ _ _ Em Hlm) as (m' & -> & Eb). apply IH.
        * rewrite Ea, !app_length in Hf. destruct nick; [contradiction|]. cbn [length] in Hf. lia.
        * exists m', r. split; [exact Eb|]. apply (isolated_suffix (a ++ nick)). rewrite <- app_assoc. exact Hiso.
      + exfalso. symmetry in Em. destruct (app_shorter _ _ _ _ Em ltac:(lia)) as (y & Ey & Er).
        assert (Hyl : length nick = length m + length y) by (rewrite Ey at 1; apply app_length).
        symmetry in Er. destruct (app_shorter _ _ _ _ Er ltac:(lia)) as (z & Ez & _).
        destruct m as [|c x _] using rev_ind; [contradiction|].
        assert (Hy : y <> []) by (intros ->; cbn in Hyl; lia).
        pose proof (Hno x c y z Ey Hy Ez) as Hw.
        destruct Hiso as (H1 & _). rewrite (H1 (a ++ x) c) in Hw; [discriminate|]. rewrite <- app_assoc. reflexivity.
  Qed.

  Theorem mention_highlight s nick : nick <> [] -> no_overlap nick -> mention s nick -> is_highlight lon s nick = true.
  Proof. intros Hne Hno Hm. apply loop_complete; [exact Hne|exact Hno|apply Nat.lt_succ_diag_r|exact Hm]. Qed.

  (** What a positive answer tells. *)
  Lemma loop_sound nick : nick <> [] -> forall fuel s, highlight_loop lon fuel s nick = true ->
    exists l r, s = l ++ nick ++ r /\ (forall c b, r = c :: b -> word_char c = false) /\
      ((forall a c, l = a ++ [c] -> word_char c = false) \/ exists a, l = a ++ nick).
  Proof.
    intros Hne. induction fuel as [|fuel IH]; intros s; cbn [highlight_loop]; [discriminate|].
    destruct (index s nick) as [i|] eqn:Ei; [|discriminate]. apply index_some in Ei as (a & b & Ea & <- & _).
    destruct (check_eq a b nick) as [C1 C2]. cbv zeta in C1, C2. rewrite <- Ea in C1, C2. rewrite C1, C2.
    destruct (boundary (last_rune a) && boundary (first_rune b) && negb (is_uri_prefix a)) eqn:Eck.
    - intros _. apply andb_true_iff in Eck as [Eck _]. apply andb_true_iff in Eck as [E1 E2].
      exists a, b. split; [exact Ea|]. split; [apply first_boundary; exact E2|left; apply last_boundary; exact E1].
    - intros H. destruct (IH b H) as (l & r & -> & Hr & Hl). exists (a ++ nick ++ l), r.
      split; [rewrite Ea, <- !app_assoc; reflexivity|]. split; [exact Hr|].
      destruct l as [|x l _] using rev_ind.
      + right. exists a. rewrite app_nil_r. reflexivity.
      + destruct Hl as [Hl|(a' & E')].
        * left. intros a0 c0 E0. apply (Hl l c0). rewrite !app_assoc in E0. apply app_inj_tail in E0 as [_ ->]. reflexivity.
        * right. exists (a ++ nick ++ a'). rewrite E', <- !app_assoc. reflexivity.
  Qed.

  (** With one occurrence and at most one "://", the answer is exact. *)
  Theorem single_exact s nick : nick <> [] -> occurs_once s nick -> occurs_once s css ->
    (is_highlight lon s nick = true <-> mention s nick).
  Proof.
    intros Hne Ho Hc. unfold is_highlight. cbn [highlight_loop]. destruct (index s nick) as [i|] eqn:Ei.
    2:{ split; [discriminate|]. intros (l & r & E & _). destruct (index_none _ _ Ei l r E). }
    apply index_some in Ei as (a & b & Ea & <- & _).
    destruct (check_eq a b nick) as [C1 C2]. cbv zeta in C1, C2. rewrite <- Ea in C1, C2. rewrite C1, C2.
    assert (Hrest : highlight_loop lon (length s) b nick = false).
    { destruct (length s) as [|n]; [reflexivity|]. cbn [highlight_loop]. destruct (index b nick) as [j|] eqn:Ej; [|reflexivity].
      exfalso. apply index_some in Ej as (a' & b' & -> & _). assert (E : a = a ++ nick ++ a').
      { apply (Ho _ (a' ++ nick ++ b') _ b'); [exact Ea|]. rewrite Ea, <- !app_assoc. reflexivity. }
      apply (f_equal (@length N)) in E. rewrite !app_length in E. destruct nick; [contradiction|]. cbn [length] in E. lia. }
    assert (Hca : occurs_once a css).
    { intros x y x' y' E E'. apply (Hc x (y ++ nick ++ b) x' (y' ++ nick ++ b)); rewrite Ea; [rewrite E|rewrite E']; rewrite <- !app_assoc; reflexivity. }
    split.
    - destruct (boundary (last_rune a) && boundary (first_rune b) && negb (is_uri_prefix a)) eqn:Eck; [|rewrite Hrest; discriminate].
      intros _. apply andb_true_iff in Eck as [Eck E3]. apply andb_true_iff in Eck as [E1 E2]. exists a, b. split; [exact Ea|].
      split; [apply last_boundary; exact E1|]. split; [apply first_boundary; exact E2|]. intros H.
      rewrite (uri_prefix_complete a Hca H) in E3. discriminate.
    - intros (l & r & E & H1 & H2 & H3). assert (l = a) by (exact (Ho l r a b E Ea)). subst l.
      assert (r = b) by (rewrite Ea in E; apply app_inv_head in E; apply app_inv_head in E; symmetry; exact E). subst r.
      apply last_boundary in H1. apply first_boundary in H2. rewrite H1, H2. cbn [andb].
      destruct (is_uri_prefix a) eqn:Eu; [exfalso; apply H3; apply uri_prefix_sound; exact Eu|reflexivity].
  Qed.
End Highlight.
