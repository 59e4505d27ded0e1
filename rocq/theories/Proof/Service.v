(** Proofs about the bouncer service. *)
From Verif.Base Require Import Bytes.
From Verif.Model Require Import Service.
From Verif.Spec Require Import Service.
From Coq Require Import ZArith Lia.
Open Scope nat_scope.

(** ** Resolution *)

Lemma scan_some l w c0 r : scan l w (Some c0) = r ->
  (r = inl c0 /\ forall k c, In (k, c) l -> has_prefix k w = false) \/
  (r = inr (Ambiguous w) /\ exists k c, In (k, c) l /\ has_prefix k w = true).
Proof.
  intros <-. induction l as [|[k c] l IH]; cbn [scan].
  - left. split; [reflexivity|]. intros k c [].
  - destruct (has_prefix k w) eqn:E.
    + right. split; [reflexivity|]. exists k, c. split; [left; reflexivity|exact E].
    + destruct IH as [[H1 H2]|[H1 [k' [c' [H2 H3]]]]].
      * left. split; [exact H1|]. intros k' c' [H|H]; [injection H as <- <-; exact E|exact (H2 k' c' H)].
      * right. split; [exact H1|]. exists k', c'. split; [right; exact H2|exact H3].
Qed.

(** The three outcomes of the search for a prefix. *)
Lemma scan_none l w : NoDup (map fst l) ->
  (exists k c, scan l w None = inl c /\ In (k, c) l /\ has_prefix k w = true /\
     forall k' c', In (k', c') l -> has_prefix k' w = true -> k' = k) \/
  (scan l w None = inr (Ambiguous w) /\ exists k c k' c', In (k, c) l /\ In (k', c') l /\
     has_prefix k w = true /\ has_prefix k' w = true /\ k <> k') \/
  (scan l w None = inr (NotFound w) /\ forall k c, In (k, c) l -> has_prefix k w = false).
Proof.
  induction l as [|[k c] l IH]; intros Hn; cbn [scan].
  - right; right. split; [reflexivity|]. intros k c [].
  - cbn [map] in Hn. apply NoDup_cons_iff in Hn as [Hk Hn]. cbn [fst] in Hk.
    destruct (has_prefix k w) eqn:E.
    + destruct (scan_some l w c _ eq_refl) as [[H1 H2]|[H1 [k' [c' [H2 H3]]]]].
      * left. exists k, c. split; [exact H1|]. split; [left; reflexivity|]. split; [exact E|].
        intros k' c' [H|H] Hp; [injection H as <- <-; reflexivity|]. rewrite (H2 k' c' H) in Hp. discriminate.
      * right; left. split; [exact H1|]. exists k, c, k', c'.
        split; [left; reflexivity|]. split; [right; exact H2|]. split; [exact E|]. split; [exact H3|].
        intros ->. apply Hk. apply in_map_iff. exists (k', c'). split; [reflexivity|exact H2].
    + destruct (IH Hn) as [[k' [c' [H1 [H2 [H3 H4]]]]]|[[H1 [k1 [c1 [k2 [c2 [H2 [H3 [H4 [H5 H6]]]]]]]]]|[H1 H2]]].
      * left. exists k', c'. split; [exact H1|]. split; [right; exact H2|]. split; [exact H3|].
        intros k2 c2 [H|H] Hp; [injection H as <- <-; congruence|exact (H4 k2 c2 H Hp)].
      * right; left. split; [exact H1|]. exists k1, c1, k2, c2.
        split; [right; exact H2|]. split; [right; exact H3|]. split; [exact H4|]. split; [exact H5|exact H6].
      * right; right. split; [exact H1|]. intros k' c' [H|H]; [injection H as <- <-; exact E|exact (H2 k' c' H)].
Qed.

Lemma nodup_key l (k : bytes) (c c' : command) : NoDup (map fst l) -> In (k, c) l -> In (k, c') l -> c = c'.
Proof.
  induction l as [|[k0 c0] l IH]; intros Hn H1 H2; [destruct H1|].
  cbn [map fst] in Hn. apply NoDup_cons_iff in Hn as [Hk Hn].
  assert (Hno : forall x, In (k0, x) l -> False).
  { intros x Hx. apply Hk. apply in_map_iff. exists (k0, x). split; [reflexivity|exact Hx]. }
  destruct H1 as [H1|H1], H2 as [H2|H2].
  - congruence.
  - injection H1 as -> ->. destruct (Hno _ H2).
  - injection H2 as -> ->. destruct (Hno _ H1).
  - exact (IH Hn H1 H2).
Qed.

Lemma find_key_some l w p : find (fun p : bytes * command => beqb (fst p) w) l = Some p -> In (w, snd p) l.
Proof.
  intros H. apply find_some in H as [H1 H2]. apply beqb_eq in H2. destruct p as [k c]. cbn [fst snd] in *. subst. exact H1.
Qed.

Lemma find_key_none l w : find (fun p : bytes * command => beqb (fst p) w) l = None -> forall c, ~ In (w, c) l.
Proof.
  intros H c Hin. apply (find_none _ _ H) in Hin. cbn [fst] in Hin. rewrite beqb_refl in Hin. discriminate.
Qed.

Lemma pick_selects l w c : NoDup (map fst l) -> (pick l w = inl c <-> selects l w c).
Proof.
  intros Hn. unfold pick. destruct (find (fun p => beqb (fst p) w) l) as [p|] eqn:Ef.
  - pose proof (find_key_some _ _ _ Ef) as Hin. split.
    + intros H. injection H as <-. exact (sel_full _ _ _ Hin).
    + intros H. destruct H as [c Hc|k c t Hno _ _ _]; [|destruct (Hno _ Hin)].
      f_equal. exact (nodup_key _ _ _ _ Hn Hin Hc).
  - pose proof (find_key_none _ _ Ef) as Hno.
    destruct (scan_none l w Hn) as [[k' [c' [H1 [H2 [H3 H4]]]]]|[[H1 [k1 [c1 [k2 [c2 [H2 [H3 [H4 [H5 H6]]]]]]]]]|[H1 H2]]];
      rewrite H1; split; intros H; try discriminate.
    + injection H as <-. apply has_prefix_iff in H3 as [t Ht].
      apply (sel_short _ _ k' _ t Hno H2 Ht).
      intros k2 c2 t2 Hin E. apply (H4 k2 c2 Hin). apply has_prefix_iff. exists t2. exact E.
    + f_equal. destruct H as [c Hc|k c t _ Hin E Hu]; [destruct (Hno _ Hc)|].
      assert (k' = k).
      { apply has_prefix_iff in H3 as [t' Ht']. exact (Hu _ _ _ H2 Ht'). }
      subst k'. exact (nodup_key _ _ _ _ Hn H2 Hin).
    + destruct H as [c Hc|k c t _ Hin E Hu]; [destruct (Hno _ Hc)|].
      apply has_prefix_iff in H4 as [t1 E1]. apply has_prefix_iff in H5 as [t2 E2].
      destruct (H6 (eq_trans (Hu _ _ _ H2 E1) (eq_sym (Hu _ _ _ H3 E2)))).
    + destruct H as [c Hc|k c t _ Hin E Hu]; [destruct (Hno _ Hc)|].
      assert (has_prefix k w = true) by (apply has_prefix_iff; exists t; exact E).
      rewrite (H2 _ _ Hin) in H. discriminate.
Qed.

Lemma pick_in l w c : pick l w = inl c -> exists k, In (k, c) l.
Proof.
  unfold pick. destruct (find (fun p => beqb (fst p) w) l) as [p|] eqn:Ef; intros H.
  - injection H as <-. exists w. exact (find_key_some _ _ _ Ef).
  - clear Ef. assert (Hg : forall acc, scan l w acc = inl c -> acc = Some c \/ exists k, In (k, c) l).
    { clear H. induction l as [|[k0 c0] l IH]; intros acc; cbn [scan].
      - destruct acc; intros H; [injection H as ->; left; reflexivity|discriminate].
      - destruct (has_prefix k0 w).
        + destruct acc; intros H; [discriminate|]. destruct (IH _ H) as [H'|[k Hk]].
          * injection H' as ->. right. exists k0. left. reflexivity.
          * right. exists k. right. exact Hk.
        + intros H. destruct (IH _ H) as [H'|[k Hk]]; [left; exact H'|right; exists k; right; exact Hk]. }
    destruct (Hg _ H) as [H'|H']; [discriminate|exact H'].
Qed.

Lemma get_resolves words : forall cmds c rest, distinct cmds ->
  (get cmds words = inl (c, rest) <-> resolves cmds words c rest).
Proof.
  induction words as [|w words IH]; intros cmds c rest Hd; cbn [get].
  - split; [discriminate|]. intros H. inversion H.
  - assert (Hn : NoDup (map fst cmds)) by (inversion Hd; assumption).
    destruct (pick cmds w) as [c0|e] eqn:Ep.
    + pose proof Ep as Hs. apply (pick_selects _ _ _ Hn) in Hs.
      assert (Hu : forall c1, selects cmds w c1 -> c1 = c0).
      { intros c1 H. apply (pick_selects _ _ _ Hn) in H. congruence. }
      assert (Hd0 : distinct (c_children c0)).
      { destruct (pick_in _ _ _ Ep) as [k Hk]. inversion Hd as [x _ Hsub Ex]; subst. exact (Hsub _ _ Hk). }
      destruct words as [|w' words].
      * split.
        { intros H. injection H as <- <-. apply res_here; [exact Hs|left; reflexivity]. }
        { intros H. inversion H as [a b c1 d H1 H2 E1 E2|a b c1 d e f H1 H2 H3 H4 E1 E2]; subst.
          - rewrite (Hu _ H1). reflexivity.
          - destruct (H2 eq_refl). }
      * destruct (c_children c0) as [|ch0 ch] eqn:Ech.
        { split.
          - intros H. injection H as <- <-. apply res_here; [exact Hs|right; exact Ech].
          - intros H. inversion H as [a b c1 d H1 H2 E1 E2|a b c1 d e f H1 H2 H3 H4 E1 E2]; subst.
            + rewrite (Hu _ H1). reflexivity.
            + rewrite (Hu _ H1), Ech in H3. destruct (H3 eq_refl). }
        { rewrite (IH (ch0 :: ch) c rest Hd0). split.
          - intros H. apply (res_below _ _ c0 _ _ _ Hs); [discriminate|rewrite Ech; discriminate|rewrite Ech; exact H].
          - intros H. inversion H as [a b c1 d H1 H2 E1 E2|a b c1 d e f H1 H2 H3 H4 E1 E2]; subst.
            + pose proof (Hu _ H1) as E. destruct H2 as [H2|H2]; [discriminate|].
              rewrite E, Ech in H2. discriminate.
            + rewrite (Hu _ H1), Ech in H4. exact H4. }
    + split; [discriminate|]. intros H. inversion H as [a b c1 d H1 H2 E1 E2|a b c1 d e' f H1 H2 H3 H4 E1 E2]; subst;
        apply (pick_selects _ _ _ Hn) in H1; congruence.
Qed.

Lemma service_distinct : distinct service_commands.
Proof.
  assert (He : distinct []) by (apply Distinct; [constructor|intros k c []]).
  assert (Hnd : forall l : list (bytes * command),
    (fix nd (l : list bytes) := match l with [] => true | x :: l => negb (bmem x l) && nd l end) (map fst l) = true -> NoDup (map fst l)).
  { intros l. induction (map fst l) as [|x m IH]; intros H; [constructor|].
    apply andb_true_iff in H as [H1 H2]. apply negb_true_iff, bmem_nIn in H1. constructor; [exact H1|exact (IH H2)]. }
  apply Distinct; [apply Hnd; vm_compute; reflexivity|].
  intros k c H. cbn [service_commands In] in H.
  repeat destruct H as [H|H]; try (injection H as <- <-); try destruct H;
    cbn [leaf group locals c_children]; try exact He;
    (apply Distinct; [apply Hnd; vm_compute; reflexivity|]);
    intros k c H; cbn [map In] in H;
    repeat destruct H as [H|H]; try (injection H as <- <-); try destruct H; exact He.
Qed.

(** *** The order of the sets *)

Lemma same_children c c' : same_command c c' -> same_set (c_children c) (c_children c') /\
  c_admin c = c_admin c' /\ c_global c = c_global c' /\ c_handle c = c_handle c'.
Proof.
  intros H. inversion H as [a g h ch ch' H1 H2]; subst. cbn [c_children c_admin c_global c_handle].
  split; [constructor; assumption|]. split; [reflexivity|]. split; reflexivity.
Qed.

Lemma same_set_nil x : same_set [] x -> x = [].
Proof.
  intros H. inversion H as [a g h ch ch' H1 H2]; subst. destruct x as [|[k c] x]; [reflexivity|].
  destruct (H2 k c (or_introl eq_refl)) as [c' [[] _]].
Qed.

Lemma same_set_cons p x y : same_set (p :: x) y -> y <> [].
Proof.
  intros H. inversion H as [a g h ch ch' H1 H2]; subst. destruct p as [k c].
  destruct (H1 k c (or_introl eq_refl)) as [c' [Hin _]]. intros ->. destruct Hin.
Qed.

Inductive same_got : (command * list bytes) + get_error -> (command * list bytes) + get_error -> Prop :=
| sg_ok c c' r : same_command c c' -> same_got (inl (c, r)) (inl (c', r))
| sg_err e : same_got (inr e) (inr e).

Inductive same_pick : command + get_error -> command + get_error -> Prop :=
| sp_ok c c' : same_command c c' -> same_pick (inl c) (inl c')
| sp_err e : same_pick (inr e) (inr e).

Lemma pick_same x y w : NoDup (map fst x) -> NoDup (map fst y) -> same_set x y -> same_pick (pick x w) (pick y w).
Proof.
  intros Hx Hy H. inversion H as [a g h ch ch' H1 H2]; subst. unfold pick.
  destruct (find (fun p => beqb (fst p) w) x) as [p|] eqn:Ex.
  - pose proof (find_key_some _ _ _ Ex) as Hp. destruct (H1 _ _ Hp) as [c' [Hc' Hs]].
    destruct (find (fun p => beqb (fst p) w) y) as [q|] eqn:Ey.
    + pose proof (find_key_some _ _ _ Ey) as Hq. rewrite <- (nodup_key _ _ _ _ Hy Hc' Hq). constructor. exact Hs.
    + destruct (find_key_none _ _ Ey _ Hc').
  - destruct (find (fun p => beqb (fst p) w) y) as [q|] eqn:Ey.
    + pose proof (find_key_some _ _ _ Ey) as Hq. destruct (H2 _ _ Hq) as [c' [Hc' _]]. destruct (find_key_none _ _ Ex _ Hc').
    + destruct (scan_none x w Hx) as [[k' [c' [A1 [A2 [A3 A4]]]]]|[[A1 [k1 [c1 [k2 [c2 [A2 [A3 [A4 [A5 A6]]]]]]]]]|[A1 A2]]];
      destruct (scan_none y w Hy) as [[l' [d' [B1 [B2 [B3 B4]]]]]|[[B1 [l1 [d1 [l2 [d2 [B2 [B3 [B4 [B5 B6]]]]]]]]]|[B1 B2]]];
      rewrite A1, B1; try constructor.
      * destruct (H1 _ _ A2) as [c2 [Hc2 Hs]]. assert (k' = l') by exact (B4 _ _ Hc2 A3). subst l'.
        rewrite <- (nodup_key _ _ _ _ Hy Hc2 B2). exact Hs.
      * exfalso. destruct (H2 _ _ B2) as [e1 [He1 _]], (H2 _ _ B3) as [e2 [He2 _]].
        apply B6. rewrite (A4 _ _ He1 B4), (A4 _ _ He2 B5). reflexivity.
      * exfalso. destruct (H1 _ _ A2) as [e1 [He1 _]]. rewrite (B2 _ _ He1) in A3. discriminate.
      * exfalso. destruct (H1 _ _ A2) as [e1 [He1 _]], (H1 _ _ A3) as [e2 [He2 _]].
        apply A6. rewrite (B4 _ _ He1 A4), (B4 _ _ He2 A5). reflexivity.
      * exfalso. destruct (H1 _ _ A2) as [e1 [He1 _]]. rewrite (B2 _ _ He1) in A4. discriminate.
      * exfalso. destruct (H2 _ _ B2) as [e1 [He1 _]]. rewrite (A2 _ _ He1) in B3. discriminate.
      * exfalso. destruct (H2 _ _ B2) as [e1 [He1 _]]. rewrite (A2 _ _ He1) in B4. discriminate.
Qed.

Lemma get_same words : forall x y, distinct x -> distinct y -> same_set x y -> same_got (get x words) (get y words).
Proof.
  induction words as [|w words IH]; intros x y Hx Hy H; cbn [get]; [constructor|].
  assert (Nx : NoDup (map fst x)) by (inversion Hx; assumption).
  assert (Ny : NoDup (map fst y)) by (inversion Hy; assumption).
  pose proof (pick_same x y w Nx Ny H) as Hp.
  destruct (pick x w) as [c|e] eqn:Ex; destruct (pick y w) as [c'|e'] eqn:Ey; inversion Hp; subst; [|constructor].
  assert (Hs : same_command c c') by assumption.
  destruct (same_children _ _ Hs) as [Hc _].
  assert (Dx : distinct (c_children c)).
  { destruct (pick_in _ _ _ Ex) as [k Hk]. inversion Hx as [l0 _ Hsub El]; subst. exact (Hsub _ _ Hk). }
  assert (Dy : distinct (c_children c')).
  { destruct (pick_in _ _ _ Ey) as [k Hk]. inversion Hy as [l0 _ Hsub El]; subst. exact (Hsub _ _ Hk). }
  destruct words as [|w' words]; [constructor; exact Hs|].
  destruct (c_children c) as [|ch0 ch] eqn:Ec.
  - rewrite (same_set_nil _ Hc). constructor. exact Hs.
  - pose proof (same_set_cons _ _ _ Hc) as Hne. destruct (c_children c') as [|d0 d] eqn:Ec'; [destruct (Hne eq_refl)|].
    exact (IH _ _ Dx Dy Hc).
Qed.

(** ** What holds of every command of a table *)

Inductive every (P : command -> Prop) : list (bytes * command) -> Prop :=
| Every cmds : (forall k c, In (k, c) cmds -> P c /\ every P (c_children c)) -> every P cmds.

Lemma get_every P words : forall cmds c rest, every P cmds -> get cmds words = inl (c, rest) -> P c.
Proof.
  induction words as [|w words IH]; intros cmds c rest He H; cbn [get] in H; [discriminate|].
  destruct (pick cmds w) as [c0|e] eqn:Ep; [|discriminate].
  destruct (pick_in _ _ _ Ep) as [k Hk]. inversion He as [l Hl El]; subst. destruct (Hl _ _ Hk) as [H0 Hch].
  destruct words as [|w' words]; [injection H as <- <-; exact H0|].
  destruct (c_children c0) as [|ch0 ch] eqn:Ec; [injection H as <- <-; exact H0|].
  exact (IH _ _ _ Hch H).
Qed.

Lemma get_shorter words : forall cmds c rest, get cmds words = inl (c, rest) -> length rest < length words.
Proof.
  induction words as [|w words IH]; intros cmds c rest H; cbn [get] in H; [discriminate|].
  destruct (pick cmds w) as [c0|e] eqn:Ep; [|discriminate].
  destruct words as [|w' words]; [injection H as <- <-; cbn; lia|].
  destruct (c_children c0) as [|ch0 ch] eqn:Ec; [injection H as <- <-; cbn; lia|].
  apply IH in H. cbn [length] in *. lia.
Qed.

(** A privileged handler is behind a command that needs administrator rights. *)
Definition guarded (c : command) : Prop := forall h, c_handle c = Some h -> privileged h -> c_admin c = true.

Lemma service_guarded : every guarded service_commands.
Proof.
  assert (He : every guarded []) by (constructor; intros k c []).
  assert (Hl : forall g h, guarded (leaf true g h)) by (intros g h h' _ _; reflexivity).
  assert (Hn : forall a g h, ~ privileged h -> guarded (leaf a g h)).
  { intros a g h Hh h' E Hp. injection E as <-. destruct (Hh Hp). }
  assert (Hg : forall a g l, guarded (group a g l)) by (intros a g l h' E; discriminate).
  assert (Hp : forall p, ~ privileged (HLocal p)) by (intros p H; unfold privileged in H; cbn [In] in H; intuition discriminate).
  constructor. intros k c H. cbn [service_commands In] in H.
  repeat destruct H as [H|H]; try (injection H as <- <-); try destruct H;
    cbn [leaf group locals c_children];
    (split; [first [apply Hg | apply Hn; unfold privileged; cbn [In]; intuition discriminate]|]);
    try exact He;
    (constructor; intros k c H; cbn [map In] in H;
     repeat destruct H as [H|H]; try (injection H as <- <-); try destruct H;
     (split; [first [apply Hl | apply Hn, Hp | apply Hn; unfold privileged; cbn [In]; intuition discriminate]|exact He])).
Qed.

(** ** The state *)

Section WithData.

Variable D : Type.
Variable local : list bytes -> context -> account -> D -> list bytes -> D * list say * sresult.
Variable refresh : account -> account -> D -> D.
Variable kick : D -> D.
Variable new_data : D.

Notation server := (server D).
Notation uname := (fun u : user D => a_name (us_acc u)).

Lemma find_user_some (s : server) name u : find_user s name = Some u -> In u (sv_users s) /\ a_name (us_acc u) = name.
Proof. intros H. apply find_some in H as [H1 H2]. apply beqb_eq in H2. split; assumption. Qed.

Lemma find_user_none (s : server) name : find_user s name = None -> forall u, In u (sv_users s) -> a_name (us_acc u) <> name.
Proof. intros H u Hu E. apply (find_none _ _ H) in Hu. apply beqb_neq in Hu. exact (Hu E). Qed.

Lemma nodup_by {A} (f : A -> bytes) l x y : NoDup (map f l) -> In x l -> In y l -> f x = f y -> x = y.
Proof.
  induction l as [|z l IH]; intros Hn Hx Hy E; [destruct Hx|].
  cbn [map] in Hn. apply NoDup_cons_iff in Hn as [Hz Hn].
  destruct Hx as [Hx|Hx], Hy as [Hy|Hy].
  - congruence.
  - subst z. destruct Hz. rewrite E. apply in_map. exact Hy.
  - subst z. destruct Hz. rewrite <- E. apply in_map. exact Hx.
  - exact (IH Hn Hx Hy E).
Qed.

Lemma nodup_filter {A} (f : A -> bytes) (p : A -> bool) l : NoDup (map f l) -> NoDup (map f (filter p l)).
Proof.
  induction l as [|z l IH]; intros Hn; [constructor|]. cbn [map filter] in *.
  apply NoDup_cons_iff in Hn as [Hz Hn]. destruct (p z); [|exact (IH Hn)].
  cbn [map]. constructor; [|exact (IH Hn)]. intros H. apply Hz. apply in_map_iff in H as [y [E Hy]].
  apply filter_In in Hy as [Hy _]. rewrite <- E. apply in_map. exact Hy.
Qed.

Lemma nodup_snoc {A} (f : A -> bytes) l x : NoDup (map f l) -> (forall y, In y l -> f y <> f x) -> NoDup (map f (l ++ [x])).
Proof.
  induction l as [|z l IH]; intros Hn Hx; cbn [app map].
  - constructor; [intros []|constructor].
  - cbn [map] in Hn. apply NoDup_cons_iff in Hn as [Hz Hn]. constructor.
    + rewrite map_app, in_app_iff. intros [H|[H|[]]]; [exact (Hz H)|].
      exact (Hx z (or_introl eq_refl) (eq_sym H)).
    + apply IH; [exact Hn|]. intros y Hy. exact (Hx y (or_intror Hy)).
Qed.

Lemma map_if_names {A} (f : A -> bytes) (g : A -> A) n l : (forall x, f x = n -> f (g x) = f x) ->
  map f (map (fun x => if beqb (f x) n then g x else x) l) = map f l.
Proof.
  intros H. rewrite map_map. apply map_ext. intros x. destruct (beqb (f x) n) eqn:E; [|reflexivity].
  apply beqb_eq in E. exact (H x E).
Qed.

Lemma set_user_acc_consistent (s : server) name (f : user D -> user D) :
  (forall u, us_acc (f u) = us_acc u) -> consistent s -> consistent (set_user D s name f).
Proof.
  intros Hf [H1 H2 H3]. constructor; cbn [set_user sv_users sv_db].
  - rewrite (map_if_names uname); [exact H1|]. intros u _. rewrite Hf. reflexivity.
  - exact H2.
  - intros u Hu. apply in_map_iff in Hu as [v [E Hv]]. destruct (beqb (a_name (us_acc v)) name); subst u.
    + rewrite Hf. exact (H3 _ Hv).
    + exact (H3 _ Hv).
Qed.

Lemma update_user_consistent e (s : server) u a s' r : consistent s -> In u (sv_users s) -> a_name a = a_name (us_acc u) ->
  update_user D refresh kick e s u a = (s', r) -> consistent s'.
Proof.
  intros Hc Hu Ha H. unfold update_user in H. destruct (e_db e); cbn [negb] in H; [|injection H as <- <-; exact Hc].
  injection H as <- _. destruct Hc as [H1 H2 H3].
  constructor; cbn [set_user set_db sv_users sv_db].
  - rewrite (map_if_names uname); [exact H1|]. intros x E. cbn [us_acc]. symmetry. exact E.
  - unfold store_account. rewrite (map_if_names a_name); [exact H2|]. intros x E. symmetry. exact E.
  - intros v Hv. apply in_map_iff in Hv as [w [E Hw]]. unfold store_account. apply in_map_iff.
    destruct (beqb (a_name (us_acc w)) (a_name a)) eqn:Ew; subst v.
    + exists (us_acc u). rewrite Ha, beqb_refl. split; [reflexivity|exact (H3 _ Hu)].
    + exists (us_acc w). rewrite Ew. split; [reflexivity|exact (H3 _ Hw)].
Qed.

Lemma update_self_consistent e cx (s : server) fl s' out r : consistent s ->
  update_self D refresh kick e cx s fl = (s', out, r) -> consistent s'.
Proof.
  intros Hc H. unfold update_self, fail in H. destruct (cx_user cx) as [me|]; [|injection H as <- <- <-; exact Hc].
  destruct (find_user s me) as [u|] eqn:Ef; [|injection H as <- <- <-; exact Hc].
  apply find_user_some in Ef as [Hu En].
  destruct (is_some (bool_flag fl (B "admin"))); [injection H as <- <- <-; exact Hc|].
  destruct (is_some (bool_flag fl (B "enabled"))); [injection H as <- <- <-; exact Hc|].
  destruct (is_some (int_flag fl (B "max-networks")) && negb (cx_admin cx)); [injection H as <- <- <-; exact Hc|].
  destruct (match str_flag fl (B "password") with Some p => e_hash e p | None => Some (a_pass (us_acc u)) end) as [pass|]; [|injection H as <- <- <-; exact Hc].
  match type of H with (match update_user D refresh kick e s u ?a with _ => _ end = _) => remember a as a' eqn:Ea end.
  destruct (update_user D refresh kick e s u a') as [s1 r1] eqn:Eu.
  assert (Hc1 : consistent s1).
  { apply (update_user_consistent e s u a' s1 r1 Hc Hu); [rewrite Ea; reflexivity|exact Eu]. }
  destruct r1; injection H as <- <- <-; exact Hc1.
Qed.

Lemma update_other_consistent e cx stack (s : server) name fl s' out r : consistent s ->
  update_other D refresh kick e cx stack s name fl = (s', out, r) -> consistent s'.
Proof.
  intros Hc H. unfold update_other, fail in H.
  destruct (negb (cx_admin cx)); [injection H as <- <- <-; exact Hc|].
  destruct (is_some (str_flag fl (B "nick"))); [injection H as <- <- <-; exact Hc|].
  destruct (is_some (str_flag fl (B "realname"))); [injection H as <- <- <-; exact Hc|].
  destruct (match str_flag fl (B "password") with Some p => match e_hash e p with Some h => Some (Some h) | None => None end | None => Some None end)
    as [hashed|]; [|injection H as <- <- <-; exact Hc].
  destruct (find_user s name) as [u|] eqn:Ef; [|injection H as <- <- <-; exact Hc].
  apply find_user_some in Ef as [Hu En].
  remember (if from_opt false (bool_flag fl (B "disable-password")) then Some [] else hashed) as hh eqn:Ehh.
  destruct (bmem name (stack ++ sv_hung s)); [injection H as <- <- <-; exact Hc|].
  match type of H with (match update_user D refresh kick e s u ?a with _ => _ end = _) => remember a as a' eqn:Ea end.
  destruct (update_user D refresh kick e s u a') as [s1 r1] eqn:Eu.
  assert (Hc1 : consistent s1).
  { apply (update_user_consistent e s u a' s1 r1 Hc Hu); [rewrite Ea; reflexivity|exact Eu]. }
  injection H as <- <- <-.
  destruct (is_some hh); [|exact Hc1].
  apply set_user_acc_consistent; [reflexivity|exact Hc1].
Qed.

Lemma user_update_consistent e cx stack (s : server) params s' out r : consistent s ->
  user_update D refresh kick e cx stack s params = (s', out, r) -> consistent s'.
Proof.
  intros Hc H. unfold user_update, fail in H. destruct (pop_arg params) as [name ps].
  destruct (parse_all (update_flags e) ps) as [fl|]; [|injection H as <- <- <-; exact Hc].
  destruct (beqb name [] && negb (is_some (cx_user cx))); [injection H as <- <- <-; exact Hc|].
  destruct (is_some (str_flag fl (B "password")) && from_opt false (bool_flag fl (B "disable-password"))); [injection H as <- <- <-; exact Hc|].
  destruct (negb (beqb name []) && negb (match cx_user cx with Some me => beqb name me | None => false end)).
  - exact (update_other_consistent _ _ _ _ _ _ _ _ _ Hc H).
  - exact (update_self_consistent _ _ _ _ _ _ _ Hc H).
Qed.

Lemma user_create_consistent e (s : server) params s' out r : consistent s ->
  user_create D new_data e s params = (s', out, r) -> consistent s'.
Proof.
  intros Hc H. unfold user_create, fail in H.
  destruct (parse_all (create_flags e) params) as [fl|]; [|injection H as <- <- <-; exact Hc].
  remember (from_opt [] (str_flag fl (B "username"))) as name eqn:Ename.
  remember (from_opt [] (str_flag fl (B "password"))) as password eqn:Epw.
  remember (from_opt false (bool_flag fl (B "disable-password"))) as disable eqn:Edis.
  destruct (beqb name []); [injection H as <- <- <-; exact Hc|].
  destruct (negb (beqb password []) && disable); [injection H as <- <- <-; exact Hc|].
  destruct (beqb password [] && negb disable); [injection H as <- <- <-; exact Hc|].
  destruct (if disable then Some [] else e_hash e password) as [pass|]; [|injection H as <- <- <-; exact Hc].
  destruct (find_user s name) as [u|] eqn:Ef; cbn [is_some] in H; [injection H as <- <- <-; exact Hc|].
  destruct (e_db e); cbn [negb orb] in H; [|injection H as <- <- <-; exact Hc].
  destruct (existsb (fun b => beqb (a_name b) name) (sv_db s)) eqn:Ex; [injection H as <- <- <-; exact Hc|].
  injection H as <- <- <-. destruct Hc as [H1 H2 H3].
  constructor; cbn [sv_users sv_db].
  - apply (nodup_snoc uname); [exact H1|]. intros v Hv. cbn [us_acc a_name].
    exact (find_user_none _ _ Ef v Hv).
  - apply nodup_snoc; [exact H2|]. intros b Hb E. cbn [a_name] in E.
    assert (Ht : existsb (fun b => beqb (a_name b) name) (sv_db s) = true).
    { apply existsb_exists. exists b. split; [exact Hb|]. apply beqb_eq. exact E. }
    congruence.
  - intros v Hv. apply in_app_iff in Hv as [Hv|[Hv|[]]]; apply in_app_iff.
    + left. exact (H3 _ Hv).
    + right. subst v. left. reflexivity.
Qed.

Lemma user_delete_consistent e cx stack (s : server) params s' out r : consistent s ->
  user_delete D e cx stack s params = (s', out, r) -> consistent s'.
Proof.
  intros Hc H. destruct params as [|name [|token [|x l]]]; cbn [user_delete fail] in H;
    try (injection H as <- <- <-; exact Hc).
  - destruct (negb (cx_admin cx) && negb (match cx_user cx with Some me => beqb me name | None => false end)); [injection H as <- <- <-; exact Hc|].
    destruct (negb (is_some (find_user s name))); injection H as <- <- <-; exact Hc.
  - destruct (negb (cx_admin cx) && negb (match cx_user cx with Some me => beqb me name | None => false end)); [injection H as <- <- <-; exact Hc|].
    destruct (negb (is_some (find_user s name))); [injection H as <- <- <-; exact Hc|].
    destruct (negb (beqb token (e_token e name))); [injection H as <- <- <-; exact Hc|].
    destruct (bmem name (stack ++ sv_hung s)); [injection H as <- <- <-; exact Hc|].
    destruct Hc as [H1 H2 H3].
    destruct (negb (e_db e)); injection H as <- <- <-; constructor; cbn [set_db sv_users sv_db];
      try (apply (nodup_filter uname); exact H1); try exact H2; try (apply nodup_filter; exact H2).
    + intros u Hu. apply filter_In in Hu as [Hu _]. exact (H3 _ Hu).
    + intros u Hu. apply filter_In in Hu as [Hu E]. apply filter_In. split; [exact (H3 _ Hu)|exact E].
Qed.

Lemma status_same e (s : server) params s' out r : user_status D e s params = (s', out, r) -> s' = s.
Proof.
  unfold user_status, fail. destruct params as [|name [|x l]].
  - destruct (e_db e); intros H; injection H as <- _ _; reflexivity.
  - destruct (find_user s name); [destruct (e_db e)|]; intros H; injection H as <- _ _; reflexivity.
  - intros H; injection H as <- _ _; reflexivity.
Qed.

Lemma server_status_same e (s : server) params s' out r : server_status D e s params = (s', out, r) -> s' = s.
Proof.
  unfold server_status, fail. destruct params as [|x l]; [destruct (e_db e)|]; intros H; injection H as <- _ _; reflexivity.
Qed.

Lemma help_same cmds cx (s : server) params s' out r : service_help D cmds cx s params = (s', out, r) -> s' = s.
Proof.
  unfold service_help, fail. destruct params as [|x l].
  - intros H; injection H as <- _ _; reflexivity.
  - destruct (get cmds (x :: l)) as [[c rest]|er]; [|intros H; injection H as <- _ _; reflexivity].
    destruct (c_children c); intros H; injection H as <- _ _; reflexivity.
Qed.

Lemma same_lists_consistent (s s' : server) : sv_users s' = sv_users s -> sv_db s' = sv_db s -> consistent s -> consistent s'.
Proof. intros E1 E2 [H1 H2 H3]. constructor; rewrite ?E1, ?E2; assumption. Qed.

Lemma run_local_consistent cx (s : server) path params s' out r : consistent s ->
  run_local D local cx s path params = (s', out, r) -> consistent s'.
Proof.
  intros Hc H. unfold run_local, fail in H. destruct (cx_user cx) as [me|]; [|injection H as <- <- <-; exact Hc].
  destruct (find_user s me) as [u|]; [|injection H as <- <- <-; exact Hc].
  destruct (local path cx (us_acc u) (us_data u) params) as [[d o] r0]. injection H as <- <- <-.
  apply set_user_acc_consistent; [reflexivity|exact Hc].
Qed.

Lemma command_consistent cmds fuel : forall e cx stack (s : server) words s' out r calls, consistent s ->
  service_command D local refresh kick new_data cmds fuel e cx stack s words = ((s', out, r), calls) -> consistent s'.
Proof.
  induction fuel as [|fuel IH]; intros e cx stack s words s' out r calls Hc H; cbn [service_command fail] in H.
  { injection H as <- <- <- <-. exact Hc. }
  destruct (get cmds words) as [[c params]|er]; [|injection H as <- <- <- <-; exact Hc].
  destruct (c_admin c && negb (cx_admin cx)); [injection H as <- <- <- <-; exact Hc|].
  destruct (negb (c_global c) && negb (is_some (cx_user cx))); [injection H as <- <- <- <-; exact Hc|].
  destruct (c_handle c) as [h|].
  2:{ destruct (c_children c); injection H as <- <- <- <-; exact Hc. }
  destruct h.
  - injection H as H _. rewrite (help_same _ _ _ _ _ _ _ H). exact Hc.
  - injection H as H _. exact (run_local_consistent _ _ _ _ _ _ _ Hc H).
  - injection H as H _. rewrite (status_same _ _ _ _ _ _ H). exact Hc.
  - injection H as H _. exact (user_create_consistent _ _ _ _ _ _ Hc H).
  - injection H as H _. exact (user_update_consistent _ _ _ _ _ _ _ _ Hc H).
  - injection H as H _. exact (user_delete_consistent _ _ _ _ _ _ _ _ Hc H).
  - destruct params as [|name [|w ws]]; try (injection H as <- <- <- <-; exact Hc).
    destruct (match cx_user cx with Some me => beqb name me | None => false end).
    + destruct (service_command D local refresh kick new_data cmds fuel e cx stack s (w :: ws)) as [o cl] eqn:Er.
      injection H as H _. rewrite H in Er. exact (IH _ _ _ _ _ _ _ _ _ Hc Er).
    + destruct (negb (is_some (find_user s name))); [injection H as <- <- <- <-; exact Hc|].
      destruct (bmem name (stack ++ sv_hung s)); [injection H as <- <- <- <-; exact Hc|].
      destruct (service_command D local refresh kick new_data cmds fuel e (Ctx (Some name) true None) (name :: stack) s (w :: ws)) as [[[s1 o] r1] cl] eqn:Er.
      pose proof (IH _ _ _ _ _ _ _ _ _ Hc Er) as Hc1. injection H as <- _ _ _.
      destruct r1; try exact Hc1. (apply (same_lists_consistent s1); [reflexivity|reflexivity|exact Hc1]).
  - injection H as H _. rewrite (server_status_same _ _ _ _ _ _ H). exact Hc.
  - injection H as H _. unfold server_notice, fail in H. destruct params as [|x [|y l]]; injection H as <- _ _; try exact Hc.
    (apply (same_lists_consistent s); [reflexivity|reflexivity|exact Hc]).
  - injection H as H _. unfold server_debug, fail in H. destruct params as [|x [|y l]]; try (injection H as <- _ _; exact Hc).
    destruct (parse_bool x); injection H as <- _ _; [|exact Hc].
    (apply (same_lists_consistent s); [reflexivity|reflexivity|exact Hc]).
Qed.

Lemma issue_consistent cmds (s : server) ev : consistent s -> consistent (next D local refresh kick new_data cmds s ev).
Proof.
  intros Hc. unfold next, issue. destruct ev as [[[name net|] e] words].
  - destruct (find_user s name) as [u|]; [|exact Hc].
    destruct (bmem name (sv_hung s)); [exact Hc|].
    destruct (service_command D local refresh kick new_data cmds (S (length words)) e (Ctx (Some name) (a_admin (us_acc u)) net) [name] s words)
      as [[[s1 o] r1] cl] eqn:Er. pose proof (command_consistent _ _ _ _ _ _ _ _ _ _ _ Hc Er) as Hc1.
    cbn [fst]. destruct r1; try exact Hc1. (apply (same_lists_consistent s1); [reflexivity|reflexivity|exact Hc1]).
  - destruct (service_command D local refresh kick new_data cmds (S (length words)) e (Ctx None true None) [] s words)
      as [[[s1 o] r1] cl] eqn:Er. exact (command_consistent _ _ _ _ _ _ _ _ _ _ _ Hc Er).
Qed.

Lemma serve_consistent cmds evs : forall s : server, consistent s -> consistent (serve D local refresh kick new_data cmds s evs).
Proof.
  induction evs as [|ev evs IH]; intros s Hc; cbn [serve]; [exact Hc|].
  apply IH. apply issue_consistent. exact Hc.
Qed.

(** *** Ordinary users *)

Record kept (names : list bytes) (s s' : server) : Prop := {
  k_debug : sv_debug s' = sv_debug s;
  k_notices : sv_notices s' = sv_notices s;
  k_users : Forall2 (fun u u' => same_rights (us_acc u') (us_acc u) /\ (~ In (a_name (us_acc u)) names -> u' = u)) (sv_users s) (sv_users s');
  k_rows : Forall2 (fun a a' => same_rights a' a /\ (~ In (a_name a) names -> a' = a)) (sv_db s) (sv_db s')
}.

Lemma same_rights_refl a : same_rights a a.
Proof. unfold same_rights. auto. Qed.

Lemma same_rights_trans a b c : same_rights a b -> same_rights b c -> same_rights a c.
Proof. unfold same_rights. intros (H1 & H2 & H3 & H4) (H5 & H6 & H7 & H8). repeat apply conj; congruence. Qed.

Lemma forall2_same {A} (R : A -> A -> Prop) l : (forall x, In x l -> R x x) -> Forall2 R l l.
Proof.
  induction l as [|x l IH]; intros H; constructor; [exact (H x (or_introl eq_refl))|].
  apply IH. intros y Hy. exact (H y (or_intror Hy)).
Qed.

Lemma forall2_map {A} (R : A -> A -> Prop) f l : (forall x, In x l -> R x (f x)) -> Forall2 R l (map f l).
Proof.
  induction l as [|x l IH]; intros H; constructor; [exact (H x (or_introl eq_refl))|].
  apply IH. intros y Hy. exact (H y (or_intror Hy)).
Qed.

Lemma forall2_trans {A} (R1 R2 R3 : A -> A -> Prop) l1 l2 l3 : (forall x y z, R1 x y -> R2 y z -> R3 x z) ->
  Forall2 R1 l1 l2 -> Forall2 R2 l2 l3 -> Forall2 R3 l1 l3.
Proof.
  intros H H1. revert l3. induction H1 as [|x y l1 l2 Hxy H1 IH]; intros l3 H2; inversion H2; subst; constructor.
  - exact (H _ _ _ Hxy ltac:(eassumption)).
  - apply IH. assumption.
Qed.

Lemma forall2_in_r {A} (R : A -> A -> Prop) l l' y : Forall2 R l l' -> In y l' -> exists x, In x l /\ R x y.
Proof.
  induction 1 as [|a b l l' Hab H IH]; intros Hy; [destruct Hy|]. destruct Hy as [<-|Hy].
  - exists a. split; [left; reflexivity|exact Hab].
  - destruct (IH Hy) as [x [Hx HR]]. exists x. split; [right; exact Hx|exact HR].
Qed.

Lemma forall2_in_l {A} (R : A -> A -> Prop) l l' x : Forall2 R l l' -> In x l -> exists y, In y l' /\ R x y.
Proof.
  induction 1 as [|a b l l' Hab H IH]; intros Hy; [destruct Hy|]. destruct Hy as [<-|Hy].
  - exists b. split; [left; reflexivity|exact Hab].
  - destruct (IH Hy) as [z [Hx HR]]. exists z. split; [right; exact Hx|exact HR].
Qed.

Lemma kept_refl names s : kept names s s.
Proof. constructor; try reflexivity; apply forall2_same; intros x _; (split; [apply same_rights_refl|reflexivity]). Qed.

Lemma kept_trans n1 n2 s1 s2 s3 : kept n1 s1 s2 -> kept n2 s2 s3 -> kept (n1 ++ n2) s1 s3.
Proof.
  intros [A1 A2 A3 A4] [B1 B2 B3 B4]. constructor; try congruence.
  - refine (forall2_trans _ _ _ _ _ _ _ A3 B3). intros x y z [H1 H2] [H3 H4]. split; [exact (same_rights_trans _ _ _ H3 H1)|].
    intros Hn. rewrite in_app_iff in Hn. rewrite H4; [apply H2; tauto|]. destruct H1 as [E _]. rewrite E. tauto.
  - refine (forall2_trans _ _ _ _ _ _ _ A4 B4). intros x y z [H1 H2] [H3 H4]. split; [exact (same_rights_trans _ _ _ H3 H1)|].
    intros Hn. rewrite in_app_iff in Hn. rewrite H4; [apply H2; tauto|]. destruct H1 as [E _]. rewrite E. tauto.
Qed.

Lemma kept_hung names s s' l : kept names s s' ->
  kept names s (Server (sv_users s') (sv_db s') (sv_debug s') (sv_notices s') l).
Proof. intros [A1 A2 A3 A4]. constructor; assumption. Qed.

Lemma update_user_kept e (s : server) u a s' r : consistent s -> In u (sv_users s) -> same_rights a (us_acc u) ->
  update_user D refresh kick e s u a = (s', r) -> kept [a_name a] s s'.
Proof.
  intros [H1 H2 H3] Hu Ha H. unfold update_user in H. destruct (e_db e); cbn [negb] in H; [|injection H as <- <-; apply kept_refl].
  injection H as <- _. destruct Ha as (En & Hr). constructor; cbn [set_user set_db sv_users sv_db sv_debug sv_notices]; try reflexivity.
  - apply forall2_map. intros x Hx. destruct (beqb_spec (a_name (us_acc x)) (a_name a)) as [E|E].
    + split.
      * assert (Ex : x = u) by (apply (nodup_by uname _ _ _ H1 Hx Hu); congruence).
        subst x. cbn [us_acc]. split; assumption.
      * cbn [In]. intros Hn. destruct Hn. left. congruence.
    + split; [apply same_rights_refl|reflexivity].
  - unfold store_account. apply forall2_map. intros x Hx. destruct (beqb_spec (a_name x) (a_name a)) as [E|E].
    + split.
      * assert (Ex : x = us_acc u) by (apply (nodup_by a_name _ _ _ H2 Hx (H3 _ Hu)); congruence).
        subst x. split; assumption.
      * cbn [In]. intros Hn. destruct Hn. left. congruence.
    + split; [apply same_rights_refl|reflexivity].
Qed.

Lemma update_self_kept e me net (s : server) fl s' out r : consistent s ->
  update_self D refresh kick e (Ctx (Some me) false net) s fl = (s', out, r) -> kept [me] s s'.
Proof.
  intros Hc H. unfold update_self, fail in H. cbn [cx_user cx_admin] in H.
  destruct (find_user s me) as [u|] eqn:Ef; [|injection H as <- <- <-; apply kept_refl].
  apply find_user_some in Ef as [Hu En].
  destruct (is_some (bool_flag fl (B "admin"))); [injection H as <- <- <-; apply kept_refl|].
  destruct (is_some (bool_flag fl (B "enabled"))); [injection H as <- <- <-; apply kept_refl|].
  destruct (int_flag fl (B "max-networks")) as [z|]; cbn [is_some andb negb from_opt] in H; [injection H as <- <- <-; apply kept_refl|].
  destruct (match str_flag fl (B "password") with Some p => e_hash e p | None => Some (a_pass (us_acc u)) end) as [pass|]; [|injection H as <- <- <-; apply kept_refl].
  match type of H with (match update_user D refresh kick e s u ?a with _ => _ end = _) => remember a as a' eqn:Ea end.
  destruct (update_user D refresh kick e s u a') as [s1 r1] eqn:Eu.
  assert (Hk : kept [me] s s1).
  { replace me with (a_name a') by (rewrite Ea; exact En).
    apply (update_user_kept e s u a' s1 r1 Hc Hu); [rewrite Ea; unfold same_rights; auto|exact Eu]. }
  destruct r1; injection H as <- <- <-; exact Hk.
Qed.

Lemma user_update_kept e me net stack (s : server) params s' out r : consistent s ->
  user_update D refresh kick e (Ctx (Some me) false net) stack s params = (s', out, r) -> kept [me] s s'.
Proof.
  intros Hc H. unfold user_update, fail in H. destruct (pop_arg params) as [name ps].
  destruct (parse_all (update_flags e) ps) as [fl|]; [|injection H as <- <- <-; apply kept_refl].
  cbn [cx_user is_some negb] in H. rewrite andb_false_r in H.
  destruct (is_some (str_flag fl (B "password")) && from_opt false (bool_flag fl (B "disable-password"))); [injection H as <- <- <-; apply kept_refl|].
  destruct (negb (beqb name []) && negb (beqb name me)).
  - unfold update_other, fail in H. cbn [cx_admin negb] in H. injection H as <- <- <-. apply kept_refl.
  - exact (update_self_kept _ _ _ _ _ _ _ _ Hc H).
Qed.

Lemma user_delete_kept e me net stack (s : server) params s' out r : In me stack ->
  user_delete D e (Ctx (Some me) false net) stack s params = (s', out, r) -> s' = s.
Proof.
  intros Hs H. destruct params as [|name [|token [|x l]]]; cbn [user_delete fail cx_admin cx_user negb andb] in H;
    try (injection H as <- <- <-; reflexivity).
  - destruct (negb (beqb me name)); [injection H as <- <- <-; reflexivity|].
    destruct (negb (is_some (find_user s name))); injection H as <- <- <-; reflexivity.
  - destruct (beqb_spec me name) as [<-|Hne]; cbn [negb] in H; [|injection H as <- <- <-; reflexivity].
    destruct (negb (is_some (find_user s me))); [injection H as <- <- <-; reflexivity|].
    destruct (negb (beqb token (e_token e me))); [injection H as <- <- <-; reflexivity|].
    replace (bmem me (stack ++ sv_hung s)) with true in H; [injection H as <- <- <-; reflexivity|].
    symmetry. apply bmem_In. apply in_app_iff. left. exact Hs.
Qed.

Lemma run_local_kept cx me (s : server) path params s' out r : cx_user cx = Some me ->
  run_local D local cx s path params = (s', out, r) -> kept [me] s s'.
Proof.
  intros Hcx H. unfold run_local, fail in H. rewrite Hcx in H.
  destruct (find_user s me) as [u|]; [|injection H as <- <- <-; apply kept_refl].
  destruct (local path cx (us_acc u) (us_data u) params) as [[d o] r0]. injection H as <- <- <-.
  constructor; cbn [set_user sv_users sv_db sv_debug sv_notices]; try reflexivity.
  - apply forall2_map. intros x _. destruct (beqb_spec (a_name (us_acc x)) me) as [E|E].
    + split; [apply same_rights_refl|]. intros Hn. destruct Hn. left. symmetry. exact E.
    + split; [apply same_rights_refl|reflexivity].
  - apply forall2_same. intros x _. split; [apply same_rights_refl|reflexivity].
Qed.

(** A command without administrator rights. *)
Lemma ordinary_command fuel e me net stack (s : server) words s' out r calls : consistent s -> In me stack ->
  service_command D local refresh kick new_data service_commands fuel e (Ctx (Some me) false net) stack s words = ((s', out, r), calls) ->
  kept [me] s s'.
Proof.
  intros Hc Hs H. destruct fuel as [|fuel]; cbn [service_command fail] in H; [injection H as <- <- <- <-; apply kept_refl|].
  destruct (get service_commands words) as [[c params]|er] eqn:Eg; [|injection H as <- <- <- <-; apply kept_refl].
  pose proof (get_every _ _ _ _ _ service_guarded Eg) as Hgd.
  cbn [cx_admin cx_user is_some negb] in H. rewrite andb_true_r, andb_false_r in H.
  destruct (c_admin c) eqn:Ea; [injection H as <- <- <- <-; apply kept_refl|].
  destruct (c_handle c) as [h|] eqn:Eh.
  2:{ destruct (c_children c); injection H as <- <- <- <-; apply kept_refl. }
  assert (Hp : ~ privileged h) by (intros Hp; rewrite (Hgd h Eh Hp) in Ea; discriminate).
  unfold privileged in Hp. cbn [In] in Hp.
  destruct h; try (exfalso; apply Hp; tauto).
  - injection H as H _. rewrite (help_same _ _ _ _ _ _ _ H). apply kept_refl.
  - injection H as H _. refine (run_local_kept _ me _ _ _ _ _ _ _ H); reflexivity.
  - injection H as H _. exact (user_update_kept _ _ _ _ _ _ _ _ _ Hc H).
  - injection H as H _. rewrite (user_delete_kept _ _ _ _ _ _ _ _ _ Hs H). apply kept_refl.
Qed.

(** Privileged handlers are only called with administrator rights. *)
Lemma command_privileged fuel : forall e cx stack (s : server) words o calls h cx',
  service_command D local refresh kick new_data service_commands fuel e cx stack s words = (o, calls) ->
  In (h, cx') calls -> privileged h -> cx_admin cx = true.
Proof.
  destruct fuel as [|fuel]; intros e cx stack s words o calls h cx' H Hin Hp; cbn [service_command fail] in H.
  { injection H as <- <-. destruct Hin. }
  destruct (get service_commands words) as [[c params]|er] eqn:Eg; [|injection H as <- <-; destruct Hin].
  pose proof (get_every _ _ _ _ _ service_guarded Eg) as Hgd.
  destruct (cx_admin cx) eqn:Ecx; [reflexivity|]. cbn [negb] in H. rewrite andb_true_r in H.
  destruct (c_admin c) eqn:Ea; [injection H as <- <-; destruct Hin|].
  destruct (negb (c_global c) && negb (is_some (cx_user cx))); [injection H as <- <-; destruct Hin|].
  destruct (c_handle c) as [h0|] eqn:Eh.
  2:{ destruct (c_children c); injection H as <- <-; destruct Hin. }
  assert (Hp0 : ~ privileged h0) by (intros Hp0; rewrite (Hgd h0 Eh Hp0) in Ea; discriminate).
  assert (Hcalls : calls = [(h0, cx)]).
  { destruct h0; try (injection H as _ <-; reflexivity). exfalso. apply Hp0. unfold privileged. cbn [In]. tauto. }
  subst calls. destruct Hin as [Hin|[]]. injection Hin as <- <-. destruct (Hp0 Hp).
Qed.

Lemma issue_privileged (s : server) ev h cx : In (h, cx) (snd (issue D local refresh kick new_data service_commands s ev)) ->
  privileged h ->
  fst (fst ev) = ByConsole \/
  exists name net u, fst (fst ev) = ByUser name net /\ In u (sv_users s) /\ a_name (us_acc u) = name /\ a_admin (us_acc u) = true.
Proof.
  intros Hin Hp. destruct ev as [[[name net|] e] words]; [right|left; reflexivity].
  cbn [issue fst] in *. destruct (find_user s name) as [u|] eqn:Ef; [|destruct Hin].
  apply find_user_some in Ef as [Hu En]. exists name, net, u. split; [reflexivity|]. split; [exact Hu|]. split; [exact En|].
  destruct (bmem name (sv_hung s)); [destruct Hin|].
  destruct (service_command D local refresh kick new_data service_commands (S (length words)) e (Ctx (Some name) (a_admin (us_acc u)) net) [name] s words)
    as [[[s1 o] r1] cl] eqn:Er. cbn [snd] in Hin.
  exact (command_privileged _ _ _ _ _ _ _ _ _ _ Er Hin Hp).
Qed.

Lemma issue_kept (s : server) ev : consistent s -> from_ordinary s ev -> exists name, issued_by name ev /\
  kept [name] s (next D local refresh kick new_data service_commands s ev).
Proof.
  intros Hc (name & net & e & words & -> & Ho). exists name. split; [exists net; reflexivity|].
  unfold next, issue. destruct (find_user s name) as [u|] eqn:Ef; [|apply kept_refl].
  destruct (bmem name (sv_hung s)); [apply kept_refl|].
  apply find_user_some in Ef as [Hu En]. rewrite (Ho u Hu En).
  destruct (service_command D local refresh kick new_data service_commands (S (length words)) e (Ctx (Some name) false net) [name] s words)
    as [[[s1 o] r1] cl] eqn:Er. pose proof (ordinary_command _ _ _ _ _ _ _ _ _ _ _ Hc (in_eq name []) Er) as Hk.
  cbn [fst]. destruct r1; [exact Hk|exact Hk|apply kept_hung; exact Hk].
Qed.

Lemma kept_ordinary names s s' n : kept names s s' -> ordinary s n -> ordinary s' n.
Proof.
  intros [_ _ Hu _] Ho u' Hu' En. destruct (forall2_in_r _ _ _ _ Hu Hu') as [u [Hin [(E1 & E2 & _) _]]].
  rewrite E2. apply (Ho u Hin). congruence.
Qed.

Lemma serve_kept evs : forall s : server, consistent s -> Forall (from_ordinary s) evs -> exists names,
  (forall n, In n names -> exists ev, In ev evs /\ issued_by n ev) /\
  kept names s (serve D local refresh kick new_data service_commands s evs).
Proof.
  induction evs as [|ev evs IH]; intros s Hc Ho; cbn [serve].
  - exists []. split; [intros n []|apply kept_refl].
  - inversion Ho as [|x l Hev Hevs]; subst.
    destruct (issue_kept s ev Hc Hev) as [name [Hby Hk]].
    destruct (IH _ (issue_consistent service_commands s ev Hc)) as [names [Hn Hk2]].
    { apply Forall_forall. intros ev' Hin. rewrite Forall_forall in Hevs. destruct (Hevs ev' Hin) as (n & net & e & w & -> & Hon).
      exists n, net, e, w. split; [reflexivity|]. exact (kept_ordinary _ _ _ _ Hk Hon). }
    exists ([name] ++ names). split.
    + intros n [<-|H]; [exists ev; split; [left; reflexivity|exact Hby]|].
      destruct (Hn n H) as [ev' [H1 H2]]. exists ev'. split; [right; exact H1|exact H2].
    + exact (kept_trans _ _ _ _ _ Hk Hk2).
Qed.

Lemma serve_confined evs (s : server) : consistent s -> Forall (from_ordinary s) evs ->
  confined evs s (serve D local refresh kick new_data service_commands s evs).
Proof.
  intros Hc Ho. destruct (serve_kept evs s Hc Ho) as [names [Hn [K1 K2 K3 K4]]]. constructor.
  - exact K1.
  - exact K2.
  - intros u' Hu'. destruct (forall2_in_r _ _ _ _ K3 Hu') as [u [Hu [Hr _]]]. exists u. split; assumption.
  - intros a' Ha'. destruct (forall2_in_r _ _ _ _ K4 Ha') as [a [Ha [Hr _]]]. exists a. split; assumption.
  - intros name Hno.
    assert (Hnot : ~ In name names).
    { intros Hin. destruct (Hn name Hin) as [ev [H1 H2]]. exact (Hno ev H1 H2). }
    split; [intros u En|intros a En]; split; intros Hin.
    + destruct (forall2_in_r _ _ _ _ K3 Hin) as [v [Hv [(E & _) Heq]]].
      rewrite (Heq ltac:(rewrite <- E, En; exact Hnot)). exact Hv.
    + destruct (forall2_in_l _ _ _ _ K3 Hin) as [v [Hv [_ Heq]]].
      rewrite <- (Heq ltac:(rewrite En; exact Hnot)). exact Hv.
    + destruct (forall2_in_r _ _ _ _ K4 Hin) as [v [Hv [(E & _) Heq]]].
      rewrite (Heq ltac:(rewrite <- E, En; exact Hnot)). exact Hv.
    + destruct (forall2_in_l _ _ _ _ K4 Hin) as [v [Hv [_ Heq]]].
      rewrite <- (Heq ltac:(rewrite En; exact Hnot)). exact Hv.
Qed.

(** *** Completion *)

Lemma update_user_ends e (s : server) u a s' r : update_user D refresh kick e s u a = (s', r) -> r <> RBlocked.
Proof.
  unfold update_user. destruct (negb (e_db e)); [intros H; injection H as _ <-; discriminate|].
  intros H. injection H as _ <-. destruct (e_net e); discriminate.
Qed.

Lemma update_self_ends e cx (s : server) fl s' out r : update_self D refresh kick e cx s fl = (s', out, r) -> r <> RBlocked.
Proof.
  unfold update_self, fail. intros H. destruct (cx_user cx) as [me|]; [|injection H as _ _ <-; discriminate].
  destruct (find_user s me) as [u|]; [|injection H as _ _ <-; discriminate].
  destruct (is_some (bool_flag fl (B "admin"))); [injection H as _ _ <-; discriminate|].
  destruct (is_some (bool_flag fl (B "enabled"))); [injection H as _ _ <-; discriminate|].
  destruct (is_some (int_flag fl (B "max-networks")) && negb (cx_admin cx)); [injection H as _ _ <-; discriminate|].
  destruct (match str_flag fl (B "password") with Some p => e_hash e p | None => Some (a_pass (us_acc u)) end) as [pass|]; [|injection H as _ _ <-; discriminate].
  match type of H with (match update_user D refresh kick e s u ?a with _ => _ end = _) => remember a as a' eqn:Ea end.
  destruct (update_user D refresh kick e s u a') as [s1 r1] eqn:Eu.
  apply update_user_ends in Eu. destruct r1; injection H as _ _ <-; exact Eu.
Qed.

Lemma user_update_ends e cx (s : server) params s' out r : sv_hung s = [] ->
  forall stack, (forall n, In n stack -> cx_user cx = Some n) ->
  user_update D refresh kick e cx stack s params = (s', out, r) -> r <> RBlocked.
Proof.
  intros Hh stack Hst H. unfold user_update, fail in H. destruct (pop_arg params) as [name ps].
  destruct (parse_all (update_flags e) ps) as [fl|]; [|injection H as _ _ <-; discriminate].
  destruct (beqb name [] && negb (is_some (cx_user cx))); [injection H as _ _ <-; discriminate|].
  destruct (is_some (str_flag fl (B "password")) && from_opt false (bool_flag fl (B "disable-password"))); [injection H as _ _ <-; discriminate|].
  destruct (negb (beqb name []) && negb (match cx_user cx with Some me => beqb name me | None => false end)) eqn:Eo;
    [|exact (update_self_ends _ _ _ _ _ _ _ H)].
  apply andb_true_iff in Eo as [_ Eo]. apply negb_true_iff in Eo.
  unfold update_other, fail in H.
  destruct (negb (cx_admin cx)); [injection H as _ _ <-; discriminate|].
  destruct (is_some (str_flag fl (B "nick"))); [injection H as _ _ <-; discriminate|].
  destruct (is_some (str_flag fl (B "realname"))); [injection H as _ _ <-; discriminate|].
  destruct (match str_flag fl (B "password") with Some p => match e_hash e p with Some h => Some (Some h) | None => None end | None => Some None end)
    as [hashed|]; [|injection H as _ _ <-; discriminate].
  destruct (find_user s name) as [u|]; [|injection H as _ _ <-; discriminate].
  replace (bmem name (stack ++ sv_hung s)) with false in H.
  2:{ symmetry. apply bmem_nIn. rewrite Hh, app_nil_r. intros Hin. rewrite (Hst _ Hin), beqb_refl in Eo. discriminate. }
  match type of H with (match update_user D refresh kick e s u ?a with _ => _ end = _) => remember a as a' eqn:Ea end.
  destruct (update_user D refresh kick e s u a') as [s1 r1] eqn:Eu.
  apply update_user_ends in Eu. injection H as _ _ <-. exact Eu.
Qed.

Lemma user_delete_blocks e cx (s : server) params s' out stack : sv_hung s = [] ->
  user_delete D e cx stack s params = (s', out, RBlocked) ->
  exists name, In name stack /\ params = [name; e_token e name].
Proof.
  intros Hh H. destruct params as [|name [|token [|x l]]]; cbn [user_delete fail] in H; try discriminate.
  - destruct (negb (cx_admin cx) && negb (match cx_user cx with Some me => beqb me name | None => false end)); [discriminate|].
    destruct (negb (is_some (find_user s name))); discriminate.
  - destruct (negb (cx_admin cx) && negb (match cx_user cx with Some me => beqb me name | None => false end)); [discriminate|].
    destruct (negb (is_some (find_user s name))); [discriminate|].
    destruct (beqb_spec token (e_token e name)) as [->|Hne]; cbn [negb] in H; [|discriminate].
    destruct (bmem name (stack ++ sv_hung s)) eqn:Eb.
    + apply bmem_In in Eb. rewrite Hh, app_nil_r in Eb. exists name. split; [exact Eb|reflexivity].
    + destruct (negb (e_db e)); discriminate.
Qed.

Lemma run_local_ends cx (s : server) path params s' out r : local_ends D local ->
  run_local D local cx s path params = (s', out, r) -> r <> RBlocked.
Proof.
  intros Hl H. unfold run_local, fail in H. destruct (cx_user cx) as [me|]; [|injection H as _ _ <-; discriminate].
  destruct (find_user s me) as [u|]; [|injection H as _ _ <-; discriminate].
  destruct (local path cx (us_acc u) (us_data u) params) as [[d o] r0] eqn:El. injection H as _ _ <-.
  exact (Hl _ _ _ _ _ _ _ _ El).
Qed.

Lemma help_ends cmds cx (s : server) params s' out r : service_help D cmds cx s params = (s', out, r) -> r <> RBlocked.
Proof.
  unfold service_help, fail. destruct params as [|x l].
  - intros H; injection H as _ _ <-; discriminate.
  - destruct (get cmds (x :: l)) as [[c rest]|er]; [|intros H; injection H as _ _ <-; discriminate].
    destruct (c_children c); intros H; injection H as _ _ <-; discriminate.
Qed.

Lemma create_ends e (s : server) params s' out r : user_create D new_data e s params = (s', out, r) -> r <> RBlocked.
Proof.
  unfold user_create, fail. intros H.
  destruct (parse_all (create_flags e) params) as [fl|]; [|injection H as _ _ <-; discriminate].
  destruct (beqb (from_opt [] (str_flag fl (B "username"))) []); [injection H as _ _ <-; discriminate|].
  destruct (negb (beqb (from_opt [] (str_flag fl (B "password"))) []) && from_opt false (bool_flag fl (B "disable-password"))); [injection H as _ _ <-; discriminate|].
  destruct (beqb (from_opt [] (str_flag fl (B "password"))) [] && negb (from_opt false (bool_flag fl (B "disable-password")))); [injection H as _ _ <-; discriminate|].
  destruct (if from_opt false (bool_flag fl (B "disable-password")) then Some [] else e_hash e (from_opt [] (str_flag fl (B "password")))) as [pass|]; [|injection H as _ _ <-; discriminate].
  destruct (is_some (find_user s (from_opt [] (str_flag fl (B "username"))))); [injection H as _ _ <-; discriminate|].
  destruct (negb (e_db e) || existsb (fun b => beqb (a_name b) (from_opt [] (str_flag fl (B "username")))) (sv_db s)); injection H as _ _ <-; discriminate.
Qed.

(** A command blocks only in "user delete" of a user whose goroutine takes part in it, or in
    "user run". *)
Lemma command_blocks fuel e cx (s : server) stack words s' out calls : local_ends D local -> sv_hung s = [] ->
  (forall n, In n stack -> cx_user cx = Some n) ->
  service_command D local refresh kick new_data service_commands fuel e cx stack s words = ((s', out, RBlocked), calls) ->
  (exists c me, get service_commands words = inl (c, [me; e_token e me]) /\ c_handle c = Some HUserDelete /\ cx_user cx = Some me) \/
  (exists c params, get service_commands words = inl (c, params) /\ c_handle c = Some HUserRun).
Proof.
  intros Hl Hh Hst H. destruct fuel as [|fuel]; cbn [service_command fail] in H; [discriminate|].
  destruct (get service_commands words) as [[c params]|er] eqn:Eg; [|discriminate].
  destruct (c_admin c && negb (cx_admin cx)); [discriminate|].
  destruct (negb (c_global c) && negb (is_some (cx_user cx))); [discriminate|].
  destruct (c_handle c) as [h|] eqn:Eh.
  2:{ destruct (c_children c); discriminate. }
  destruct h.
  - injection H as H _. destruct (help_ends _ _ _ _ _ _ _ H eq_refl).
  - injection H as H _. destruct (run_local_ends _ _ _ _ _ _ _ Hl H eq_refl).
  - injection H as H _. unfold user_status, fail in H. destruct params as [|n [|x l]]; try discriminate.
    + destruct (e_db e); discriminate.
    + destruct (find_user s n); [destruct (e_db e)|]; discriminate.
  - injection H as H _. destruct (create_ends _ _ _ _ _ _ H eq_refl).
  - injection H as H _. destruct (user_update_ends _ _ _ _ _ _ _ Hh _ Hst H eq_refl).
  - injection H as H _. left. destruct (user_delete_blocks _ _ _ _ _ _ _ Hh H) as [name [Hin ->]].
    exists c, name. split; [reflexivity|]. split; [exact Eh|exact (Hst _ Hin)].
  - right. exists c, params. split; [reflexivity|exact Eh].
  - injection H as H _. unfold server_status, fail in H. destruct params; [destruct (e_db e)|]; discriminate.
  - injection H as H _. unfold server_notice, fail in H. destruct params as [|x [|y l]]; discriminate.
  - injection H as H _. unfold server_debug, fail in H. destruct params as [|x [|y l]]; try discriminate.
    destruct (parse_bool x); discriminate.
Qed.

Lemma issue_blocks (s : server) name net e words : local_ends D local -> sv_hung s = [] ->
  result_of D (issue D local refresh kick new_data service_commands s (ByUser name net, e, words)) = RBlocked ->
  (exists c, resolves service_commands words c [name; e_token e name] /\ c_handle c = Some HUserDelete) \/
  (exists c params, resolves service_commands words c params /\ c_handle c = Some HUserRun).
Proof.
  intros Hl Hh H. unfold issue in H.
  destruct (find_user s name) as [u|] eqn:Ef; [|discriminate].
  rewrite Hh in H. cbn [bmem existsb] in H.
  destruct (service_command D local refresh kick new_data service_commands (S (length words)) e (Ctx (Some name) (a_admin (us_acc u)) net) [name] s words)
    as [[[s1 o] r1] cl] eqn:Er. unfold result_of in H. cbn [fst snd] in H. subst r1.
  assert (Hst : forall n, In n [name] -> cx_user (Ctx (Some name) (a_admin (us_acc u)) net) = Some n) by (intros n [<-|[]]; reflexivity).
  destruct (command_blocks _ _ _ _ _ _ _ _ _ Hl Hh Hst Er) as [(c & me & H1 & H2 & H3)|(c & ps & H1 & H2)].
  - left. injection H3 as <-. exists c. split; [|exact H2]. exact (proj1 (get_resolves _ _ _ _ service_distinct) H1).
  - right. exists c, ps. split; [|exact H2]. exact (proj1 (get_resolves _ _ _ _ service_distinct) H1).
Qed.

(** The confirmed deletion of one's own account never ends. *)
Definition open_delete (c : command) : Prop := c_handle c = Some HUserDelete -> c_admin c = false /\ c_global c = true.

Lemma service_open_delete : every open_delete service_commands.
Proof.
  assert (He : every open_delete []) by (constructor; intros k c []).
  constructor. intros k c H. cbn [service_commands In] in H.
  repeat destruct H as [H|H]; try (injection H as <- <-); try destruct H;
    cbn [leaf group locals c_children];
    (split; [intros E; cbn [leaf group locals c_handle] in E; first [discriminate|split; reflexivity]|]);
    try exact He;
    (constructor; intros k c H; cbn [map In] in H;
     repeat destruct H as [H|H]; try (injection H as <- <-); try destruct H;
     (split; [intros E; cbn [leaf group locals c_handle] in E; first [discriminate|split; reflexivity]|exact He])).
Qed.

Lemma self_delete_blocks (s : server) name net e words c : sv_hung s = [] ->
  (exists u, In u (sv_users s) /\ a_name (us_acc u) = name) ->
  resolves service_commands words c [name; e_token e name] -> c_handle c = Some HUserDelete ->
  let o := issue D local refresh kick new_data service_commands s (ByUser name net, e, words) in
  result_of D o = RBlocked /\
  sv_users (fst (fst (fst o))) = sv_users s /\ sv_db (fst (fst (fst o))) = sv_db s /\ In name (sv_hung (fst (fst (fst o)))).
Proof.
  intros Hh [u0 [Hu0 En0]] Hr Hc o. pose proof (proj2 (get_resolves _ _ _ _ service_distinct) Hr) as Hg.
  subst o. unfold issue. destruct (find_user s name) as [u|] eqn:Ef.
  2:{ destruct (find_user_none _ _ Ef _ Hu0 En0). }
  rewrite Hh. cbn [bmem existsb].
  cbn [service_command]. rewrite Hg, Hc. pose proof (get_every _ _ _ _ _ service_open_delete Hg) as Hod. destruct (Hod Hc) as [Ea Eg].
  rewrite Ea, Eg. cbn [andb negb user_delete cx_admin cx_user]. rewrite beqb_refl. cbn [negb]. rewrite andb_false_r.
  rewrite Ef. cbn [is_some negb]. rewrite beqb_refl. cbn [negb]. rewrite Hh. cbn [app].
  assert (Eb : bmem name [name] = true) by (apply bmem_In; left; reflexivity). rewrite Eb.
  cbn [result_of fst snd sv_users sv_db sv_hung]. split; [reflexivity|]. split; [reflexivity|]. split; [reflexivity|]. left. reflexivity.
Qed.

(** The fuel given by [issue] is enough. *)
Lemma fuel_enough cmds fuel : forall fuel' e cx stack (s : server) words,
  length words < fuel -> length words < fuel' ->
  service_command D local refresh kick new_data cmds fuel e cx stack s words =
  service_command D local refresh kick new_data cmds fuel' e cx stack s words.
Proof.
  induction fuel as [|fuel IH]; intros fuel' e cx stack s words H1 H2; [lia|].
  destruct fuel' as [|fuel']; [lia|]. cbn [service_command].
  destruct (get cmds words) as [[c params]|er] eqn:Eg; [|reflexivity].
  pose proof (get_shorter _ _ _ _ Eg) as Hs.
  destruct (c_admin c && negb (cx_admin cx)); [reflexivity|].
  destruct (negb (c_global c) && negb (is_some (cx_user cx))); [reflexivity|].
  destruct (c_handle c) as [h|]; [|reflexivity].
  destruct h; try reflexivity.
  destruct params as [|name [|w ws]]; try reflexivity.
  cbn [length] in Hs.
  rewrite (IH fuel' e cx stack s (w :: ws)) by (cbn [length]; lia).
  rewrite (IH fuel' e (Ctx (Some name) true None) (name :: stack) s (w :: ws)) by (cbn [length]; lia).
  reflexivity.
Qed.

(** ** The administration socket *)

Lemma console_app cmds lines1 : forall (s : server) e l lines2,
  In (l_command l) [B "CAP"; B "NICK"; B "USER"; B "PASS"] ->
  console D local refresh kick new_data cmds s (lines1 ++ (e, l) :: lines2) =
  console D local refresh kick new_data cmds s lines1.
Proof.
  induction lines1 as [|[e1 l1] lines1 IH]; intros s e l lines2 Hl.
  - cbn [app console]. apply bmem_In in Hl. rewrite Hl. reflexivity.
  - cbn [app console]. destruct (bmem (l_command l1) [B "CAP"; B "NICK"; B "USER"; B "PASS"]); [reflexivity|].
    destruct (beqb (l_command l1) (B "BOUNCERSERV")); [|apply IH; exact Hl].
    destruct (l_words l1) as [[words|]|]; try (apply IH; exact Hl).
    destruct (issue D local refresh kick new_data cmds s (ByConsole, e1, words)) as [[[s1 o] r1] cl].
    destruct r1; [| |reflexivity]; rewrite (IH s1 e l lines2 Hl); reflexivity.
Qed.

End WithData.

(** ** Help *)

Lemma leaf_get cmds : forall p c args, leaf_at cmds p c -> distinct cmds -> get cmds (p ++ args) = inl (c, args).
Proof.
  intros p c args H. induction H as [cmds k c Hin Hch|cmds k c p c' Hin H IH]; intros Hd.
  - assert (Hn : NoDup (map fst cmds)) by (inversion Hd; assumption).
    cbn [app get]. rewrite (proj2 (pick_selects cmds k c Hn) (sel_full _ _ _ Hin)). destruct args; [reflexivity|]. rewrite Hch. reflexivity.
  - assert (Hn : NoDup (map fst cmds)) by (inversion Hd; assumption).
    assert (Hd' : distinct (c_children c)) by (inversion Hd as [x _ Hsub E]; subst; exact (Hsub _ _ Hin)).
    cbn [app get]. rewrite (proj2 (pick_selects cmds k c Hn) (sel_full _ _ _ Hin)).
    specialize (IH Hd'). destruct (p ++ args) as [|x l] eqn:E.
    { cbn [get] in IH. discriminate. }
    destruct (c_children c) as [|ch0 ch]; [|exact IH].
    cbn [get pick find scan] in IH. discriminate.
Qed.

(** The leaves of the table, listed. *)
Definition table_leaves (cmds : list (bytes * command)) : list (list bytes * command) :=
  flat_map (fun p => match c_children (snd p) with
    | [] => [([fst p], snd p)]
    | ch => map (fun q => ([fst p; fst q], snd q)) ch
    end) cmds.

Definition two_levels (cmds : list (bytes * command)) : bool :=
  forallb (fun p => forallb (fun q => match c_children (snd q) with [] => true | _ => false end) (c_children (snd p))) cmds.

Lemma leaves_in cmds p c : two_levels cmds = true -> (In (p, c) (table_leaves cmds) <-> leaf_at cmds p c).
Proof.
  intros H2. unfold two_levels in H2. rewrite forallb_forall in H2. unfold table_leaves. rewrite in_flat_map. split.
  - intros [[k c0] [Hin H]]. cbn [fst snd] in H. destruct (c_children c0) as [|ch0 ch] eqn:Ec.
    + destruct H as [H|[]]. injection H as <- <-. exact (la_here _ _ _ Hin Ec).
    + apply in_map_iff in H as [[k' c'] [E H]]. cbn [fst snd] in E. injection E as <- <-.
      apply (la_below _ _ c0 _ _ Hin). rewrite Ec. apply la_here; [exact H|].
      specialize (H2 _ Hin). cbn [snd] in H2. rewrite Ec, forallb_forall in H2. specialize (H2 _ H). cbn [snd] in H2.
      destruct (c_children c'); [reflexivity|discriminate].
  - intros H. inversion H as [x k c0 Hin Hc E1 E2 E3|x k c0 p' c' Hin Hl E1 E2 E3]; subst.
    + exists (k, c). split; [exact Hin|]. cbn [fst snd]. rewrite Hc. left. reflexivity.
    + exists (k, c0). split; [exact Hin|]. cbn [fst snd].
      pose proof (H2 _ Hin) as H3. cbn [snd] in H3. rewrite forallb_forall in H3.
      inversion Hl as [y k' c1 Hin' Hc' F1 F2 F3|y k' c1 p'' c'' Hin' Hl' F1 F2 F3]; subst.
      * destruct (c_children c0) as [|ch0 ch] eqn:Ec; [destruct Hin'|].
        apply in_map_iff. exists (k', c). split; [reflexivity|exact Hin'].
      * specialize (H3 _ Hin'). cbn [snd] in H3. destruct (c_children c1) as [|z zs]; [|discriminate].
        inversion Hl' as [y k2 c2 Hin2|y k2 c2 p2 c3 Hin2]; subst; destruct Hin2.
Qed.

Definition lleqb (x y : list (list bytes)) : bool := leqb (leqb beqb) x y.

(** Both lists have the same elements. *)
Definition same_members (x y : list (list bytes)) : bool :=
  forallb (fun p => existsb (leqb beqb p) y) x && forallb (fun p => existsb (leqb beqb p) x) y.

Lemma same_members_in x y p : same_members x y = true -> (In p x <-> In p y).
Proof.
  intros H. apply andb_true_iff in H as [H1 H2]. rewrite forallb_forall in H1, H2.
  assert (Hl : forall a b : list bytes, leqb beqb a b = true <-> a = b) by (apply leqb_eq; intros a b; apply beqb_eq).
  split; intros Hp.
  - specialize (H1 _ Hp). apply existsb_exists in H1 as [q [Hq E]]. apply Hl in E. subst. exact Hq.
  - specialize (H2 _ Hp). apply existsb_exists in H2 as [q [Hq E]]. apply Hl in E. subst. exact Hq.
Qed.

(** For a user, the list of help is the list of the commands that the user may run. *)
Lemma user_help admin path :
  In path (set_help [] admin false service_commands) <->
  exists c, leaf_at service_commands path c /\ (c_admin c = true -> admin = true).
Proof.
  assert (H : same_members (set_help [] admin false service_commands)
    (map fst (filter (fun q => implb (c_admin (snd q)) admin) (table_leaves service_commands))) = true)
    by (destruct admin; vm_compute; reflexivity).
  rewrite (same_members_in _ _ path H). rewrite in_map_iff.
  assert (Ht : two_levels service_commands = true) by (vm_compute; reflexivity).
  split.
  - intros [[p c] [E Hin]]. cbn [fst] in E. subst p. apply filter_In in Hin as [Hin Hi]. cbn [snd] in Hi.
    exists c. split; [exact (proj1 (leaves_in _ _ _ Ht) Hin)|]. intros Ha. rewrite Ha in Hi. exact Hi.
  - intros [c [Hl Ha]]. exists (path, c). split; [reflexivity|]. apply filter_In. cbn [snd].
    split; [exact (proj2 (leaves_in _ _ _ Ht) Hl)|]. destruct (c_admin c); [cbn; exact (Ha eq_refl)|reflexivity].
Qed.

(** On the administration socket, the commands of the group "server" are missing. *)
Lemma console_help path :
  In path (set_help [] true true service_commands) <->
  exists c, leaf_at service_commands path c /\ c_global c = true /\ hd [] path <> B "server".
Proof.
  assert (H : same_members (set_help [] true true service_commands)
    (map fst (filter (fun q => c_global (snd q) && negb (beqb (hd [] (fst q)) (B "server"))) (table_leaves service_commands))) = true)
    by (vm_compute; reflexivity).
  rewrite (same_members_in _ _ path H). rewrite in_map_iff.
  assert (Ht : two_levels service_commands = true) by (vm_compute; reflexivity).
  split.
  - intros [[p c] [E Hin]]. cbn [fst] in E. subst p. apply filter_In in Hin as [Hin Hi]. cbn [fst snd] in Hi.
    apply andb_true_iff in Hi as [Hg Hs]. apply negb_true_iff, beqb_neq in Hs.
    exists c. split; [exact (proj1 (leaves_in _ _ _ Ht) Hin)|]. split; assumption.
  - intros [c [Hl [Hg Hs]]]. exists (path, c). split; [reflexivity|]. apply filter_In. cbn [fst snd].
    split; [exact (proj2 (leaves_in _ _ _ Ht) Hl)|]. apply andb_true_iff. split; [exact Hg|]. apply negb_true_iff, beqb_neq. exact Hs.
Qed.

Definition has_handle (c : command) : Prop := c_children c = [] -> exists h, c_handle c = Some h.

Lemma leaf_every P cmds p c : every P cmds -> leaf_at cmds p c -> P c /\ c_children c = [].
Proof.
  intros He Hl. induction Hl as [cmds k c Hin Hc|cmds k c p c' Hin Hl IH]; inversion He as [x Hx E]; subst.
  - split; [exact (proj1 (Hx _ _ Hin))|exact Hc].
  - apply IH. exact (proj2 (Hx _ _ Hin)).
Qed.

Lemma service_handled : every has_handle service_commands.
Proof.
  assert (He : every has_handle []) by (constructor; intros k c []).
  constructor. intros k c H. cbn [service_commands In] in H.
  repeat destruct H as [H|H]; try (injection H as <- <-); try destruct H;
    cbn [leaf group locals c_children];
    (split; [intros E; cbn [leaf group locals c_children map] in E; first [discriminate|eexists; reflexivity]|]);
    try exact He;
    (constructor; intros k c H; cbn [map In] in H;
     repeat destruct H as [H|H]; try (injection H as <- <-); try destruct H;
     (split; [intros _; eexists; reflexivity|exact He])).
Qed.

Section Run.
Variable D : Type.
Variable local : list bytes -> context -> account -> D -> list bytes -> D * list say * sresult.
Variable refresh : account -> account -> D -> D.
Variable kick : D -> D.
Variable new_data : D.

(** A leaf is called with its parameters when the caller has the rights it asks for, and only
    then. *)
Lemma leaf_called fuel e cx stack s path args c h : leaf_at service_commands path c -> c_handle c = Some h ->
  (exists l, snd (service_command D local refresh kick new_data service_commands (S fuel) e cx stack s (path ++ args)) = (h, cx) :: l) <->
  (c_admin c = true -> cx_admin cx = true) /\ (c_global c = true \/ cx_user cx <> None).
Proof.
  intros Hl Hh. cbn [service_command]. rewrite (leaf_get _ _ _ args Hl service_distinct), Hh.
  destruct (c_admin c && negb (cx_admin cx)) eqn:Ea.
  { apply andb_true_iff in Ea as [Ea Eb]. apply negb_true_iff in Eb. split.
    - intros [l H]. discriminate.
    - intros [H _]. rewrite (H Ea) in Eb. discriminate. }
  destruct (negb (c_global c) && negb (is_some (cx_user cx))) eqn:Eg.
  { apply andb_true_iff in Eg as [E1 E2]. apply negb_true_iff in E1. split.
    - intros [l H]. discriminate.
    - intros [_ [H|H]]; [congruence|]. destruct (cx_user cx); [discriminate|congruence]. }
  split.
  - intros _. split.
    + intros E. rewrite E in Ea. cbn [andb] in Ea. destruct (cx_admin cx); [reflexivity|discriminate].
    + destruct (c_global c); [left; reflexivity|]. right. intros E. rewrite E in Eg. discriminate.
  - intros _. destruct h; try (eexists; reflexivity).
    destruct args as [|name [|w ws]]; try (eexists; reflexivity).
    destruct (match cx_user cx with Some me => beqb name me | None => false end).
    + destruct (service_command D local refresh kick new_data service_commands fuel e cx stack s (w :: ws)) as [o cl]. eexists. reflexivity.
    + destruct (negb (is_some (find_user s name))); [eexists; reflexivity|].
      destruct (bmem name (stack ++ sv_hung s)); [eexists; reflexivity|].
      destruct (service_command D local refresh kick new_data service_commands fuel e (Ctx (Some name) true None) (name :: stack) s (w :: ws)) as [[[s1 o] r] cl].
      eexists. reflexivity.
Qed.

(** Help lists what runs, for a user. *)
Lemma help_runs fuel e me admin net stack s path args :
  In path (set_help [] admin false service_commands) <->
  exists c h, leaf_at service_commands path c /\ c_handle c = Some h /\
    exists l, snd (service_command D local refresh kick new_data service_commands (S fuel) e (Ctx (Some me) admin net) stack s (path ++ args))
              = (h, Ctx (Some me) admin net) :: l.
Proof.
  rewrite user_help. split.
  - intros [c [Hl Ha]]. destruct (leaf_every _ _ _ _ service_handled Hl) as [Hh Hc]. destruct (Hh Hc) as [h Eh].
    exists c, h. split; [exact Hl|]. split; [exact Eh|]. apply (leaf_called _ _ _ _ _ _ _ c h Hl Eh).
    split; [exact Ha|]. right. discriminate.
  - intros (c & h & Hl & Eh & H). exists c. split; [exact Hl|].
    apply (leaf_called _ _ _ _ _ _ _ c h Hl Eh) in H as [H _]. exact H.
Qed.

End Run.
