(** Proofs for C101. *)
From Verif.Base Require Import Bytes.
From Coq Require Import Lia.
From Verif.Model Require Import Wait.
From Verif.Spec Require Import Wait.
Open Scope nat_scope.

Lemma teqb_eq a b : teqb a b = true <-> a = b.
Proof.
  unfold teqb. destruct a as [a1 a2], b as [b1 b2]. cbn [fst snd]. rewrite andb_true_iff, !N.eqb_eq. split; [intros [-> ->]; reflexivity|].
  intro E. injection E as -> ->. auto.
Qed.
Lemma teqb_refl a : teqb a a = true.
Proof. apply teqb_eq. reflexivity. Qed.
Lemma teqb_false a b : teqb a b = false <-> a <> b.
Proof. rewrite <- not_true_iff_false, teqb_eq. tauto. Qed.
Lemma upd_same {A} (f : N -> A) u a : upd f u a u = a.
Proof. unfold upd. rewrite N.eqb_refl. reflexivity. Qed.
Lemma upd_other {A} (f : N -> A) u a x : x <> u -> upd f u a x = f x.
Proof. intro H. unfold upd. apply N.eqb_neq in H. rewrite H. reflexivity. Qed.

Section Proofs.
  Variable users : list N.
  Variable administrator : N -> bool.
  Hypothesis Hnd : NoDup users.
  Notation modest := (modest administrator).

  Definition pcref (p : status) : list token :=
    match p with Exec (Some t) _ => [t] | Put t _ _ => [t] | _ => [] end.
  Definition evref (e : ev) : list token := match e with ERun t _ => [t] | _ => [] end.
  Definition refs (s : sys) (w : N) : list token := pcref (s_pc s w) ++ flat_map evref (s_q s w).

  Definition pcok (s : sys) (u : N) : Prop :=
    match s_pc s u with
    | Idle => True
    | Exec None c => modest u c
    | Exec (Some t) (CLocal n) => administrator u = false
    | Send None w (EUpdate t) (WDone t') => administrator u = true /\ administrator w = false /\ In w users /\ t = t'
    | Send None w (ERun t (CLocal n)) (WRun t') => administrator u = true /\ administrator w = false /\ In w users /\ t = t' /\ fst t = u
    | Wait None w (WDone t) => administrator u = true /\ administrator w = false /\ In w users /\ (In t (s_done s) \/ In (EUpdate t) (s_q s w))
    | Wait None w (WRun t) => administrator u = true /\ administrator w = false /\ In w users /\ fst t = u /\ (In t (refs s w) \/ In (t, true) (s_ch s))
    | Put t b k => administrator u = false /\ exists n, Put t b k = prints t n
    | Cast None true l => administrator u = true /\ s_lock s = Some u /\ length l <= length users /\ incl l users
    | _ => False
    end.
  Definition evok (u : N) (e : ev) : Prop :=
    match e with
    | ELocal c => modest u c
    | EUpdate t => administrator u = false
    | ERun t (CLocal n) => administrator u = false
    | ECast => True
    | _ => False
    end.
  Record Inv (s : sys) : Prop := mkInv {
    i_pc : forall u, pcok s u;
    i_q : forall u e, In e (s_q s u) -> evok u e;
    i_out : forall u, ~ In u users -> s_pc s u = Idle /\ s_q s u = [];
    i_lock : forall a, s_lock s = Some a -> exists l, s_pc s a = Cast None true l;
    i_refs : forall w t, In t (refs s w) -> s_pc s (fst t) = Wait None w (WRun t);
    i_ch : forall t b, In (t, b) (s_ch s) -> exists w, s_pc s (fst t) = Wait None w (WRun t);
    i_last : forall t w, In (t, true) (s_ch s) -> ~ In t (refs s w);
    i_nodup : forall w, NoDup (refs s w);
    i_one : NoDup (map fst (s_ch s)) }.

  Definition waits_run (p : status) : Prop := exists ret w t, p = Wait ret w (WRun t).

  Lemma refs_pc s u p x : pcref p = pcref (s_pc s u) -> refs (set_pc s u p) x = refs s x.
  Proof.
    intro E. unfold refs. cbn [set_pc s_pc s_q]. destruct (N.eq_dec x u) as [->|D]; [rewrite upd_same, E; reflexivity|rewrite upd_other by exact D; reflexivity].
  Qed.

  (** A goroutine moves on, without a part in answering others. *)
  Lemma inv_pc s s' u p : Inv s -> In u users -> ~ waits_run (s_pc s u) -> ~ waits_run p -> pcref p = pcref (s_pc s u) ->
    s_pc s' = upd (s_pc s) u p -> s_q s' = s_q s -> s_ch s' = s_ch s -> s_done s' = s_done s ->
    (forall x, x <> u -> s_lock s = Some x -> s_lock s' = Some x) ->
    (forall a, s_lock s' = Some a -> (a = u /\ exists l, p = Cast None true l) \/ (a <> u /\ s_lock s = Some a)) -> pcok s' u -> Inv s'.
  Proof.
    intros I U W W' R Epc Eq Ech Ed L1 L2 P.
    assert (forall x, refs s' x = refs s x) as Er.
    { intro x. rewrite <- (refs_pc s u p x R). unfold refs. cbn [set_pc s_pc s_q]. rewrite Epc, Eq. reflexivity. }
    assert (forall x, x <> u -> s_pc s' x = s_pc s x) as Eo by (intros x D; rewrite Epc; apply upd_other; exact D).
    destruct I as [I1 I2 I3 I4 I5 I6 I7 I8 I9]. split.
    - intro x. destruct (N.eq_dec x u) as [->|D]; [exact P|]. specialize (I1 x). unfold pcok in *. rewrite (Eo x D), Ed, Ech, Eq.
      destruct (s_pc s x); try exact I1.
      + destruct ret; [exact I1|]. destruct wt; [exact I1| |exact I1]. rewrite Er. exact I1.
      + destruct ret; [exact I1|]. destruct safe; [|exact I1]. destruct I1 as (A & C & F). auto.
    - rewrite Eq. exact I2.
    - intros x N. rewrite Eq. destruct (N.eq_dec x u) as [->|D]; [contradiction|]. rewrite (Eo x D). auto.
    - intros a L. destruct (L2 a L) as [[-> (l & ->)]|[D L']]; [exists l; rewrite Epc; apply upd_same|]. rewrite (Eo a D). auto.
    - intros w t T. rewrite Er in T. specialize (I5 w t T). destruct (N.eq_dec (fst t) u) as [E|D]; [|rewrite (Eo _ D); exact I5].
      exfalso. apply W. rewrite E in I5. exists None, w, t. exact I5.
    - intros t b T. rewrite Ech in T. destruct (I6 t b T) as [w G]. exists w. destruct (N.eq_dec (fst t) u) as [E|D]; [|rewrite (Eo _ D); exact G].
      exfalso. apply W. rewrite E in G. exists None, w, t. exact G.
    - intros t w T. rewrite Ech in T. rewrite Er. auto.
    - intro w. rewrite Er. auto.
    - rewrite Ech. exact I9.
  Qed.

  (** An event that asks for no answer is added. *)
  Lemma inv_push s w e : Inv s -> In w users -> evok w e -> evref e = [] -> Inv (push s w e).
  Proof.
    intros I U V R. assert (forall x, refs (push s w e) x = refs s x) as Er.
    { intro x. unfold refs, push. cbn [set_q s_q s_pc]. destruct (N.eq_dec x w) as [->|D]; [|rewrite upd_other by exact D; reflexivity].
      rewrite upd_same, flat_map_app. cbn [flat_map]. rewrite R, !app_nil_r. reflexivity. }
    destruct I as [I1 I2 I3 I4 I5 I6 I7 I8 I9]. split.
    - intro x. specialize (I1 x). unfold pcok in *. cbn [push set_q s_pc s_q s_done s_ch s_lock] in *. destruct (s_pc s x); try exact I1.
      destruct ret; [exact I1|]. destruct wt; [| |exact I1].
      + destruct I1 as (A & C & F & G). repeat (split; [assumption|]). destruct G as [G|G]; [left; exact G|right].
        destruct (N.eq_dec w0 w) as [->|D]; [rewrite upd_same; apply in_or_app; left; exact G|rewrite upd_other by exact D; exact G].
      + destruct I1 as (A & C & F & H & G). repeat (split; [assumption|]). destruct G as [G|G]; [left|right; exact G]. change (In t (refs (push s w e) w0)). rewrite Er. exact G.
    - intros x f F. cbn [push set_q s_q] in F. destruct (N.eq_dec x w) as [->|D]; [|rewrite upd_other in F by exact D; eauto].
      rewrite upd_same in F. apply in_app_or in F. destruct F as [F|[<-|[]]]; [eauto|exact V].
    - intros x N. cbn [push set_q s_pc s_q]. destruct (N.eq_dec x w) as [->|D]; [contradiction|]. rewrite upd_other by exact D. auto.
    - exact I4.
    - intros x t T. rewrite Er in T. exact (I5 x t T).
    - exact I6.
    - intros t x T. rewrite Er. exact (I7 t x T).
    - intro x. rewrite Er. auto.
    - exact I9.
  Qed.

  (** An idle goroutine takes such an event. *)
  Lemma inv_pop s u e l : Inv s -> s_q s u = e :: l -> evref e = [] ->
    forall d, (forall t, In t (s_done s) -> In t d) -> (forall t, e = EUpdate t -> In t d) -> Inv (set_done (set_q s u l) d).
  Proof.
    intros I Q R d D1 D2. assert (forall x, refs (set_done (set_q s u l) d) x = refs s x) as Er.
    { intro x. unfold refs. cbn [set_done set_q s_q s_pc]. destruct (N.eq_dec x u) as [->|D]; [|rewrite upd_other by exact D; reflexivity].
      rewrite upd_same, Q. cbn [flat_map]. rewrite R. reflexivity. }
    destruct I as [I1 I2 I3 I4 I5 I6 I7 I8 I9]. split.
    - intro x. specialize (I1 x). unfold pcok in *. cbn [set_done set_q s_pc s_q s_done s_ch s_lock] in *. destruct (s_pc s x); try exact I1.
      destruct ret; [exact I1|]. destruct wt; [| |exact I1].
      + destruct I1 as (A & C & F & G). repeat (split; [assumption|]). destruct G as [G|G]; [left; auto|].
        destruct (N.eq_dec w u) as [->|D]; [|right; rewrite upd_other by exact D; exact G]. rewrite upd_same.
        rewrite Q in G. destruct G as [G|G]; [left; apply D2; exact G|right; exact G].
      + destruct I1 as (A & C & F & H & G). repeat (split; [assumption|]). destruct G as [G|G]; [left|right; exact G]. change (In t (refs (set_done (set_q s u l) d) w)). rewrite Er. exact G.
    - intros x f F. cbn [set_done set_q s_q] in F. destruct (N.eq_dec x u) as [->|D]; [|rewrite upd_other in F by exact D; eauto].
      rewrite upd_same in F. apply (I2 u). rewrite Q. right. exact F.
    - intros x N. cbn [set_done set_q s_pc s_q]. destruct (I3 x N) as [A C]. split; [exact A|]. destruct (N.eq_dec x u) as [->|D]; [|rewrite upd_other by exact D; exact C].
      rewrite Q in C. discriminate.
    - exact I4.
    - intros x t T. rewrite Er in T. exact (I5 x t T).
    - exact I6.
    - intros t x T. rewrite Er. exact (I7 t x T).
    - intro x. rewrite Er. auto.
    - exact I9.
  Qed.
  Lemma set_done_same s : set_done s (s_done s) = s.
  Proof. destruct s. reflexivity. Qed.
  Lemma in_users s u : Inv s -> s_pc s u <> Idle \/ s_q s u <> [] -> In u users.
  Proof.
    intros I H. destruct (in_dec N.eq_dec u users) as [J|J]; [exact J|]. destruct (i_out s I u J) as [A C]. destruct H; contradiction.
  Qed.

  Lemma inv_take s u s' : Inv s -> s_pc s u = Idle -> take s u = Some s' -> Inv s'.
  Proof.
    intros I P T. unfold take in T. destruct (s_q s u) as [|e l] eqn:Q; [discriminate|].
    assert (In u users) as U by (apply (in_users s u I); right; rewrite Q; discriminate).
    assert (evok u e) as V by (apply (i_q s I); rewrite Q; left; reflexivity).
    destruct e; cbn [evok] in V; cbn iota beta in T; injection T as <-.
    - assert (Inv (set_q s u l)) as I'.
      { rewrite <- (set_done_same (set_q s u l)). eapply inv_pop; [exact I|exact Q|reflexivity|auto|discriminate]. }
      apply (inv_pc (set_q s u l) _ u (Exec None c) I' U); try reflexivity.
      + cbn [set_q s_pc]. rewrite P. intros (a & b & t & E). discriminate.
      + intros (a & b & t & E). discriminate.
      + cbn [set_q s_pc]. rewrite P. reflexivity.
      + intros x _ L. exact L.
      + intros a L. right. split; [|exact L]. intros ->. destruct (i_lock s I u L) as [l' E]. congruence.
      + unfold pcok. cbn [set_pc s_pc]. rewrite upd_same. exact V.
    - eapply inv_pop; [exact I|exact Q|reflexivity| |].
      + intros t' G. cbn [set_q s_done]. right. exact G.
      + intros t' E. injection E as <-. left. reflexivity.
    - destruct c; try contradiction. 
      assert (forall x, refs (set_pc (set_q s u l) u (Exec (Some t) (CLocal n))) x = refs s x) as Er.
      { intro x. unfold refs. cbn [set_pc set_q s_pc s_q]. destruct (N.eq_dec x u) as [->|D]; [rewrite !upd_same, P, Q; reflexivity|rewrite !upd_other by exact D; reflexivity]. }
      destruct I as [I1 I2 I3 I4 I5 I6 I7 I8 I9]. split.
      + intro x. destruct (N.eq_dec x u) as [->|D]; [unfold pcok; cbn [set_pc set_q s_pc]; rewrite upd_same; exact V|].
        specialize (I1 x). unfold pcok in *. cbn [set_pc set_q s_pc s_q s_done s_ch s_lock] in *. rewrite upd_other by exact D. destruct (s_pc s x); try exact I1.
        destruct ret; [exact I1|]. destruct wt; [| |exact I1].
        * destruct I1 as (A & C & F & G). repeat (split; [assumption|]). destruct G as [G|G]; [left; exact G|right].
          destruct (N.eq_dec w u) as [->|D']; [|rewrite upd_other by exact D'; exact G]. rewrite upd_same. rewrite Q in G. destruct G as [G|G]; [discriminate|exact G].
        * destruct I1 as (A & C & F & H & G). repeat (split; [assumption|]). destruct G as [G|G]; [left|right; exact G]. change (In t0 (refs (set_pc (set_q s u l) u (Exec (Some t) (CLocal n))) w)). rewrite Er. exact G.
      + intros x f F. cbn [set_pc set_q s_q] in F. destruct (N.eq_dec x u) as [->|D]; [|rewrite upd_other in F by exact D; eauto].
        rewrite upd_same in F. apply (I2 u). rewrite Q. right. exact F.
      + intros x N. cbn [set_pc set_q s_pc s_q]. destruct (N.eq_dec x u) as [->|D]; [contradiction|]. rewrite !upd_other by exact D. auto.
      + intros a L. destruct (I4 a L) as [l' E]. exists l'. cbn [set_pc set_q s_pc]. rewrite upd_other; [exact E|]. intros ->. congruence.
      + intros x t' T. rewrite Er in T. specialize (I5 x t' T). cbn [set_pc set_q s_pc]. rewrite upd_other; [exact I5|]. intro E. rewrite E, P in I5. discriminate.
      + intros t' b T. destruct (I6 t' b T) as [x G]. exists x. cbn [set_pc set_q s_pc]. rewrite upd_other; [exact G|]. intro E. rewrite E, P in G. discriminate.
      + intros t' x T. rewrite Er. exact (I7 t' x T).
      + intro x. rewrite Er. auto.
      + exact I9.
    - destruct V.
    - rewrite <- (set_done_same (set_q s u l)). eapply inv_pop; [exact I|exact Q|reflexivity|auto|discriminate].
  Qed.

  Lemma running_In s w : In w (running users s) -> In w users.
  Proof. intro H. apply filter_In in H. apply H. Qed.
  Lemma known_In s w : existsb (N.eqb w) (running users s) = true -> In w users.
  Proof. intro E. apply existsb_exists in E. destruct E as (x & J & E). apply N.eqb_eq in E. subst x. exact (running_In s w J). Qed.
  Lemma running_length s : length (running users s) <= length users.
  Proof. unfold running. clear. induction users as [|x l IH]; [auto|]. cbn [filter]. destruct (negb _); cbn [length]; lia. Qed.

  Ltac nw := let a := fresh in let b := fresh in let t := fresh in let E := fresh in intros (a & b & t & E); try discriminate E; congruence.

  (** The common case of [inv_pc]: the lock does not change and was not held by [u]. *)
  Lemma inv_move s s' u p : Inv s -> s_pc s u <> Idle -> ~ waits_run (s_pc s u) -> ~ waits_run p -> pcref p = pcref (s_pc s u) ->
    (forall r b l, s_pc s u <> Cast r b l) ->
    s_pc s' = upd (s_pc s) u p -> s_q s' = s_q s -> s_ch s' = s_ch s -> s_done s' = s_done s -> s_lock s' = s_lock s -> pcok s' u -> Inv s'.
  Proof.
    intros I P W W' R NC E1 E2 E3 E4 E5 K. apply (inv_pc s s' u p I); try assumption.
    - apply (in_users s u I). left. exact P.
    - intros x _ L. rewrite E5. exact L.
    - intros a L. right. rewrite E5 in L. split; [|exact L]. intros ->. destruct (i_lock s I u L) as [l E]. exact (NC _ _ _ E).
  Qed.

  Lemma inv_exec s u ret c s' : Inv s -> s_pc s u = Exec ret c -> exec users s u ret c = Some s' -> Inv s'.
  Proof.
    intros I P E. pose proof (i_pc s I u) as K. unfold pcok in K. rewrite P in K.
    assert (forall s1 p, ~ waits_run p -> pcref p = pcref (Exec ret c) -> s_pc s1 = upd (s_pc s) u p -> s_q s1 = s_q s -> s_ch s1 = s_ch s -> s_done s1 = s_done s ->
       s_lock s1 = s_lock s -> pcok s1 u -> Inv s1) as M.
    { intros s1 p W R E1 E2 E3 E4 E5 Pk. apply (inv_move s s1 u p I); try assumption; rewrite P; try discriminate; [nw|exact R]. }
    assert (forall p, ~ waits_run p -> pcref p = pcref (Exec ret c) -> (forall s1, s_pc s1 u = p -> pcok s1 u) -> Inv (set_pc s u p)) as M1.
    { intros p W R Pk. apply (M (set_pc s u p) p W R); try reflexivity. apply Pk. cbn [set_pc s_pc]. apply upd_same. }
    destruct ret as [t|].
    - destruct c; try contradiction. cbn [exec] in E. injection E as <-. apply M1.
      + destruct n; nw.
      + destruct n; reflexivity.
      + intros s1 E. unfold pcok. rewrite E. destruct n as [|n]; cbn [prints]; (split; [exact K|]); [exists 0|exists (S n)]; reflexivity.
    - assert (Inv (set_pc s u Idle)) as MI.
      { apply M1; [nw|reflexivity|]. intros s1 E1. unfold pcok. rewrite E1. exact Logic.I. }
      destruct c; cbn [exec] in E; cbn [Spec.Wait.modest] in K.
      + injection E as <-. exact MI.
      + destruct (N.eqb_spec w u) as [D|D]; [injection E as <-; exact MI|].
        destruct (s_lock s) eqn:L0; [discriminate|]. destruct (existsb _ _) eqn:X; injection E as <-; [|exact MI].
        destruct K as [A [C|C]]; [contradiction|]. eapply M with (p := Send None w (EUpdate (u, s_seq s u)) (WDone (u, s_seq s u))); try reflexivity; try exact L0.
        * nw.
        * unfold pcok. cbn [set_pc s_pc]. rewrite upd_same. repeat (split; [first [assumption|exact (known_In s w X)]|]). reflexivity.
      + destruct c; try contradiction. destruct (N.eqb_spec w u) as [D|D].
        { injection E as <-. apply M1; [nw|reflexivity|]. intros s1 E1. unfold pcok. rewrite E1. exact Logic.I. }
        destruct (s_lock s) eqn:L0; [discriminate|]. destruct (existsb _ _) eqn:X; injection E as <-; [|exact MI].
        destruct K as [A [C|C]]; [contradiction|]. eapply M with (p := Send None w (ERun (u, s_seq s u) (CLocal n)) (WRun (u, s_seq s u))); try reflexivity; try exact L0.
        * nw.
        * unfold pcok. cbn [set_pc s_pc]. rewrite upd_same. repeat (split; [first [assumption|exact (known_In s w X)|reflexivity]|]). reflexivity.
      + destruct K.
      + destruct K.
      + destruct (s_lock s) eqn:L; [discriminate|]. injection E as <-.
        apply (inv_pc s _ u (Cast None true (running users s)) I); try reflexivity.
        * apply (in_users s u I). left. rewrite P. discriminate.
        * rewrite P. nw.
        * nw.
        * rewrite P. reflexivity.
        * intros x _ L'. congruence.
        * intros a L'. cbn [set_pc set_lock s_lock] in L'. injection L' as <-. left. split; [reflexivity|eexists; reflexivity].
        * unfold pcok. cbn [set_pc set_lock s_pc s_lock]. rewrite upd_same. split; [exact K|]. split; [reflexivity|].
          split; [apply running_length|]. intros x J. exact (running_In s x J).
  Qed.

  Lemma in_ch_Some s t b : in_ch s t = Some b -> In (t, b) (s_ch s).
  Proof.
    unfold in_ch. destruct (find _ (s_ch s)) as [[t' b']|] eqn:F; [|discriminate]. cbn [option_map snd]. intro E. injection E as ->.
    apply find_some in F. destruct F as [F G]. cbn [fst] in G. apply teqb_eq in G. subst t'. exact F.
  Qed.
  Lemma in_ch_None s t : in_ch s t = None -> ~ In t (map fst (s_ch s)).
  Proof.
    unfold in_ch. destruct (find _ (s_ch s)) eqn:F; [discriminate|]. intros _ J. apply in_map_iff in J. destruct J as ([t' b] & E & J). cbn [fst] in E. subst t'.
    apply find_none with (x := (t, b)) in F; [|exact J]. cbn [fst] in F. rewrite teqb_refl in F. discriminate.
  Qed.
  Lemma drop_In s t t' b : In (t', b) (s_ch (drop_ch s t)) <-> In (t', b) (s_ch s) /\ t' <> t.
  Proof. unfold drop_ch. cbn [set_ch s_ch]. rewrite filter_In. cbn [fst]. rewrite negb_true_iff, teqb_false. tauto. Qed.
  Lemma one_In l (t : token) (b b' : bool) : NoDup (map fst l) -> In (t, b) l -> In (t, b') l -> b = b'.
  Proof.
    induction l as [|[x y] l IH]; cbn [map fst]; intros N J J'; [destruct J|]. inversion N as [|? ? N1 N2]; subst.
    destruct J as [J|J], J' as [J'|J'].
    - congruence.
    - exfalso. injection J as -> ->. apply N1. apply (in_map fst) in J'. exact J'.
    - exfalso. injection J' as -> ->. apply N1. apply (in_map fst) in J. exact J.
    - eauto.
  Qed.

  Lemma inv_recv s u w t b s' : Inv s -> s_pc s u = Wait None w (WRun t) -> in_ch s t = Some b ->
    s' = set_pc (drop_ch s t) u (if b then Idle else Wait None w (WRun t)) -> Inv s'.
  Proof.
    intros I P C ->. pose proof (i_pc s I u) as K. unfold pcok in K. rewrite P in K. destruct K as (K1 & K2 & K3 & K4 & K5).
    apply in_ch_Some in C. set (s' := set_pc _ _ _).
    assert (forall x, refs s' x = refs s x) as Er.
    { intro x. unfold s', refs. cbn [set_pc drop_ch set_ch s_pc s_q]. destruct (N.eq_dec x u) as [->|D]; [rewrite upd_same, P; destruct b; reflexivity|rewrite upd_other by exact D; reflexivity]. }
    assert (forall x, x <> u -> s_pc s' x = s_pc s x) as Eo by (intros x D; unfold s'; cbn [set_pc drop_ch set_ch s_pc]; apply upd_other; exact D).
    assert (s_pc s' u = if b then Idle else Wait None w (WRun t)) as Eu by (unfold s'; cbn [set_pc s_pc]; apply upd_same).
    assert (In u users) as U by (apply (in_users s u I); left; rewrite P; discriminate).
    assert (forall t' b', In (t', b') (s_ch s') <-> In (t', b') (s_ch s) /\ t' <> t) as Ec by (intros; apply drop_In).
    assert (forall t' x, fst t' = u -> s_pc s (fst t') = Wait None x (WRun t') -> t' = t) as Ow.
    { intros t' x F G. rewrite F, P in G. congruence. }
    assert (forall x t' , s_pc s (fst t') = Wait None x (WRun t') -> t' <> t \/ b = false -> s_pc s' (fst t') = Wait None x (WRun t')) as Keep.
    { intros x t' G H. destruct (N.eq_dec (fst t') u) as [F|D]; [|rewrite (Eo _ D); exact G]. pose proof (Ow _ _ F G) as ->.
      destruct H as [H| ->]; [contradiction|]. rewrite F, Eu. rewrite F, P in G. exact G. }
    pose proof (i_last s I t) as IL.
    destruct I as [I1 I2 I3 I4 I5 I6 I7 I8 I9]. split.
    - intro x. destruct (N.eq_dec x u) as [->|D].
      + unfold pcok. rewrite Eu. destruct b; [exact Logic.I|]. repeat (split; [assumption|]). left. rewrite Er.
        destruct K5 as [K5|K5]; [exact K5|]. pose proof (one_In _ _ _ _ I9 C K5). discriminate.
      + specialize (I1 x). unfold pcok in *. rewrite (Eo x D). destruct (s_pc s x); try exact I1.
        destruct ret; [exact I1|]. destruct wt; [exact I1| |exact I1]. rewrite Er. destruct I1 as (A & B0 & F & H & G).
        repeat (split; [assumption|]). destruct G as [G|G]; [left; exact G|right]. apply Ec. split; [exact G|]. intros ->. congruence.
    - exact I2.
    - intros x N. destruct (N.eq_dec x u) as [->|D]; [contradiction|]. rewrite (Eo x D). exact (I3 x N).
    - intros a L. destruct (I4 a L) as [l E]. exists l. rewrite Eo; [exact E|]. intros ->. congruence.
    - intros x t' T. rewrite Er in T. apply Keep; [exact (I5 x t' T)|]. destruct b; [left|right; reflexivity]. intros ->. exact (IL x C T).
    - intros t' b' T. apply Ec in T. destruct T as [T D]. destruct (I6 t' b' T) as [x G]. exists x. apply Keep; auto.
    - intros t' x T. apply Ec in T. rewrite Er. apply I7, T.
    - intro x. rewrite Er. auto.
    - unfold s'. cbn [set_pc drop_ch set_ch s_ch]. clear - I9. induction (s_ch s) as [|[x y] l IH]; [constructor|]. cbn [map fst] in I9. inversion I9 as [|? ? N1 N2]; subst.
      cbn [filter fst]. destruct (negb (teqb x t)); [|auto]. cbn [map fst]. constructor; [|auto]. intro J. apply N1. apply in_map_iff in J. destruct J as ([a b] & E & J).
      apply filter_In in J. cbn [fst] in E. subst a. apply (in_map fst _ (x, b)). apply J.
  Qed.

  Lemma prints_inv t n t' b k : Put t' b k = prints t n -> t' = t /\ ((n = 0 /\ b = true /\ k = Idle) \/ exists m, n = S m /\ b = false /\ k = prints t m).
  Proof. destruct n as [|m]; cbn [prints]; intro E; injection E as -> -> ->; (split; [reflexivity|]); [left; auto|right; exists m; auto]. Qed.
  Lemma pcref_prints t n : pcref (prints t n) = [t].
  Proof. destruct n; reflexivity. Qed.
  Lemma pcok_prints s u t n : s_pc s u = prints t n -> administrator u = false -> pcok s u.
  Proof. intros E A. unfold pcok. rewrite E. destruct n as [|n]; cbn [prints]; (split; [exact A|]); [exists 0|exists (S n)]; reflexivity. Qed.

  Lemma inv_put s u t b k s' : Inv s -> s_pc s u = Put t b k -> in_ch s t = None ->
    s' = set_pc (set_ch s ((t, b) :: s_ch s)) u k -> Inv s'.
  Proof.
    intros I P C ->. pose proof (i_pc s I u) as K. unfold pcok in K. rewrite P in K. destruct K as (K1 & n & K2).
    apply prints_inv in K2. destruct K2 as [_ K2]. apply in_ch_None in C. set (s' := set_pc _ _ _).
    assert (In t (refs s u)) as T0 by (unfold refs; rewrite P; left; reflexivity).
    pose proof (i_refs s I u t T0) as Own. pose proof (i_nodup s I u) as ND. unfold refs in ND. rewrite P in ND. cbn [pcref app] in ND. inversion ND as [|? ? ND1 ND2]; subst.
    assert (forall x, x <> u -> refs s' x = refs s x) as Er.
    { intros x D. unfold s', refs. cbn [set_pc set_ch s_pc s_q]. rewrite upd_other by exact D. reflexivity. }
    assert (refs s' u = pcref k ++ flat_map evref (s_q s u)) as Eru by (unfold s', refs; cbn [set_pc set_ch s_pc s_q]; rewrite upd_same; reflexivity).
    assert (refs s u = t :: flat_map evref (s_q s u)) as Eru0 by (unfold refs; rewrite P; reflexivity).
    assert (forall x, x <> u -> s_pc s' x = s_pc s x) as Eo by (intros x D; unfold s'; cbn [set_pc set_ch s_pc]; apply upd_other; exact D).
    assert (s_pc s' u = k) as Eu by (unfold s'; cbn [set_pc s_pc]; apply upd_same).
    assert (pcref k = if b then [] else [t]) as Ek. { destruct K2 as [(_ & -> & ->)|(m & _ & -> & ->)]; [reflexivity|apply pcref_prints]. }
    assert (forall x t', In t' (refs s' x) -> In t' (refs s x)) as Sub.
    { intros x t' J. destruct (N.eq_dec x u) as [->|D]; [|rewrite <- (Er x D); exact J]. rewrite Eru, Ek in J. rewrite Eru0. destruct b; [right; exact J|exact J]. }
    assert (fst t <> u) as Fu. { intro E. rewrite E, P in Own. discriminate. }
    assert (In u users) as U by (apply (in_users s u I); left; rewrite P; discriminate).
    destruct I as [I1 I2 I3 I4 I5 I6 I7 I8 I9]. split.
    - intro x. destruct (N.eq_dec x u) as [->|D].
      + destruct K2 as [(_ & _ & E)|(m & _ & _ & E)].
        * unfold pcok. rewrite Eu, E. exact Logic.I.
        * eapply pcok_prints; [rewrite Eu; exact E|exact K1].
      + specialize (I1 x). unfold pcok in *. rewrite (Eo x D). destruct (s_pc s x) eqn:Px; try exact I1.
        destruct ret; [exact I1|]. destruct wt; [exact I1| |exact I1]. destruct I1 as (A & B0 & F & H & G). repeat (split; [assumption|]).
        destruct G as [G|G]; [|right; right; exact G].
        destruct (N.eq_dec w u) as [->|D']; [|left; rewrite (Er w D'); exact G].
        rewrite Eru0 in G. destruct G as [<-|G].
        * destruct b; [right; left; reflexivity|left; rewrite Eru, Ek; left; reflexivity].
        * left. rewrite Eru. apply in_or_app. right. exact G.
    - exact I2.
    - intros x N. destruct (N.eq_dec x u) as [->|D]; [contradiction|]. rewrite (Eo x D). exact (I3 x N).
    - intros a L. destruct (I4 a L) as [l E]. exists l. rewrite Eo; [exact E|]. intros ->. congruence.
    - intros x t' T. pose proof (I5 x t' (Sub _ _ T)) as G. rewrite Eo; [exact G|]. intro E. rewrite E, P in G. discriminate.
    - intros t' b' T. destruct T as [T|T].
      + injection T as <- <-. exists u. rewrite Eo; [exact Own|exact Fu].
      + destruct (I6 t' b' T) as [x G]. exists x. rewrite Eo; [exact G|]. intro E. rewrite E, P in G. discriminate.
    - intros t' x T J. destruct T as [T|T]; [|exact (I7 t' x T (Sub _ _ J))]. injection T as <- ->.
      pose proof (I5 x t (Sub _ _ J)) as G. rewrite Own in G. injection G as <-. rewrite Eru, Ek in J. exact (ND1 J).
    - intro x. destruct (N.eq_dec x u) as [->|D]; [|rewrite (Er x D); auto]. rewrite Eru, Ek. destruct b; [exact ND2|exact ND].
    - unfold s'. cbn [set_pc set_ch s_ch map fst]. constructor; [exact C|exact I9].
  Qed.

  Lemma inv_call s u w t n s' : Inv s -> s_pc s u = Send None w (ERun t (CLocal n)) (WRun t) ->
    s' = set_pc (push s w (ERun t (CLocal n))) u (Wait None w (WRun t)) -> Inv s'.
  Proof.
    intros I P ->. pose proof (i_pc s I u) as K. unfold pcok in K. rewrite P in K. destruct K as (K1 & K2 & K3 & _ & K5). set (s' := set_pc _ _ _).
    assert (w <> u) as Wu by congruence.
    assert (forall x, x <> w -> refs s' x = refs s x) as Er.
    { intros x D. unfold s', refs. cbn [set_pc push set_q s_pc s_q]. rewrite (upd_other (s_q s) w _ x D). destruct (N.eq_dec x u) as [->|D']; [rewrite upd_same, P; reflexivity|rewrite upd_other by exact D'; reflexivity]. }
    assert (refs s' w = refs s w ++ [t]) as Erw.
    { unfold s', refs. cbn [set_pc push set_q s_pc s_q]. rewrite upd_same, upd_other by exact Wu. rewrite flat_map_app, app_assoc. reflexivity. }
    assert (forall x, x <> u -> s_pc s' x = s_pc s x) as Eo by (intros x D; unfold s'; cbn [set_pc push set_q s_pc]; apply upd_other; exact D).
    assert (s_pc s' u = Wait None w (WRun t)) as Eu by (unfold s'; cbn [set_pc s_pc]; apply upd_same).
    assert (In u users) as U by (apply (in_users s u I); left; rewrite P; discriminate).
    assert (forall x, ~ In t (refs s x)) as Fr. { intros x J. pose proof (i_refs s I x t J) as G. rewrite K5, P in G. discriminate. }
    assert (forall t' x, s_pc s (fst t') = Wait None x (WRun t') -> s_pc s' (fst t') = Wait None x (WRun t')) as Keep.
    { intros t' x G. rewrite Eo; [exact G|]. intro E. rewrite E, P in G. discriminate. }
    destruct I as [I1 I2 I3 I4 I5 I6 I7 I8 I9]. split.
    - intro x. destruct (N.eq_dec x u) as [->|D].
      + unfold pcok. rewrite Eu. repeat (split; [assumption|]). left. rewrite Erw. apply in_or_app. right. left. reflexivity.
      + specialize (I1 x). unfold pcok in *. rewrite (Eo x D). destruct (s_pc s x); try exact I1.
        destruct ret; [exact I1|]. destruct wt; [| |exact I1]; destruct I1 as (A & B0 & F & G).
        * repeat (split; [assumption|]). destruct G as [G|G]; [left; exact G|right]. unfold s'. cbn [set_pc push set_q s_q].
          destruct (N.eq_dec w0 w) as [->|D']; [rewrite upd_same; apply in_or_app; left; exact G|rewrite upd_other by exact D'; exact G].
        * repeat (split; [assumption|]). destruct G as [H G]. split; [exact H|]. destruct G as [G|G]; [left|right; exact G].
          destruct (N.eq_dec w0 w) as [->|D']; [rewrite Erw; apply in_or_app; left; exact G|rewrite (Er _ D'); exact G].
    - intros x f F. unfold s' in F. cbn [set_pc push set_q s_q] in F. destruct (N.eq_dec x w) as [->|D]; [|rewrite upd_other in F by exact D; eauto].
      rewrite upd_same in F. apply in_app_or in F. destruct F as [F|[<-|[]]]; [eauto|exact K2].
    - intros x N. destruct (N.eq_dec x u) as [->|D]; [contradiction|]. rewrite (Eo x D). unfold s'. cbn [set_pc push set_q s_q].
      destruct (N.eq_dec x w) as [->|D']; [contradiction|]. rewrite upd_other by exact D'. exact (I3 x N).
    - intros a L. destruct (I4 a L) as [l E]. exists l. rewrite Eo; [exact E|]. intros ->. congruence.
    - intros x t' T. destruct (N.eq_dec x w) as [->|D]; [|rewrite (Er x D) in T; apply Keep; exact (I5 x t' T)].
      rewrite Erw in T. apply in_app_or in T. destruct T as [T|[<-|[]]]; [apply Keep; exact (I5 w t' T)|]. rewrite K5. exact Eu.
    - intros t' b T. destruct (I6 t' b T) as [x G]. exists x. apply Keep. exact G.
    - intros t' x T J. destruct (N.eq_dec x w) as [->|D]; [|rewrite (Er x D) in J; exact (I7 t' x T J)].
      rewrite Erw in J. apply in_app_or in J. destruct J as [J|[<-|[]]]; [exact (I7 t' w T J)|].
      destruct (I6 t true T) as [x G]. rewrite K5, P in G. discriminate.
    - intro x. destruct (N.eq_dec x w) as [->|D]; [|rewrite (Er x D); auto]. rewrite Erw.
      assert (forall l : list token, NoDup l -> ~ In t l -> NoDup (l ++ [t])) as Ap.
      { induction l as [|y l IH]; intros N1 N2; cbn [app]; [constructor; [intros []|constructor]|]. inversion N1 as [|? ? Y1 Y2]; subst. constructor.
        - intro J. apply in_app_or in J. destruct J as [J|[J|[]]]; [exact (Y1 J)|]. apply N2. left. auto.
        - apply IH; [exact Y2|]. intro J. apply N2. right. exact J. }
      apply Ap; [auto|exact (Fr w)].
    - exact I9.
  Qed.

  Lemma inv_go s u s' : Inv s -> go users s u = Some s' -> Inv s'.
  Proof.
    intros I G. unfold go in G. pose proof (i_pc s I u) as K. unfold pcok in K. destruct (s_pc s u) as [|ret c|ret w e wt|ret w wt|t b k|ret safe l|] eqn:P.
    - exact (inv_take s u s' I P G).
    - exact (inv_exec s u ret c s' I P G).
    - destruct ret; [contradiction|]. destruct (room s w); [|discriminate]. injection G as <-.
      destruct e; try contradiction.
      + destruct wt; try contradiction. destruct K as (A & C & F & <-).
        assert (Inv (push s w (EUpdate t))) as I' by (apply inv_push; [exact I|exact F|exact C|reflexivity]).
        apply (inv_move (push s w (EUpdate t)) _ u (Wait None w (WDone t)) I'); try reflexivity; cbn [push set_q s_pc]; rewrite ?P; try discriminate; try reflexivity.
        * nw.
        * nw.
        * unfold pcok. cbn [set_pc push set_q s_pc s_done s_q]. rewrite upd_same. repeat (split; [assumption|]). right. rewrite upd_same. apply in_or_app. right. left. reflexivity.
      + destruct c; try contradiction. destruct wt; try contradiction. destruct K as (A & C & F & <- & H).
        eapply inv_call; [exact I|exact P|reflexivity].
    - destruct ret; [destruct wt; contradiction|]. destruct wt.
      + destruct (existsb _ _); [|discriminate]. injection G as <-.
        apply (inv_move s _ u Idle I); try reflexivity; rewrite ?P; try discriminate; try reflexivity; [nw|nw|].
        unfold pcok. cbn [set_pc s_pc finish]. rewrite upd_same. exact Logic.I.
      + destruct (in_ch s t) as [[|]|] eqn:C; [| |discriminate]; injection G as <-; (eapply inv_recv; [exact I|exact P|exact C|reflexivity]).
      + contradiction.
    - destruct (in_ch s t) eqn:C; [discriminate|]. injection G as <-. eapply inv_put; [exact I|exact P|exact C|reflexivity].
    - destruct ret; [contradiction|]. destruct safe; [|contradiction]. destruct K as (A & L & Ln & Lu).
      assert (In u users) as U by (apply (in_users s u I); left; rewrite P; discriminate).
      destruct l as [|w l].
      + injection G as <-. apply (inv_pc s _ u Idle I U); try reflexivity; rewrite ?P; try reflexivity; [nw|nw| | |].
        * intros x D L'. congruence.
        * intros a L'. discriminate.
        * unfold pcok. cbn [set_pc set_lock s_pc finish]. rewrite upd_same. exact Logic.I.
      + destruct (room s w); [|discriminate]. injection G as <-.
        assert (Inv (push s w ECast)) as I' by (apply inv_push; [exact I|apply Lu; left; reflexivity|exact Logic.I|reflexivity]).
        apply (inv_pc (push s w ECast) _ u (Cast None true l) I' U); try reflexivity; cbn [push set_q s_pc]; rewrite ?P; try reflexivity; [nw|nw| | |].
        * intros x _ L'. exact L'.
        * intros a L'. cbn [set_pc push set_q s_lock] in L'. rewrite L in L'. injection L' as <-. left. split; [reflexivity|eauto].
        * unfold pcok. cbn [set_pc push set_q s_pc s_lock]. rewrite upd_same. split; [exact A|]. split; [exact L|]. cbn [length] in Ln. split; [lia|].
          intros x J. apply Lu. right. exact J.
    - discriminate.
  Qed.

  Lemma inv_giveup s u s' : Inv s -> ~ awaiting s u -> give_up s u = Some s' -> Inv s'.
  Proof.
    intros I NA G. unfold give_up in G. pose proof (i_pc s I u) as K. unfold pcok in K. destruct (s_pc s u) as [|ret c|ret w e wt|ret w wt|t b k|ret safe l|] eqn:P; try discriminate.
    - destruct ret; [contradiction|]. assert (set_pc s u Idle = s') as <-.
      { destruct wt; [congruence|congruence|]. destruct e; try contradiction. destruct c; contradiction. }
      apply (inv_move s _ u Idle I); try reflexivity; rewrite ?P; try discriminate; try reflexivity; [nw|nw|].
      unfold pcok. cbn [set_pc s_pc]. rewrite upd_same. exact Logic.I.
    - exfalso. apply NA. exists ret, w, wt. exact P.
    - destruct ret; [contradiction|]. destruct safe; [|contradiction]. destruct K as (A & L & Ln & Lu). destruct l as [|w l]; [discriminate|]. injection G as <-.
      assert (In u users) as U by (apply (in_users s u I); left; rewrite P; discriminate).
      apply (inv_pc s _ u (Cast None true l) I U); try reflexivity; rewrite ?P; try reflexivity; [nw|nw| | |].
      + intros x _ L'. exact L'.
      + intros a L'. cbn [set_pc s_lock] in L'. rewrite L in L'. injection L' as <-. left. split; [reflexivity|eauto].
      + unfold pcok. cbn [set_pc s_pc s_lock]. rewrite upd_same. split; [exact A|]. split; [exact L|]. cbn [length] in Ln. split; [lia|].
        intros x J. apply Lu. right. exact J.
  Qed.

  Lemma inv_step s l s' : Inv s -> calm users administrator s l -> step users s l = Some s' -> Inv s'.
  Proof.
    intros I C E. destruct l; cbn [calm step] in *.
    - destruct (room s u); [|discriminate]. injection E as <-. apply inv_push; [exact I|apply C|apply C|reflexivity].
    - exact (inv_go s u s' I E).
    - exact (inv_giveup s u s' I C E).
    - destruct C.
  Qed.
  Lemma inv_start : Inv start.
  Proof.
    split; [intro; exact Logic.I|intros u e []|auto|discriminate|intros w t []|intros t b []|intros t w []|intro; constructor|constructor].
  Qed.

  (** ** Somebody can go on *)
  Definition can (s : sys) : Prop := exists l s', working users administrator s l /\ step users s l = Some s'.
  Lemma can_go s u : go users s u <> None -> can s.
  Proof. intro G. destruct (go users s u) as [s'|] eqn:E; [|contradiction]. exists (LGo u), s'. repeat split. exact E. Qed.

  (** While somebody holds the lock, they can go on. *)
  Lemma can_lock s a : Inv s -> s_lock s = Some a -> can s.
  Proof.
    intros I L. destruct (i_lock s I a L) as [l P]. destruct l as [|w l].
    - apply (can_go s a). unfold go. rewrite P. discriminate.
    - exists (LGiveUp a), (set_pc s a (Cast None true l)). cbn [step]. unfold give_up. rewrite P. repeat split.
      cbn [calm]. intros (r & x & wt & E). congruence.
  Qed.
  Lemma in_ch_In s t b : In (t, b) (s_ch s) -> in_ch s t <> None.
  Proof. intros J E. apply in_ch_None in E. apply E. apply (in_map fst) in J. exact J. Qed.
  Lemma can_recv s t b : Inv s -> In (t, b) (s_ch s) -> can s.
  Proof.
    intros I J. destruct (i_ch s I t b J) as [w P]. apply (can_go s (fst t)). unfold go. rewrite P. apply in_ch_In in J.
    destruct (in_ch s t) as [[|]|]; [discriminate|discriminate|contradiction].
  Qed.

  (** Somebody who is not an administrator and has something to do. *)
  Lemma can_plain s u : Inv s -> administrator u = false -> s_pc s u <> Idle \/ s_q s u <> [] -> can s.
  Proof.
    intros I A H. pose proof (i_pc s I u) as K. unfold pcok in K. destruct (s_pc s u) as [|ret c|ret w e wt|ret w wt|t b k|ret safe l|] eqn:P.
    - destruct H as [H|H]; [contradiction|]. apply (can_go s u). unfold go, take. rewrite P. destruct (s_q s u) as [|[]]; try discriminate. contradiction.
    - apply (can_go s u). unfold go. rewrite P. destruct ret; [destruct c; try contradiction; discriminate|].
      destruct c; cbn [Spec.Wait.modest] in K; try contradiction; try discriminate; try (destruct K; congruence).
      + destruct c; try contradiction. destruct K. congruence.
      + congruence.
    - destruct ret; [contradiction|]. destruct e as [ |t|t []| | ]; try contradiction; destruct wt; try contradiction; destruct K; congruence.
    - destruct ret; [destruct wt; contradiction|]. destruct wt; try contradiction; destruct K; congruence.
    - destruct (in_ch s t) as [b'|] eqn:C.
      + eapply can_recv; [exact I|]. apply in_ch_Some. exact C.
      + apply (can_go s u). unfold go. rewrite P, C. discriminate.
    - destruct ret; [contradiction|]. destruct safe; [|contradiction]. destruct K; congruence.
    - contradiction.
  Qed.

  Lemma can_any s u : Inv s -> s_pc s u <> Idle \/ s_q s u <> [] -> can s.
  Proof.
    intros I H. destruct (s_lock s) as [a|] eqn:L; [exact (can_lock s a I L)|].
    pose proof (i_pc s I u) as K. unfold pcok in K. destruct (s_pc s u) as [|ret c|ret w e wt|ret w wt|t b k|ret safe l|] eqn:P.
    - destruct H as [H|H]; [contradiction|]. apply (can_go s u). unfold go, take. rewrite P. destruct (s_q s u) as [|[]]; try discriminate. contradiction.
    - apply (can_go s u). unfold go. rewrite P. unfold exec. rewrite L. destruct ret; [destruct c; try contradiction; discriminate|].
      destruct c; cbn [Spec.Wait.modest] in K; try contradiction; try discriminate; destruct (N.eqb _ _); try discriminate; destruct (existsb _ _); discriminate.
    - destruct ret; [contradiction|]. exists (LGiveUp u), (set_pc s u Idle). repeat split.
      + cbn [calm]. intros (r & x & wt' & E). congruence.
      + cbn [step]. unfold give_up. rewrite P. destruct wt; [reflexivity|reflexivity|]. destruct e as [ | |? []| | ]; contradiction.
    - destruct ret; [destruct wt; contradiction|]. destruct wt; [| |contradiction].
      + destruct K as (_ & A & _ & [D|D]).
        * apply (can_go s u). unfold go. rewrite P. assert (existsb (teqb t) (s_done s) = true) as ->; [|discriminate].
          apply existsb_exists. exists t. split; [exact D|apply teqb_refl].
        * apply (can_plain s w I A). right. intro E. rewrite E in D. destruct D.
      + destruct K as (_ & A & _ & _ & [D|D]); [|exact (can_recv s t true I D)].
        apply (can_plain s w I A). unfold refs in D. apply in_app_or in D. destruct D as [D|D].
        * left. intro E. rewrite E in D. destruct D.
        * right. intro E. rewrite E in D. destruct D.
    - apply (can_plain s u I); [apply K|]. left. rewrite P. discriminate.
    - destruct ret; [contradiction|]. destruct safe; [|contradiction]. destruct K as (_ & K & _). congruence.
    - contradiction.
  Qed.

  Definition restb (s : sys) : bool := forallb (fun u => match s_pc s u, s_q s u with Idle, [] => true | _, _ => false end) users.
  Lemma restb_spec s : restb s = true <-> at_rest users s.
  Proof.
    unfold restb, at_rest. rewrite forallb_forall. split; intros H u U; specialize (H u U).
    - destruct (s_pc s u), (s_q s u); try discriminate; auto.
    - destruct H as [-> ->]. reflexivity.
  Qed.
  Lemma progress s : Inv s -> at_rest users s \/ can s.
  Proof.
    intro I. destruct (restb s) eqn:R; [left; apply restb_spec; exact R|right].
    assert (exists u, s_pc s u <> Idle \/ s_q s u <> []) as [u H]; [|exact (can_any s u I H)].
    unfold restb in R. clear - R. revert R. induction users as [|u l IH]; cbn [forallb]; [discriminate|]. intro R. apply andb_false_iff in R. destruct R as [R|R]; [|exact (IH R)].
    exists u. destruct (s_pc s u); try (left; discriminate). destruct (s_q s u); [discriminate|]. right. discriminate.
  Qed.

  (** ** A measure *)
  Fixpoint wc (c : cmd) : nat :=
    match c with
    | CLocal n => 2 * n + 3
    | CUpdate _ => 5
    | CRun _ c => wc c + 5
    | CNotice => 2 * length users + 2
    | _ => 0
    end.
  Definition we (e : ev) : nat := match e with ELocal c => wc c + 1 | EUpdate _ => 1 | ERun _ c => wc c + 1 | EStop => 1 | ECast => 1 end.
  Fixpoint wp (p : status) : nat :=
    match p with
    | Exec _ c => wc c
    | Send _ _ e _ => we e + 2
    | Wait _ _ _ => 1
    | Put _ _ k => 2 + wp k
    | Cast _ _ l => 2 * length l + 1
    | _ => 0
    end.
  Fixpoint total {A} (f : A -> nat) (l : list A) : nat := match l with [] => 0 | x :: l => f x + total f l end.
  Definition wu (s : sys) (u : N) : nat := wp (s_pc s u) + total we (s_q s u).
  Definition measure (s : sys) : nat := total (wu s) users + length (s_ch s).

  Lemma total_app {A} (f : A -> nat) l l' : total f (l ++ l') = total f l + total f l'.
  Proof. induction l as [|x l IH]; cbn [app total]; [reflexivity|]. rewrite IH. lia. Qed.
  Lemma total_ext {A} (f g : A -> nat) l : (forall x, In x l -> f x = g x) -> total f l = total g l.
  Proof. induction l as [|x l IH]; intro H; cbn [total]; [reflexivity|]. rewrite (H x), IH; [reflexivity| |left; reflexivity]. intros y J. apply H. right. exact J. Qed.
  (** One value changes. *)
  Lemma total_one f g u : In u users -> (forall x, x <> u -> f x = g x) -> total f users + g u = total g users + f u.
  Proof.
    intros U H. revert U. generalize Hnd. clear Hnd. induction users as [|x l IH]; intros Hn U; [destruct U|]. inversion Hn as [|? ? N1 N2]; subst. cbn [total]. destruct (N.eq_dec x u) as [->|D].
    - rewrite (total_ext f g l); [lia|]. intros y J. apply H. intros ->. contradiction.
    - destruct U as [U|U]; [contradiction|]. rewrite (H x D). specialize (IH N2 U). lia.
  Qed.
  Lemma wu_pc s u p x : x <> u -> wu (set_pc s u p) x = wu s x.
  Proof. intro D. unfold wu. cbn [set_pc s_pc s_q]. rewrite upd_other by exact D. reflexivity. Qed.
  Lemma measure_pc s u p : In u users -> measure (set_pc s u p) + wp (s_pc s u) = measure s + wp p.
  Proof.
    intro U. unfold measure. pose proof (total_one (wu (set_pc s u p)) (wu s) u U (wu_pc s u p)) as T. cbn [set_pc s_ch] in *.
    assert (wu (set_pc s u p) u = wp p + total we (s_q s u)) as E1 by (unfold wu; cbn [set_pc s_pc s_q]; rewrite upd_same; reflexivity).
    assert (wu s u = wp (s_pc s u) + total we (s_q s u)) as E2 by reflexivity. unfold set_pc in *. lia.
  Qed.
  Lemma measure_q s u l : In u users -> measure (set_q s u l) + total we (s_q s u) = measure s + total we l.
  Proof.
    intro U. unfold measure. assert (forall x, x <> u -> wu (set_q s u l) x = wu s x) as H.
    { intros x D. unfold wu. cbn [set_q s_pc s_q]. rewrite upd_other by exact D. reflexivity. }
    pose proof (total_one (wu (set_q s u l)) (wu s) u U H) as T. cbn [set_q s_ch] in *.
    assert (wu (set_q s u l) u = wp (s_pc s u) + total we l) as E1 by (unfold wu; cbn [set_q s_pc s_q]; rewrite upd_same; reflexivity).
    assert (wu s u = wp (s_pc s u) + total we (s_q s u)) as E2 by reflexivity. unfold set_q in *. lia.
  Qed.
  Lemma measure_push s u e : In u users -> measure (push s u e) = measure s + we e.
  Proof. intro U. pose proof (measure_q s u (s_q s u ++ [e]) U) as H. rewrite total_app in H. cbn [total] in H. unfold push. lia. Qed.
  Lemma wp_prints t n : wp (prints t n) = 2 * n + 2.
  Proof. induction n as [|n IH]; cbn [prints wp]; [reflexivity|]. rewrite IH. lia. Qed.
  Lemma drop_length s t b : NoDup (map fst (s_ch s)) -> In (t, b) (s_ch s) -> length (s_ch (drop_ch s t)) < length (s_ch s).
  Proof.
    unfold drop_ch. cbn [set_ch s_ch]. intros _ J. induction (s_ch s) as [|[x y] l IH]; [destruct J|]. cbn [filter fst length].
    assert (length (filter (fun p : token * bool => negb (teqb (fst p) t)) l) <= length l) as Le by (clear; induction l as [|z l IH]; cbn [filter length]; [lia|]; destruct (negb _); cbn [length]; lia).
    destruct J as [J|J].
    - injection J as -> ->. rewrite teqb_refl. cbn [negb]. lia.
    - specialize (IH J). destruct (negb _); cbn [length]; lia.
  Qed.

  Lemma decreases s l s' : Inv s -> working users administrator s l -> step users s l = Some s' -> measure s' < measure s.
  Proof.
    intros I [C W] E. destruct l as [u c|u|u|u]; cbn [calm step] in *; [contradiction| | |contradiction].
    - unfold go in E. pose proof (i_pc s I u) as K. unfold pcok in K.
      assert (s_pc s u <> Idle -> In u users) as U0 by (intro H; apply (in_users s u I); left; exact H).
      destruct (s_pc s u) as [|ret c|ret w e wt|ret w wt|t b k|ret safe l|] eqn:P; try (assert (In u users) as U by (apply U0; discriminate); clear U0).
      + unfold take in E. destruct (s_q s u) as [|e l] eqn:Q; [discriminate|].
        assert (In u users) as U by (apply (in_users s u I); right; rewrite Q; discriminate).
        pose proof (measure_q s u l U) as Mq. rewrite Q in Mq. cbn [total] in Mq.
        pose proof (fun p => measure_pc (set_q s u l) u p U) as Mp. cbn [set_q s_pc] in Mp. rewrite P in Mp.
        destruct e; cbn iota beta in E; injection E as <-; cbn [we] in Mq.
        * specialize (Mp (Exec None c)). cbn [wp] in Mp. unfold set_q in *. lia.
        * change (measure (set_done (set_q s u l) _)) with (measure (set_q s u l)). lia.
        * specialize (Mp (Exec (Some t) c)). cbn [wp] in Mp. unfold set_q in *. lia.
        * specialize (Mp Gone). cbn [wp] in Mp. unfold set_q in *. lia.
        * lia.
      + pose proof (fun p => measure_pc s u p U) as Mp. rewrite P in Mp. cbn [wp] in Mp. unfold exec in E.
        pose proof (fun p n => measure_pc (set_seq s u n) u p U) as Mq. cbn [set_seq s_pc] in Mq. rewrite P in Mq. cbn [wp] in Mq.
        change (forall p n, measure (set_pc (set_seq s u n) u p) + wc c = measure s + wp p) in Mq.
        destruct ret.
        * destruct c; try contradiction. injection E as <-. specialize (Mp (prints t n)). rewrite wp_prints in Mp. cbn [wc] in Mp. lia.
        * pose proof (Mp Idle) as Mi. cbn [wp] in Mi. destruct c; cbn [Spec.Wait.modest] in K; try contradiction; cbn [wc] in *.
          -- injection E as <-. lia.
          -- destruct (N.eqb _ _); [injection E as <-; cbn [finish]; lia|]. destruct (s_lock s); [discriminate|]. destruct (existsb _ _); injection E as <-; [|cbn [finish]; lia].
             specialize (Mq (Send None w (EUpdate (u, s_seq s u)) (WDone (u, s_seq s u))) (N.succ (s_seq s u))). cbn [wp we] in Mq. lia.
          -- destruct c; try contradiction. cbn [wc] in *. destruct (N.eqb _ _); [injection E as <-; specialize (Mp (Exec None (CLocal n))); cbn [wp wc] in Mp; lia|].
             destruct (s_lock s); [discriminate|]. destruct (existsb _ _); injection E as <-; [|cbn [finish]; lia].
             specialize (Mq (Send None w (ERun (u, s_seq s u) (CLocal n)) (WRun (u, s_seq s u))) (N.succ (s_seq s u))). cbn [wp we wc] in Mq. lia.
          -- destruct (s_lock s); [discriminate|]. injection E as <-.
             pose proof (measure_pc (set_lock s (Some u)) u (Cast None true (running users s)) U) as M. cbn [set_lock s_pc] in M. rewrite P in M. cbn [wp wc] in M.
             change (measure (set_pc (set_lock s (Some u)) u (Cast None true (running users s))) + (2 * length users + 2) = measure s + (2 * length (running users s) + 1)) in M.
             pose proof (running_length s). lia.
      + destruct ret; [contradiction|]. destruct (room s w); [|discriminate]. injection E as <-.
        assert (In w users) as U' by (destruct e as [ | |? []| | ]; try contradiction; destruct wt; try contradiction; apply K).
        pose proof (measure_push s w e U') as M1. pose proof (measure_pc (push s w e) u (Wait None w wt) U) as M2. cbn [push set_q s_pc] in M2. rewrite P in M2. cbn [wp] in M2.
        unfold push, set_q in *. lia.
      + destruct ret; [destruct wt; contradiction|]. destruct wt; [| |contradiction].
        * destruct (existsb _ _); [|discriminate]. injection E as <-. pose proof (measure_pc s u Idle U) as M. rewrite P in M. cbn [wp finish] in *. lia.
        * destruct (in_ch s t) as [b|] eqn:Ch; [|discriminate]. apply in_ch_Some in Ch. pose proof (drop_length s t b (i_one s I) Ch) as Dl.
          assert (measure (drop_ch s t) < measure s) as Md by (unfold measure; change (wu (drop_ch s t)) with (wu s); lia).
          assert (forall p, measure (set_pc (drop_ch s t) u p) + 1 = measure (drop_ch s t) + wp p) as Mp.
          { intro p. pose proof (measure_pc (drop_ch s t) u p U) as M. change (s_pc (drop_ch s t) u) with (s_pc s u) in M. rewrite P in M. exact M. }
          destruct b; injection E as <-; [specialize (Mp Idle)|specialize (Mp (Wait None w (WRun t)))]; cbn [wp finish] in *; lia.
      + destruct (in_ch s t); [discriminate|]. injection E as <-.
        pose proof (measure_pc (set_ch s ((t, b) :: s_ch s)) u k U) as M. cbn [set_ch s_pc] in M. rewrite P in M. cbn [wp] in M.
        assert (measure (set_ch s ((t, b) :: s_ch s)) = measure s + 1) as M2.
        { unfold measure. change (wu (set_ch s ((t, b) :: s_ch s))) with (wu s). cbn [set_ch s_ch length]. lia. }
        unfold set_ch in *. lia.
      + destruct ret; [contradiction|]. destruct safe; [|contradiction]. destruct K as (_ & _ & _ & Lu). destruct l as [|w l].
        * injection E as <-. pose proof (measure_pc (set_lock s None) u Idle U) as M. cbn [set_lock s_pc] in M. rewrite P in M. cbn [wp length finish] in *.
          change (measure (set_pc (set_lock s None) u Idle) + 1 = measure s + 0) in M. unfold set_lock in *. lia.
        * destruct (room s w); [|discriminate]. injection E as <-.
          pose proof (measure_push s w ECast (Lu w (or_introl eq_refl))) as M1. pose proof (measure_pc (push s w ECast) u (Cast None true l) U) as M2.
          cbn [push set_q s_pc] in M2. rewrite P in M2. cbn [wp length we] in *. unfold push, set_q in *. lia.
      + discriminate.
    - unfold give_up in E. pose proof (i_pc s I u) as K. unfold pcok in K.
      assert (s_pc s u <> Idle -> In u users) as U0 by (intro H; apply (in_users s u I); left; exact H).
      pose proof (fun p U => measure_pc s u p U) as Mp.
      destruct (s_pc s u) as [|ret c|ret w e wt|ret w wt|t b k|ret safe l|] eqn:P; try discriminate; assert (In u users) as U by (apply U0; discriminate).
      + destruct ret; [contradiction|]. assert (set_pc s u Idle = s') as <-.
        { destruct wt; [congruence|congruence|]. destruct e as [ | |? []| | ]; contradiction. }
        specialize (Mp Idle U). cbn [wp] in Mp. lia.
      + exfalso. apply C. exists ret, w, wt. exact P.
      + destruct ret; [contradiction|]. destruct safe; [|contradiction]. destruct l as [|w l]; [discriminate|]. injection E as <-.
        specialize (Mp (Cast None true l) U). cbn [wp length] in Mp. lia.
  Qed.

  (** ** Runs *)
  Lemma inv_run l : forall s s', Inv s -> all_along users (calm users administrator) s l -> run users s l = Some s' -> Inv s'.
  Proof.
    induction l as [|x l IH]; intros s s' I A R; cbn [run all_along] in *; [congruence|]. destruct A as [C A].
    destruct (step users s x) as [s1|] eqn:E; [|discriminate]. exact (IH s1 s' (inv_step s x s1 I C E) A R).
  Qed.
  Lemma bounded l : forall s s', Inv s -> all_along users (working users administrator) s l -> run users s l = Some s' -> length l <= measure s /\ Inv s'.
  Proof.
    induction l as [|x l IH]; intros s s' I A R; cbn [run all_along length] in *; [split; [lia|congruence]|]. destruct A as [C A].
    destruct (step users s x) as [s1|] eqn:E; [|discriminate]. pose proof (decreases s x s1 I C E) as D. destruct C as [C _].
    destruct (IH s1 s' (inv_step s x s1 I C E) A R) as [L I']. split; [lia|exact I'].
  Qed.
  Lemma settles n : forall s, measure s <= n -> Inv s -> exists l s', all_along users (working users administrator) s l /\ run users s l = Some s' /\ at_rest users s'.
  Proof.
    induction n as [|n IH]; intros s Le I; (destruct (progress s I) as [R|(x & s1 & W & E)]; [exists [], s; split; [exact Logic.I|]; split; [reflexivity|exact R]|]);
      pose proof (decreases s x s1 I W E) as D; [lia|].
    destruct (IH s1 ltac:(lia) (inv_step s x s1 I (proj1 W) E)) as (l & s' & A & R & F). exists (x :: l), s'. cbn [all_along run]. rewrite E. auto.
  Qed.

  Lemma calm_rest h s : all_along users (calm users administrator) start h -> run users start h = Some s ->
    (exists n, forall l s', all_along users (working users administrator) s l -> run users s l = Some s' -> length l <= n /\
       (at_rest users s' \/ exists x s2, working users administrator s' x /\ step users s' x = Some s2)) /\
    (exists l s', all_along users (working users administrator) s l /\ run users s l = Some s' /\ at_rest users s').
  Proof.
    intros A R. pose proof (inv_run h start s inv_start A R) as I. split.
    - exists (measure s). intros l s' A' R'. destruct (bounded l s s' I A' R') as [L I']. split; [exact L|]. exact (progress s' I').
    - exact (settles (measure s) s (le_n _) I).
  Qed.
End Proofs.

(** ** Those who wait for ever *)
Definition actor (l : label) : N := match l with LPush u _ | LGo u | LGiveUp u | LCrash u => u end.
Definition is_push (l : label) : bool := match l with LPush _ _ => true | _ => false end.

Section Stuck.
  Variable users : list N.

  Ltac split_step E :=
    repeat match type of E with
    | None = Some _ => discriminate E
    | Some _ = Some _ => injection E as <-
    | context [match ?x with _ => _ end] => let F := fresh "F" in destruct x eqn:F
    end.

  Lemma frame s l s' x : step users s l = Some s' -> x <> actor l \/ is_push l = true -> s_pc s' x = s_pc s x.
  Proof.
    intros E H. destruct l as [u c|u|u|u]; cbn [actor is_push] in H.
    - cbn [step] in E. split_step E; reflexivity.
    - destruct H as [H|H]; [|discriminate]. cbn [step] in E. unfold go, take, exec in E. split_step E; cbn [set_pc set_q set_done set_lock set_seq set_ch push drop_ch s_pc]; rewrite ?upd_other by exact H; reflexivity.
    - destruct H as [H|H]; [|discriminate]. cbn [step] in E. unfold give_up in E. split_step E; cbn [set_pc s_pc]; rewrite ?upd_other by exact H; reflexivity.
    - destruct H as [H|H]; [|discriminate]. cbn [step] in E. split_step E; cbn [set_pc s_pc]; rewrite ?upd_other by exact H; reflexivity.
  Qed.

  (** What makes [u] wait for ever: something kept by every step while [u] cannot move. *)
  Lemma stuck_by (J : sys -> Prop) p u s : J s -> (forall s, J s -> s_pc s u = p) -> p <> Idle -> p <> Gone ->
    (forall s l s', J s -> step users s l = Some s' -> J s') -> stuck users s u.
  Proof.
    intros H P D1 D2 K. unfold stuck. rewrite (P s H). split; [exact D2|]. intro l. revert s H. induction l as [|x l IH]; intros s H s' R; cbn [run] in R.
    - injection R as <-. rewrite (P s H). auto.
    - destruct (step users s x) as [s1|] eqn:E; [|discriminate]. exact (IH s1 (K s x s1 H E) s' R).
  Qed.

  (** *** Waiting for the result of an update *)
  Fixpoint sends (p : status) : list token := match p with Send _ _ (EUpdate t) _ => [t] | Put _ _ k => sends k | _ => [] end.
  Definition held (D : N -> bool) (p : status) : Prop := p = Gone \/ exists ret w t, p = Wait ret w (WDone t) /\ D (fst t) = true.
  Definition JD (D : N -> bool) (f : N -> status) (s : sys) : Prop :=
    (forall u, D u = true -> s_pc s u = f u) /\ (forall t, In t (s_done s) -> D (fst t) = false) /\
    (forall x t, D x = false -> In (EUpdate t) (s_q s x) -> D (fst t) = false) /\
    (forall x t, D x = false -> In t (sends (s_pc s x)) -> D (fst t) = false).
  Lemma sends_prints t n : sends (prints t n) = [].
  Proof. induction n; cbn [prints sends]; auto. Qed.
  Lemma sends_finish r : sends (finish r) = [].
  Proof. destruct r; reflexivity. Qed.

  Lemma JD_frame D f s s' x : JD D f s -> D x = false -> (forall y, y <> x -> s_pc s' y = s_pc s y) ->
    (forall t, In t (s_done s') -> In t (s_done s) \/ In (EUpdate t) (s_q s x)) ->
    (forall y t, In (EUpdate t) (s_q s' y) -> In (EUpdate t) (s_q s y) \/ In t (sends (s_pc s x))) ->
    (forall t, In t (sends (s_pc s' x)) -> In t (sends (s_pc s x)) \/ fst t = x) -> JD D f s'.
  Proof.
    intros (J1 & J2 & J3 & J4) X P1 P2 P3 P4. split; [|split; [|split]].
    - intros u U. rewrite P1; [auto|]. intros ->. congruence.
    - intros t T. destruct (P2 t T) as [H|H]; eauto.
    - intros y t Y T. destruct (P3 y t T) as [H|H]; eauto.
    - intros y t Y T. destruct (N.eq_dec y x) as [->|N].
      + destruct (P4 t T) as [H|H]; [eauto|]. rewrite H. exact X.
      + rewrite (P1 y N) in T. eauto.
  Qed.
  Lemma JD_step D f s l s' : (forall u, D u = true -> held D (f u)) -> JD D f s -> step users s l = Some s' -> JD D f s'.
  Proof.
    intros HD J E. destruct (D (actor l)) eqn:X.
    - assert (is_push l = true) as Pu.
      { destruct J as (J1 & J2 & _). specialize (J1 _ X). specialize (HD _ X). destruct l as [u c|u|u|u]; [reflexivity| | |]; exfalso; cbn [actor step] in *.
        - unfold go in E. rewrite J1 in E. destruct HD as [H|(r & w & t & H & T)]; rewrite H in E; [discriminate|].
          destruct (existsb (teqb t) (s_done s)) eqn:Ex; [|discriminate]. apply existsb_exists in Ex. destruct Ex as (t' & T' & Eq). apply teqb_eq in Eq. subst t'. rewrite (J2 t T') in T. discriminate.
        - unfold give_up in E. rewrite J1 in E. destruct HD as [H|(r & w & t & H & T)]; rewrite H in E; [discriminate|]. destruct r; discriminate.
        - rewrite J1 in E. destruct HD as [H|(r & w & t & H & T)]; rewrite H in E; discriminate. }
      destruct l as [u c|u|u|u]; try discriminate. cbn [step] in E. destruct (room s u); [|discriminate]. injection E as <-.
      destruct J as (J1 & J2 & J3 & J4). split; [exact J1|split; [exact J2|split; [|exact J4]]]. intros y t Y T. cbn [push set_q s_q] in T.
      destruct (N.eq_dec y u) as [->|N]; [cbn [actor] in X; congruence|]. rewrite upd_other in T by exact N. eauto.
    - apply (JD_frame D f s s' (actor l) J X).
      + intros y N. apply (frame s l s' y E). left. exact N.
      + intros t T. clear J X HD. destruct l as [u c|u|u|u]; cbn [actor step] in *; [| | |]; unfold go, take, exec, give_up in E; split_step E;
          cbn [set_pc set_q set_done set_lock set_seq set_ch push drop_ch s_done] in T; try (left; exact T).
        destruct T as [<-|T]; [right; left; reflexivity|left; exact T].
      + intros y t T. clear J X HD. destruct l as [u c|u|u|u]; cbn [actor step] in *; [| | |]; unfold go, take, exec, give_up in E; split_step E;
          cbn [set_pc set_q set_done set_lock set_seq set_ch push drop_ch s_q] in T; try (left; exact T);
          match type of T with context [upd _ ?z _ _] => destruct (N.eq_dec y z) as [->|N]; [rewrite upd_same in T|rewrite upd_other in T by exact N; left; exact T] end;
          try match goal with Q : s_q s ?z = _ :: _ |- _ => left; rewrite Q; right; exact T end;
          apply in_app_or in T; destruct T as [T|[T|[]]]; try (left; exact T); try discriminate T;
          subst; right; left; reflexivity.
      + intros t T. clear J X HD. destruct l as [u c|u|u|u]; cbn [actor step] in *; [| | |]; unfold go, take, exec, give_up in E; split_step E;
          cbn [set_pc set_q set_done set_lock set_seq set_ch push drop_ch s_pc] in T; rewrite ?upd_same in T; repeat match type of T with context [match ?r with Some _ => _ | None => _ end] => destruct r end; try rewrite sends_finish in T; try rewrite sends_prints in T; cbn [sends] in T;
          try (left; exact T); try contradiction; try (destruct T as [<-|[]]; right; reflexivity);
          try match goal with P : s_pc s u = Idle |- _ => rewrite P in T; contradiction end.
  Qed.
  Lemma stuck_update D f s u : (forall u, D u = true -> held D (f u)) -> JD D f s -> D u = true -> f u <> Gone -> stuck users s u.
  Proof.
    intros HD J U G. apply (stuck_by (JD D f) (f u) u s J); [|destruct (HD u U) as [->|(r & w & t & -> & _)]; discriminate|exact G|].
    - intros s1 (J1 & _). exact (J1 u U).
    - intros s1 l s2. apply JD_step. exact HD.
  Qed.

  (** *** Printing to somebody who does not listen any more *)
  Fixpoint recvs (p : status) : list token := match p with Send _ _ _ (WRun t) | Wait _ _ (WRun t) => [t] | Put _ _ k => recvs k | _ => [] end.
  Definition JP (v : N) (t : token) (b : bool) (k : status) (s : sys) : Prop :=
    s_pc s v = Put t b k /\ In t (map fst (s_ch s)) /\ (forall x, ~ In t (recvs (s_pc s x))) /\ (snd t < s_seq s (fst t))%N.
  Lemma recvs_prints t n : recvs (prints t n) = [].
  Proof. induction n; cbn [prints recvs]; auto. Qed.
  Lemma recvs_finish r : recvs (finish r) = [].
  Proof. destruct r; reflexivity. Qed.
  Lemma JP_step v t b k s l s' : JP v t b k s -> step users s l = Some s' -> JP v t b k s'.
  Proof.
    intros (J1 & J2 & J3 & J4) E.
    assert (in_ch s t <> None) as Full. { intro H. apply in_ch_None in H. contradiction. }
    assert (v <> actor l \/ is_push l = true) as A.
    { destruct l as [u c|u|u|u]; [right; reflexivity| | |]; left; cbn [actor]; intros <-; cbn [step] in E.
      - unfold go in E. rewrite J1 in E. destruct (in_ch s t); [discriminate|contradiction].
      - unfold give_up in E. rewrite J1 in E. discriminate.
      - rewrite J1 in E. discriminate. }
    split; [rewrite (frame s l s' v E A); exact J1|]. split; [|split].
    - clear J4 A. destruct l as [u c|u|u|u]; cbn [step] in *; [| | |]; unfold go, take, exec, give_up in E; split_step E;
        cbn [set_pc set_q set_done set_lock set_seq set_ch push s_ch]; try exact J2;
        try (right; exact J2);
        (match goal with P : s_pc s ?u = Wait _ _ (WRun ?t') |- _ =>
          assert (t' <> t) as N by (intros ->; apply (J3 u); rewrite P; left; reflexivity) end;
         apply in_map_iff in J2; destruct J2 as ([t1 b1] & E1 & J2); cbn [fst] in E1; subst t1;
         apply (in_map fst _ (t, b1)); apply drop_In; split; [exact J2|auto]).
    - intros x T. destruct (N.eq_dec x (actor l)) as [->|N]; [|rewrite (frame s l s' x E (or_introl N)) in T; exact (J3 x T)].
      pose proof (J3 (actor l)) as J5. clear J2 J3 A Full J1. destruct l as [u c|u|u|u]; cbn [actor step] in *; [| | |]; unfold go, take, exec, give_up in E; split_step E;
        cbn [set_pc set_q set_done set_lock set_seq set_ch push drop_ch s_pc] in T; rewrite ?upd_same in T; repeat match type of T with context [match ?r with Some _ => _ | None => _ end] => destruct r end; try rewrite recvs_finish in T; try rewrite recvs_prints in T; cbn [recvs] in *;
        try contradiction; try (apply J5; exact T); try match goal with P : s_pc s u = Idle |- _ => rewrite P in T; contradiction end.
      all: destruct T as [T|[]]; rewrite <- T in J4; cbn [fst snd] in J4; lia.
    - clear J1 J2 J3 A Full. destruct l as [u c|u|u|u]; cbn [step] in *; [| | |]; unfold go, take, exec, give_up in E; split_step E;
        cbn [set_pc set_q set_done set_lock set_seq set_ch push drop_ch s_seq]; try exact J4;
        (destruct (N.eq_dec (fst t) u) as [Eq|N]; [rewrite Eq in *; rewrite upd_same; lia|rewrite upd_other by exact N; exact J4]).
  Qed.
  Lemma stuck_put v t b k s : JP v t b k s -> stuck users s v.
  Proof.
    intro J. apply (stuck_by (JP v t b k) (Put t b k) v s J); [|discriminate|discriminate|].
    - intros s1 H. apply H.
    - intros s1 l s2. apply JP_step.
  Qed.

  (** *** Sending to oneself while holding the lock of the server *)
  Fixpoint casts (p : status) : bool := match p with Cast _ _ _ => true | Put _ _ k => casts k | _ => false end.
  Definition JC (u : N) (p : status) (s : sys) : Prop :=
    s_pc s u = p /\ 64 <= length (s_q s u) /\ s_lock s = Some u /\ (forall x, x <> u -> casts (s_pc s x) = false).
  Lemma casts_prints t n : casts (prints t n) = false.
  Proof. induction n; cbn [prints casts]; auto. Qed.
  Lemma casts_finish r : casts (finish r) = false.
  Proof. destruct r; reflexivity. Qed.
  Lemma JC_step u l0 s l s' : JC u (Cast None false (u :: l0)) s -> step users s l = Some s' -> JC u (Cast None false (u :: l0)) s'.
  Proof.
    intros (J1 & J2 & J3 & J4) E.
    assert (u <> actor l \/ is_push l = true) as A.
    { destruct l as [x c|x|x|x]; [right; reflexivity| | |]; left; cbn [actor]; intros <-; cbn [actor step] in *.
      - unfold go in E. rewrite J1 in E. destruct (room s u) eqn:R; [|discriminate]. unfold room in R. apply Nat.ltb_lt in R. lia.
      - unfold give_up in E. rewrite J1 in E. discriminate.
      - rewrite J1 in E. discriminate. }
    split; [rewrite (frame s l s' u E A); exact J1|]. split; [|split].
    - assert (forall w e, 64 <= length (upd (s_q s) w (s_q s w ++ [e]) u)) as Pu.
      { intros w e. destruct (N.eq_dec u w) as [<-|N]; [rewrite upd_same, app_length; lia|rewrite upd_other by exact N; exact J2]. }
      clear J3 J4. destruct l as [x c|x|x|x]; cbn [actor is_push step] in *; [| | |]; unfold go, take, exec, give_up in E; split_step E;
        cbn [set_pc set_q set_done set_lock set_seq set_ch push drop_ch s_q]; try exact J2; try apply Pu;
        (destruct A as [A|A]; [rewrite upd_other by exact A; exact J2|discriminate]).
    - clear J2. destruct l as [x c|x|x|x]; cbn [actor is_push step] in *; [| | |]; unfold go, take, exec, give_up in E; rewrite ?J3 in E; split_step E;
        cbn [set_pc set_q set_done set_lock set_seq set_ch push drop_ch s_lock]; try exact J3; try congruence.
      destruct A as [A|A]; [|discriminate]. pose proof (J4 x (not_eq_sym A)) as Cx. rewrite F in Cx. discriminate.
    - intros x N. destruct (N.eq_dec x (actor l)) as [->|N']; [|rewrite (frame s l s' x E (or_introl N')); auto].
      specialize (J4 _ N). clear A J2 J1. destruct l as [y c|y|y|y]; cbn [actor is_push step] in *; [| | |]; unfold go, take, exec, give_up in E; rewrite ?J3 in E; split_step E;
        cbn [set_pc set_q set_done set_lock set_seq set_ch push drop_ch s_pc]; rewrite ?upd_same; repeat match goal with |- context [match ?r with Some _ => _ | None => _ end] => destruct r end; try apply casts_finish; try apply casts_prints; try reflexivity; try exact J4; try congruence;
        cbn [casts] in *; try discriminate; try congruence.
  Qed.
  Lemma stuck_cast u l0 s : JC u (Cast None false (u :: l0)) s -> stuck users s u /\ forall l s', run users s l = Some s' -> s_lock s' = Some u.
  Proof.
    intro J. split.
    - apply (stuck_by (JC u (Cast None false (u :: l0))) (Cast None false (u :: l0)) u s J); [|discriminate|discriminate|].
      + intros s1 H. apply H.
      + intros s1 l s2. apply JC_step.
    - intro l. revert s J. induction l as [|x l IH]; intros s J s' R; cbn [run] in R; [injection R as <-; apply J|].
      destruct (step users s x) as [s1|] eqn:E; [|discriminate]. exact (IH s1 (JC_step u l0 s x s1 J E) s' R).
  Qed.

  (** *** Waiting for one's own end *)
  Lemma stuck_self s u : s_pc s u = Wait None u (WStop u) -> stuck users s u.
  Proof.
    intro P. apply (stuck_by (fun s => s_pc s u = Wait None u (WStop u)) (Wait None u (WStop u)) u s P); [auto|discriminate|discriminate|].
    intros s1 l s2 J E. rewrite (frame s1 l s2 u E); [exact J|].
    destruct l as [x c|x|x|x]; [right; reflexivity| | |]; left; cbn [actor]; intros <-; cbn [actor step] in *.
    - unfold go in E. rewrite J in E. cbn iota in E. rewrite J in E. discriminate.
    - unfold give_up in E. rewrite J, N.eqb_refl in E. discriminate.
    - rewrite J in E. discriminate.
  Qed.
End Stuck.
