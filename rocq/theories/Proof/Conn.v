From Verif.Base Require Import Bytes.
From Verif.Model Require Import Conn.
From Verif.Spec Require Import Conn.
From Coq Require Import Arith.

Lemma nodup_app_l {A} (a b : list A) : NoDup (a ++ b) -> NoDup a.
Proof.
  induction a as [|x a IH]; [constructor|]. cbn [app]. intros H. inversion H; subst. constructor; [|apply IH; assumption].
  intros Hin. apply H2. apply in_app_iff. left. exact Hin.
Qed.

Section P.
  Context {M : Type}.
  Implicit Types (c : conn M) (es : list (event M)).

  Lemma exec_snoc c es e : exec c (es ++ [e]) = match exec c es with Some c' => step c' e | None => None end.
  Proof.
    revert c; induction es as [|x es IH]; intros c; cbn [app exec].
    - destruct (step c e); reflexivity.
    - destruct (step c x); [apply IH|reflexivity].
  Qed.

  Lemma exec_app c es1 es2 : exec c (es1 ++ es2) = match exec c es1 with Some c' => exec c' es2 | None => None end.
  Proof.
    revert c; induction es1 as [|x es IH]; intros c; cbn [app exec]; [reflexivity|].
    destruct (step c x); [apply IH|reflexivity].
  Qed.

  Lemma starts_app es1 es2 : starts (es1 ++ es2) = starts es1 ++ starts es2.
  Proof. induction es1 as [|e es IH]; [reflexivity|]. cbn [app starts]. destruct e; rewrite IH; reflexivity. Qed.

  Lemma wants_app id es1 es2 cur : wants id (es1 ++ es2) cur = wants id es2 (wants id es1 cur).
  Proof. revert cur; induction es1 as [|e es IH]; intros cur; [reflexivity|]. cbn [app wants]. destruct e; apply IH. Qed.

  Lemma wants_notin id es cur : ~ In id (starts es) -> wants id es cur = cur.
  Proof.
    revert cur; induction es as [|e es IH]; intros cur H; [reflexivity|]. cbn [wants]. cbn [starts] in H.
    destruct e; try (apply IH; exact H). cbn [In] in H. destruct (Nat.eqb_spec id0 id); [exfalso; apply H; left; assumption|].
    apply IH. intros Hin. apply H. right. exact Hin.
  Qed.

  Lemma wants_some_in id es m : wants id es None = Some m -> In id (starts es).
  Proof.
    intros H. destruct (in_dec Nat.eq_dec id (starts es)) as [Hin|Hn]; [exact Hin|].
    rewrite (wants_notin id es None Hn) in H. discriminate.
  Qed.

  Lemma accepted_from_app all es1 es2 : accepted_from all (es1 ++ es2) = accepted_from all es1 ++ accepted_from all es2.
  Proof.
    induction es1 as [|e es IH]; [reflexivity|]. cbn [app accepted_from]. destruct e; try exact IH.
    destruct (wants id all None); [cbn [app]; rewrite IH; reflexivity|exact IH].
  Qed.

  Lemma take_sender_in id l (m : option M) r : take_sender id l = Some (m, r) -> In (id, m) l /\ incl r l.
  Proof.
    revert r; induction l as [|[i x] l IH]; intros r H; [discriminate|]. cbn [take_sender] in H.
    destruct (Nat.eqb_spec i id) as [->|].
    - injection H as -> ->. split; [left; reflexivity|]. apply incl_tl. apply incl_refl.
    - destruct (take_sender id l) as [[y r']|]; [|discriminate]. injection H as -> <-.
      destruct (IH r' eq_refl) as [H1 H2]. split; [right; exact H1|]. intros z [<-|Hz]; [left; reflexivity|right; apply H2; exact Hz].
  Qed.

  (** Every acceptance is by a goroutine that has started before, so that later
      starts do not matter. *)
  Definition accepts_started (es : list (event M)) : Prop :=
    forall es1 id es2, es = es1 ++ SendAccept id :: es2 -> In id (starts es1).

  Lemma accepted_stable es all es2 :
    NoDup (starts (es ++ es2)) -> (forall es1 id es3, es = es1 ++ SendAccept id :: es3 -> In id (starts es1)) ->
    all = es ++ es2 -> accepted_from all es = accepted_from es es.
  Proof.
    intros Hnd Hacc ->.
    assert (H : forall pre post, es = pre ++ post -> accepted_from (es ++ es2) post = accepted_from es post).
    { intros pre post. revert pre. induction post as [|e post IH]; intros pre E; [reflexivity|].
      specialize (IH (pre ++ [e])). rewrite <- app_assoc in IH. specialize (IH E).
      cbn [accepted_from]. destruct e; try exact IH. rewrite IH.
      pose proof (Hacc pre id post E) as Hin. rewrite wants_app.
      assert (Hn : ~ In id (starts es2)).
      { intros Hn. rewrite starts_app in Hnd. rewrite E in Hnd. rewrite starts_app in Hnd.
        rewrite <- app_assoc in Hnd. revert Hin.
        clear - Hnd Hn. intros Hin. induction (starts pre) as [|x l IHl]; [destruct Hin|].
        cbn [app] in Hnd. inversion Hnd; subst. destruct Hin as [->|Hin]; [|apply IHl; assumption].
        apply H1. apply in_app_iff. right. apply in_app_iff. right. exact Hn. }
      rewrite (wants_notin id es2 _ Hn). reflexivity. }
    apply (H [] es eq_refl).
  Qed.

  Definition pending (c : conn M) : list M := match wr c with Holding m => [m] | _ => [] end.

  Record inv (es : list (event M)) (c : conn M) : Prop := Inv {
    i_senders : forall id m, In (id, m) (senders c) -> wants id es None = Some m;
    i_acc : accepts_started es;
    i_closed : (closer c <> None \/ net_closed c = true \/ closed_ch c = true) -> closed c = true;
    i_queue : exists taken, accepted es = taken ++ queue c /\
      match wr c with
      | Idle => taken = map Some (written c)
      | Holding m => taken = map Some (written c ++ [m])
      | _ => taken = map Some (written c) ++ [None] \/ exists x, taken = map Some (written c ++ x)
      end
  }.

  Lemma accepted_snoc_other es e :
    (forall id, e <> SendAccept id) -> NoDup (starts (es ++ [e])) -> accepts_started es -> accepted (es ++ [e]) = accepted es.
  Proof.
    intros He Hnd Ha. unfold accepted. rewrite accepted_from_app.
    rewrite (accepted_stable es (es ++ [e]) [e] Hnd Ha eq_refl).
    destruct e; cbn [accepted_from]; try (rewrite app_nil_r; reflexivity). exfalso. apply (He id). reflexivity.
  Qed.

  Lemma accepts_started_snoc es e :
    accepts_started es -> (forall id, e = SendAccept id -> In id (starts es)) -> accepts_started (es ++ [e]).
  Proof.
    intros H He es1 id es2 E.
    destruct (exists_last (l := SendAccept id :: es2)) as (l' & x & El); [discriminate|].
    rewrite El, app_assoc in E. apply app_inj_tail in E as [E1 E2]. subst x.
    destruct l' as [|y l'].
    - cbn [app] in El. injection El as E3 _. rewrite app_nil_r in E1. subst es1. apply He. symmetry. exact E3.
    - cbn [app] in El. injection El as <- _. apply (H es1 id l'). exact E1.
  Qed.

  Lemma starts_snoc_other es e : (forall id m, e <> SendStart id m) -> starts (es ++ [e]) = starts es.
  Proof. intros H. rewrite starts_app. destruct e; cbn [starts]; try apply app_nil_r. exfalso. eapply H. reflexivity. Qed.

  Lemma wants_snoc_other es e id : (forall id m, e <> SendStart id m) -> wants id (es ++ [e]) None = wants id es None.
  Proof. intros H. rewrite wants_app. destruct e; cbn [wants]; try reflexivity. exfalso. eapply H. reflexivity. Qed.

  Lemma step_inv es c e c' :
    NoDup (starts (es ++ [e])) -> inv es c -> step c e = Some c' -> inv (es ++ [e]) c'.
  Proof.
    intros Hnd [H1 H2 H3 (taken & H4 & H5)] Hs.
    destruct (match e with SendAccept _ => true | SendStart _ _ => true | _ => false end) eqn:Ek.
    - destruct e; try discriminate Ek; clear Ek.
      + (* SendStart *)
        cbn [step] in Hs.
        assert (Hacc : accepted (es ++ [SendStart id m]) = accepted es) by (apply accepted_snoc_other; [discriminate|exact Hnd|exact H2]).
        assert (Hst : accepts_started (es ++ [SendStart id m])) by (apply accepts_started_snoc; [exact H2|discriminate]).
        assert (Hnin : ~ In id (starts es)).
        { rewrite starts_app in Hnd. cbn [starts] in Hnd. apply NoDup_remove_2 in Hnd. rewrite app_nil_r in Hnd. exact Hnd. }
        assert (Hw : forall id' m', In (id', m') (senders c) -> wants id' (es ++ [SendStart id m]) None = Some m').
        { intros id' m' Hin. apply H1 in Hin. rewrite wants_app. cbn [wants]. rewrite Hin.
          destruct (Nat.eqb_spec id id') as [<-|]; [|reflexivity]. exfalso. apply Hnin. eapply wants_some_in. exact Hin. }
        destruct (closed c) eqn:Ec; injection Hs as <-.
        * constructor; try assumption; [intros _; exact Ec|]. exists taken. rewrite Hacc. split; assumption.
        * constructor; cbn [set_queue senders queue wr closed net_closed closed_ch closer written]; try assumption.
          -- intros id' m' Hin. apply in_app_iff in Hin as [Hin|[Hin|[]]]; [apply Hw; exact Hin|].
             injection Hin as <- <-. rewrite wants_app. cbn [wants]. rewrite Nat.eqb_refl. reflexivity.
          -- rewrite Ec. exact H3.
          -- exists taken. rewrite Hacc. split; assumption.
      + (* SendAccept *)
        cbn [step] in Hs. destruct (take_sender id (senders c)) as [[m s]|] eqn:Et; [|discriminate].
        destruct (Nat.ltb _ _); [|discriminate]. injection Hs as <-.
        destruct (take_sender_in _ _ _ _ Et) as [Hin Hincl]. pose proof (H1 _ _ Hin) as Hw.
        constructor; cbn [set_queue senders queue wr closed net_closed closed_ch closer written]; try assumption.
        * intros id' m' Hin'. rewrite wants_snoc_other by discriminate. apply H1. apply Hincl. exact Hin'.
        * apply accepts_started_snoc; [exact H2|]. intros id' E. injection E as <-. eapply wants_some_in. exact Hw.
        * exists taken. split; [|exact H5]. unfold accepted. rewrite accepted_from_app.
          rewrite (accepted_stable es (es ++ [SendAccept id]) [SendAccept id] Hnd H2 eq_refl).
          fold (accepted es). rewrite H4. cbn [accepted_from]. rewrite wants_snoc_other by discriminate. rewrite Hw.
          rewrite <- app_assoc. reflexivity.
    - assert (Hacc : accepted (es ++ [e]) = accepted es).
      { apply accepted_snoc_other; [|exact Hnd|exact H2]. intros id ->. discriminate. }
      assert (Hst : accepts_started (es ++ [e])).
      { apply accepts_started_snoc; [exact H2|]. intros id ->. discriminate. }
      assert (Hw : forall id m, In (id, m) (senders c) -> wants id (es ++ [e]) None = Some m).
      { intros id m Hin. rewrite wants_snoc_other; [apply H1; exact Hin|]. intros id' m' ->. discriminate. }
      destruct e; try discriminate Ek; clear Ek; cbn [step] in Hs.
      + destruct (take_sender id (senders c)) as [[m s]|] eqn:Et; [|discriminate]. injection Hs as <-.
        destruct (take_sender_in _ _ _ _ Et) as [Hin Hincl].
        constructor; cbn [set_queue senders queue wr closed net_closed closed_ch closer written]; try assumption.
        * intros id' m' Hin'. apply Hw. apply Hincl. exact Hin'.
        * exists taken. rewrite Hacc. split; assumption.
      + destruct (wr c) eqn:Ew; try discriminate. destruct (queue c) as [|[m|] q] eqn:Eq; [discriminate| |];
          injection Hs as <-; constructor; cbn [set_wr senders queue wr closed net_closed closed_ch closer written]; try assumption.
        * exists (taken ++ [Some m]). rewrite Hacc, H4, <- app_assoc. split; [reflexivity|]. rewrite H5, map_app. reflexivity.
        * exists (taken ++ [None]). rewrite Hacc, H4, <- app_assoc. split; [reflexivity|]. rewrite H5. left. reflexivity.
      + destruct (wr c) eqn:Ew; try discriminate. destruct (closed_ch c) eqn:Ec; [|discriminate].
        injection Hs as <-; constructor; cbn [set_wr senders queue wr closed net_closed closed_ch closer written]; try assumption.
        * rewrite Ec. exact H3.
        * exists taken. rewrite Hacc. split; [exact H4|]. right. exists []. rewrite app_nil_r. exact H5.
      + destruct (wr c) eqn:Ew; try discriminate. destruct (closed_ch c) eqn:Ec; [|discriminate].
        injection Hs as <-; constructor; cbn [set_wr senders queue wr closed net_closed closed_ch closer written]; try assumption.
        * rewrite Ec. exact H3.
        * exists taken. rewrite Hacc. split; [exact H4|]. right. exists [m]. exact H5.
      + destruct (wr c) eqn:Ew; try discriminate. destruct (net_closed c) eqn:Ec; [discriminate|].
        injection Hs as <-; constructor; cbn [set_wr senders queue wr closed net_closed closed_ch closer written]; try assumption.
        * rewrite Ec. exact H3.
        * exists taken. rewrite Hacc. split; [exact H4|]. exact H5.
      + destruct (wr c) eqn:Ew; try discriminate.
        injection Hs as <-; constructor; cbn [set_wr senders queue wr closed net_closed closed_ch closer written]; try assumption.
        exists taken. rewrite Hacc. split; [exact H4|]. right. exists [m]. exact H5.
      + destruct (wr c) eqn:Ew; try discriminate. injection Hs as <-. unfold close_start.
        destruct (closed c) eqn:Ec; constructor; cbn [fst set_wr senders queue wr closed net_closed closed_ch closer written];
          try assumption; try (intros _; first [reflexivity|exact Ec]); exists taken; rewrite Hacc; split; assumption.
      + injection Hs as <-. unfold close_start.
        destruct (closed c) eqn:Ec; constructor; cbn [fst set_wr senders queue wr closed net_closed closed_ch closer written];
          try assumption; try (intros _; first [reflexivity|exact Ec]); exists taken; rewrite Hacc; split; assumption.
      + destruct (closer c) as [[|]|] eqn:Ec; try discriminate. injection Hs as <-.
        constructor; cbn [senders queue wr closed net_closed closed_ch closer written]; try assumption.
        * intros _. apply H3. left. discriminate.
        * exists taken. rewrite Hacc. split; assumption.
      + destruct (closer c) as [[|]|] eqn:Ec; try discriminate. injection Hs as <-.
        constructor; cbn [senders queue wr closed net_closed closed_ch closer written]; try assumption.
        * intros _. apply H3. left. discriminate.
        * exists taken. rewrite Hacc. split; assumption.
  Qed.

  Lemma exec_inv es c : NoDup (starts es) -> exec conn_new es = Some c -> inv es c.
  Proof.
    revert c; induction es as [|e es IH] using rev_ind; intros c Hnd H.
    - injection H as <-. constructor; cbn.
      + intros id m [].
      + intros es1 id es2 E. destruct es1; discriminate.
      + intros [Hc|[Hc|Hc]]; congruence.
      + exists []. split; reflexivity.
    - rewrite exec_snoc in H. destruct (exec conn_new es) as [c0|] eqn:E; [|discriminate].
      eapply step_inv; [exact Hnd| |exact H]. apply IH; [|reflexivity].
      rewrite starts_app in Hnd. apply nodup_app_l in Hnd. exact Hnd.
  Qed.

  Lemma before_shutdown_app a l : before_shutdown (map Some a ++ l) = a ++ before_shutdown l :> list M.
  Proof. induction a as [|x a IH]; [reflexivity|]. cbn. rewrite IH. reflexivity. Qed.

  Lemma written_prefix es c : NoDup (starts es) -> exec conn_new es = Some c ->
    exists rest, before_shutdown (accepted es) = written c ++ rest.
  Proof.
    intros Hnd H. destruct (exec_inv es c Hnd H) as [_ _ _ (taken & E & Ht)]. rewrite E.
    destruct (wr c) as [|m| |].
    - exists (before_shutdown (queue c)). rewrite Ht. apply before_shutdown_app.
    - exists (m :: before_shutdown (queue c)). rewrite Ht, before_shutdown_app, <- app_assoc. reflexivity.
    - destruct Ht as [->|(x & ->)].
      + exists []. rewrite <- app_assoc, before_shutdown_app. reflexivity.
      + exists (x ++ before_shutdown (queue c)). rewrite before_shutdown_app, app_assoc. reflexivity.
    - destruct Ht as [->|(x & ->)].
      + exists []. rewrite <- app_assoc, before_shutdown_app. reflexivity.
      + exists (x ++ before_shutdown (queue c)). rewrite before_shutdown_app, app_assoc. reflexivity.
  Qed.

  Lemma somes_prefix es c : NoDup (starts es) -> exec conn_new es = Some c ->
    exists rest, somes (accepted es) = written c ++ rest.
  Proof.
    intros Hnd H. destruct (written_prefix es c Hnd H) as [rest E].
    assert (Hp : forall l : list (option M), exists r, somes l = before_shutdown l ++ r).
    { induction l as [|[m|] l [r IH]]; [exists []; reflexivity| |].
      - exists r. unfold somes in *. cbn [flat_map before_shutdown app]. rewrite IH. reflexivity.
      - eexists. reflexivity. }
    destruct (Hp (accepted es)) as [r Er]. exists (rest ++ r). rewrite Er, E, app_assoc. reflexivity.
  Qed.

  (** Graceful shutdown. *)
  Definition graceful (es : list (event M)) : Prop := ~ In CloseStart es /\ ~ In WriterFails es.

  Lemma graceful_inv es c : NoDup (starts es) -> graceful es -> exec conn_new es = Some c ->
    match wr c with
    | Idle | Holding _ => closed c = false /\ net_closed c = false /\ closed_ch c = false /\ closer c = None
    | Leaving => closed c = false /\ net_closed c = false /\ closed_ch c = false /\ closer c = None /\
        exists q, accepted es = map Some (written c) ++ None :: q
    | Finished => closed c = true /\ exists q, accepted es = map Some (written c) ++ None :: q
    end.
  Proof.
    revert c; induction es as [|e es IH] using rev_ind; intros c Hnd [Hg1 Hg2] H.
    - injection H as <-. cbn. repeat split.
    - rewrite exec_snoc in H. destruct (exec conn_new es) as [c0|] eqn:E; [|discriminate].
      assert (Hnd0 : NoDup (starts es)) by (rewrite starts_app in Hnd; apply nodup_app_l in Hnd; exact Hnd).
      pose proof (exec_inv es c0 Hnd0 E) as Hinv.
      assert (IH' := IH c0 Hnd0 (conj (fun K => Hg1 (in_or_app _ _ _ (or_introl K))) (fun K => Hg2 (in_or_app _ _ _ (or_introl K)))) eq_refl).
      clear IH.
      assert (Hacc : exists x, accepted (es ++ [e]) = accepted es ++ x).
      { unfold accepted. rewrite accepted_from_app.
        rewrite (accepted_stable es (es ++ [e]) [e] Hnd (i_acc _ _ Hinv) eq_refl). eexists. reflexivity. }
      destruct Hacc as [x Hacc].
      destruct e; cbn [step] in H.
      + destruct (closed c0) eqn:Ec; injection H as <-; cbn [set_queue wr closed net_closed closed_ch closer written];
          rewrite ?Ec; destruct (wr c0); rewrite ?Ec in IH'; try (destruct IH'; discriminate);
          try exact IH'; rewrite Hacc.
        * destruct IH' as (A & q & B). split; [exact A|]. exists (q ++ x). rewrite B, <- app_assoc. reflexivity.
        * destruct IH' as (A & A2 & A3 & A4 & q & B). split; [exact A|]. split; [exact A2|]. split; [exact A3|]. split; [exact A4|].
          exists (q ++ x). rewrite B, <- app_assoc. reflexivity.
      + destruct (take_sender id (senders c0)) as [[m s]|]; [|discriminate].
        destruct (Nat.ltb _ _); [|discriminate]. injection H as <-. cbn [set_queue wr closed net_closed closed_ch closer written].
        destruct (wr c0); try exact IH'; rewrite Hacc.
        * destruct IH' as (A & A2 & A3 & A4 & q & B). split; [exact A|]. split; [exact A2|]. split; [exact A3|]. split; [exact A4|].
          exists (q ++ x). rewrite B, <- app_assoc. reflexivity.
        * destruct IH' as (A & q & B). split; [exact A|]. exists (q ++ x). rewrite B, <- app_assoc. reflexivity.
      + destruct (take_sender id (senders c0)) as [[m s]|]; [|discriminate].
        injection H as <-. cbn [set_queue wr closed net_closed closed_ch closer written].
        destruct (wr c0); try exact IH'; rewrite Hacc.
        * destruct IH' as (A & A2 & A3 & A4 & q & B). split; [exact A|]. split; [exact A2|]. split; [exact A3|]. split; [exact A4|].
          exists (q ++ x). rewrite B, <- app_assoc. reflexivity.
        * destruct IH' as (A & q & B). split; [exact A|]. exists (q ++ x). rewrite B, <- app_assoc. reflexivity.
      + destruct Hinv as [_ _ _ (taken & Eq & Ht)]. destruct (wr c0) eqn:Ew; try discriminate.
        destruct (queue c0) as [|[m|] q]; [discriminate| |]; injection H as <-; cbn [set_wr wr closed net_closed closed_ch closer written].
        * exact IH'.
        * destruct IH' as (A & A2 & A3 & A4). split; [exact A|]. split; [exact A2|]. split; [exact A3|]. split; [exact A4|].
          exists (q ++ x). rewrite Hacc, Eq, Ht, <- app_assoc. reflexivity.
      + destruct (wr c0) eqn:Ew; try discriminate. destruct IH' as (_ & _ & A & _). rewrite A in H. discriminate.
      + destruct (wr c0) eqn:Ew; try discriminate. destruct IH' as (_ & _ & A & _). rewrite A in H. discriminate.
      + destruct (wr c0) eqn:Ew; try discriminate. destruct (net_closed c0) eqn:En; [discriminate|].
        injection H as <-. cbn [set_wr wr closed net_closed closed_ch closer written].
        destruct IH' as (A & A2 & A3 & A4). rewrite En. split; [exact A|]. split; [exact A2|]. split; [exact A3|exact A4].
      + exfalso. apply Hg2. apply in_app_iff. right. left. reflexivity.
      + destruct (wr c0) eqn:Ew; try discriminate. injection H as <-. destruct IH' as (A & _ & _ & _ & q & B).
        unfold close_start. rewrite A. cbn [fst set_wr wr closed written]. split; [reflexivity|].
        exists (q ++ x). rewrite Hacc, B, <- app_assoc. reflexivity.
      + exfalso. apply Hg1. apply in_app_iff. right. left. reflexivity.
      + destruct (closer c0) as [[|]|] eqn:Ec; try discriminate. injection H as <-. cbn [wr closed net_closed closed_ch closer written].
        destruct (wr c0); try (destruct IH' as (_ & _ & _ & K); discriminate K).
        * destruct IH' as (_ & _ & _ & K & _). discriminate K.
        * destruct IH' as (A & q & B). split; [exact A|]. exists (q ++ x). rewrite Hacc, B, <- app_assoc. reflexivity.
      + destruct (closer c0) as [[|]|] eqn:Ec; try discriminate. injection H as <-. cbn [wr closed net_closed closed_ch closer written].
        destruct (wr c0); try (destruct IH' as (_ & _ & _ & K); discriminate K).
        * destruct IH' as (_ & _ & _ & K & _). discriminate K.
        * destruct IH' as (A & q & B). split; [exact A|]. exists (q ++ x). rewrite Hacc, B, <- app_assoc. reflexivity.
  Qed.

  Lemma graceful_all es c : NoDup (starts es) -> graceful es -> exec conn_new es = Some c -> closed c = true ->
    exists q, accepted es = map Some (written c) ++ None :: q.
  Proof.
    intros Hnd Hg H Hc. pose proof (graceful_inv es c Hnd Hg H) as K.
    destruct (wr c); try (destruct K as [K _]; congruence). apply K.
  Qed.

  (** Nothing is accepted after close. *)
  Lemma closed_mono c es c' : exec c es = Some c' -> closed c = true -> closed c' = true.
  Proof.
    revert c; induction es as [|e es IH]; intros c H Hc; [injection H as <-; exact Hc|].
    cbn [exec] in H. destruct (step c e) as [c1|] eqn:E; [|discriminate]. apply (IH c1 H). clear IH H.
    destruct e; cbn [step] in E.
    - rewrite Hc in E. injection E as <-. exact Hc.
    - destruct (take_sender id (senders c)) as [[m s]|]; [|discriminate].
      destruct (Nat.ltb _ _); [|discriminate]. injection E as <-. exact Hc.
    - destruct (take_sender id (senders c)) as [[m s]|]; [|discriminate]. injection E as <-. exact Hc.
    - destruct (wr c); try discriminate. destruct (queue c) as [|[m|] q]; [discriminate| |]; injection E as <-; exact Hc.
    - destruct (wr c); try discriminate. destruct (closed_ch c); [|discriminate]. injection E as <-; exact Hc.
    - destruct (wr c); try discriminate. destruct (closed_ch c); [|discriminate]. injection E as <-; exact Hc.
    - destruct (wr c); try discriminate. destruct (net_closed c); [discriminate|]. injection E as <-; exact Hc.
    - destruct (wr c); try discriminate. injection E as <-; exact Hc.
    - destruct (wr c); try discriminate. injection E as <-. unfold close_start. rewrite Hc. exact Hc.
    - injection E as <-. unfold close_start. rewrite Hc. exact Hc.
    - destruct (closer c) as [[|]|]; try discriminate. injection E as <-; exact Hc.
    - destruct (closer c) as [[|]|]; try discriminate. injection E as <-; exact Hc.
  Qed.

  Lemma senders_closed c es c' id : exec c es = Some c' -> closed c = true -> ~ In id (map fst (senders c)) ->
    ~ In (SendAccept id) es.
  Proof.
    revert c; induction es as [|e es IH]; intros c H Hc Hn; [intros []|].
    cbn [exec] in H. destruct (step c e) as [c1|] eqn:E; [|discriminate].
    assert (Hc1 : closed c1 = true) by (apply (closed_mono c [e] c1); [cbn [exec]; rewrite E; reflexivity|exact Hc]).
    assert (Hsub : incl (senders c1) (senders c)).
    { destruct e; cbn [step] in E.
      - rewrite Hc in E. injection E as <-. apply incl_refl.
      - destruct (take_sender id0 (senders c)) as [[m s]|] eqn:Et; [|discriminate].
        destruct (Nat.ltb _ _); [|discriminate]. injection E as <-. apply (take_sender_in _ _ _ _ Et).
      - destruct (take_sender id0 (senders c)) as [[m s]|] eqn:Et; [|discriminate].
        injection E as <-. apply (take_sender_in _ _ _ _ Et).
      - destruct (wr c); try discriminate. destruct (queue c) as [|[m|] q]; [discriminate| |]; injection E as <-; apply incl_refl.
      - destruct (wr c); try discriminate. destruct (closed_ch c); [|discriminate]. injection E as <-; apply incl_refl.
      - destruct (wr c); try discriminate. destruct (closed_ch c); [|discriminate]. injection E as <-; apply incl_refl.
      - destruct (wr c); try discriminate. destruct (net_closed c); [discriminate|]. injection E as <-; apply incl_refl.
      - destruct (wr c); try discriminate. injection E as <-; apply incl_refl.
      - destruct (wr c); try discriminate. injection E as <-. unfold close_start. rewrite Hc. apply incl_refl.
      - injection E as <-. unfold close_start. rewrite Hc. apply incl_refl.
      - destruct (closer c) as [[|]|]; try discriminate. injection E as <-; apply incl_refl.
      - destruct (closer c) as [[|]|]; try discriminate. injection E as <-; apply incl_refl. }
    intros [->|Hin].
    - cbn [step] in E. destruct (take_sender id (senders c)) as [[m s]|] eqn:Et; [|discriminate].
      destruct (take_sender_in _ _ _ _ Et) as [Hin _]. apply Hn. apply in_map_iff. exists (id, m). split; [reflexivity|exact Hin].
    - revert Hin. apply (IH c1 H Hc1). intros K. apply Hn. apply in_map_iff in K as (y & E1 & E2).
      apply in_map_iff. exists y. split; [exact E1|]. apply Hsub. exact E2.
  Qed.

  Lemma refused_after_close es1 id m es2 c1 c2 :
    NoDup (starts (es1 ++ SendStart id m :: es2)) ->
    exec conn_new es1 = Some c1 -> closed c1 = true ->
    exec c1 (SendStart id m :: es2) = Some c2 -> ~ In (SendAccept id) es2.
  Proof.
    intros Hnd H1 Hc H2. cbn [exec step] in H2. rewrite Hc in H2.
    eapply senders_closed; [exact H2|exact Hc|]. intros Hin. apply in_map_iff in Hin as ([i x] & E & Hin). cbn [fst] in E. subst i.
    rewrite starts_app in Hnd. cbn [starts] in Hnd.
    assert (Hnd1 : NoDup (starts es1)) by (apply nodup_app_l in Hnd; exact Hnd).
    pose proof (i_senders _ _ (exec_inv es1 c1 Hnd1 H1) _ _ Hin) as Hw. apply wants_some_in in Hw.
    apply NoDup_remove_2 in Hnd. apply Hnd. apply in_app_iff. left. exact Hw.
  Qed.

  (** The underlying connection and the channel are closed at most once. *)
  Definition close_count (e : event M -> bool) (es : list (event M)) : nat := length (filter e es).
  Definition is_cc (e : event M) : bool := match e with CloseConn => true | _ => false end.
  Definition is_cch (e : event M) : bool := match e with CloseChan => true | _ => false end.

  Definition budget_conn (c : conn M) : nat :=
    if closed c then match closer c with Some Swapped => 1 | _ => 0 end else 1.
  Definition budget_chan (c : conn M) : nat :=
    if closed c then match closer c with Some _ => 1 | _ => 0 end else 1.

  Lemma budgets c es c' : (closer c <> None -> closed c = true) -> exec c es = Some c' ->
    close_count is_cc es <= budget_conn c /\ close_count is_cch es <= budget_chan c.
  Proof.
    revert c; induction es as [|e es IH]; intros c Hi H; [cbn; lia|].
    cbn [exec] in H. destruct (step c e) as [c1|] eqn:E; [|discriminate].
    assert (K : (closer c1 <> None -> closed c1 = true) /\
      (if is_cc e then 1 else 0) + budget_conn c1 <= budget_conn c /\ (if is_cch e then 1 else 0) + budget_chan c1 <= budget_chan c).
    { destruct e; cbn [step] in E; cbn [is_cc is_cch].
      - destruct (closed c) eqn:Ec; injection E as <-; (split; [cbn; rewrite Ec; exact Hi|unfold budget_conn, budget_chan; cbn; rewrite ?Ec; lia]).
      - destruct (take_sender id (senders c)) as [[m s]|]; [|discriminate].
        destruct (Nat.ltb _ _); [|discriminate]. injection E as <-. split; [exact Hi|unfold budget_conn, budget_chan; cbn; lia].
      - destruct (take_sender id (senders c)) as [[m s]|]; [|discriminate].
        injection E as <-. split; [exact Hi|unfold budget_conn, budget_chan; cbn; lia].
      - destruct (wr c); try discriminate. destruct (queue c) as [|[m|] q]; [discriminate| |]; injection E as <-;
          (split; [exact Hi|unfold budget_conn, budget_chan; cbn; lia]).
      - destruct (wr c); try discriminate. destruct (closed_ch c); [|discriminate]. injection E as <-; split; [exact Hi|unfold budget_conn, budget_chan; cbn; lia].
      - destruct (wr c); try discriminate. destruct (closed_ch c); [|discriminate]. injection E as <-; split; [exact Hi|unfold budget_conn, budget_chan; cbn; lia].
      - destruct (wr c); try discriminate. destruct (net_closed c); [discriminate|]. injection E as <-; split; [exact Hi|unfold budget_conn, budget_chan; cbn; lia].
      - destruct (wr c); try discriminate. injection E as <-; split; [exact Hi|unfold budget_conn, budget_chan; cbn; lia].
      - destruct (wr c); try discriminate. injection E as <-. unfold close_start.
        destruct (closed c) eqn:Ec; (split; [cbn; first [intros _; reflexivity|rewrite Ec; exact Hi]|unfold budget_conn, budget_chan; cbn; rewrite ?Ec; lia]).
      - injection E as <-. unfold close_start.
        destruct (closed c) eqn:Ec; (split; [cbn; first [intros _; reflexivity|rewrite Ec; exact Hi]|unfold budget_conn, budget_chan; cbn; rewrite ?Ec; lia]).
      - destruct (closer c) as [[|]|] eqn:Ec; try discriminate. injection E as <-.
        assert (closed c = true) by (apply Hi; discriminate).
        split; [intros _; exact H0|unfold budget_conn, budget_chan; cbn; rewrite H0, Ec; lia].
      - destruct (closer c) as [[|]|] eqn:Ec; try discriminate. injection E as <-.
        assert (closed c = true) by (apply Hi; discriminate).
        split; [intros _; exact H0|unfold budget_conn, budget_chan; cbn; rewrite H0, Ec; lia]. }
    destruct K as (Hi1 & K1 & K2). destruct (IH c1 Hi1 H) as [IH1 IH2]. unfold close_count in *. cbn [filter].
    destruct (is_cc e), (is_cch e); cbn [length]; lia.
  Qed.

  Lemma closed_once es c : exec conn_new es = Some c -> close_count is_cc es <= 1 /\ close_count is_cch es <= 1.
  Proof. intros H. apply (budgets conn_new es c); [cbn; congruence|exact H]. Qed.

  Lemma no_write_after_close c es c' : exec c es = Some c' -> net_closed c = true -> written c' = written c.
  Proof.
    revert c; induction es as [|e es IH]; intros c H Hn; [injection H as <-; reflexivity|].
    cbn [exec] in H. destruct (step c e) as [c1|] eqn:E; [|discriminate].
    assert (K : net_closed c1 = true /\ written c1 = written c).
    { destruct e; cbn [step] in E.
      - destruct (closed c); injection E as <-; split; (exact Hn || reflexivity).
      - destruct (take_sender id (senders c)) as [[m s]|]; [|discriminate].
        destruct (Nat.ltb _ _); [|discriminate]. injection E as <-. split; [exact Hn|reflexivity].
      - destruct (take_sender id (senders c)) as [[m s]|]; [|discriminate].
        injection E as <-. split; [exact Hn|reflexivity].
      - destruct (wr c); try discriminate. destruct (queue c) as [|[m|] q]; [discriminate| |]; injection E as <-; split; (exact Hn || reflexivity).
      - destruct (wr c); try discriminate. destruct (closed_ch c); [|discriminate]. injection E as <-; split; (exact Hn || reflexivity).
      - destruct (wr c); try discriminate. destruct (closed_ch c); [|discriminate]. injection E as <-; split; (exact Hn || reflexivity).
      - destruct (wr c); try discriminate. rewrite Hn in E. discriminate.
      - destruct (wr c); try discriminate. injection E as <-; split; (exact Hn || reflexivity).
      - destruct (wr c); try discriminate. injection E as <-. unfold close_start. destruct (closed c); split; (exact Hn || reflexivity).
      - injection E as <-. unfold close_start. destruct (closed c); split; (exact Hn || reflexivity).
      - destruct (closer c) as [[|]|]; try discriminate. injection E as <-; split; reflexivity.
      - destruct (closer c) as [[|]|]; try discriminate. injection E as <-; split; (exact Hn || reflexivity). }
    destruct K as [K1 K2]. rewrite (IH c1 H K1). exact K2.
  Qed.
End P.
