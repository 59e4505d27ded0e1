From Verif.Base Require Import Bytes.
From Verif.Model Require Import Pending.
From Verif.Spec Require Import Pending.
From Coq Require Import ZArith Arith.

Lemma kind_eqb_eq a b : kind_eqb a b = true <-> a = b.
Proof. destruct a, b; split; intros H; try reflexivity; discriminate H. Qed.
Lemma kind_eqb_refl a : kind_eqb a a = true.
Proof. apply kind_eqb_eq. reflexivity. Qed.
Lemma kind_eqb_neq a b : a <> b -> kind_eqb a b = false.
Proof. intros H. destruct (kind_eqb a b) eqn:E; [apply kind_eqb_eq in E; contradiction|reflexivity]. Qed.

Section P.
  Context {M : Type}.
  Implicit Types (qs : queues M) (es : list (pevent M)) (os : list (out M)).

  Lemma set_q_same qs k q : set_q qs k q k = q.
  Proof. unfold set_q. rewrite kind_eqb_refl. reflexivity. Qed.
  Lemma set_q_other qs k k' q : k' <> k -> set_q qs k q k' = qs k'.
  Proof. intros H. unfold set_q. rewrite kind_eqb_neq by exact H. reflexivity. Qed.

  Lemma prun_snoc qs es e :
    prun qs (es ++ [e]) = (fst (pstep (fst (prun qs es)) e), snd (prun qs es) ++ snd (pstep (fst (prun qs es)) e)).
  Proof.
    revert qs; induction es as [|x es IH]; intros qs; cbn [app prun].
    - cbn [fst snd]. rewrite app_nil_r. reflexivity.
    - rewrite IH. cbn [fst snd]. rewrite app_assoc. reflexivity.
  Qed.

  Lemma sent_app k a b : sent k (a ++ b) = sent k a ++ sent k b :> list (N * M).
  Proof. apply flat_map_app. Qed.
  Lemma answered_app k a b : answered k (a ++ b) = answered k a ++ answered k b :> list (N * M).
  Proof. apply flat_map_app. Qed.
  Lemma issued_app k (a b : list (pevent M)) : issued k (a ++ b) = issued k a ++ issued k b.
  Proof. apply flat_map_app. Qed.

  (** Steps of other kinds leave a queue alone. *)
  Definition kind_of (e : pevent M) : option kind :=
    match e with Enqueue k _ _ _ => Some k | Reply k _ => Some k | Cancel _ => None end.

  Lemma send_next_other qs k now k' : k' <> k -> fst (send_next qs k now) k' = qs k' /\
     sent k' (snd (send_next qs k now)) = [] /\ answered k' (snd (send_next qs k now)) = [].
  Proof.
    intros H. unfold send_next. destruct (qs k); [split; [reflexivity|split; reflexivity]|]. cbn [fst snd].
    rewrite set_q_other by exact H. unfold sent, answered. cbn [flat_map].
    rewrite kind_eqb_neq by congruence. split; [reflexivity|split; reflexivity].
  Qed.

  Lemma step_other qs e k k' : kind_of e = Some k -> k' <> k ->
    fst (pstep qs e) k' = qs k' /\ sent k' (snd (pstep qs e)) = [] /\ answered k' (snd (pstep qs e)) = [].
  Proof.
    intros He Hk. destruct e as [k0 c m now|k0 now|c]; cbn [kind_of] in He; [| |discriminate]; injection He as ->; cbn [pstep].
    - unfold enqueue. set (q := match _ with | [] => _ | _ => _ end). destruct (Nat.eqb (length q) 1).
      + destruct (send_next_other (set_q qs k q) k now k' Hk) as (A & B & C). rewrite A, set_q_other by exact Hk.
        split; [reflexivity|]. split; assumption.
      + cbn [fst snd]. rewrite set_q_other by exact Hk. split; [reflexivity|]. split; reflexivity.
    - unfold dequeue. destruct (qs k) as [|p q]; [split; [reflexivity|split; reflexivity]|]. cbn [fst snd].
      destruct (send_next_other (set_q qs k q) k now k' Hk) as (A & B & C). rewrite A, set_q_other by exact Hk.
      split; [reflexivity|]. split; [exact B|].
      unfold answered. cbn [flat_map]. rewrite kind_eqb_neq by congruence. exact C.
  Qed.

  (** A well-formed queue: the head has been sent, the others have not. *)
  Definition wf_q (q : list (pcmd M)) : Prop :=
    match q with [] => True | p :: q' => p_sent p <> None /\ Forall (fun x => p_sent x = None) q' end.

  Definition not_stale qs (e : pevent M) : Prop :=
    match e with
    | Enqueue k _ _ now => match qs k with p :: _ => match p_sent p with Some t => (now - t <= stale_after)%Z | None => True end | [] => True end
    | _ => True
    end.

  Lemma items_app a b : items (a ++ b) = items a ++ items b :> list (N * M).
  Proof. apply map_app. Qed.

  (** What one step does to the queue of its kind. *)
  Lemma enqueue_fresh qs k c m now :
    wf_q (qs k) -> not_stale qs (Enqueue k c m now) ->
    let r := enqueue qs k c m now in
    wf_q (fst r k) /\ items (fst r k) = items (qs k) ++ [(c, m)] /\
    sent k (snd r) = match qs k with [] => [(c, m)] | _ => [] end /\ answered k (snd r) = [].
  Proof.
    intros Hw Hf. unfold enqueue. cbn [not_stale] in Hf.
    destruct (qs k) as [|p q] eqn:Eq; cbn [app].
    - cbn [length Nat.eqb]. unfold send_next. rewrite set_q_same. cbn [p_client p_msg fst snd].
      rewrite set_q_same. unfold sent, answered. cbn [flat_map]. rewrite kind_eqb_refl.
      split; [split; [discriminate|constructor]|]. split; [reflexivity|]. split; reflexivity.
    - assert (E : (match p with Pcmd _ _ (Some t) => if Z.ltb stale_after (now - t) then copy_down (p :: q ++ [Pcmd c m None]) else p :: q ++ [Pcmd c m None]
                    | _ => p :: q ++ [Pcmd c m None] end) = p :: q ++ [Pcmd c m None]).
      { destruct p as [pc pm [t|]]; [|reflexivity]. cbn [p_sent] in Hf. destruct (Z.ltb_spec stale_after (now - t)); [lia|reflexivity]. }
      destruct Hw as [Hw1 Hw2].
      rewrite E. cbn [length]. rewrite app_length, Nat.add_comm. cbn [length plus Nat.eqb fst snd].
      rewrite set_q_same. split.
      { split; [exact Hw1|]. apply Forall_app. split; [exact Hw2|]. constructor; [reflexivity|constructor]. }
      split; [|split; reflexivity]. change (p :: q ++ [Pcmd c m None]) with ((p :: q) ++ [Pcmd c m None]). apply items_app.
  Qed.

  Lemma dequeue_spec qs k now :
    wf_q (qs k) ->
    let r := dequeue qs k now in
    wf_q (fst r k) /\ items (fst r k) = tl (items (qs k)) /\
    answered k (snd r) = firstn 1 (items (qs k)) /\ sent k (snd r) = firstn 1 (tl (items (qs k))).
  Proof.
    intros Hw. unfold dequeue. destruct (qs k) as [|p q] eqn:Eq.
    - cbn [fst snd]. rewrite Eq. split; [exact I|]. split; [reflexivity|]. split; reflexivity.
    - destruct Hw as [_ Hw]. cbn [fst snd]. unfold send_next. rewrite set_q_same. destruct q as [|p' q].
      + cbn [fst snd]. rewrite set_q_same. unfold answered, sent. cbn [flat_map]. rewrite kind_eqb_refl.
        split; [exact I|]. split; [reflexivity|]. split; reflexivity.
      + cbn [fst snd]. rewrite set_q_same. unfold answered, sent. cbn [flat_map]. rewrite kind_eqb_refl.
        inversion Hw; subst. split; [split; [discriminate|assumption]|].
        split; [reflexivity|]. split; reflexivity.
  Qed.

  Lemma cancel_spec qs c k : wf_q (qs k) ->
    wf_q (cancel qs c k) /\ firstn 1 (items (cancel qs c k)) = firstn 1 (items (qs k)) /\
    tl (items (cancel qs c k)) = filter (fun x => negb (N.eqb (fst x) c)) (tl (items (qs k))).
  Proof.
    intros Hw. unfold cancel. destruct (qs k) as [|p q]; [split; [exact I|split; reflexivity]|].
    destruct Hw as [Hw1 Hw2]. split; [|split; [reflexivity|]].
    - split; [exact Hw1|]. apply Forall_forall. intros x Hx. apply filter_In in Hx as [Hx _]. rewrite Forall_forall in Hw2. apply Hw2. exact Hx.
    - cbn [items map tl]. clear. induction q as [|x q IH]; [reflexivity|]. cbn [map filter fst].
      destruct (N.eqb (p_client x) c); cbn [negb]; [exact IH|]. cbn [map]. f_equal. exact IH.
  Qed.

  (** The invariant over executions. *)
  Record pinv (k : kind) es qs os : Prop := {
    v_wf : wf_q (qs k);
    v_sent : sent k os = answered k os ++ firstn 1 (items (qs k));
    v_order : subseq (sent k os ++ tl (items (qs k))) (issued k es);
    v_keep : forall c, ~ In (Cancel c) es -> of_client c (issued k es) = of_client c (answered k os ++ items (qs k))
  }.

  Lemma subseq_refl {A} (l : list A) : subseq l l.
  Proof. induction l; constructor; assumption. Qed.
  Lemma subseq_app {A} (a b c d : list A) : subseq a b -> subseq c d -> subseq (a ++ c) (b ++ d).
  Proof.
    intros H1 H2. induction H1 as [l|x a b H IH|x a b H IH]; cbn [app]; [|constructor; exact IH|constructor; exact IH].
    induction l as [|y l IH]; [exact H2|]. cbn [app]. constructor. exact IH.
  Qed.
  Lemma subseq_trans {A} (a b c : list A) : subseq a b -> subseq b c -> subseq a c.
  Proof.
    intros H1 H2. revert a H1. induction H2 as [l|x b c H IH|x b c H IH]; intros a H1.
    - inversion H1. constructor.
    - inversion H1; subst; [constructor|constructor; apply IH; assumption|]. constructor. apply IH. assumption.
    - constructor. apply IH. exact H1.
  Qed.
  Lemma subseq_filter {A} f (l : list A) : subseq (filter f l) l.
  Proof. induction l as [|x l IH]; [constructor|]. cbn [filter]. destruct (f x); constructor; exact IH. Qed.

  Lemma first_tl {A} (l : list A) : firstn 1 l ++ tl l = l.
  Proof. destruct l; reflexivity. Qed.

  Lemma step_pinv k es qs os e :
    not_stale qs e -> pinv k es qs os ->
    pinv k (es ++ [e]) (fst (pstep qs e)) (os ++ snd (pstep qs e)).
  Proof.
    intros Hf [Hw Hs Ho Hk]. destruct e as [k' c m now|k' now|c].
    - destruct (kind_eqb k k') eqn:Ek.
      + apply kind_eqb_eq in Ek. subst k'. cbn [pstep].
        destruct (enqueue_fresh qs k c m now Hw Hf) as (A & B & C & D).
        constructor; rewrite ?sent_app, ?answered_app, ?issued_app, ?C, ?D, ?B.
        * exact A.
        * rewrite Hs, app_nil_r. destruct (qs k) as [|p q]; cbn [items map firstn app]; rewrite ?app_nil_r; reflexivity.
        * replace (issued k [Enqueue k c m now]) with [(c, m)] by (unfold issued; cbn [flat_map]; rewrite kind_eqb_refl; reflexivity).
          destruct (qs k) as [|p q]; cbn [items map tl app firstn] in *.
          -- rewrite app_nil_r in Ho |- *. apply subseq_app; [exact Ho|apply subseq_refl].
          -- rewrite app_nil_r. rewrite app_assoc. apply subseq_app; [exact Ho|apply subseq_refl].
        * intros c0 Hc. replace (issued k [Enqueue k c m now]) with [(c, m)] by (unfold issued; cbn [flat_map]; rewrite kind_eqb_refl; reflexivity).
          rewrite app_nil_r, app_assoc. unfold of_client in *. rewrite !filter_app. rewrite Hk by (intros K; apply Hc; apply in_app_iff; left; exact K).
          rewrite !filter_app. reflexivity.
      + assert (Hne : k <> k') by (intros ->; rewrite kind_eqb_refl in Ek; discriminate).
        destruct (step_other qs (Enqueue k' c m now) k' k eq_refl Hne) as (A & B & C).
        assert (Ei : issued k [Enqueue k' c m now] = []) by (unfold issued; cbn [flat_map]; rewrite kind_eqb_neq by congruence; reflexivity).
        constructor; rewrite ?sent_app, ?answered_app, ?issued_app, ?A, ?B, ?C, ?Ei, ?app_nil_r; try assumption.
        intros c0 Hc. apply Hk. intros K. apply Hc. apply in_app_iff. left. exact K.
    - destruct (kind_eqb k k') eqn:Ek.
      + apply kind_eqb_eq in Ek. subst k'. cbn [pstep].
        destruct (dequeue_spec qs k now Hw) as (A & B & C & D).
        constructor; rewrite ?sent_app, ?answered_app, ?issued_app, ?C, ?D, ?B.
        * exact A.
        * rewrite Hs. reflexivity.
        * change (issued k [Reply k now]) with (@nil (N * M)). rewrite app_nil_r.
          destruct (items (qs k)) as [|x [|y l]]; cbn [tl firstn] in *; rewrite ?app_nil_r in *; try exact Ho.
          rewrite <- app_assoc. exact Ho.
        * intros c0 Hc. change (issued k [Reply k now]) with (@nil (N * M)). rewrite app_nil_r.
          rewrite Hk by (intros K; apply Hc; apply in_app_iff; left; exact K).
          rewrite <- app_assoc, first_tl. reflexivity.
      + assert (Hne : k <> k') by (intros ->; rewrite kind_eqb_refl in Ek; discriminate).
        destruct (step_other qs (Reply k' now) k' k eq_refl Hne) as (A & B & C).
        assert (Ei : issued k (es ++ [Reply k' now]) = issued k es) by (rewrite issued_app; apply app_nil_r).
        constructor; rewrite ?Ei, ?sent_app, ?answered_app, ?A, ?B, ?C, ?app_nil_r; try assumption.
        intros c0 Hc. apply Hk. intros K. apply Hc. apply in_app_iff. left. exact K.
    - cbn [pstep fst snd]. rewrite app_nil_r. destruct (cancel_spec qs c k Hw) as (A & B & C).
      constructor; rewrite ?issued_app, ?B, ?C; try assumption.
      + change (issued k [Cancel c]) with (@nil (N * M)). rewrite app_nil_r.
        eapply subseq_trans; [|exact Ho]. apply subseq_app; [apply subseq_refl|apply subseq_filter].
      + intros c0 Hc. change (issued k [Cancel c]) with (@nil (N * M)). rewrite app_nil_r.
        rewrite Hk by (intros K; apply Hc; apply in_app_iff; left; exact K).
        rewrite <- (first_tl (items (qs k))), <- (first_tl (items (cancel qs c k))), B, C.
        unfold of_client. rewrite !filter_app. f_equal. f_equal.
        assert (Hne : c0 <> c) by (intros ->; apply Hc; apply in_app_iff; right; left; reflexivity).
        clear Ho C. induction (tl (items (qs k))) as [|x l IH]; [reflexivity|]. cbn [filter].
        destruct (N.eqb_spec (fst x) c0) as [E|E].
        * destruct (N.eqb_spec (fst x) c) as [E'|E']; [congruence|]. cbn [negb filter].
          destruct (N.eqb_spec (fst x) c0); [|contradiction]. f_equal. exact IH.
        * destruct (N.eqb_spec (fst x) c); cbn [negb filter]; [exact IH|].
          destruct (N.eqb_spec (fst x) c0); [contradiction|]. exact IH.
  Qed.

  Lemma no_timeouts_prefix es e : no_timeouts (es ++ [e]) -> no_timeouts es /\ not_stale (fst (prun no_queues es)) e.
  Proof.
    intros H. split.
    - intros es1 k c m now es2 E. apply (H es1 k c m now (es2 ++ [e])). rewrite E, <- app_assoc. reflexivity.
    - destruct e as [k c m now|k now|c]; cbn [not_stale]; try exact I.
      destruct (fst (prun no_queues es) k) as [|p q] eqn:Eq; [exact I|]. destruct (p_sent p) as [t|] eqn:Et; [|exact I].
      apply (H es k c m now [] eq_refl p q t Eq Et).
  Qed.

  Lemma run_pinv k es : no_timeouts es -> pinv k es (fst (prun no_queues es)) (snd (prun no_queues es)).
  Proof.
    induction es as [|e es IH] using rev_ind; intros H.
    - constructor; cbn; [exact I|reflexivity|constructor|intros; reflexivity].
    - apply no_timeouts_prefix in H as [H1 H2]. rewrite prun_snoc. cbn [fst snd]. apply step_pinv; [exact H2|apply IH; exact H1].
  Qed.

  Lemma abort_spec qs ks live k : NoDup ks -> In k ks ->
    aborted k (snd (abort qs ks live)) = filter (fun x => live (fst x)) (items (qs k)).
  Proof.
    intros Hnd Hin. unfold abort. cbn [snd].
    assert (H1 : forall k', aborted k (flat_map (fun p : pcmd M => if live (p_client p) then [OAbort k' (p_client p) (p_msg p)] else []) (qs k'))
              = if kind_eqb k' k then filter (fun x => live (fst x)) (items (qs k')) else []).
    { intros k'. induction (qs k') as [|p q IH]; [destruct (kind_eqb k' k); reflexivity|].
      cbn [flat_map items map filter fst]. unfold aborted in *. rewrite flat_map_app, IH.
      destruct (live (p_client p)); cbn [flat_map app]; destruct (kind_eqb k' k); reflexivity. }
    assert (H2 : forall ks, aborted k (flat_map (fun k => flat_map (fun p : pcmd M => if live (p_client p) then [OAbort k (p_client p) (p_msg p)] else []) (qs k)) ks)
              = flat_map (fun k' => if kind_eqb k' k then filter (fun x => live (fst x)) (items (qs k')) else []) ks).
    { intros l. induction l as [|k' l IH]; [reflexivity|]. cbn [flat_map]. rewrite <- H1, <- IH. unfold aborted. apply flat_map_app. }
    rewrite H2. clear H1 H2. induction ks as [|k' ks IH]; [destruct Hin|]. cbn [flat_map]. inversion Hnd; subst.
    destruct Hin as [->|Hin].
    - rewrite kind_eqb_refl.
      assert (E : flat_map (fun k' => if kind_eqb k' k then filter (fun x => live (fst x)) (items (qs k')) else []) ks = []).
      { clear IH Hnd H2. induction ks as [|k' ks IH]; [reflexivity|]. cbn [flat_map]. rewrite kind_eqb_neq.
        - apply IH. intros K. apply H1. right. exact K.
        - intros ->. apply H1. left. reflexivity. }
      rewrite E, app_nil_r. reflexivity.
    - rewrite kind_eqb_neq; [|intros ->; contradiction]. cbn [app]. apply IH; assumption.
  Qed.

  (** A stuck queue. *)
  Definition stuck qs k : Prop := exists p q, qs k = p :: q /\ p_sent p = None.

  Lemma stuck_step qs k e : stuck qs k -> (forall now, e <> Reply k now) ->
    stuck (fst (pstep qs e)) k /\ sent k (snd (pstep qs e)) = [].
  Proof.
    intros (p & q & Eq & Ep) Hr. destruct e as [k' c m now|k' now|c].
    - destruct (kind_eqb k k') eqn:Ek.
      + apply kind_eqb_eq in Ek. subst k'. cbn [pstep]. unfold enqueue. rewrite Eq. cbn [app].
        destruct p as [pc pm ps]. cbn [p_sent] in Ep. subst ps. cbn [length]. rewrite app_length, Nat.add_comm.
        cbn [length plus Nat.eqb fst snd]. split; [|reflexivity]. eexists. eexists. rewrite set_q_same. split; reflexivity.
      + assert (Hne : k <> k') by (intros ->; rewrite kind_eqb_refl in Ek; discriminate).
        destruct (step_other qs (Enqueue k' c m now) k' k eq_refl Hne) as (A & B & _). split; [|exact B].
        exists p, q. rewrite A. split; assumption.
    - assert (Hne : k <> k') by (intros ->; eapply Hr; reflexivity).
      destruct (step_other qs (Reply k' now) k' k eq_refl Hne) as (A & B & _). split; [|exact B].
      exists p, q. rewrite A. split; assumption.
    - cbn [pstep fst snd]. split; [|reflexivity]. unfold stuck, cancel. rewrite Eq. eexists. eexists. split; [reflexivity|exact Ep].
  Qed.

  Lemma stuck_run es qs k : stuck qs k -> (forall now, ~ In (Reply k now) es) -> sent k (snd (prun qs es)) = [].
  Proof.
    revert qs; induction es as [|e es IH]; intros qs Hs Hr; [reflexivity|]. cbn [prun snd]. rewrite sent_app.
    destruct (stuck_step qs k e Hs) as [A B]; [intros now ->; apply (Hr now); left; reflexivity|].
    rewrite B. cbn [app]. apply IH; [exact A|]. intros now K. apply (Hr now). right. exact K.
  Qed.

  Lemma stale_enqueue_stuck qs k c m now p q t :
    qs k = p :: q -> Forall (fun x => p_sent x = None) q -> p_sent p = Some t -> (30 * 1000000000 < now - t)%Z ->
    stuck (fst (enqueue qs k c m now)) k /\ items (fst (enqueue qs k c m now) k) = items q ++ [(c, m); (c, m)] /\
    snd (enqueue qs k c m now) = [].
  Proof.
    intros Eq Hq Ep Ht. unfold enqueue. rewrite Eq. destruct p as [pc pm ps]. cbn [p_sent] in Ep. subst ps. cbn [app].
    assert (E : Z.ltb stale_after (now - t) = true) by (apply Z.ltb_lt; exact Ht). rewrite E.
    cbn [copy_down]. rewrite last_last. rewrite !app_length. cbn [length].
    replace (Nat.eqb (length q + 1 + 1) 1) with false by (symmetry; apply Nat.eqb_neq; lia). cbn [fst snd].
    split; [|split; [rewrite set_q_same, <- app_assoc, items_app; reflexivity|reflexivity]].
    unfold stuck. rewrite set_q_same. destruct q as [|x q].
    - eexists. eexists. split; reflexivity.
    - cbn [app]. eexists. eexists. split; [reflexivity|]. inversion Hq. assumption.
  Qed.
End P.

(** ** Labels *)

Lemma span_digits_app d s : Forall (fun c => is_digit c = true) d ->
  match s with c :: _ => is_digit c = false | [] => True end -> span_digits (d ++ s) = (d, s).
Proof.
  intros Hd Hs. induction Hd as [|c d Hc _ IH]; cbn [app].
  - destruct s as [|c s]; [reflexivity|]. cbn [span_digits]. rewrite Hs. reflexivity.
  - cbn [span_digits]. rewrite Hc, IH. reflexivity.
Qed.

Lemma digit_not_blank c : is_digit c = true -> amem c [" "%char; "009"%char] = false.
Proof.
  intros Hc. assert (H : (negb (is_digit c) || negb (amem c [" "%char; "009"%char])) = true).
  { revert c Hc. intros c _. revert c. apply byte_forall. vm_compute. reflexivity. }
  rewrite Hc in H. cbn [negb orb] in H. apply negb_true_iff. exact H.
Qed.

Lemma scan_uint_dec n s : (n < 2 ^ 64)%N -> match s with c :: _ => is_digit c = false | [] => True end ->
  scan_uint (dec n ++ s) = Some (n, s).
Proof.
  intros Hn Hs. unfold scan_uint.
  assert (Hd := dec_digits n). assert (Hu := undec_dec n). pose proof (dec_nonempty n) as Hne.
  destruct (dec n) as [|c d] eqn:E; [contradiction|].
  assert (Es : skip_blanks ((c :: d) ++ s) = (c :: d) ++ s).
  { cbn [app skip_blanks]. rewrite digit_not_blank by (inversion Hd; assumption). reflexivity. }
  rewrite Es, span_digits_app by assumption. rewrite Hu.
  destruct (N.ltb_spec n (2 ^ 64)); [reflexivity|lia].
Qed.

Lemma strip_lit_app p s : strip_lit p (p ++ s) = Some s.
Proof. induction p as [|c p IH]; [destruct s; reflexivity|]. cbn [strip_lit app]. rewrite aeqb_refl. exact IH. Qed.

Lemma parse_label_label client counter : (client < 2 ^ 64)%N -> (counter < 2 ^ 64)%N -> parse_label (label client counter) = Some client.
Proof.
  intros H1 H2. unfold parse_label, label.
  destruct (B "sd-" ++ dec client ++ B "-" ++ dec counter) as [|x l] eqn:E; [discriminate|]. rewrite <- E. clear x l E.
  rewrite strip_lit_app. rewrite scan_uint_dec; [|exact H1|reflexivity]. rewrite strip_lit_app.
  rewrite <- (app_nil_r (dec counter)). rewrite scan_uint_dec; [reflexivity|exact H2|exact I].
Qed.

Lemma label_inj a b a' b' : label a b = label a' b' -> a = a' /\ b = b'.
Proof.
  unfold label. intros H. apply app_inv_head in H.
  assert (K : forall x y x' y', Forall (fun c => is_digit c = true) x -> Forall (fun c => is_digit c = true) x' ->
              x ++ "-"%char :: y = x' ++ "-"%char :: y' -> x = x' /\ y = y').
  { clear. intros x y x' y' Hx. revert x'. induction Hx as [|c x Hc _ IH]; intros x' Hx' E; destruct Hx' as [|c' x' Hc' Hx']; cbn [app] in E.
    - injection E as ->. split; reflexivity.
    - injection E as <- _. discriminate Hc'.
    - injection E as -> _. discriminate Hc.
    - injection E as -> E. destruct (IH x' Hx' E) as [-> ->]. split; reflexivity. }
  destruct (K (dec a) (dec b) (dec a') (dec b') (dec_digits a) (dec_digits a') H) as [E1 E2].
  split; apply dec_inj; assumption.
Qed.

Lemma span_digits_spec s d r : span_digits s = (d, r) -> s = d ++ r /\ Forall (fun c => is_digit c = true) d.
Proof.
  revert d r; induction s as [|c s IH]; intros d r H; [injection H as <- <-; split; [reflexivity|constructor]|].
  cbn [span_digits] in H. destruct (is_digit c) eqn:Ec.
  - destruct (span_digits s) as [d' r'] eqn:E. cbn [fst snd] in H. injection H as <- <-.
    destruct (IH d' r' eq_refl) as [-> Hd]. split; [reflexivity|constructor; assumption].
  - injection H as <- <-. split; [reflexivity|constructor].
Qed.

Lemma strip_lit_spec p s r : strip_lit p s = Some r -> s = p ++ r.
Proof.
  revert s; induction p as [|c p IH]; intros s H; [destruct s; injection H as <-; reflexivity|].
  destruct s as [|d s]; [discriminate|]. cbn [strip_lit] in H. destruct (aeqb c d) eqn:E; [|discriminate].
  apply aeqb_eq in E. subst d. rewrite (IH s H). reflexivity.
Qed.

Lemma foreign_label l : (forall r, l <> B "sd-" ++ r) -> l <> [] -> parse_label l = None.
Proof.
  intros H Hne. unfold parse_label. destruct l as [|c l]; [contradiction|].
  destruct (strip_lit (B "sd-") (c :: l)) as [r|] eqn:E; [|reflexivity]. apply strip_lit_spec in E. exfalso. apply (H r). exact E.
Qed.

Lemma routed_one id clients : id <> 0%N -> routed_to id clients = filter (fun c => N.eqb c id) clients.
Proof.
  intros H. unfold routed_to. apply filter_ext. intros c. rewrite (proj2 (N.eqb_neq id 0) H).
  cbn [negb andb]. rewrite negb_involutive. apply N.eqb_sym.
Qed.
Lemma routed_all clients : routed_to 0 clients = clients.
Proof. unfold routed_to. induction clients as [|c l IH]; [reflexivity|]. cbn [filter N.eqb negb andb]. f_equal. exact IH. Qed.
