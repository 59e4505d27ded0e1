From Verif.Base Require Import Bytes.
From Verif.Model Require Import Message Caps Filter.
From Verif.Spec Require Import Filter.
From Verif.Proof Require Import Caps.
From Coq Require Import ZArith Lia.
Open Scope nat_scope.

Lemma is_numeric_iff cmd : is_numeric cmd = true <-> numeric cmd.
Proof.
  unfold is_numeric, numeric. rewrite andb_true_iff, Nat.eqb_eq. split.
  - intros [H1 H2]. destruct cmd as [|a [|b [|c [|d t]]]]; try discriminate. exists a, b, c.
    cbn [forallb] in H2. rewrite !andb_true_iff in H2. split; [reflexivity|]. tauto.
  - intros (a & b & c & -> & H1 & H2 & H3). split; [reflexivity|]. cbn [forallb]. rewrite H1, H2, H3. reflexivity.
Qed.

Lemma tag_supported_iff en k : tag_supported en k = true <->
  k = B "time" /\ en (B "server-time") = true \/ k = B "account" /\ en (B "account-tag") = true \/ k = B "batch" /\ en (B "batch") = true.
Proof.
  unfold tag_supported.
  destruct (beqb_spec k (B "time")) as [->|H1].
  { split; [tauto|]. intros [[_ H]|[[H _]|[H _]]]; [exact H|discriminate H|discriminate H]. }
  destruct (beqb_spec k (B "account")) as [->|H2].
  { split; [tauto|]. intros [[H _]|[[_ H]|[H _]]]; [discriminate H|exact H|discriminate H]. }
  destruct (beqb_spec k (B "batch")) as [->|H3]; [tauto|]. split; [discriminate|tauto].
Qed.

(** The gates of the commands. *)
Definition gate_closed (en : bytes -> bool) (cmd : bytes) : bool :=
  negb (en (B "message-tags")) && beqb cmd (B "TAGMSG") ||
  existsb (fun g => beqb cmd (fst g) && negb (en (snd g))) command_gates.

Lemma imp_bool (P : Prop) a b : (a = true <-> P) -> (P -> b = true) <-> a && negb b = false.
Proof. intros H. destruct a, b; cbn; intuition (try congruence). Qed.

Lemma gate_iff en cmd : gate_closed en cmd = false <-> knows_command en cmd.
Proof.
  unfold gate_closed, command_gates, knows_command. cbn [existsb fst snd].
  rewrite (andb_comm (negb (en (B "message-tags")))), !orb_false_iff.
  rewrite !(imp_bool _ _ _ (beqb_eq cmd _)). tauto.
Qed.

(** ** The stages of SendMessage *)

Definition tag_ok (en : bytes -> bool) (p : bytes * bytes) : bool :=
  (en (B "message-tags") || tag_supported en (fst p)).

Definition stage1 en m := if negb (en (B "message-tags")) then with_tags m (filter (fun p => tag_supported en (fst p)) (m_tags m)) else m.
Definition stage2 en m := if negb (en (B "batch")) && negb (beqb (tag_value m (B "batch")) []) then with_tags m (bdel (m_tags m) (B "batch")) else m.
Definition stage3 en m := if beqb (m_command m) (B "JOIN") && negb (en (B "extended-join")) then with_params m (firstn 1 (m_params m)) else m.
Definition stage4 (m : message) := match m_prefix m with Some p => if beqb (p_name p) (B "*") then with_prefix m None else m | None => m end.
Definition stage5 hostname m := match m_prefix m with None => if is_numeric (m_command m) then with_prefix m (Some (Prefix hostname [] [])) else m | Some _ => m end.

Lemma stages_command en m : m_command (stage3 en (stage2 en (stage1 en m))) = m_command m.
Proof.
  unfold stage3. destruct (beqb _ _ && _); cbn [with_params m_command]; unfold stage2; destruct (_ && _); cbn [with_tags m_command];
    unfold stage1; destruct (negb _); reflexivity.
Qed.

Lemma send_eq en hostname m :
  send_message en hostname m = if gate_closed en (m_command m) then None
                               else Some (stage5 hostname (stage4 (stage3 en (stage2 en (stage1 en m))))).
Proof.
  unfold send_message, gate_closed. destruct (negb (en (B "message-tags")) && beqb (m_command m) (B "TAGMSG")); [reflexivity|]. cbn [orb].
  fold (stage1 en m). fold (stage2 en (stage1 en m)). fold (stage3 en (stage2 en (stage1 en m))).
  rewrite stages_command. reflexivity.
Qed.

Lemma stage45_fields hostname m :
  m_tags (stage5 hostname (stage4 m)) = m_tags m /\ m_command (stage5 hostname (stage4 m)) = m_command m /\
  m_params (stage5 hostname (stage4 m)) = m_params m /\
  m_prefix (stage5 hostname (stage4 m)) =
    match m_prefix m with
    | Some p => if beqb (p_name p) (B "*") then (if is_numeric (m_command m) then Some (Prefix hostname [] []) else None) else Some p
    | None => if is_numeric (m_command m) then Some (Prefix hostname [] []) else None
    end.
Proof.
  destruct m as [t p c ps]. unfold stage4, stage5. cbn [m_prefix]. destruct p as [p|].
  - destruct (beqb (p_name p) (B "*")).
    + cbn [with_prefix m_prefix m_command]. destruct (is_numeric c); split; [reflexivity|split; [reflexivity|split; reflexivity]|reflexivity|split; [reflexivity|split; reflexivity]].
    + cbn [m_prefix]. split; [reflexivity|split; [reflexivity|split; reflexivity]].
  - cbn [m_prefix m_command]. destruct (is_numeric c); split; [reflexivity|split; [reflexivity|split; reflexivity]|reflexivity|split; [reflexivity|split; reflexivity]].
Qed.

Lemma stage1_fields en m :
  m_tags (stage1 en m) = filter (tag_ok en) (m_tags m) /\ m_command (stage1 en m) = m_command m /\ m_params (stage1 en m) = m_params m /\ m_prefix (stage1 en m) = m_prefix m.
Proof.
  unfold stage1, tag_ok. destruct (en (B "message-tags")); cbn [negb orb].
  - assert (E : filter (fun _ : bytes * bytes => true) (m_tags m) = m_tags m) by (induction (m_tags m) as [|x l IH]; cbn; [reflexivity|rewrite IH; reflexivity]).
    rewrite E. split; [reflexivity|split; [reflexivity|split; reflexivity]].
  - split; [reflexivity|split; [reflexivity|split; reflexivity]].
Qed.

Definition keep2 (en : bytes -> bool) (m : message) (p : bytes * bytes) : bool :=
  negb (beqb (fst p) (B "batch")) || en (B "batch") || beqb (tag_value m (B "batch")) [].

Lemma filter_all {A} (f : A -> bool) l : (forall x, In x l -> f x = true) -> filter f l = l.
Proof.
  induction l as [|x l IH]; intros H; [reflexivity|]. cbn [filter]. rewrite (H x (or_introl eq_refl)).
  rewrite IH; [reflexivity|]. intros y Hy. apply H. right. exact Hy.
Qed.

Lemma stage2_fields en m :
  m_tags (stage2 en m) = filter (keep2 en m) (m_tags m) /\ m_command (stage2 en m) = m_command m /\ m_params (stage2 en m) = m_params m /\ m_prefix (stage2 en m) = m_prefix m.
Proof.
  unfold stage2. destruct (negb (en (B "batch")) && negb (beqb (tag_value m (B "batch")) [])) eqn:E.
  - cbn [with_tags m_tags m_command m_params m_prefix]. split; [|split; [reflexivity|split; reflexivity]].
    unfold bdel. apply filter_ext. intros p. unfold keep2. apply andb_true_iff in E as [E1 E2]. apply negb_true_iff in E1, E2. rewrite E1, E2.
    destruct (beqb (fst p) (B "batch")); reflexivity.
  - split; [|split; [reflexivity|split; reflexivity]]. symmetry. apply filter_all. intros p _. unfold keep2.
    destruct (en (B "batch")); cbn [negb andb] in E; [rewrite !orb_true_r; reflexivity|].
    apply negb_false_iff in E. rewrite E, !orb_true_r. reflexivity.
Qed.

Lemma stage3_fields en m :
  m_tags (stage3 en m) = m_tags m /\ m_command (stage3 en m) = m_command m /\ m_prefix (stage3 en m) = m_prefix m /\
  m_params (stage3 en m) = if beqb (m_command m) (B "JOIN") && negb (en (B "extended-join")) then firstn 1 (m_params m) else m_params m.
Proof.
  unfold stage3. destruct (beqb _ _ && _); split; [reflexivity|split; [reflexivity|split; reflexivity]|reflexivity|split; [reflexivity|split; reflexivity]].
Qed.

(** The fields of what is sent. *)
Lemma send_fields en hostname m m' :
  send_message en hostname m = Some m' ->
  knows_command en (m_command m) /\ m_command m' = m_command m /\
  m_tags m' = filter (keep2 en (stage1 en m)) (filter (tag_ok en) (m_tags m)) /\
  m_params m' = (if beqb (m_command m) (B "JOIN") && negb (en (B "extended-join")) then firstn 1 (m_params m) else m_params m) /\
  m_prefix m' = match m_prefix m with
    | Some p => if beqb (p_name p) (B "*") then (if is_numeric (m_command m) then Some (Prefix hostname [] []) else None) else Some p
    | None => if is_numeric (m_command m) then Some (Prefix hostname [] []) else None
    end.
Proof.
  rewrite send_eq. destruct (gate_closed en (m_command m)) eqn:Eg; [discriminate|]. intros H. apply (f_equal (fun o => match o with Some x => x | None => m end)) in H.
  cbv iota in H. subst m'. apply gate_iff in Eg. split; [exact Eg|].
  destruct (stage45_fields hostname (stage3 en (stage2 en (stage1 en m)))) as (A1 & A2 & A3 & A4).
  destruct (stage3_fields en (stage2 en (stage1 en m))) as (B1 & B2 & B3 & B4).
  destruct (stage2_fields en (stage1 en m)) as (C1 & C2 & C3 & C4).
  destruct (stage1_fields en m) as (D1 & D2 & D3 & D4).
  split; [rewrite A2, B2, C2, D2; reflexivity|]. split; [rewrite A1, B1, C1, D1; reflexivity|].
  split; [rewrite A3, B4, C2, C3, D2, D3; reflexivity|]. rewrite A4, B3, B2, C4, C2, D4, D2. reflexivity.
Qed.

Lemma bget_filter_keys (f : bytes -> bool) l k :
  bget (filter (fun p => f (fst p)) l) k = if f k then bget l k else None.
Proof.
  induction l as [|[k0 v0] l IH]; cbn [filter bget fst]; [destruct (f k); reflexivity|].
  destruct (f k0) eqn:E; cbn [bget].
  - rewrite IH. destruct (beqb_spec k0 k) as [->|Hn]; [rewrite E; reflexivity|reflexivity].
  - rewrite IH. destruct (beqb_spec k0 k) as [->|Hn]; [rewrite E; reflexivity|reflexivity].
Qed.

Lemma bget_tag_ok en l k : bget (filter (tag_ok en) l) k = if en (B "message-tags") || tag_supported en k then bget l k else None.
Proof. exact (bget_filter_keys (fun k => en (B "message-tags") || tag_supported en k) l k). Qed.

(** With NoDup keys: exactly the known tags are kept. *)
Lemma tags_kept en m k v : NoDup (map fst (m_tags m)) ->
  (In (k, v) (filter (keep2 en (stage1 en m)) (filter (tag_ok en) (m_tags m))) <-> In (k, v) (m_tags m) /\ knows_tag en k v).
Proof.
  intros Hnd. rewrite !filter_In. unfold tag_ok, keep2, knows_tag. cbn [fst].
  rewrite (orb_true_iff (en _)), tag_supported_iff.
  unfold tag_value. destruct (stage1_fields en m) as (-> & _). rewrite bget_tag_ok.
  split.
  - intros [[H1 H2] H3]. split; [exact H1|]. split; [exact H2|]. intros -> Hv.
    rewrite beqb_refl in H3. cbn [negb orb] in H3. apply orb_true_iff in H3 as [H3|H3]; [exact H3|].
    rewrite (In_bget _ _ _ Hnd H1) in H3.
    destruct (en (B "message-tags") || tag_supported en (B "batch")) eqn:E.
    + apply beqb_eq in H3. congruence.
    + apply orb_false_iff in E as [E1 E2]. destruct H2 as [H2|[[H2 _]|[[H2 _]|[_ H2]]]]; [congruence|discriminate H2|discriminate H2|exact H2].
  - intros [H1 [H2 H3]]. split; [split; assumption|].
    destruct (beqb_spec k (B "batch")) as [->|Hn]; [|reflexivity]. cbn [negb orb].
    destruct (en (B "batch")) eqn:Eb; [reflexivity|]. cbn [orb]. rewrite (In_bget _ _ _ Hnd H1).
    destruct v as [|c v]; [|specialize (H3 eq_refl ltac:(discriminate)); discriminate].
    destruct (en _ || _); reflexivity.
Qed.

Theorem sent_permitted en hostname m m' :
  NoDup (map fst (m_tags m)) -> hostname <> B "*" -> send_message en hostname m = Some m' -> permitted en m'.
Proof.
  intros Hnd Hh H. destruct (send_fields _ _ _ _ H) as (Hk & Hc & Ht & Hp & Hx). unfold permitted. rewrite Hc, Ht, Hp, Hx.
  split; [exact Hk|]. split; [intros k v Hi; exact (proj2 (proj1 (tags_kept en m k v Hnd) Hi))|].
  split; [|split].
  - intros E1 E2. rewrite E1, E2. change (beqb (B "JOIN") (B "JOIN")) with true. cbn [negb andb]. rewrite firstn_length. lia.
  - intros p. destruct (m_prefix m) as [q|]; [destruct (beqb_spec (p_name q) (B "*")) as [E|E]|].
    + destruct (is_numeric (m_command m)); [|discriminate]. intros Hq. apply (f_equal (fun o => match o with Some x => p_name x | None => [] end)) in Hq.
      cbn [p_name] in Hq. congruence.
    + intros Hq. injection Hq as <-. exact E.
    + destruct (is_numeric (m_command m)); [|discriminate]. intros Hq. apply (f_equal (fun o => match o with Some x => p_name x | None => [] end)) in Hq.
      cbn [p_name] in Hq. congruence.
  - intros Hn. apply is_numeric_iff in Hn. rewrite Hn. destruct (m_prefix m) as [q|]; [destruct (beqb (p_name q) (B "*"))|]; discriminate.
Qed.

Lemma message_eq (m m' : message) : m_tags m = m_tags m' -> m_prefix m = m_prefix m' -> m_command m = m_command m' -> m_params m = m_params m' -> m = m'.
Proof. destruct m, m'. cbn. intros -> -> -> ->. reflexivity. Qed.

Theorem permitted_unchanged en hostname m :
  NoDup (map fst (m_tags m)) -> permitted en m -> send_message en hostname m = Some m.
Proof.
  intros Hnd (Hk & Ht & Hj & Hp & Hn).
  destruct (send_message en hostname m) as [m'|] eqn:E.
  - destruct (send_fields _ _ _ _ E) as (_ & Hc & Ht' & Hp' & Hx). f_equal. apply message_eq.
    + rewrite Ht'. rewrite (filter_all (tag_ok en)), (filter_all (keep2 en (stage1 en m))); [reflexivity| |].
      * intros [k v] Hi. pose proof (proj2 (tags_kept en m k v Hnd) (conj Hi (Ht k v Hi))) as H. apply filter_In in H. exact (proj2 H).
      * intros [k v] Hi. pose proof (proj2 (tags_kept en m k v Hnd) (conj Hi (Ht k v Hi))) as H. apply filter_In in H as [H _]. apply filter_In in H. exact (proj2 H).
    + rewrite Hx. destruct (m_prefix m) as [p|] eqn:Ep.
      * destruct (beqb_spec (p_name p) (B "*")) as [Es|Es]; [destruct (Hp p eq_refl Es)|reflexivity].
      * destruct (is_numeric (m_command m)) eqn:En; [|reflexivity]. apply is_numeric_iff in En. destruct (Hn En eq_refl).
    + exact Hc.
    + rewrite Hp'. destruct (beqb_spec (m_command m) (B "JOIN")) as [Ej|Ej]; [|reflexivity].
      destruct (en (B "extended-join")) eqn:Ee; [reflexivity|]. cbn [negb andb]. apply firstn_all2. exact (Hj Ej eq_refl).
  - rewrite send_eq in E. destruct (gate_closed en (m_command m)) eqn:Eg; [|discriminate]. apply gate_iff in Hk. congruence.
Qed.

Theorem dropped_iff en hostname m : send_message en hostname m = None <-> ~ knows_command en (m_command m).
Proof.
  rewrite send_eq, <- gate_iff. destruct (gate_closed en (m_command m)); split; congruence.
Qed.

(** ** Batches *)

Lemma dec_nonempty n : dec n <> [].
Proof.
  intros E. pose proof (undec_dec n) as H. rewrite E in H. discriminate.
Qed.

Lemma bset_absent l k v : bget l k = None -> bset l k v = l ++ [(k, v)].
Proof.
  induction l as [|[k0 v0] l IH]; cbn [bget bset app]; [reflexivity|]. destruct (beqb k0 k); [discriminate|]. intros H. rewrite (IH H). reflexivity.
Qed.

Lemma bdel_absent l k : bget l k = None -> bdel l k = l.
Proof.
  intros H. apply bget_None in H. unfold bdel. apply filter_all. intros p Hp. apply negb_true_iff, beqb_neq. intros <-. apply H. apply in_map. exact Hp.
Qed.

Lemma send_ref_off en hostname ref x : en (B "batch") = false -> ref <> [] -> batch_tag (snd x) = None ->
  send_message en hostname (tag_batch ref x) = send_message en hostname (snd x).
Proof.
  intros Hb Hr Hn. destruct x as [[] m]; [|reflexivity]. unfold tag_batch. cbn [fst snd] in *. unfold batch_tag in Hn. rewrite (bset_absent _ _ _ Hn).
  rewrite !send_eq. cbn [with_tags m_command]. destruct (gate_closed en (m_command m)); [reflexivity|]. f_equal. f_equal. f_equal. f_equal.
  apply message_eq.
  - destruct (stage2_fields en (stage1 en (with_tags m (m_tags m ++ [(B "batch", ref)])))) as (-> & _).
    destruct (stage2_fields en (stage1 en m)) as (-> & _).
    destruct (stage1_fields en (with_tags m (m_tags m ++ [(B "batch", ref)]))) as (E1 & _). rewrite E1.
    destruct (stage1_fields en m) as (E2 & _). rewrite E2. cbn [with_tags m_tags]. rewrite filter_app, filter_app.
    assert (Hk : forall m', filter (keep2 en m') (filter (tag_ok en) (m_tags m)) = filter (tag_ok en) (m_tags m)).
    { intros m'. apply filter_all. intros p Hp. apply filter_In in Hp as [Hp _]. unfold keep2. destruct (beqb_spec (fst p) (B "batch")) as [E|E]; [|reflexivity].
      exfalso. apply bget_None in Hn. apply Hn. rewrite <- E. apply in_map. exact Hp. }
    rewrite !Hk. rewrite <- (app_nil_r (filter (tag_ok en) (m_tags m))) at 2. f_equal.
    cbn [filter]. unfold tag_ok at 1. cbn [fst]. destruct (en (B "message-tags") || tag_supported en (B "batch")) eqn:Ek; [|reflexivity].
    cbn [filter]. unfold keep2 at 1. cbn [fst]. rewrite beqb_refl, Hb. cbn [negb orb]. unfold tag_value. rewrite E1, bget_tag_ok, Ek. cbn [with_tags m_tags].
    rewrite <- (bset_absent _ _ ref Hn), bget_set, beqb_refl. destruct (beqb_spec ref []); [congruence|reflexivity].
  - destruct (stage2_fields en (stage1 en (with_tags m (m_tags m ++ [(B "batch", ref)])))) as (_ & _ & _ & ->).
    destruct (stage2_fields en (stage1 en m)) as (_ & _ & _ & ->).
    destruct (stage1_fields en (with_tags m (m_tags m ++ [(B "batch", ref)]))) as (_ & _ & _ & ->). destruct (stage1_fields en m) as (_ & _ & _ & ->). reflexivity.
  - destruct (stage2_fields en (stage1 en (with_tags m (m_tags m ++ [(B "batch", ref)])))) as (_ & -> & _).
    destruct (stage2_fields en (stage1 en m)) as (_ & -> & _).
    destruct (stage1_fields en (with_tags m (m_tags m ++ [(B "batch", ref)]))) as (_ & -> & _). destruct (stage1_fields en m) as (_ & -> & _). reflexivity.
  - destruct (stage2_fields en (stage1 en (with_tags m (m_tags m ++ [(B "batch", ref)])))) as (_ & _ & -> & _).
    destruct (stage2_fields en (stage1 en m)) as (_ & _ & -> & _).
    destruct (stage1_fields en (with_tags m (m_tags m ++ [(B "batch", ref)]))) as (_ & _ & -> & _). destruct (stage1_fields en m) as (_ & _ & -> & _). reflexivity.
Qed.

Lemma flat_map_ext_in {A C} (f g : A -> list C) l : (forall x, In x l -> f x = g x) -> flat_map f l = flat_map g l.
Proof.
  induction l as [|x l IH]; intros H; [reflexivity|]. cbn [flat_map]. rewrite (H x (or_introl eq_refl)), IH; [reflexivity|].
  intros y Hy. apply H. right. exact Hy.
Qed.

Theorem no_batch en hostname : en (B "batch") = false -> forall l last, Forall ordinary_item l ->
  snd (send_items en hostname last l) = flat_map (flat (send_list en hostname)) l.
Proof.
  intros Hb. induction l as [|i l IH]; intros last Hl; [reflexivity|]. apply Forall_cons_iff in Hl as [Hi Hl].
  cbn [send_items snd flat_map]. rewrite (IH _ Hl). f_equal.
  destruct i as [m|typ params tags body]; [reflexivity|]. cbn [send_item snd]. rewrite Hb. cbn [app]. rewrite app_nil_r.
  cbn [flat]. apply flat_map_ext_in. intros x Hx. unfold send_list. cbn [ordinary_item] in Hi. rewrite Forall_forall in Hi. destruct (Hi x Hx) as [_ Ht].
  rewrite (send_ref_off en hostname _ x Hb (dec_nonempty _) Ht). reflexivity.
Qed.

(** With the capability, the tag survives and the rest is as without it. *)
Lemma filter_comm {A} (f g : A -> bool) l : filter f (filter g l) = filter g (filter f l).
Proof.
  induction l as [|x l IH]; [reflexivity|]. cbn [filter]. destruct (g x) eqn:Eg, (f x) eqn:Ef; cbn [filter]; rewrite ?Eg, ?Ef, ?IH; reflexivity.
Qed.

Lemma untag_absent m : batch_tag m = None -> untag m = m.
Proof.
  intros H. unfold untag. destruct m as [t p c ps]. cbn [m_tags m_prefix m_command m_params] in *. f_equal. exact (bdel_absent t (B "batch") H).
Qed.

Lemma keep2_on en m l : en (B "batch") = true -> filter (keep2 en m) l = l.
Proof. intros H. apply filter_all. intros p _. unfold keep2. rewrite H, orb_true_r. reflexivity. Qed.

Lemma send_ref_on en hostname ref m : en (B "batch") = true -> batch_tag m = None ->
  match send_message en hostname (tag_batch ref (true, m)) with
  | Some m' => batch_tag m' = Some ref /\ m_command m' = m_command m /\ send_message en hostname m = Some (untag m')
  | None => send_message en hostname m = None
  end.
Proof.
  intros Hb Hn. destruct (send_message en hostname (tag_batch ref (true, m))) as [m'|] eqn:E.
  - destruct (send_fields _ _ _ _ E) as (Hk & Hc & Ht & Hp & Hx). unfold tag_batch in *. cbn [fst snd with_tags m_command m_tags m_params m_prefix] in *.
    unfold batch_tag in Hn. rewrite (keep2_on _ _ _ Hb) in Ht.
    assert (Hs : en (B "message-tags") || tag_supported en (B "batch") = true).
    { rewrite (proj2 (tag_supported_iff en (B "batch"))); [apply orb_true_r|]. right. right. split; [reflexivity|exact Hb]. }
    split; [|split; [exact Hc|]].
    + unfold batch_tag. rewrite Ht, bget_tag_ok, Hs, bget_set, beqb_refl. reflexivity.
    + destruct (send_message en hostname m) as [m''|] eqn:E''.
      * destruct (send_fields _ _ _ _ E'') as (_ & Hc' & Ht' & Hp' & Hx'). rewrite (keep2_on _ _ _ Hb) in Ht'. f_equal. apply message_eq.
        -- unfold untag. cbn [m_tags]. rewrite Ht, Ht', (bset_absent _ _ _ Hn), filter_comm, filter_app. cbn [filter fst].
           change (beqb (B "batch") (B "batch")) with true. cbn [negb]. rewrite app_nil_r. fold (bdel (m_tags m) (B "batch")). rewrite (bdel_absent _ _ Hn). reflexivity.
        -- cbn [untag m_prefix]. rewrite Hx, Hx'. reflexivity.
        -- cbn [untag m_command]. rewrite Hc, Hc'. reflexivity.
        -- cbn [untag m_params]. rewrite Hp, Hp'. reflexivity.
      * apply dropped_iff in E''. destruct (E'' Hk).
  - apply dropped_iff. apply dropped_iff in E. exact E.
Qed.

Lemma send_ordinary en hostname m m' : ordinary m -> send_message en hostname m = Some m' -> ordinary m'.
Proof.
  intros [H1 H2] H. destruct (send_fields _ _ _ _ H) as (_ & Hc & Ht & _). split; [rewrite Hc; exact H1|].
  unfold batch_tag in *. rewrite Ht. apply bget_None. apply bget_None in H2. intros Hi. apply H2. apply in_map_iff in Hi as (p & E & Hp).
  apply filter_In in Hp as [Hp _]. apply filter_In in Hp as [Hp _]. rewrite <- E. apply in_map. exact Hp.
Qed.

(** Reading an ordinary message. *)
Lemma assemble_one used cur m l : ordinary m -> assemble used cur (m :: l) = option_map (cons (ROne m)) (assemble used cur l).
Proof.
  intros [H1 H2]. cbn [assemble]. apply beqb_neq in H1. rewrite H1, H2. reflexivity.
Qed.

Lemma assemble_body en hostname ref typ params used : en (B "batch") = true -> forall body acc rest,
  Forall (fun x => ordinary (snd x)) body ->
  assemble used (Some (ref, typ, params, acc)) (flat_map (fun x => send_list en hostname (tag_batch ref x)) body ++ rest) =
  option_map (app (map ROne (flat_map (fun x : bool * message => if fst x then [] else send_list en hostname (snd x)) body)))
    (assemble used (Some (ref, typ, params, acc ++ flat_map (fun x : bool * message => if fst x then send_list en hostname (snd x) else []) body)) rest).
Proof.
  intros Hb. induction body as [|[b m] body IH]; intros acc rest Hf.
  - cbn [flat_map app map]. rewrite app_nil_r. destruct (assemble used _ rest); reflexivity.
  - apply Forall_cons_iff in Hf as [Hm Hf]. cbn [snd] in Hm. cbn [flat_map fst snd]. destruct b.
    + pose proof (send_ref_on en hostname ref m Hb (proj2 Hm)) as Hs. unfold send_list at 1 4. destruct (send_message en hostname (tag_batch ref (true, m))) as [m'|].
      * destruct Hs as (S1 & S2 & S3). rewrite S3. cbn [app]. cbn [assemble]. destruct Hm as [Hm1 _].
        rewrite S2. rewrite (proj2 (beqb_neq (m_command m) (B "BATCH")) Hm1). rewrite S1, beqb_refl. rewrite (IH _ _ Hf). rewrite <- app_assoc. reflexivity.
      * rewrite Hs. cbn [app]. rewrite (IH _ _ Hf). reflexivity.
    + unfold tag_batch at 1. cbn [fst snd]. unfold send_list at 1 3. destruct (send_message en hostname m) as [m'|] eqn:E.
      * cbn [app]. rewrite (assemble_one _ _ _ _ (send_ordinary _ _ _ _ Hm E)), (IH _ _ Hf). destruct (assemble used _ rest); reflexivity.
      * cbn [app]. apply (IH _ _ Hf).
Qed.

Lemma batch_known en : knows_command en (B "BATCH").
Proof. repeat split; intros H; discriminate H. Qed.

Lemma send_batch_line en hostname tags params :
  exists m, send_message en hostname (Message tags None (B "BATCH") params) = Some m /\ m_command m = B "BATCH" /\ m_params m = params.
Proof.
  destruct (send_message en hostname (Message tags None (B "BATCH") params)) as [m|] eqn:E.
  - exists m. destruct (send_fields _ _ _ _ E) as (_ & H1 & _ & H2 & _). split; [reflexivity|]. split; [exact H1|exact H2].
  - apply dropped_iff in E. destruct (E (batch_known en)).
Qed.

Lemma send_list_eq en hostname m : send_list en hostname m = match send_message en hostname m with Some m' => [m'] | None => [] end.
Proof. reflexivity. Qed.

Theorem batches_read en hostname : en (B "batch") = true -> forall l last used, Forall ordinary_item l ->
  (forall r, In r used -> exists n, (n <= last)%N /\ r = dec n) ->
  assemble used None (snd (send_items en hostname last l)) = Some (flat_map (expected (send_list en hostname)) l).
Proof.
  intros Hb. induction l as [|i l IH]; intros last used Hl Hu; [reflexivity|]. apply Forall_cons_iff in Hl as [Hi Hl].
  cbn [send_items snd flat_map]. destruct i as [m|typ params tags body].
  - cbn [send_item fst snd expected ordinary_item] in *. rewrite (send_list_eq en hostname m). destruct (send_message en hostname m) as [m'|] eqn:E.
    + cbn [app map]. rewrite (assemble_one _ _ _ _ (send_ordinary _ _ _ _ Hi E)), (IH _ _ Hl Hu). reflexivity.
    + cbn [app map]. exact (IH _ _ Hl Hu).
  - cbn [send_item fst snd expected ordinary_item] in *. rewrite Hb. rewrite (send_list_eq en hostname (Message tags None _ _)), (send_list_eq en hostname (Message [] None _ _)).
    destruct (send_batch_line en hostname tags ((B "+" ++ dec (last + 1)) :: typ :: params)) as (m1 & -> & C1 & P1).
    destruct (send_batch_line en hostname [] [B "-" ++ dec (last + 1)]) as (m2 & -> & C2 & P2).
    rewrite <- !app_assoc. cbn [app]. cbn [assemble]. rewrite C1, beqb_refl, P1. change (B "+" ++ dec (last + 1)) with ("+"%char :: dec (last + 1)). cbv iota.
    destruct (bmem (dec (last + 1)) used) eqn:Em.
    + exfalso. apply bmem_In in Em. destruct (Hu _ Em) as (n & Hn & En). apply (f_equal undec) in En. rewrite !undec_dec in En. injection En as En. lia.
    + rewrite (assemble_body en hostname (dec (last + 1)) typ params _ Hb body [] _ Hi). cbn [app assemble]. rewrite C2, beqb_refl, P2.
      change (B "-" ++ dec (last + 1)) with ("-"%char :: dec (last + 1)). cbv iota. rewrite beqb_refl.
      rewrite (IH (last + 1)%N (dec (last + 1) :: used) Hl).
      * cbn [option_map]. reflexivity.
      * intros r [<-|Hr]; [exists (last + 1)%N; split; [lia|reflexivity]|]. destruct (Hu r Hr) as (n & Hn & ->). exists n. split; [lia|reflexivity].
Qed.
