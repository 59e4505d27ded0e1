(** Proofs about history requests. *)
From Verif.Base Require Import Bytes.
From Verif.Model Require Import Message CaseMap TimeFmt Identd ReadMarker FsStore Sql SqlQuery History.
From Verif.Spec Require Import TimeFmt SqlQuery History.
From Verif.Proof Require SqlQuery.
From Coq Require Import ZArith NArith Lia.
Open Scope Z_scope.

Lemma parse_bound_is s t : bound_is s t <-> parse_bound s = t /\ t <> 0.
Proof.
  unfold bound_is, parse_bound. split.
  - intros [x [-> [Hp Ht]]]. split; [|exact Ht].
    assert (E : cut_on "=" (B "timestamp=" ++ x) = (B "timestamp", Some x)) by reflexivity. rewrite E, beqb_refl, Hp. reflexivity.
  - intros [H Ht]. destruct (cut_on "=" s) as [k [v|]] eqn:E; [|congruence].
    destruct (beqb_spec k (B "timestamp")) as [->|]; [|congruence]. destruct (parse_time v) as [t'|] eqn:Ep; [|congruence].
    exists v. split; [|split; congruence]. pose proof (cut_on_spec "=" s) as Hc. rewrite E in Hc. destruct Hc as [Hc _]. rewrite Hc. reflexivity.
Qed.

Definition limit_of (s : bytes) : option nat := match atoi s with Some l => if (l <? 0) || (history_limit <? l) then None else Some (Z.to_nat l) | None => None end.
Lemma limit_of_is s n : limit_is s n <-> limit_of s = Some n.
Proof.
  unfold limit_is, limit_of, history_limit. split.
  - intros [-> H]. destruct (Z.ltb_spec (Z.of_nat n) 0) as [H1|H1]; [lia|]. destruct (Z.ltb_spec 1000 (Z.of_nat n)) as [H2|H2]; [lia|]. cbn [orb]. rewrite Nat2Z.id. reflexivity.
  - destruct (atoi s) as [l|]; [|discriminate]. destruct (Z.ltb_spec l 0) as [H1|H1]; [discriminate|]. destruct (Z.ltb_spec 1000 l) as [H2|H2]; [discriminate|]. cbn [orb].
    intros E. assert (Z.to_nat l = n) by congruence. subst n. rewrite Z2Nat.id by lia. split; [reflexivity|lia].
Qed.

Lemma filter_le {A} (f : A -> bool) l : (length (filter f l) <= length l)%nat.
Proof. induction l as [|a l IH]; cbn; [lia|]. destruct (f a); cbn; lia. Qed.

Section Command.
  Context {M : Type}.
  Variable c : hconn M.
  Variable st : hstore M.
  Hypothesis Hst : hc_store c = Some st.

  (** The command once it is read. *)
  Definition give sub target (h : option (list M)) : hanswer M := match h with None => history_error sub target | Some l => HBatch (B "chathistory") [target] l end.
  Definition ask (cm : casemapping) (detached : bytes -> bool) (sub target : bytes) (b1 b2 : Z) (limit : nat) : hanswer M :=
    if beqb sub (B "BEFORE") then give sub target (h_before st target b1 0 limit (hc_events c))
    else if beqb sub (B "LATEST") then give sub target (h_before st target (hc_now c) b1 limit (hc_events c))
    else if beqb sub (B "AFTER") then give sub target (h_after st target b1 (hc_now c) limit (hc_events c))
    else if beqb sub (B "BETWEEN") then
      give sub target (if b1 <? b2 then h_after st target b1 b2 limit (hc_events c) else h_before st target b1 b2 limit (hc_events c))
    else match h_targets st b1 b2 limit (hc_events c) with
    | None => fail [B "MESSAGE_ERROR"; sub; B "Failed to retrieve targets"]
    | Some l => HTargets (map (fun x => (fst x, format_time (snd x))) (filter (fun x => negb (detached (fst x))) l))
    end.

  (** The first bound, if it is good. *)
  Definition first_bound (sub s : bytes) : option Z :=
    if beqb sub (B "LATEST") && beqb s (B "*") then Some 0 else if parse_bound s =? 0 then None else Some (parse_bound s).
  Definition second (s : bytes) : option Z := match s with [] => Some 0 | _ => if parse_bound s =? 0 then None else Some (parse_bound s) end.

  Lemma after_params_eq sub target s1 s2 l cm det : hc_net c = Some (cm, det) ->
    after_params c sub target s1 s2 l =
    if beqb (casemap (hc_cm c) target) service_cm then HBatch (B "chathistory") [target] []
    else match first_bound sub s1 with
    | None => fail [B "INVALID_PARAMS"; sub; s1; B "Invalid first bound"]
    | Some b1 => match second s2 with
      | None => fail [B "INVALID_PARAMS"; sub; s2; B "Invalid second bound"]
      | Some b2 => match limit_of l with
        | None => fail [B "INVALID_PARAMS"; sub; l; B "Invalid limit"]
        | Some n => ask cm det sub (casemap cm target) b1 b2 n
        end end end.
  Proof.
    intros Hn. unfold after_params. destruct (beqb (casemap (hc_cm c) target) service_cm); [reflexivity|]. rewrite Hst, Hn. unfold first_bound.
    assert (K : forall b1, (let b2 := match s2 with [] => 0 | _ => parse_bound s2 end in
        if match s2 with [] => false | _ => b2 =? 0 end then fail [B "INVALID_PARAMS"; sub; s2; B "Invalid second bound"]
        else match limit_of l with
        | None => fail [B "INVALID_PARAMS"; sub; l; B "Invalid limit"]
        | Some limit => ask cm det sub (casemap cm target) b1 b2 limit
        end) =
      match second s2 with
      | None => fail [B "INVALID_PARAMS"; sub; s2; B "Invalid second bound"]
      | Some b2 => match limit_of l with
        | None => fail [B "INVALID_PARAMS"; sub; l; B "Invalid limit"]
        | Some n => ask cm det sub (casemap cm target) b1 b2 n
        end end).
    { intros b1. unfold second. destruct s2 as [|x s2']; [reflexivity|]. cbv zeta. destruct (parse_bound (x :: s2') =? 0); reflexivity. }
    destruct (beqb sub (B "LATEST") && beqb s1 (B "*")) eqn:Es; cbn [negb andb].
    - exact (K 0).
    - destruct (parse_bound s1 =? 0); [reflexivity|]. exact (K (parse_bound s1)).
  Qed.

  Lemma first_bound_is sub s t : bound_is s t -> first_bound sub s = Some t.
  Proof.
    intros H. pose proof H as [x [Ex _]]. apply parse_bound_is in H as [H Ht]. unfold first_bound.
    assert (E : beqb s (B "*") = false) by (apply beqb_neq; rewrite Ex; discriminate). rewrite E, andb_false_r, H.
    destruct (Z.eqb_spec t 0); [contradiction|reflexivity].
  Qed.
  Lemma second_is s t : bound_is s t -> second s = Some t.
  Proof.
    intros H. pose proof H as [x [Ex _]]. apply parse_bound_is in H as [H Ht]. unfold second.
    destruct s as [|a s']; [discriminate|]. rewrite H. destruct (Z.eqb_spec t 0); [contradiction|reflexivity].
  Qed.

  Definition served (params : list bytes) : Prop := casemap (hc_cm c) (target_param params) <> service_cm.

  Lemma bound_years s t : bound_is s t -> in_years t /\ t <> 0.
  Proof. intros [x [_ [Hp Ht]]]. split; [exact (Proof.SqlQuery.parse_in_years x t Hp)|exact Ht]. Qed.

  Lemma meaning cm det right params r e lo hi n newest : hc_net c = Some (cm, det) -> gives st right -> served params -> in_years (hc_now c) -> hc_now c <> 0 ->
    reads params r -> (forall t1 t2 n, r <> RTargets t1 t2 n) -> asked_for cm (hc_now c) r = (e, lo, hi, n, newest) ->
    exists l, chathistory c params = HBatch (B "chathistory") [e] l /\ right e (hc_events c) lo hi n newest l.
  Proof.
    intros Hn [Hb Ha] Hs Yn Nn Hr Ht Hq. unfold served in Hs. assert (Y0 : in_years 0) by (unfold in_years; lia).
    destruct Hr as [target s l t k rest H1 H2|target s l t k rest H1 H2|target s l t k rest H1 H2|target l k rest H2|target s1 s2 l t1 t2 k rest H1 H1' H2|s1 s2 l t1 t2 k rest H1 H1' H2];
      try (exfalso; exact (Ht _ _ _ eq_refl)); apply limit_of_is in H2;
      cbn [target_param] in Hs; match type of Hs with context [beqb ?a ?b] => change (beqb a b) with false in Hs end; cbv iota in Hs; apply beqb_neq in Hs; cbn [asked_for] in Hq.
    - change (chathistory c (B "BEFORE" :: target :: s :: l :: rest)) with (after_params c (B "BEFORE") target s [] l).
      rewrite (after_params_eq _ _ _ _ _ cm det Hn), Hs, (first_bound_is _ s t H1). cbn [second]. rewrite H2.
      change (ask cm det (B "BEFORE") (casemap cm target) t 0 k) with (give (B "BEFORE") (casemap cm target) (h_before st (casemap cm target) t 0 k (hc_events c))).
      apply bound_years in H1 as [Y1 N1]. destruct (Hb (casemap cm target) t 0 k (hc_events c) Y0 Y1 N1) as [ms [Em Hm]]. rewrite Em.
      exists ms. injection Hq as <- <- <- <- <-. split; [reflexivity|exact Hm].
    - change (chathistory c (B "AFTER" :: target :: s :: l :: rest)) with (after_params c (B "AFTER") target s [] l).
      rewrite (after_params_eq _ _ _ _ _ cm det Hn), Hs, (first_bound_is _ s t H1). cbn [second]. rewrite H2.
      change (ask cm det (B "AFTER") (casemap cm target) t 0 k) with (give (B "AFTER") (casemap cm target) (h_after st (casemap cm target) t (hc_now c) k (hc_events c))).
      apply bound_years in H1 as [Y1 N1]. destruct (Ha (casemap cm target) t (hc_now c) k (hc_events c) Y1 Yn N1 Nn) as [ms [Em Hm]]. rewrite Em.
      exists ms. injection Hq as <- <- <- <- <-. split; [reflexivity|exact Hm].
    - change (chathistory c (B "LATEST" :: target :: s :: l :: rest)) with (after_params c (B "LATEST") target s [] l).
      rewrite (after_params_eq _ _ _ _ _ cm det Hn), Hs, (first_bound_is _ s t H1). cbn [second]. rewrite H2.
      change (ask cm det (B "LATEST") (casemap cm target) t 0 k) with (give (B "LATEST") (casemap cm target) (h_before st (casemap cm target) (hc_now c) t k (hc_events c))).
      apply bound_years in H1 as [Y1 N1]. destruct (Hb (casemap cm target) (hc_now c) t k (hc_events c) Y1 Yn Nn) as [ms [Em Hm]]. rewrite Em.
      exists ms. injection Hq as <- <- <- <- <-. split; [reflexivity|exact Hm].
    - change (chathistory c (B "LATEST" :: target :: B "*" :: l :: rest)) with (after_params c (B "LATEST") target (B "*") [] l).
      rewrite (after_params_eq _ _ _ _ _ cm det Hn), Hs. change (first_bound (B "LATEST") (B "*")) with (Some 0). cbv iota. cbn [second]. rewrite H2.
      change (ask cm det (B "LATEST") (casemap cm target) 0 0 k) with (give (B "LATEST") (casemap cm target) (h_before st (casemap cm target) (hc_now c) 0 k (hc_events c))).
      destruct (Hb (casemap cm target) (hc_now c) 0 k (hc_events c) Y0 Yn Nn) as [ms [Em Hm]]. rewrite Em.
      exists ms. injection Hq as <- <- <- <- <-. split; [reflexivity|exact Hm].
    - change (chathistory c (B "BETWEEN" :: target :: s1 :: s2 :: l :: rest)) with (after_params c (B "BETWEEN") target s1 s2 l).
      rewrite (after_params_eq _ _ _ _ _ cm det Hn), Hs, (first_bound_is _ s1 t1 H1), (second_is s2 t2 H1'), H2.
      change (ask cm det (B "BETWEEN") (casemap cm target) t1 t2 k) with
        (give (B "BETWEEN") (casemap cm target) (if t1 <? t2 then h_after st (casemap cm target) t1 t2 k (hc_events c) else h_before st (casemap cm target) t1 t2 k (hc_events c))).
      apply bound_years in H1 as [Y1 N1]. apply bound_years in H1' as [Y2 N2]. destruct (t1 <? t2).
      + destruct (Ha (casemap cm target) t1 t2 k (hc_events c) Y1 Y2 N1 N2) as [ms [Em Hm]]. rewrite Em.
        exists ms. injection Hq as <- <- <- <- <-. split; [reflexivity|exact Hm].
      + destruct (Hb (casemap cm target) t1 t2 k (hc_events c) Y2 Y1 N1) as [ms [Em Hm]]. rewrite Em.
        exists ms. injection Hq as <- <- <- <- <-. split; [reflexivity|exact Hm].
  Qed.

  Lemma targets cm det params t1 t2 n l : hc_net c = Some (cm, det) -> served params -> reads params (RTargets t1 t2 n) -> h_targets st t1 t2 n (hc_events c) = Some l ->
    chathistory c params = HTargets (map (fun x => (fst x, format_time (snd x))) (filter (fun x => negb (det (fst x))) l)).
  Proof.
    intros Hn Hs Hr Hl. unfold served in Hs. inversion Hr as [| | | | |s1 s2 l0 ? ? ? rest H1 H1' H2]; subst. apply limit_of_is in H2.
    assert (E : target_param (B "TARGETS" :: s1 :: s2 :: l0 :: rest) = []) by reflexivity. rewrite E in Hs. apply beqb_neq in Hs.
    assert (Ec : chathistory c (B "TARGETS" :: s1 :: s2 :: l0 :: rest) = match hc_net c with None => HTargets [] | Some _ => after_params c (B "TARGETS") [] s1 s2 l0 end) by reflexivity.
    rewrite Ec, Hn.
    rewrite (after_params_eq _ _ _ _ _ cm det Hn), Hs, (first_bound_is _ s1 t1 H1), (second_is s2 t2 H1'), H2.
    assert (Ea : ask cm det (B "TARGETS") (casemap cm []) t1 t2 n = match h_targets st t1 t2 n (hc_events c) with
      | None => fail [B "MESSAGE_ERROR"; B "TARGETS"; B "Failed to retrieve targets"]
      | Some l => HTargets (map (fun x => (fst x, format_time (snd x))) (filter (fun x => negb (det (fst x))) l)) end) by reflexivity.
    rewrite Ea, Hl. reflexivity.
  Qed.

  (** The shape of a request that gets through. *)
  Lemma shape params : (exists cmd ps, chathistory c params = HRefuse cmd ps) \/ (hc_net c = None /\ chathistory c params = HTargets []) \/
    exists sub target s1 s2 l, chathistory c params = after_params c sub target s1 s2 l /\ limit_param params = Some l /\ target = target_param params /\
      ((sub = B "BETWEEN" \/ sub = B "TARGETS") /\ second_bound params = Some s2 \/ (sub = B "BEFORE" \/ sub = B "AFTER" \/ sub = B "LATEST") /\ s2 = []) /\
      exists rest, params = sub :: (if beqb sub (B "TARGETS") then [] else [target]) ++ s1 :: (if beqb sub (B "BETWEEN") || beqb sub (B "TARGETS") then [s2] else []) ++ l :: rest.
  Proof.
    destruct params as [|sub r]; [left; eexists; eexists; reflexivity|].
    unfold chathistory.
    destruct (beqb_spec sub (B "AFTER")) as [->|N1]; [|destruct (beqb_spec sub (B "BEFORE")) as [->|N2]; [|destruct (beqb_spec sub (B "LATEST")) as [->|N3]]]; cbn [orb].
    1,2,3: destruct r as [|target [|s1 [|l rest]]]; try (left; eexists; eexists; reflexivity); right; right; eexists; exists target, s1, [], l;
      split; [reflexivity|]; split; [reflexivity|]; split; [reflexivity|]; split; [right; split; [auto|reflexivity]|]; exists rest; reflexivity.
    destruct (beqb_spec sub (B "BETWEEN")) as [->|N4].
    { destruct r as [|target [|s1 [|s2 [|l rest]]]]; try (left; eexists; eexists; reflexivity). right. right. exists (B "BETWEEN"), target, s1, s2, l.
      split; [reflexivity|]. split; [reflexivity|]. split; [reflexivity|]. split; [left; split; [auto|reflexivity]|]. exists rest. reflexivity. }
    destruct (beqb_spec sub (B "TARGETS")) as [->|N5]; [|left; eexists; eexists; reflexivity].
    destruct (hc_net c) eqn:En; [|right; left; split; reflexivity].
    destruct r as [|s1 [|s2 [|l rest]]]; try (left; eexists; eexists; reflexivity). right. right. exists (B "TARGETS"), [], s1, s2, l.
    split; [reflexivity|]. split; [reflexivity|]. split; [reflexivity|]. split; [left; split; [auto|reflexivity]|]. exists rest. reflexivity.
  Qed.

  Lemma ask_results cm det sub target b1 b2 n : keeps_limit st -> (results (ask cm det sub target b1 b2 n) <= n)%nat.
  Proof.
    intros [Kb [Ka Kt]]. unfold ask, give.
    assert (Gb : forall hi lo, (results (match h_before st target hi lo n (hc_events c) with None => history_error sub target | Some l => HBatch (B "chathistory") [target] l end) <= n)%nat).
    { intros hi lo. destruct (h_before st target hi lo n (hc_events c)) eqn:E; cbn [results history_error fail]; [exact (Kb _ _ _ _ _ _ E)|lia]. }
    assert (Ga : forall hi lo, (results (match h_after st target hi lo n (hc_events c) with None => history_error sub target | Some l => HBatch (B "chathistory") [target] l end) <= n)%nat).
    { intros hi lo. destruct (h_after st target hi lo n (hc_events c)) eqn:E; cbn [results history_error fail]; [exact (Ka _ _ _ _ _ _ E)|lia]. }
    destruct (beqb sub (B "BEFORE")); [apply Gb|]. destruct (beqb sub (B "LATEST")); [apply Gb|]. destruct (beqb sub (B "AFTER")); [apply Ga|].
    destruct (beqb sub (B "BETWEEN")); [destruct (b1 <? b2); [apply Ga|apply Gb]|].
    destruct (h_targets st b1 b2 n (hc_events c)) eqn:E; cbn [results fail]; [|lia]. rewrite map_length. apply Kt in E.
    pose proof (filter_le (fun x => negb (det (fst x))) l). lia.
  Qed.

  Lemma limited params : keeps_limit st ->
    results (chathistory c params) = 0%nat \/
    exists s n, limit_param params = Some s /\ limit_is s n /\ (results (chathistory c params) <= n)%nat.
  Proof.
    intros K. destruct (shape params) as [[cmd [ps E]]|[[_ E]|[sub [target [s1 [s2 [l [E [Hl _]]]]]]]]]; [left; rewrite E; reflexivity|left; rewrite E; reflexivity|].
    destruct (hc_net c) as [[cm det]|] eqn:En.
    - rewrite E, (after_params_eq _ _ _ _ _ cm det En). destruct (beqb _ service_cm); [left; reflexivity|].
      destruct (first_bound sub s1) as [b1|]; [|left; reflexivity]. destruct (second s2) as [b2|]; [|left; reflexivity].
      destruct (limit_of l) as [n|] eqn:Eli; [|left; reflexivity]. right. exists l, n. split; [exact Hl|]. split; [apply limit_of_is; exact Eli|apply ask_results; exact K].
    - left. rewrite E. unfold after_params. destruct (beqb _ service_cm); [reflexivity|]. rewrite Hst, En. reflexivity.
  Qed.

  Lemma malformed params : hc_net c <> None -> served params -> second_bound params <> Some [] -> (forall r, ~ reads params r) ->
    exists cmd ps, chathistory c params = HRefuse cmd ps.
  Proof.
    intros Hn Hs H2 Hr. destruct (shape params) as [E|[[E _]|[sub [target [s1 [s2 [l [E [Hl [Ht [Hk [rest Ep]]]]]]]]]]]]; [exact E|contradiction|].
    destruct (hc_net c) as [[cm det]|] eqn:En; [|contradiction].
    rewrite E, (after_params_eq _ _ _ _ _ cm det En). rewrite Ht. unfold served in Hs. rewrite (proj2 (beqb_neq _ _) Hs).
    assert (F1 : forall b1, first_bound sub s1 = Some b1 -> (sub = B "LATEST" /\ s1 = B "*") \/ bound_is s1 b1).
    { intros b1. unfold first_bound. destruct (beqb sub (B "LATEST") && beqb s1 (B "*")) eqn:Es.
      - apply andb_true_iff in Es as [Ea Eb]. apply beqb_eq in Ea, Eb. auto.
      - destruct (Z.eqb_spec (parse_bound s1) 0); [discriminate|]. intros Eb. right. apply parse_bound_is. assert (parse_bound s1 = b1) by congruence. subst b1. auto. }
    assert (F2 : s2 <> [] -> forall b2, second s2 = Some b2 -> bound_is s2 b2).
    { intros Hne b2. unfold second. destruct s2 as [|a s2']; [contradiction|]. destruct (Z.eqb_spec (parse_bound (a :: s2')) 0) as [|Hz]; [discriminate|].
      intros Eb. apply parse_bound_is. assert (parse_bound (a :: s2') = b2) by congruence. subst b2. auto. }
    destruct (first_bound sub s1) as [b1|] eqn:E1; [|eexists; eexists; reflexivity]. destruct (second s2) as [b2|] eqn:E2; [|eexists; eexists; reflexivity].
    destruct (limit_of l) as [n|] eqn:E3; [|eexists; eexists; reflexivity]. exfalso. apply limit_of_is in E3.
    destruct Hk as [[Hsub Hb2]|[Hsub ->]].
    - assert (Hne : s2 <> []) by congruence. specialize (F2 Hne b2 eq_refl).
      destruct Hsub as [-> | ->]; (destruct (F1 b1 eq_refl) as [[Hx _]|F1']; [discriminate Hx|]).
      + apply (Hr (RBetween target b1 b2 n)). rewrite Ep. cbn [beqb]. change (beqb (B "BETWEEN") (B "TARGETS")) with false. change (beqb (B "BETWEEN") (B "BETWEEN")) with true. cbn [orb app]. apply RdBetween; assumption.
      + apply (Hr (RTargets b1 b2 n)). rewrite Ep. change (beqb (B "TARGETS") (B "TARGETS")) with true. change (beqb (B "TARGETS") (B "BETWEEN")) with false. cbn [orb app]. apply RdTargets; assumption.
    - destruct Hsub as [-> | [-> | ->]].
      + destruct (F1 b1 eq_refl) as [[Hx _]|F1']; [discriminate Hx|]. apply (Hr (RBefore target b1 n)). rewrite Ep. apply RdBefore; assumption.
      + destruct (F1 b1 eq_refl) as [[Hx _]|F1']; [discriminate Hx|]. apply (Hr (RAfter target b1 n)). rewrite Ep. apply RdAfter; assumption.
      + destruct (F1 b1 eq_refl) as [[_ ->]|F1'].
        * apply (Hr (RLatest target None n)). rewrite Ep. apply RdNewest; assumption.
        * apply (Hr (RLatest target (Some b1) n)). rewrite Ep. apply RdLatest; assumption.
  Qed.
End Command.

(** SEARCH. *)
Section Search.
  Context {M : Type}.
  Variable c : hconn M.

  Definition lim (attrs : list (bytes * bytes)) : option bytes := option_map snd (find (fun a => beqb (fst a) (B "limit")) attrs).

  Lemma search_attr_limit name value q n q' n' : search_attr c name value (q, n) = inl (q', n') ->
    if beqb name (B "limit") then atoi value = Some (q_limit q') /\ 0 < q_limit q' else q_limit q' = q_limit q.
  Proof.
    unfold search_attr.
    destruct (beqb_spec name (B "limit")) as [->|Hne].
    - change (beqb (B "limit") (B "before") || beqb (B "limit") (B "after")) with false. change (beqb (B "limit") (B "from")) with false. change (beqb (B "limit") (B "in")) with false.
      change (beqb (B "limit") (B "text")) with false. cbv iota.
      destruct (atoi value) as [l|]; [|discriminate]. destruct (Z.leb_spec l 0); [discriminate|]. intros E. injection E as <- <-. cbn. split; [reflexivity|lia].
    - destruct (beqb name (B "before") || beqb name (B "after")).
      { destruct (parse_time value); [|discriminate]. destruct (beqb name (B "after")); intros E; injection E as <- <-; reflexivity. }
      destruct (beqb name (B "from")); [intros E; injection E as <- <-; reflexivity|].
      destruct (beqb name (B "in")); [destruct (hc_net c) as [[cm det]|]; [|discriminate]; intros E; injection E as <- <-; reflexivity|].
      destruct (beqb name (B "text")); [intros E; injection E as <- <-; reflexivity|]. intros E. injection E as <- <-. reflexivity.
  Qed.

  Lemma search_attrs_limit attrs q n q' n' : NoDup (map fst attrs) -> search_attrs c attrs (q, n) = inl (q', n') ->
    match lim attrs with Some s => atoi s = Some (q_limit q') /\ 0 < q_limit q' | None => q_limit q' = q_limit q end.
  Proof.
    revert q n. induction attrs as [|[name value] r IH]; intros q n Hd; [cbn; intros E; injection E as <- <-; reflexivity|].
    cbn [search_attrs map fst] in *. inversion Hd as [|? ? Hni Hdr]; subst.
    destruct (search_attr c name value (q, n)) as [[q1 n1]|e] eqn:E1; [|discriminate]. intros E. specialize (IH q1 n1 Hdr E).
    apply search_attr_limit in E1. unfold lim in *. cbn [find fst]. destruct (beqb_spec name (B "limit")) as [->|Hne].
    - cbn [option_map snd]. assert (Hf : find (fun a : bytes * bytes => beqb (fst a) (B "limit")) r = None).
      { destruct (find _ r) as [[a b]|] eqn:Ef; [|reflexivity]. exfalso. apply find_some in Ef as [Hi He]. apply beqb_eq in He. cbn in He. subst a. apply Hni. apply in_map_iff. exists (B "limit", b). auto. }
      rewrite Hf in IH. cbn [option_map] in IH. rewrite IH. exact E1.
    - destruct (find _ r) as [[a b]|]; cbn [option_map snd] in *; [exact IH|congruence].
  Qed.

  Lemma search_limited st attrs : hc_search c = Some st -> search_keeps_limit st -> NoDup (map fst attrs) ->
    Z.of_nat (results (search_command c attrs)) <= 100 /\
    forall s, In (B "limit", s) attrs -> results (search_command c attrs) = 0%nat \/ exists l, atoi s = Some l /\ Z.of_nat (results (search_command c attrs)) <= l.
  Proof.
    intros Hs K Hd. unfold search_command. rewrite Hs.
    assert (Herr : forall ps, results (@search_fail M ps) = 0%nat) by reflexivity.
    destruct (search_attrs c attrs (Search 0 0 [] [] [] search_max, false)) as [[q [|]]|e] eqn:E.
    - apply search_attrs_limit in E; [|exact Hd]. cbn [q_limit] in E. unfold search_max in *.
      set (q2 := if 100 <? q_limit q then _ else q).
      assert (Hq2 : q_limit q2 = Z.min 100 (q_limit q)) by (unfold q2; destruct (Z.ltb_spec 100 (q_limit q)); cbn [q_limit]; lia).
      assert (Hpos : 0 < q_limit q) by (destruct (lim attrs); [apply E|lia]).
      destruct (st q2) as [l|] eqn:El; cbn [results]; [|split; [cbn; lia|intros s _; left; reflexivity]].
      apply K in El; [|lia]. split; [lia|]. intros s Hin. right.
      assert (Hl : lim attrs = Some s).
      { unfold lim. clear - Hd Hin. induction attrs as [|[a b] r IH]; [destruct Hin|]. cbn [find fst map] in *. inversion Hd as [|? ? Hni Hdr]; subst.
        destruct (beqb_spec a (B "limit")) as [->|Hne]; cbn [option_map snd].
        - destruct Hin as [Hin|Hin]; [congruence|]. exfalso. apply Hni. apply in_map_iff. exists (B "limit", s). auto.
        - destruct Hin as [Hin|Hin]; [congruence|]. exact (IH Hdr Hin). }
      rewrite Hl in E. exists (q_limit q). split; [apply E|lia].
    - split; [cbn; lia|]. intros s _. left. reflexivity.
    - assert (He : forall attrs qn e, search_attrs c attrs qn = inr e -> results e = 0%nat).
      { clear. induction attrs as [|[a b] r IH]; intros qn e; [discriminate|]. cbn [search_attrs].
        destruct (search_attr c a b qn) as [qn'|e'] eqn:E1; [apply IH|]. intros E. assert (e' = e) by congruence. subst e'. revert E1. unfold search_attr. destruct qn as [q n].
        destruct (_ || _); [destruct (parse_time b); [discriminate|intros E1; inversion E1; reflexivity]|].
        destruct (beqb a (B "from")); [discriminate|].
        destruct (beqb a (B "in")); [destruct (hc_net c) as [[cm det]|]; [discriminate|intros E1; inversion E1; reflexivity]|].
        destruct (beqb a (B "text")); [discriminate|].
        destruct (beqb a (B "limit")); [|discriminate]. destruct (atoi b) as [l|]; [destruct (l <=? 0); [|discriminate]|]; intros E1; inversion E1; reflexivity. }
      rewrite (He _ _ _ E). split; [cbn; lia|]. intros s _. left. reflexivity.
  Qed.
End Search.

(** The stores keep to the limit. *)
Lemma parse_all_length (parse : bytes -> option message) l ms : parse_all parse l = Some ms -> length ms = length l.
Proof.
  revert ms. induction l as [|r l IH]; cbn; intros ms; [intros E; inversion E; reflexivity|].
  destruct (parse (mr_raw r)); [|discriminate]. destruct (parse_all parse l) as [ms'|]; [|discriminate]. intros E. inversion E. cbn. rewrite (IH ms' eq_refl). reflexivity.
Qed.
Lemma all_some_length {A} (l : list (option A)) r : all_some l = Some r -> length r = length l.
Proof.
  revert r. induction l as [|[x|] l IH]; cbn; intros r; [intros E; inversion E; reflexivity| |discriminate].
  destruct (all_some l) as [r'|]; [|discriminate]. cbn. intros E. inversion E. cbn. rewrite (IH r' eq_refl). reflexivity.
Qed.
Lemma list_rows_length bt btd fts net name o d : (length (list_rows bt btd fts net name o d) <= o_limit o)%nat.
Proof. unfold list_rows. destruct (o_last o); [rewrite rev_length|]; apply firstn_le_length. Qed.

Lemma sql_keeps bt btd fts bl bld parse net d : keeps_limit (sql_hstore bt btd fts bl bld parse net d).
Proof.
  split; [|split]; cbn [sql_hstore h_before h_after h_targets].
  - intros e hi lo n ev l E. apply parse_all_length in E. rewrite E. apply list_rows_length.
  - intros e hi lo n ev l E. apply parse_all_length in E. rewrite E. apply list_rows_length.
  - intros lo hi n ev l E. apply all_some_length in E. rewrite E, map_length. unfold db_list_targets, list_latest.
    destruct (lo <? hi); cbn [o_last o_limit]; [|rewrite rev_length]; apply firstn_le_length.
Qed.
Lemma sql_search_keeps bt btd fts parse net d : search_keeps_limit (sql_search bt btd fts parse net d).
Proof.
  intros q l Hq E. apply parse_all_length in E. rewrite E. unfold db_search.
  match goal with |- context [list_rows ?a ?b ?c ?d ?e ?o ?g] => pose proof (list_rows_length a b c d e o g) as H end. cbn [o_limit] in H. lia.
Qed.

Lemma sql_gives raw_of bt btd fts bl bld parse net d : sorts time_asc bt -> sorts time_desc btd -> written raw_of d ->
  (forall r, In r (d_msgs d) -> exists m, mr_raw r = raw_of m /\ parse (raw_of m) = Some m) ->
  gives (sql_hstore bt btd fts bl bld parse net d) (db_right raw_of d net).
Proof.
  intros A D W P.
  assert (K : forall e lo hi n ev last, in_years lo -> in_years hi -> hi <> 0 ->
    exists l, parse_all parse (list_rows bt btd fts net e (Options 0 lo hi n ev [] [] last) d) = Some l /\ db_right raw_of d net e ev lo hi n last l).
  { intros e lo hi n ev last Yl Yh Nh.
    pose proof (Proof.SqlQuery.list_answer raw_of bt btd fts A D d net e (Options 0 lo hi n ev [] [] last) W Yl Yh) as [rest [H1 [H2 [H3 [H4 H5]]]]].
    set (rows := list_rows bt btd fts net e (Options 0 lo hi n ev [] [] last) d) in *. cbn [o_limit o_last] in *.
    assert (Hp : exists ms, parse_all parse rows = Some ms /\ Forall2 (fun r m => mr_raw r = raw_of m) rows ms).
    { assert (Hi : forall r, In r rows -> In r (d_msgs d)) by (intros r Hr; apply (proj1 (H2 r)); apply in_or_app; left; exact Hr).
      clear - P Hi. induction rows as [|r rows IH]; [exists []; split; [reflexivity|constructor]|].
      destruct (P r (Hi r (or_introl eq_refl))) as [m [Er Ep]]. destruct (IH (fun x H => Hi x (or_intror H))) as [ms [E F]].
      exists (m :: ms). cbn. rewrite Er, Ep, E. split; [reflexivity|constructor; assumption]. }
    destruct Hp as [ms [E F]]. exists ms. split; [exact E|]. exists rows. split; [exact F|]. exists rest. split; [exact H1|]. split; [|split; [exact H3|split; [exact H4|exact H5]]].
    intros r. rewrite H2. unfold in_bounds, counts. cbn [o_after_id o_after o_before o_sender o_text o_events]. split.
    - intros [Hm [Hs [_ [Ha [Hb [_ [_ Hc]]]]]]]. split; [exact Hm|]. split; [exact Hs|]. split; [exact Hc|]. intros t Ht. split; [destruct Ha as [Ha|Ha]; [left; exact Ha|right; exact (Ha t Ht)]|].
      destruct Hb as [Hb|Hb]; [contradiction|exact (Hb t Ht)].
    - intros [Hm [Hs [Hc Ht]]]. split; [exact Hm|]. split; [exact Hs|]. split; [left; reflexivity|]. split; [|split; [|split; [left; reflexivity|split; [left; reflexivity|exact Hc]]]].
      + destruct (Z.eq_dec lo 0) as [E0|E0]; [left; exact E0|]. right. intros t Hr. destruct (proj1 (Ht t Hr)) as [E1|E1]; [contradiction|exact E1].
      + right. intros t Hr. exact (proj2 (Ht t Hr)). }
  split.
  - intros e hi lo n ev Yl Yh Nh. exact (K e lo hi n ev true Yl Yh Nh).
  - intros e lo hi n ev Yl Yh Nl Nh. exact (K e lo hi n ev false Yl Yh Nh).
Qed.

Section Fs.
  Context {M : Type}.
  Variable parse : bytes -> option (option (M * Z)).

  Lemma updnth_len {A} i (x : A) l : length (updnth i x l) = length l.
  Proof. revert i. induction l as [|a l IH]; intros [|i]; cbn; auto. Qed.
  Lemma scan_before_len d ref end_ limit sel ls ring cur ring' cur' : scan_before parse d ref end_ limit sel ls ring cur = Some (ring', cur') -> length ring' = length ring.
  Proof.
    revert ring cur. induction ls as [|l ls IH]; cbn [scan_before]; intros ring cur E; [congruence|].
    destruct (parse l) as [[[m tod]|]|]; [|exact (IH _ _ E)|discriminate].
    destruct (negb _); [exact (IH _ _ E)|]. destruct (negb _); [congruence|]. destruct (negb _); [exact (IH _ _ E)|]. rewrite (IH _ _ E). apply updnth_len.
  Qed.
  Lemma read_ring_len limit (ring : list (option M)) cur : length ring = limit -> (length (read_ring limit ring cur) <= limit)%nat.
  Proof.
    intros Hl. unfold read_ring. set (n := if (cur <? limit)%nat then cur else limit).
    assert (Hn : (n <= limit)%nat) by (unfold n; destruct (Nat.ltb_spec cur limit); lia).
    destruct (Nat.leb_spec ((cur - n + limit) mod limit + n) limit) as [H|H].
    - pose proof (firstn_le_length n (skipn ((cur - n + limit) mod limit) ring)). lia.
    - rewrite app_length, skipn_length. pose proof (firstn_le_length (n - (limit - (cur - n + limit) mod limit)) ring). lia.
  Qed.
  Lemma parse_before_len fs ref end_ limit off sel l : parse_before parse fs ref end_ limit off sel = Some l -> (length l <= limit)%nat.
  Proof.
    unfold parse_before. destruct (fs (day_of ref)); [|intros E; inversion E; cbn; lia].
    destruct (scan_before _ _ _ _ _ _ _ _ _) as [[ring cur]|] eqn:Es; [|discriminate]. intros E. assert (l = read_ring limit ring cur) by congruence. subst l.
    apply read_ring_len. apply scan_before_len in Es. rewrite Es. apply repeat_length.
  Qed.
  Lemma scan_after_len d ref end_ limit sel ls acc l : (length acc <= limit)%nat -> scan_after parse d ref end_ limit sel ls acc = Some l -> (length l <= limit)%nat.
  Proof.
    revert acc. induction ls as [|x ls IH]; cbn [scan_after]; intros acc Ha E; [congruence|].
    destruct (Nat.ltb_spec (length acc) limit) as [Hlt|]; [|congruence].
    destruct (parse x) as [[[m tod]|]|]; [|exact (IH _ Ha E)|discriminate].
    destruct (negb _); [exact (IH _ Ha E)|]. destruct (negb _); [congruence|]. destruct (negb _); [exact (IH _ Ha E)|].
    apply (IH (acc ++ [m])); [rewrite app_length; cbn; lia|exact E].
  Qed.
  Lemma before_loop_len fuel fs start end_ r k sel acc l : before_loop parse fuel fs start end_ r k sel acc = Some l -> (length l <= r + length acc)%nat.
  Proof.
    revert start r k acc. induction fuel as [|fuel IH]; cbn [before_loop]; intros start r k acc E; [inversion E; lia|].
    destruct (_ && _ && _); [|inversion E; lia]. destruct (parse_before parse fs start end_ r (-1) sel) as [buf|] eqn:Ep; [|discriminate].
    apply parse_before_len in Ep. apply IH in E. rewrite app_length in E. lia.
  Qed.
  Lemma after_loop_len fuel fs start end_ r k sel acc l : after_loop parse fuel fs start end_ r k sel acc = Some l -> (length l <= r + length acc)%nat.
  Proof.
    revert start r k acc. induction fuel as [|fuel IH]; cbn [after_loop]; intros start r k acc E; [inversion E; lia|].
    destruct (_ && _ && _); [|inversion E; lia]. destruct (parse_after parse fs start end_ r sel) as [buf|] eqn:Ep; [|discriminate].
    assert (Hb : (length buf <= r)%nat).
    { unfold parse_after in Ep. destruct (fs (day_of start)); [|inversion Ep; cbn; lia]. apply scan_after_len in Ep; [exact Ep|cbn; lia]. }
    apply IH in E. rewrite app_length in E. lia.
  Qed.
End Fs.

Lemma fs_keeps {M} (parse : bytes -> bool -> bytes -> option (option (M * Z))) files dirs sort now : keeps_limit (fs_hstore parse files dirs sort now).
Proof.
  split; [|split]; cbn [fs_hstore h_before h_after h_targets].
  - intros e hi lo n ev l E. apply before_loop_len in E. cbn in E. lia.
  - intros e hi lo n ev l E. destruct (get_after_time _ _ _ _ _ _) as [l'|] eqn:Eg; [|discriminate]. cbn in E. inversion E. rewrite map_length.
    apply after_loop_len in Eg. cbn in Eg. lia.
  - intros lo hi n ev l E. assert (l = fs_targets sort dirs lo hi n) by congruence. subst l. unfold fs_targets. apply firstn_le_length.
Qed.
Lemma fs_search_keeps {M} (parse : bytes -> bool -> bytes -> option (option (M * Z))) files name contains now : search_keeps_limit (fs_search parse files name contains now).
Proof.
  intros q l Hq. unfold fs_search. cbv zeta. destruct (q_start q =? 0); intros E.
  - apply before_loop_len in E. cbn in E. lia.
  - destruct (get_after_time _ _ _ _ _ _) as [l'|] eqn:Eg; [|discriminate]. cbn in E. inversion E. rewrite map_length.
    apply after_loop_len in Eg. cbn in Eg. lia.
Qed.
