(** Proofs for C45 and C77. *)
From Verif.Base Require Import Bytes.
From Coq Require Import Lia.
From Verif.Model Require Import Message CaseMap Modes Roster Nick.
From Verif.Spec Require Import Nick.
Open Scope nat_scope.

Ltac cmd := repeat match goal with |- context [beqb (B ?a) (B ?b)] =>
  let v := eval vm_compute in (beqb (B a) (B b)) in change (beqb (B a) (B b)) with v end; cbn [orb andb]; cbv iota.
Ltac cmdin H := repeat match type of H with context [beqb (B ?a) (B ?b)] =>
  let v := eval vm_compute in (beqb (B a) (B b)) in change (beqb (B a) (B b)) with v in H end; cbn [orb andb] in H; cbv iota in H.

Lemma fold_nil cm n : casemap cm n = [] -> n = [].
Proof. destruct cm, n; cbn; congruence. Qed.

(** ** Registering *)

Definition cand (w : bytes) (k : nat) : bytes := w ++ repeat "_"%char k.

Lemma cand_len w k : length (cand w k) = length w + k.
Proof. unfold cand. rewrite app_length, repeat_length. reflexivity. Qed.

Lemma cand_next w k : cand w k ++ B "_" = cand w (S k).
Proof. unfold cand. rewrite <- app_assoc. f_equal. change (B "_") with (repeat "_"%char 1). rewrite <- repeat_app. f_equal. lia. Qed.

(** The state while registering, after [k] refusals. *)
Definition at_k (cm : casemapping) (w : bytes) (k : nat) (has : bool) : nst := Nst cm w false (cand w k) has [] None false false.

Lemma ask_taken cm w k has x text : S (length w + k) < 30 ->
  nstep (NMsg (B "433") (B "srv") [B "*"; x; text]) (at_k cm w k has) = (at_k cm w (S k) false, [OAsk (cand w (S k))]).
Proof.
  intros H. cbn [nstep]. unfold on_message. cmd. unfold at_k. cbn [n_reg n_nick negb andb]. rewrite cand_len.
  destruct (Nat.ltb_spec (length w + k + 1) 30) as [_|H']; [|lia]. rewrite cand_next. reflexivity.
Qed.

Lemma ask_last cm w k has x text : x <> [] -> ~ S (length w + k) < 30 ->
  nstep (NMsg (B "433") (B "srv") [B "*"; x; text]) (at_k cm w k has) = (at_k cm w k has, [OGiveUp]).
Proof.
  intros Hx H. cbn [nstep]. unfold on_message. cmd. unfold at_k. cbn [n_reg n_nick negb andb]. rewrite cand_len.
  destruct (Nat.ltb_spec (length w + k + 1) 30) as [H'|_]; [lia|]. unfold same_name. cbn [n_cm n_pend].
  destruct (beqb_spec (casemap cm []) (casemap cm x)) as [E|_]; [|reflexivity]. exfalso. apply Hx. apply (fold_nil cm). rewrite <- E. destruct cm; reflexivity.
Qed.

Lemma ask_free cm w k has x text : nstep (NMsg (B "001") (B "srv") [x; text]) (at_k cm w k has) = (with_reg (at_k cm w k has) x, []).
Proof. reflexivity. Qed.

Definition best (taken : bytes -> bool) (l : list bytes) : outcome := match find (fun x => negb (taken x)) l with Some x => Registered x | None => GaveUp end.

Lemma converse_from cm taken w (Hw : w <> []) : forall m k has o, m = 29 - (length w + k) ->
  converse taken (at_k cm w k has) (cand w k) o <-> o = best taken (map (cand w) (seq k (S m))).
Proof.
  assert (Hne : forall k, cand w k <> []) by (intros k E; apply (f_equal (@length ascii)) in E; rewrite cand_len in E; destruct w; [congruence|discriminate]).
  induction m as [|m IH]; intros k has o Em; unfold best; cbn [seq map find]; destruct (taken (cand w k)) eqn:Et; cbn [negb].
  - assert (Hn : ~ S (length w + k) < 30) by lia. split.
    + intros H. inversion H as [? ? ? ? ? ? E H'|? ? ? ? E|? ? ? ? E]; subst; unfold answer in E; rewrite Et, ask_last in E by auto; congruence || reflexivity.
    + intros ->. eapply (CvGiveUp _ _ _ []). unfold answer. rewrite Et, ask_last by auto. reflexivity.
  - split.
    + intros H. inversion H as [? ? ? ? ? ? E H'|? ? ? ? E|? ? ? ? E]; subst; unfold answer in E; rewrite Et, ask_free in E; congruence || reflexivity.
    + intros ->. eapply (CvDone _ _ _ []); [unfold answer; rewrite Et, ask_free; reflexivity|reflexivity|reflexivity].
  - assert (Hn : S (length w + k) < 30) by lia. change (match find _ _ with Some x => _ | None => _ end) with (best taken (map (cand w) (seq (S k) (S m)))). split.
    + intros H. inversion H as [? ? ? ? ? ? E H'|? ? ? ? E|? ? ? ? E]; subst; unfold answer in E; rewrite Et, ask_taken in E by auto; try discriminate.
      assert (s' = at_k cm w (S k) false) by congruence. assert (nick' = cand w (S k)) by congruence. subst. apply IH in H'; [exact H'|lia].
    + intros H. eapply (CvNext _ _ _ []); [unfold answer; rewrite Et, ask_taken by auto; reflexivity|]. apply IH; [lia|exact H].
  - split.
    + intros H. inversion H as [? ? ? ? ? ? E H'|? ? ? ? E|? ? ? ? E]; subst; unfold answer in E; rewrite Et, ask_free in E; congruence || reflexivity.
    + intros ->. eapply (CvDone _ _ _ []); [unfold answer; rewrite Et, ask_free; reflexivity|reflexivity|reflexivity].
Qed.

Theorem fallback cm taken w o : w <> [] ->
  converse taken (fst (new_nst cm w)) w o <-> o = match find (fun x => negb (taken x)) (candidates w) with Some x => Registered x | None => GaveUp end.
Proof.
  intros Hw. pose proof (converse_from cm taken w Hw (29 - length w) 0 true o ltac:(lia)) as H. unfold best in H.
  assert (E : cand w 0 = w) by (unfold cand; apply app_nil_r). unfold at_k in H. rewrite E in H. exact H.
Qed.

(** Whatever the server sends. *)

Lemma early_step i s w k : early i -> n_reg s = false -> n_nick s = cand w k ->
  let '(s', o) := nstep i s in n_reg s' = false /\
    ((asked o = [] /\ n_nick s' = cand w k) \/ (asked o = [cand w (S k)] /\ n_nick s' = cand w (S k) /\ length w + S k < 30)).
Proof.
  intros H Hr Hn. destruct i as [c from params|b| |]; cbn [early] in H; try contradiction; [|cbn; auto].
  destruct H as (H1 & H2 & H3). cbn [nstep]. unfold on_message.
  rewrite (proj2 (beqb_neq _ _) H1), (proj2 (beqb_neq _ _) H2), (proj2 (beqb_neq _ _) H3). cbv iota.
  destruct (beqb c (B "376") || beqb c (B "422")).
  { destruct (n_motd s); [cbn; auto|]. cbn [n_monitor with_motd]. destruct (n_monitor s); [cbn; auto|]. unfold start_regain. cbn [n_timer with_motd].
    destruct (n_timer s); [cbn; auto|]. destruct (ours _ _); cbn; auto. }
  destruct (beqb c (B "433")).
  { rewrite Hr, Hn. cbn [negb andb]. rewrite cand_len. destruct (Nat.ltb_spec (length w + k + 1) 30) as [Hl|Hl].
    - cbn. rewrite cand_next. split; [exact Hr|]. right. split; [reflexivity|]. split; [reflexivity|lia].
    - destruct params as [|p [|failed params]]; try (cbn; auto; fail). destruct (same_name _ _ _); [cbn; auto|]. unfold refused. rewrite Hr. cbn. auto. }
  destruct (bmem _ _); [unfold refused; rewrite Hr; cbn; auto|cbn; auto].
Qed.

Lemma asked_app a b : asked (a ++ b) = asked a ++ asked b.
Proof. unfold asked. apply flat_map_app. Qed.

Lemma early_from l : forall s w k, Forall early l -> n_reg s = false -> n_nick s = cand w k -> length w + k < 30 \/ k = 0 ->
  exists m, asked (snd (nsteps l s)) = map (cand w) (seq (S k) m) /\ (m = 0 \/ length w + k + m < 30).
Proof.
  induction l as [|i l IH]; intros s w k Hf Hr Hn Hk; [exists 0; cbn; auto|]. apply Forall_cons_iff in Hf as [Hi Hf].
  cbn [nsteps]. pose proof (early_step i s w k Hi Hr Hn) as H. destruct (nstep i s) as [s1 o]. destruct H as [Hr' [(Ha & Hn')|(Ha & Hn' & Hl)]].
  - destruct (IH s1 w k Hf Hr' Hn' Hk) as (m & Hm & Hb). destruct (nsteps l s1) as [s2 o2]. cbn [snd] in *. exists m.
    rewrite asked_app, Ha. split; assumption.
  - destruct (IH s1 w (S k) Hf Hr' Hn' (or_introl Hl)) as (m & Hm & Hb). destruct (nsteps l s1) as [s2 o2]. cbn [snd] in *. exists (S m).
    rewrite asked_app, Ha, Hm. split; [reflexivity|]. right. lia.
Qed.

Lemma candidates_cand w : candidates w = map (cand w) (seq 0 (S (29 - length w))).
Proof. reflexivity. Qed.

Theorem bounded cm w l : Forall early l -> exists m, w :: asked (snd (nsteps l (fst (new_nst cm w)))) = firstn (S m) (candidates w).
Proof.
  intros H. assert (E : cand w 0 = w) by (unfold cand; apply app_nil_r).
  destruct (early_from l (fst (new_nst cm w)) w 0 H eq_refl (eq_sym E) (or_intror eq_refl)) as (m & Hm & Hb). exists m. rewrite Hm.
  rewrite candidates_cand. rewrite firstn_map. cbn [seq firstn map]. rewrite E. f_equal. f_equal.
  assert (Hle : m <= 29 - length w) by lia. clear -Hle. revert Hle. generalize (29 - length w) as n. generalize 1 as a. induction m as [|m IH]; intros a n Hle; [reflexivity|].
  destruct n as [|n]; [lia|]. cbn [seq firstn]. f_equal. apply IH. lia.
Qed.

(** ** No panic *)

Lemma calm_step i s : (n_motd s = false -> n_timer s = None) -> let '(s', o) := nstep i s in (n_motd s' = false -> n_timer s' = None) /\ ~ In OPanic o.
Proof.
  intros H. destruct i as [c from params|b|n|n]; cbn [nstep].
  - unfold on_message. destruct (beqb c (B "001")); [destruct params; cbn; intuition congruence|].
    destruct (beqb c (B "376") || beqb c (B "422")).
    { destruct (n_motd s) eqn:Em; [cbn; intuition congruence|]. cbn [n_monitor with_motd]. destruct (n_monitor s); [cbn; intuition congruence|]. unfold start_regain.
      cbn [n_timer with_motd]. rewrite (H eq_refl). destruct (ours _ _); cbn; intuition congruence. }
    destruct (beqb c (B "NICK")).
    { destruct params as [|new params]; [cbn; intuition congruence|]. destruct (ours s from); [|cbn; intuition congruence].
      destruct (same_name (with_name s new) _ _), (same_name _ _ _); cbn; intuition congruence. }
    destruct (beqb c (B "731")).
    { destruct params as [|p [|targets params]]; try (cbn; intuition congruence). destruct (_ && _); cbn; intuition congruence. }
    destruct (beqb c (B "433")).
    { destruct (_ && _); [cbn; intuition congruence|]. destruct params as [|p [|failed params]]; try (cbn; intuition congruence).
      destruct (same_name _ _ _); [cbn; intuition congruence|]. unfold refused. destruct (n_reg s); cbn; intuition congruence. }
    destruct (bmem _ _); [unfold refused; destruct (n_reg s); cbn; intuition congruence|cbn; intuition congruence].
  - cbn. intuition congruence.
  - unfold try_regain. destruct (n_timer s) eqn:Et; [|cbn; intuition congruence]. destruct (_ || _); [cbn; intuition congruence|].
    destruct (nonempty _); cbn; rewrite ?Et; intuition congruence.
  - cbn. intuition congruence.
Qed.

Lemma calm_from l : forall s, (n_motd s = false -> n_timer s = None) -> ~ In OPanic (snd (nsteps l s)).
Proof.
  induction l as [|i l IH]; intros s H; [intros []|]. cbn [nsteps]. pose proof (calm_step i s H) as C. destruct (nstep i s) as [s1 o]. destruct C as [C1 C2].
  specialize (IH s1 C1). destruct (nsteps l s1) as [s2 o2]. cbn [snd] in *. rewrite in_app_iff. tauto.
Qed.

Theorem calm cm w l : ~ In OPanic (snd (nsteps l (fst (new_nst cm w)))).
Proof. apply calm_from. reflexivity. Qed.

(** ** Trying again *)

Section Regain.
  Variable cm : casemapping.
  Variable w : bytes.
  Hypothesis Hw : w <> [].
  Let key (n : bytes) : bytes := casemap cm n.

  Record yok (y : nsys) : Prop := {
    yo_cm : n_cm (ny_s y) = cm;
    yo_reg : n_reg (ny_s y) = true;
    yo_pend : n_pend (ny_s y) = [] \/ n_pend (ny_s y) = w;
    yo_timer : n_timer (ny_s y) = None \/ n_timer (ny_s y) = Some w;
    yo_out : n_pend (ny_s y) = w -> key (n_nick (ny_s y)) <> key w;
    yo_asked : n_pend (ny_s y) = w -> exists b x, In (b, x) (ny_asked y) /\ key x = key w;
    yo_some : forall b x, In (b, x) (ny_asked y) -> x <> []
  }.

  Lemma key_nil n : key n = key [] -> n = [].
  Proof. intros E. apply (fold_nil cm). unfold key in E. rewrite E. destruct cm; reflexivity. Qed.

  Lemma nick_cases s q x s' o : yok (NSys s q) -> x <> [] -> nstep (NMsg (B "NICK") (n_nick s) [x]) s = (s', o) ->
    o = [] /\ n_cm s' = cm /\ n_reg s' = true /\ n_nick s' = x /\ n_want s' = n_want s /\
    ((n_pend s = w /\ key x = key w /\ n_pend s' = [] /\ n_timer s' = None) \/
     (n_pend s' = n_pend s /\ n_timer s' = n_timer s /\ (n_pend s = w -> key x <> key w))).
  Proof.
    intros [Y1 Y2 Y3 Y4 Y5 Y6 Y7] Hx H. cbn [ny_s ny_asked] in *. cbn [nstep] in H. unfold on_message in H. cmdin H.
    assert (Eo : ours s (n_nick s) = true) by (unfold ours, same_name; apply beqb_refl). rewrite Eo in H. unfold same_name in H. cbn [n_cm n_pend with_name] in H. rewrite Y1 in H.
    change (casemap cm (n_pend s)) with (key (n_pend s)) in H. change (casemap cm x) with (key x) in H.
    destruct (beqb_spec (key (n_pend s)) (key x)) as [E|E].
    - cbn [n_cm stop_regain with_timer with_pend with_name] in H. cbn [n_want stop_regain with_timer with_pend with_name] in H.
      destruct Y3 as [Y3|Y3]; [exfalso; apply Hx; apply key_nil; rewrite <- E, Y3; reflexivity|].
      assert (Hk : key x = key w) by (rewrite <- E, Y3; reflexivity).
      destruct (beqb _ _) in H; injection H as <- <-; cbn; repeat (split; [assumption || reflexivity|]); left; repeat (split; [assumption || reflexivity|]); reflexivity.
    - cbn [n_cm with_name n_want] in H.
      assert (Hk : n_pend s = w -> key x <> key w) by (intros Ep E'; apply E; rewrite Ep; symmetry; exact E').
      destruct (beqb _ _) in H; injection H as <- <-; cbn; repeat (split; [assumption || reflexivity|]); right; auto.
  Qed.

  Lemma yok_step y a o y' : yok y -> ystep w y a o y' -> yok y'.
  Proof.
    intros Y H. pose proof Y as [Y1 Y2 Y3 Y4 Y5 Y6 Y7]. destruct H as [s q s' o E|s q v s' o Hv E|s b x q s' o E|s b x q text s' o E|s b q|s q x s' o Hx E|s q from new s' o Hf E]; cbn [ny_s ny_asked] in *.
    - cbn [nstep] in E. unfold try_regain in E. destruct (n_timer s) as [f|] eqn:Et.
      2: { injection E as <- <-. cbn [asked flat_map map]. rewrite app_nil_r. exact Y. }
      destruct (negb (beqb (n_want s) w) || ours s (n_want s)) eqn:Ec.
      { injection E as <- <-. cbn [asked flat_map map]. rewrite app_nil_r. split; cbn; auto. }
      apply orb_false_iff in Ec as [Ec1 Ec2]. apply negb_false_iff in Ec1. apply beqb_eq in Ec1. unfold ours, same_name in Ec2. rewrite Y1, Ec1 in Ec2.
      assert (Hn : key (n_nick s) <> key w) by (intros E'; unfold key in E'; rewrite E', beqb_refl in Ec2; discriminate).
      destruct (nonempty (n_pend s)) eqn:Ep.
      { injection E as <- <-. cbn [asked flat_map map]. rewrite app_nil_r. exact Y. }
      injection E as <- <-. cbn [asked flat_map map app]. split; cbn [ny_s ny_asked with_pend n_cm n_reg n_pend n_timer n_nick].
      + exact Y1.
      + exact Y2.
      + right. exact Ec1.
      + rewrite Et. exact Y4.
      + intros _. exact Hn.
      + intros _. exists true, w. split; [apply in_or_app; right; left; rewrite Ec1; reflexivity|reflexivity].
      + intros b x Hin. apply in_app_iff in Hin as [Hin|[Hin|[]]]; [exact (Y7 b x Hin)|]. injection Hin as _ <-. rewrite Ec1. exact Hw.
    - cbn [nstep] in E. injection E as <- <-. cbn [asked flat_map map app]. split; cbn [ny_s ny_asked with_want n_cm n_reg n_pend n_timer n_nick]; auto.
      + intros Hp. destruct (Y6 Hp) as (b & x & Hin & Ex). exists b, x. split; [apply in_or_app; left; exact Hin|exact Ex].
      + intros b x Hin. apply in_app_iff in Hin as [Hin|[Hin|[]]]; [exact (Y7 b x Hin)|]. injection Hin as _ <-. exact Hv.
    - destruct (nick_cases s ((b, x) :: q) x s' o Y (Y7 b x (or_introl eq_refl)) E) as (-> & A1 & A2 & A3 & _ & [(B1 & B2 & B3 & B4)|(B1 & B2 & B3)]).
      + split; cbn [ny_s ny_asked]; auto; try (intros Hp; exfalso; congruence). intros b' x' Hin. exact (Y7 b' x' (or_intror Hin)).
      + rewrite <- B1 in *. rewrite <- B2 in *. split; cbn [ny_s ny_asked]; auto.
        * rewrite A3. exact B3.
        * intros Hp. destruct (Y6 Hp) as (b' & x' & [Hin|Hin] & Ex).
          -- assert (x' = x) by congruence. subst x'. exfalso. exact (B3 Hp Ex).
          -- exists b', x'. split; assumption.
        * intros b' x' Hin. exact (Y7 b' x' (or_intror Hin)).
    - cbn [nstep] in E. unfold on_message in E. cmdin E. rewrite Y2 in E. cbn [negb andb] in E. unfold same_name in E. rewrite Y1 in E.
      assert (Hxn : x <> []) by exact (Y7 b x (or_introl eq_refl)).
      destruct (beqb_spec (casemap cm (n_pend s)) (casemap cm x)) as [Ek|Ek].
      + injection E as <- <-. split; cbn [ny_s ny_asked with_pend n_cm n_reg n_pend n_timer n_nick]; auto; try (intros Hp; exfalso; congruence).
        intros b' x' Hin. exact (Y7 b' x' (or_intror Hin)).
      + unfold refused in E. rewrite Y2 in E. injection E as <- <-. split; cbn [ny_s ny_asked]; auto.
        * intros Hp. destruct (Y6 Hp) as (b' & x' & [Hin|Hin] & Ex).
          -- assert (x' = x) by congruence. subst x'. exfalso. apply Ek. rewrite Hp. symmetry. exact Ex.
          -- exists b', x'. split; assumption.
        * intros b' x' Hin. exact (Y7 b' x' (or_intror Hin)).
    - split; cbn [ny_s ny_asked]; auto.
      + intros Hp. destruct (Y6 Hp) as (b' & x' & [Hin|Hin] & Ex).
        * assert (x' = n_nick s) by congruence. subst x'. exfalso. exact (Y5 Hp Ex).
        * exists b', x'. split; assumption.
      + intros b' x' Hin. exact (Y7 b' x' (or_intror Hin)).
    - destruct (nick_cases s q x s' o Y Hx E) as (-> & A1 & A2 & A3 & _ & [(B1 & B2 & B3 & B4)|(B1 & B2 & B3)]).
      + split; cbn [ny_s ny_asked]; auto; intros Hp; exfalso; congruence.
      + rewrite <- B1 in *. rewrite <- B2 in *. split; cbn [ny_s ny_asked]; auto. rewrite A3. exact B3.
    - cbn [nstep] in E. unfold on_message in E. cmdin E. 
      assert (Eo : ours s from = false) by (unfold ours, same_name; apply (proj2 (beqb_neq _ _)); congruence). rewrite Eo in E. injection E as <- <-. exact Y.
  Qed.

  Lemma yok_runs y l y' : yok y -> yruns w y l y' -> yok y'.
  Proof. intros Y H. induction H as [|l y1 a o y2 _ IH H]; [exact Y|exact (yok_step _ _ _ _ IH H)]. Qed.

  Notation begun := (begun cm w).

  Lemma yok_begun n h : yok (NSys (begun n h) []).
  Proof. split; cbn; auto; try (intros E; congruence); try (intros b x []). Qed.

  (** When it is time, and no request for the nickname is under way, it is asked for. *)
  Theorem retries n h l y : yruns w (NSys (begun n h) []) l y ->
    n_timer (ny_s y) <> None -> n_want (ny_s y) = w -> key (n_nick (ny_s y)) <> key w ->
    (forall b x, In (b, x) (ny_asked y) -> key x <> key w) ->
    exists s', nstep (NTick w) (ny_s y) = (s', [OAsk w]).
  Proof.
    intros H Ht Hwant Hn Hq. pose proof (yok_runs _ _ _ (yok_begun n h) H) as [Y1 Y2 Y3 Y4 Y5 Y6 Y7].
    cbn [nstep]. unfold try_regain. destruct (n_timer (ny_s y)); [|congruence]. rewrite Hwant, beqb_refl. cbn [negb orb]. unfold ours, same_name. rewrite Y1.
    destruct (beqb_spec (casemap cm (n_nick (ny_s y))) (casemap cm w)) as [E|_]; [contradiction|].
    destruct Y3 as [E|E]; [rewrite E; eexists; reflexivity|]. exfalso. destruct (Y6 E) as (b & x & Hin & Ex). exact (Hq b x Hin Ex).
  Qed.

  (** It goes on until the nickname was had, or another one is wanted. *)
  Theorem goes_on n h l y : yruns w (NSys (begun n h) []) l y -> n_timer (ny_s y) = None ->
    exists l1 l2 y1, l = l1 ++ l2 /\ yruns w (NSys (begun n h) []) l1 y1 /\ (key (n_nick (ny_s y1)) = key w \/ n_want (ny_s y1) <> w).
  Proof.
    intros H. induction H as [|l y1 a o y2 H1 IH H2]; intros Ht; [discriminate Ht|].
    assert (Hyet : n_timer (ny_s y1) = None -> exists l1 l2 y1, l ++ [(a, o)] = l1 ++ l2 /\ yruns w (NSys (begun n h) []) l1 y1 /\ (key (n_nick (ny_s y1)) = key w \/ n_want (ny_s y1) <> w)).
    { intros E. destruct (IH E) as (l1 & l2 & y3 & -> & Q1 & Q2). exists l1, (l2 ++ [(a, o)]), y3. rewrite app_assoc. auto. }
    pose proof (YMore _ _ _ _ _ _ _ H1 H2) as H12. pose proof (yok_runs _ _ _ (yok_begun n h) H1) as Y. pose proof Y as [Y1 Y2 Y3 Y4 Y5 Y6 Y7].
    assert (Hnick : forall s q x s' o0, y1 = NSys s q -> x <> [] -> nstep (NMsg (B "NICK") (n_nick s) [x]) s = (s', o0) -> ny_s y2 = s' ->
      exists l1 l2 y1, l ++ [(a, o)] = l1 ++ l2 /\ yruns w (NSys (begun n h) []) l1 y1 /\ (key (n_nick (ny_s y1)) = key w \/ n_want (ny_s y1) <> w)).
    { intros s q x s' o0 -> Hx E Ey. destruct (nick_cases s q x s' o0 Y Hx E) as (_ & A1 & A2 & A3 & _ & [(B1 & B2 & B3 & B4)|(B1 & B2 & B3)]).
      - exists (l ++ [(a, o)]), [], y2. rewrite app_nil_r. split; [reflexivity|]. split; [exact H12|]. left. rewrite Ey, A3. exact B2.
      - apply Hyet. cbn [ny_s]. congruence. }
    destruct H2 as [s q s' o E|s q v s' o Hv E|s b x q s' o E|s b x q text s' o E|s b q|s q x s' o Hx E|s q from new s' o Hf E]; cbn [ny_s ny_asked] in *.
    - cbn [nstep] in E. unfold try_regain in E. destruct (n_timer s) as [f|] eqn:Et; [|exact (Hyet eq_refl)].
      destruct (negb (beqb (n_want s) w) || ours s (n_want s)) eqn:Ec.
      + exists l, [(LTick, o)], (NSys s q). split; [reflexivity|]. split; [exact H1|]. cbn [ny_s].
        apply orb_true_iff in Ec as [Ec|Ec]; [right; intros E'; rewrite E', beqb_refl in Ec; discriminate|].
        destruct (bytes_dec (n_want s) w) as [E'|E']; [left|right; exact E']. unfold ours, same_name in Ec. rewrite Y1, E' in Ec. apply beqb_eq in Ec. exact Ec.
      + exfalso. destruct (nonempty (n_pend s)); injection E as <- <-; cbn in Ht; congruence.
    - injection E as <- <-. apply Hyet. exact Ht.
    - apply (Hnick s ((b, x) :: q) x s' o eq_refl (Y7 b x (or_introl eq_refl)) E eq_refl).
    - apply Hyet. cbn [nstep] in E. unfold on_message in E. cmdin E. rewrite Y2 in E. cbn [negb andb] in E.
      destruct (same_name s (n_pend s) x); [injection E as <- <-; exact Ht|]. unfold refused in E. rewrite Y2 in E. injection E as <- <-. exact Ht.
    - apply Hyet. exact Ht.
    - apply (Hnick s q x s' o eq_refl Hx E eq_refl).
    - apply Hyet. cbn [nstep] in E. unfold on_message in E. cmdin E. 
      assert (Eo : ours s from = false) by (unfold ours, same_name; apply (proj2 (beqb_neq _ _)); congruence). rewrite Eo in E. injection E as <- <-. exact Ht.
  Qed.

  (** Refusals of our own requests are not shown, and there is one at a time,
      unless clients ask for the same nickname or the server gives it to us. *)
  Notation apart := (apart cm w).

  Record yalone (y : nsys) : Prop := {
    ya_ok : yok y;
    ya_own : forall x, In (true, x) (ny_asked y) -> x = w;
    ya_pend : In (true, w) (ny_asked y) -> n_pend (ny_s y) = w;
    ya_client : forall x, In (false, x) (ny_asked y) -> key x <> key w;
    ya_one : NoDup (filter fst (ny_asked y))
  }.

  Lemma yalone_step y a o y' : yalone y -> apart a -> ystep w y a o y' -> yalone y'.
  Proof.
    intros [Y A1 A2 A3 A4] Ha H. pose proof (yok_step _ _ _ _ Y H) as Y'. pose proof Y as [Y1 Y2 Y3 Y4 Y5 Y6 Y7].
    destruct H as [s q s' o E|s q v s' o Hv E|s b x q s' o E|s b x q text s' o E|s b q|s q x s' o Hx E|s q from new s' o Hf E]; cbn [ny_s ny_asked apart] in *.
    - assert (Etick : (o = [] /\ n_pend s' = n_pend s) \/ (o = [OAsk w] /\ n_pend s = [] /\ n_pend s' = w)).
      { cbn [nstep] in E; unfold try_regain in E. destruct (n_timer s); [|injection E as <- <-; auto].
        destruct (negb (beqb (n_want s) w) || ours s (n_want s)) eqn:Ec; [injection E as <- <-; auto|].
        apply orb_false_iff in Ec as [Ec1 _]. apply negb_false_iff in Ec1. apply beqb_eq in Ec1.
        destruct (n_pend s) eqn:Ep; cbn [nonempty] in E; injection E as <- <-; [right; rewrite Ec1; auto|left; auto]. }
      destruct Etick as [(-> & Ep)|(-> & Ep & Ep')]; cbn [asked flat_map map app] in *.
      + rewrite app_nil_r in *. split; cbn [ny_s ny_asked]; auto. rewrite Ep. exact A2.
      + assert (Hno : ~ In (true, w) q) by (intros Hin; specialize (A2 Hin); congruence). split; cbn [ny_s ny_asked]; auto.
        * intros x Hin. apply in_app_iff in Hin as [Hin|[Hin|[]]]; [exact (A1 x Hin)|congruence].
        * intros x Hin. apply in_app_iff in Hin as [Hin|[Hin|[]]]; [exact (A3 x Hin)|discriminate].
        * rewrite filter_app. cbn [filter fst]. destruct (filter fst q) as [|[b x] r] eqn:Ef; [repeat constructor; intros []|]. exfalso.
          assert (Hin : In (b, x) (filter fst q)) by (rewrite Ef; left; reflexivity). apply filter_In in Hin as [Hin Hb]. cbn [fst] in Hb. subst b.
          apply Hno. pose proof (A1 x Hin) as Ex. subst x. exact Hin.
    - injection E as <- <-. cbn [asked flat_map map app] in *. split; cbn [ny_s ny_asked with_want n_pend]; auto.
      + intros x Hin. apply in_app_iff in Hin as [Hin|[Hin|[]]]; [exact (A1 x Hin)|discriminate].
      + intros Hin. apply in_app_iff in Hin as [Hin|[Hin|[]]]; [exact (A2 Hin)|discriminate].
      + intros x Hin. apply in_app_iff in Hin as [Hin|[Hin|[]]]; [exact (A3 x Hin)|]. assert (x = v) by congruence. subst x. exact Ha.
      + rewrite filter_app. cbn [filter fst]. rewrite app_nil_r. exact A4.
    - assert (Hno : b = true -> ~ In (true, w) q).
      { intros -> Hin. assert (x = w) by (apply A1; left; reflexivity). subst x. cbn [filter fst] in A4. inversion A4 as [|? ? N _]; subst. apply N. apply filter_In. auto. }
      assert (A4' : NoDup (filter fst q)) by (cbn [filter fst] in A4; destruct b; [inversion A4; assumption|exact A4]).
      destruct (nick_cases s ((b, x) :: q) x s' o Y (Y7 b x (or_introl eq_refl)) E) as (-> & _ & _ & _ & _ & [(B1 & B2 & B3 & B4)|(B1 & B2 & B3)]).
      + split; cbn [ny_s ny_asked]; auto.
        * intros z Hz. exact (A1 z (or_intror Hz)).
        * intros Hin. exfalso. destruct b; [exact (Hno eq_refl Hin)|]. exact (A3 x (or_introl eq_refl) B2).
        * intros z Hz. exact (A3 z (or_intror Hz)).
      + split; cbn [ny_s ny_asked]; auto.
        * intros z Hz. exact (A1 z (or_intror Hz)).
        * intros Hin. rewrite B1. exact (A2 (or_intror Hin)).
        * intros z Hz. exact (A3 z (or_intror Hz)).
    - assert (Hno : b = true -> ~ In (true, w) q).
      { intros -> Hin. assert (x = w) by (apply A1; left; reflexivity). subst x. cbn [filter fst] in A4. inversion A4 as [|? ? N _]; subst. apply N. apply filter_In. auto. }
      assert (A4' : NoDup (filter fst q)) by (cbn [filter fst] in A4; destruct b; [inversion A4; assumption|exact A4]).
      cbn [nstep] in E. unfold on_message in E. cmdin E. rewrite Y2 in E. cbn [negb andb] in E. unfold same_name in E. rewrite Y1 in E.
      destruct (beqb_spec (casemap cm (n_pend s)) (casemap cm x)) as [Ek|Ek].
      + injection E as <- <-. split; cbn [ny_s ny_asked with_pend n_pend]; auto.
        * intros z Hz. exact (A1 z (or_intror Hz)).
        * intros Hin. exfalso. destruct b; [exact (Hno eq_refl Hin)|]. pose proof (A2 (or_intror Hin)) as Ep. rewrite Ep in Ek. exact (A3 x (or_introl eq_refl) (eq_sym Ek)).
        * intros z Hz. exact (A3 z (or_intror Hz)).
      + unfold refused in E. rewrite Y2 in E. injection E as <- <-. split; cbn [ny_s ny_asked]; auto.
        * intros z Hz. exact (A1 z (or_intror Hz)).
        * intros Hin. exact (A2 (or_intror Hin)).
        * intros z Hz. exact (A3 z (or_intror Hz)).
    - split; cbn [ny_s ny_asked]; auto.
      + intros z Hz. exact (A1 z (or_intror Hz)).
      + intros Hin. exact (A2 (or_intror Hin)).
      + intros z Hz. exact (A3 z (or_intror Hz)).
      + cbn [filter fst] in A4. destruct b; [inversion A4; assumption|exact A4].
    - destruct (nick_cases s q x s' o Y Hx E) as (-> & _ & _ & _ & _ & [(B1 & B2 & B3 & B4)|(B1 & B2 & B3)]); [contradiction|].
      split; cbn [ny_s ny_asked]; auto. rewrite B1. exact A2.
    - cbn [nstep] in E. unfold on_message in E. cmdin E.
      assert (Eo : ours s from = false) by (unfold ours, same_name; apply (proj2 (beqb_neq _ _)); congruence). rewrite Eo in E. injection E as <- <-.
      split; cbn [ny_s ny_asked]; auto.
  Qed.

  Lemma yalone_runs y l y' : yalone y -> Forall (fun e => apart (fst e)) l -> yruns w y l y' -> yalone y'.
  Proof.
    intros Y Hf H. induction H as [|l y1 a o y2 _ IH H]; [exact Y|]. apply Forall_app in Hf as [Hf Ha]. apply Forall_inv in Ha.
    exact (yalone_step _ _ _ _ (IH Hf) Ha H).
  Qed.

  Theorem quiet n h l s b x q text o y' : Forall (fun e => apart (fst e)) l -> yruns w (NSys (begun n h) []) l (NSys s ((b, x) :: q)) ->
    ystep w (NSys s ((b, x) :: q)) (LRefuse text) o y' ->
    (b = true -> o = [] /\ forall x', ~ In (true, x') q) /\ (b = false -> o = [OForward (B "433") [n_nick s; x; text]]).
  Proof.
    intros Hf H1 H2. assert (Y0 : yalone (NSys (begun n h) [])) by (split; [apply yok_begun|intros z []|intros []|intros z []|constructor]).
    destruct (yalone_runs _ _ _ Y0 Hf H1) as [Y A1 A2 A3 A4]. pose proof Y as [Y1 Y2 Y3 Y4 Y5 Y6 Y7]. cbn [ny_s ny_asked] in *.
    inversion H2 as [| | |? ? ? ? ? ? ? E| | |]; subst. clear H2.
    cbn [nstep] in E. unfold on_message in E. cmdin E. rewrite Y2 in E. cbn [negb andb] in E. unfold same_name in E. rewrite Y1 in E. split; intros ->.
    - assert (x = w) by (apply A1; left; reflexivity). subst x. rewrite (A2 (or_introl eq_refl)), beqb_refl in E. split; [congruence|].
      intros x' Hin. assert (x' = w) by (apply A1; right; exact Hin). subst x'. cbn [filter fst] in A4. inversion A4 as [|? ? N _]; subst. apply N. apply filter_In. auto.
    - assert (Hx : x <> []) by exact (Y7 false x (or_introl eq_refl)).
      assert (Ek : casemap cm (n_pend s) <> casemap cm x).
      { destruct Y3 as [Y3|Y3]; rewrite Y3; intros Ek; [apply Hx; apply key_nil; symmetry; exact Ek|]. exact (A3 x (or_introl eq_refl) (eq_sym Ek)). }
      rewrite (proj2 (beqb_neq _ _) Ek) in E. unfold refused in E. rewrite Y2 in E. congruence.
  Qed.
End Regain.


(** How it starts: after [k] refusals the server lets us in under a name, and
    has no MONITOR. *)
Lemma refusals cm w text k : forall j has, length w + j + k < 30 ->
  exists has', fst (nsteps (repeat (NMsg (B "433") (B "srv") [B "*"; w; text]) k) (at_k cm w j has)) = at_k cm w (j + k) has'.
Proof.
  induction k as [|k IH]; intros j has H; [exists has; rewrite Nat.add_0_r; reflexivity|]. cbn [repeat nsteps]. rewrite ask_taken by lia.
  destruct (IH (S j) false ltac:(lia)) as (has' & E). destruct (nsteps _ _) as [s o]. cbn [fst] in *. exists has'. rewrite E. f_equal. lia.
Qed.

Lemma nsteps_app l1 l2 : forall s, fst (nsteps (l1 ++ l2) s) = fst (nsteps l2 (fst (nsteps l1 s))).
Proof.
  induction l1 as [|i l1 IH]; intros s; [reflexivity|]. cbn [app nsteps]. destruct (nstep i s) as [s1 o]. specialize (IH s1).
  destruct (nsteps (l1 ++ l2) s1), (nsteps l1 s1). exact IH.
Qed.

Theorem starts cm w n k text : length w + k < 30 -> casemap cm n <> casemap cm w ->
  exists has, fst (nsteps (repeat (NMsg (B "433") (B "srv") [B "*"; w; text]) k ++ [NMsg (B "001") (B "srv") [n; text]; NMsg (B "376") (B "srv") [n; text]])
    (fst (new_nst cm w))) = begun cm w n has.
Proof.
  intros H Hn. rewrite nsteps_app. destruct (refusals cm w text k 0 true ltac:(lia)) as (has & E).
  assert (E0 : at_k cm w 0 true = fst (new_nst cm w)) by (unfold at_k, cand; cbn [repeat]; rewrite app_nil_r; reflexivity). rewrite E0 in E. rewrite E.
  exists has. cbn [nsteps nstep]. unfold on_message. cmd. cbn [n_motd with_reg at_k]. cbv iota. cbn [n_monitor with_motd with_reg at_k]. unfold start_regain.
  cbn [n_timer with_motd with_reg at_k n_want]. unfold ours, same_name. cbn [n_cm with_motd with_reg at_k n_nick]. rewrite (proj2 (beqb_neq _ _) Hn). reflexivity.
Qed.
