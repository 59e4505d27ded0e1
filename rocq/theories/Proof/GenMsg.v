From Verif.Base Require Import Bytes Base64.
From Verif.Model Require Import Message GenMsg.
From Verif.Spec Require Import GenMsg.

Lemma nonempty_true v : nonempty v = true <-> v <> [].
Proof. destruct v; simpl; split; congruence. Qed.

(** ** JOIN *)

Definition keyed_first (l : list (bytes * bytes)) : Prop :=
  exists l1 l2, l = l1 ++ l2 /\ Forall (fun p => snd p <> []) l1 /\ Forall (fun p => snd p = []) l2.

Definition good (p : bytes * bytes) : Prop :=
  fst p <> [] /\ list_word (fst p) /\ list_word (snd p).

Lemma join_app sep l x : l <> [] -> join sep (l ++ [x]) = join sep l ++ sep ++ x.
Proof.
  induction l as [|y l IH]; intros H; [congruence|]. destruct l as [|z l].
  - reflexivity.
  - change ((y :: z :: l) ++ [x]) with (y :: ((z :: l) ++ [x])).
    assert (E : (z :: l) ++ [x] <> []) by (destruct l; discriminate).
    assert (J : forall a (m : list bytes), m <> [] -> join sep (a :: m) = a ++ sep ++ join sep m)
      by (intros a [|? ?] ?; [congruence|reflexivity]).
    rewrite J by exact E. rewrite IH by discriminate. rewrite (J y (z :: l)) by discriminate.
    rewrite !app_assoc. reflexivity.
Qed.

Lemma join_empty sep (l : list bytes) : Forall (fun x => x <> []) l -> join sep l = [] -> l = [].
Proof.
  intros Hf. destruct l as [|x l]; [reflexivity|]. inversion Hf; subst.
  destruct l; simpl; intros H; [congruence|]. destruct x; [congruence|discriminate].
Qed.

Lemma buf_add_join sep l x :
  Forall (fun x => x <> []) l -> buf_add sep (join [sep] l) x = join [sep] (l ++ [x]).
Proof.
  intros Hf. unfold buf_add. destruct (join [sep] l) as [|c s] eqn:E.
  - apply (join_empty [sep] l Hf) in E. subst l. reflexivity.
  - rewrite join_app by (intros ->; discriminate). rewrite E. simpl. rewrite <- app_assoc. reflexivity.
Qed.

Definition keys_of (b : list (bytes * bytes)) : list bytes := filter nonempty (map snd b).

Lemma keys_of_app a b : keys_of (a ++ b) = keys_of a ++ keys_of b.
Proof. unfold keys_of. rewrite map_app. apply filter_app. Qed.

Lemma keys_of_nonempty b : Forall (fun x => x <> []) (keys_of b).
Proof. apply Forall_forall. intros x H. apply filter_In in H as [_ H]. apply nonempty_true. exact H. Qed.

Lemma keys_of_keyed l : Forall (fun p : bytes * bytes => snd p <> []) l -> keys_of l = map snd l.
Proof.
  induction 1 as [|p l Hp _ IH]; [reflexivity|]. unfold keys_of in *. simpl.
  apply nonempty_true in Hp. rewrite Hp, IH. reflexivity.
Qed.

Lemma keys_of_keyless l : Forall (fun p : bytes * bytes => snd p = []) l -> keys_of l = [].
Proof. induction 1 as [|p l Hp _ IH]; [reflexivity|]. unfold keys_of in *. simpl. rewrite Hp. exact IH. Qed.

Lemma pair_keys_nil cs : pair_keys cs [] = map (fun c => (c, [])) cs.
Proof. induction cs as [|c cs IH]; simpl; [reflexivity|rewrite IH; reflexivity]. Qed.

Lemma pair_keys_of b : keyed_first b -> pair_keys (map fst b) (keys_of b) = b.
Proof.
  intros (l1 & l2 & -> & H1 & H2). rewrite keys_of_app, (keys_of_keyed l1 H1), (keys_of_keyless l2 H2), app_nil_r.
  rewrite map_app. induction H1 as [|p l Hp _ IH]; simpl.
  - rewrite pair_keys_nil, map_map. induction H2 as [|p l Hp _ IH]; simpl; [reflexivity|].
    rewrite IH. destruct p; simpl in *; subst; reflexivity.
  - rewrite IH. destruct p; reflexivity.
Qed.

Lemma read_join_batch b :
  b <> [] -> keyed_first b -> Forall good b ->
  read_join (join_msg (join (B ",") (map fst b)) (join (B ",") (keys_of b))) = b.
Proof.
  intros Hne Hk Hg.
  assert (S1 : split_on "," (join (B ",") (map fst b)) = map fst b).
  { apply split_join; [destruct b; [congruence|discriminate]|].
    apply Forall_forall. intros x Hx. apply in_map_iff in Hx as [p [<- Hp]].
    rewrite Forall_forall in Hg. apply Hg in Hp. apply Hp. }
  unfold join_msg, read_join. destruct (join (B ",") (keys_of b)) as [|c s] eqn:E; cbn [nonempty m_params msg].
  - apply join_empty in E; [|apply keys_of_nonempty]. rewrite S1.
    rewrite <- E. apply pair_keys_of. exact Hk.
  - rewrite <- E. rewrite S1, split_join.
    + apply pair_keys_of. exact Hk.
    + intros Hx. rewrite Hx in E. discriminate.
    + apply Forall_forall. intros x Hx. apply filter_In in Hx as [Hx _].
      apply in_map_iff in Hx as [p [<- Hp]]. rewrite Forall_forall in Hg. apply Hg in Hp. apply Hp.
Qed.

Lemma keyed_first_app_l a b : keyed_first (a ++ b) -> keyed_first a.
Proof.
  intros (l1 & l2 & E & H1 & H2). exists (firstn (length a) l1), (firstn (length a - length l1) l2).
  split; [|split].
  - rewrite <- firstn_app, <- E, firstn_app, firstn_all, Nat.sub_diag. simpl. rewrite app_nil_r. reflexivity.
  - rewrite <- (firstn_skipn (length a) l1) in H1. apply Forall_app in H1. apply H1.
  - rewrite <- (firstn_skipn (length a - length l1) l2) in H2. apply Forall_app in H2. apply H2.
Qed.

Lemma keyed_first_app_r a b : keyed_first (a ++ b) -> keyed_first b.
Proof.
  intros (l1 & l2 & E & H1 & H2). exists (skipn (length a) l1), (skipn (length a - length l1) l2).
  split; [|split].
  - rewrite <- skipn_app, <- E, skipn_app, skipn_all, Nat.sub_diag. reflexivity.
  - rewrite <- (firstn_skipn (length a) l1) in H1. apply Forall_app in H1. apply H1.
  - rewrite <- (firstn_skipn (length a - length l1) l2) in H2. apply Forall_app in H2. apply H2.
Qed.

Lemma good_fst_ne b : Forall good b -> Forall (fun x => x <> []) (map fst b).
Proof. intros H. apply Forall_forall. intros x Hx. apply in_map_iff in Hx as [p [<- Hp]].
  rewrite Forall_forall in H. apply (H p Hp). Qed.

(** The buffers hold exactly the current batch. *)
Definition holds_batch (chans keys : bytes) (b : list (bytes * bytes)) : Prop :=
  chans = join (B ",") (map fst b) /\ keys = join (B ",") (keys_of b).

Lemma holds_batch_add chans keys b ch key :
  holds_batch chans keys b -> Forall good b ->
  holds_batch (buf_add "," chans ch) (if nonempty key then buf_add "," keys key else keys) (b ++ [(ch, key)]).
Proof.
  intros [-> ->] Hg. split.
  - rewrite map_app. apply buf_add_join. apply good_fst_ne. exact Hg.
  - rewrite keys_of_app. replace (keys_of [(ch, key)]) with (if nonempty key then [key] else []) by reflexivity.
    destruct (nonempty key).
    + apply buf_add_join. apply keys_of_nonempty.
    + rewrite app_nil_r. reflexivity.
Qed.

Lemma nonempty_chans chans keys b : holds_batch chans keys b -> Forall good b -> nonempty chans = true <-> b <> [].
Proof.
  intros [-> _] Hg. rewrite nonempty_true. split.
  - intros H ->. apply H. reflexivity.
  - intros H E. apply (join_empty (B ",") _ (good_fst_ne b Hg)) in E. destruct b; [congruence|discriminate].
Qed.

Lemma join_loop_spec l : forall chans keys b,
  holds_batch chans keys b -> Forall good (b ++ l) -> keyed_first (b ++ l) ->
  flat_map read_join (join_loop chans keys l) = b ++ l /\
  Forall (fun m => m_command m = B "JOIN") (join_loop chans keys l) /\
  Forall (fun m => keyed_first (read_join m) /\ read_join m <> []) (join_loop chans keys l).
Proof.
  induction l as [|[ch key] l IH]; intros chans keys b Hb Hg Hk.
  - rewrite app_nil_r in *. cbn [join_loop]. destruct (nonempty chans) eqn:E.
    + apply (nonempty_chans _ _ b Hb Hg) in E. destruct Hb as [-> ->].
      cbn [flat_map]. rewrite app_nil_r, (read_join_batch b E Hk Hg). split; [reflexivity|].
      split; [constructor; [reflexivity|constructor]|].
      constructor; [|constructor]. rewrite (read_join_batch b E Hk Hg). split; assumption.
    + destruct b; [simpl; repeat constructor|]. exfalso.
      assert (nonempty chans = true) by (apply (nonempty_chans _ _ _ Hb Hg); discriminate). congruence.
  - cbn [join_loop].
    assert (Hgb : Forall good b) by (apply Forall_app in Hg; apply Hg).
    set (flush := nonempty chans && _).
    destruct flush eqn:Ef.
    + apply andb_prop in Ef as [Ene _]. apply (nonempty_chans _ _ b Hb Hgb) in Ene.
      pose proof (keyed_first_app_l _ _ Hk) as Hkb.
      pose proof (read_join_batch b Ene Hkb Hgb) as Hr.
      assert (Hb' : holds_batch [] [] []) by (split; reflexivity).
      pose proof (holds_batch_add _ _ _ ch key Hb' (Forall_nil _)) as Hb2.
      destruct (IH _ _ [(ch, key)] Hb2) as (I1 & I2 & I3).
      * apply Forall_app in Hg. apply Hg.
      * apply keyed_first_app_r in Hk. exact Hk.
      * destruct Hb as [-> ->]. cbn [app flat_map]. rewrite Hr, I1. split; [reflexivity|].
        split; [constructor; [reflexivity|exact I2]|]. constructor; [|exact I3].
        rewrite Hr. split; assumption.
    + cbn [app]. pose proof (holds_batch_add _ _ _ ch key Hb Hgb) as Hb2.
      destruct (IH _ _ (b ++ [(ch, key)]) Hb2) as (I1 & I2 & I3).
      * rewrite <- app_assoc. exact Hg.
      * rewrite <- app_assoc. exact Hk.
      * rewrite I1, <- app_assoc. split; [reflexivity|]. split; assumption.
Qed.

Lemma sorted_keyed_first l l' : sort_result join_less l l' -> keyed_first l'.
Proof.
  intros [_ H]. clear l. induction l' as [|p l IH].
  - exists [], []. repeat constructor.
  - destruct IH as (l1 & l2 & E & H1 & H2).
    { intros i j x y Hij Hx Hy. apply (H (S i) (S j) x y); [lia|exact Hx|exact Hy]. }
    destruct (nonempty (snd p)) eqn:Ep.
    + exists (p :: l1), l2. split; [rewrite E; reflexivity|]. split; [|exact H2].
      constructor; [apply nonempty_true; exact Ep|exact H1].
    + destruct l1 as [|q l1].
      * exists [], (p :: l2). split; [rewrite E; reflexivity|]. split; [constructor|].
        constructor; [destruct p as [pc [|? ?]]; [reflexivity|discriminate]|exact H2].
      * exfalso. inversion H1 as [|? ? Hq _]; subst.
        specialize (H 0 1 p q ltac:(lia) eq_refl eq_refl). unfold join_less in H.
        destruct p as [pc pk], q as [qc qk]. cbn [snd] in *.
        apply nonempty_true in Hq. rewrite Hq, Ep in H. discriminate.
Qed.

(** Length of JOIN messages. *)
Lemma format_trailing_word w :
  w <> [] -> ~ In " "%char w -> (forall r, w <> ":"%char :: r) -> format_trailing w = " "%char :: w.
Proof.
  intros H1 H2 H3. destruct w as [|c r]; [congruence|]. unfold format_trailing.
  destruct (aeqb_spec c ":") as [->|_]; [exfalso; eapply H3; reflexivity|].
  cbn [orb]. destruct (amem " " (c :: r)) eqn:E; [apply amem_In in E; tauto|reflexivity].
Qed.

Lemma join_notin sep c l : ~ In c sep -> Forall (fun w => ~ In c w) l -> ~ In c (join sep l).
Proof.
  intros Hs Hf. induction l as [|x l IH]; [intros []|]. inversion Hf; subst.
  destruct l as [|y l]; [assumption|].
  change (join sep (x :: y :: l)) with (x ++ sep ++ join sep (y :: l)).
  rewrite !in_app_iff. intros [?|[?|?]]; [tauto|tauto|]. apply IH; assumption.
Qed.

Lemma join_head sep l :
  Forall (fun w => w <> [] /\ (forall r, w <> ":"%char :: r)) l -> forall r, join sep l <> ":"%char :: r.
Proof.
  intros Hf r. destruct l as [|x l]; [discriminate|]. inversion Hf as [|? ? [H1 H2] _]; subst.
  destruct x as [|c x]; [congruence|]. destruct l; simpl; intros E; injection E as -> E; apply (H2 x); reflexivity.
Qed.

Lemma batch_wire_length b :
  b <> [] -> Forall good b ->
  length (format_message (join_msg (join (B ",") (map fst b)) (join (B ",") (keys_of b))))
  <= 6 + length (join (B ",") (map fst b)) + length (join (B ",") (keys_of b)).
Proof.
  intros Hne Hg.
  assert (F1 : format_trailing (join (B ",") (map fst b)) = " "%char :: join (B ",") (map fst b)).
  { apply format_trailing_word.
    - intros E. apply join_empty in E; [|apply good_fst_ne; exact Hg]. destruct b; [congruence|discriminate].
    - apply join_notin; [simpl; intuition discriminate|]. apply Forall_forall. intros x Hx.
      apply in_map_iff in Hx as [p [<- Hp]]. rewrite Forall_forall in Hg. apply Hg in Hp. apply Hp.
    - apply join_head. apply Forall_forall. intros x Hx. apply in_map_iff in Hx as [p [<- Hp]].
      rewrite Forall_forall in Hg. apply Hg in Hp. split; apply Hp. }
  unfold join_msg. destruct (join (B ",") (keys_of b)) as [|c s] eqn:E.
  - unfold format_message. simpl nonempty. cbn iota. cbn [m_prefix msg m_command m_params format_params app].
    rewrite F1. rewrite app_length. simpl. lia.
  - simpl nonempty. cbn iota. rewrite <- E.
    assert (F2 : format_trailing (join (B ",") (keys_of b)) = " "%char :: join (B ",") (keys_of b)).
    { apply format_trailing_word.
      - rewrite E; discriminate.
      - apply join_notin; [simpl; intuition discriminate|]. apply Forall_forall. intros x Hx.
        apply filter_In in Hx as [Hx _].
        apply in_map_iff in Hx as [p [<- Hp]]. rewrite Forall_forall in Hg. apply Hg in Hp. apply Hp.
      - apply join_head. apply Forall_forall. intros x Hx. apply filter_In in Hx as [Hx Hn].
        apply in_map_iff in Hx as [p [<- Hp]].
        rewrite Forall_forall in Hg. apply Hg in Hp. split; [apply nonempty_true; exact Hn|apply Hp]. }
    unfold format_message. cbn [m_prefix msg m_command m_params format_params app].
    rewrite F2. rewrite !app_length. simpl. rewrite !app_length. simpl. lia.
Qed.

Definition fits (b : list (bytes * bytes)) : Prop :=
  length b = 1 \/ length (join (B ",") (map fst b)) + length (join (B ",") (keys_of b)) <= join_max_length.

Lemma buf_add_length sep buf x : length (buf_add sep buf x) <= length buf + 1 + length x.
Proof. unfold buf_add. destruct (nonempty buf); rewrite !app_length; simpl; lia. Qed.

Lemma join_loop_length l : forall chans keys b,
  holds_batch chans keys b -> Forall good (b ++ l) -> keyed_first (b ++ l) ->
  (b = [] \/ fits b) ->
  Forall (fun m => length (read_join m) = 1 \/ length (format_message m) <= 512) (join_loop chans keys l).
Proof.
  assert (Out : forall chans keys b, holds_batch chans keys b -> Forall good b -> keyed_first b -> b <> [] ->
     (b = [] \/ fits b) ->
     length (read_join (join_msg chans keys)) = 1 \/ length (format_message (join_msg chans keys)) <= 512).
  { intros chans keys b [-> ->] Hg Hk Hne Hf. rewrite (read_join_batch b Hne Hk Hg).
    destruct Hf as [?|[Hf|Hf]]; [congruence|left; exact Hf|right].
    pose proof (batch_wire_length b Hne Hg). change join_max_length with 506 in Hf. lia. }
  induction l as [|[ch key] l IH]; intros chans keys b Hb Hg Hk Hf.
  - rewrite app_nil_r in *. cbn [join_loop]. destruct (nonempty chans) eqn:E; [|constructor].
    constructor; [|constructor]. apply (Out chans keys b); try assumption.
    apply (nonempty_chans _ _ b Hb Hg). exact E.
  - cbn [join_loop]. assert (Hgb : Forall good b) by (apply Forall_app in Hg; apply Hg).
    destruct (nonempty chans) eqn:Ene.
    + pose proof Ene as Ene'. apply (nonempty_chans _ _ b Hb Hgb) in Ene'.
      cbn [andb]. match goal with |- context [Nat.ltb join_max_length ?n] => destruct (Nat.ltb_spec join_max_length n) as [Hlt|Hle] end.
      * cbn [app]. constructor.
        { apply (Out chans keys b); try assumption. apply (keyed_first_app_l _ _ Hk). }
        assert (Hb' : holds_batch [] [] []) by (split; reflexivity).
        apply (IH _ _ [(ch, key)] (holds_batch_add _ _ _ ch key Hb' (Forall_nil _))).
        { apply Forall_app in Hg. apply Hg. }
        { apply keyed_first_app_r in Hk. exact Hk. }
        right; left; reflexivity.
      * cbn [app]. pose proof (holds_batch_add _ _ _ ch key Hb Hgb) as Hb2.
        apply (IH _ _ (b ++ [(ch, key)]) Hb2).
        { rewrite <- app_assoc. exact Hg. }
        { rewrite <- app_assoc. exact Hk. }
        right; right. destruct Hb2 as [<- <-].
        pose proof (buf_add_length "," chans ch). pose proof (buf_add_length "," keys key).
        destruct (nonempty key); lia.
    + cbn [andb app]. assert (b = []).
      { destruct b; [reflexivity|]. exfalso.
        assert (nonempty chans = true) by (apply (nonempty_chans _ _ _ Hb Hgb); discriminate). congruence. }
      subst b. pose proof (holds_batch_add _ _ _ ch key Hb Hgb) as Hb2.
      apply (IH _ _ ([] ++ [(ch, key)]) Hb2); try assumption. right; left; reflexivity.
Qed.

(** ** MONITOR *)

Definition buf_size (buf : list bytes) : nat := fold_right (fun t n => length t + 1 + n) 0 buf.

Lemma buf_size_app a b : buf_size (a ++ b) = buf_size a + buf_size b.
Proof. induction a; simpl; [reflexivity|]. rewrite IHa. lia. Qed.

Lemma join_length_size buf : buf <> [] -> length (join (B ",") buf) + 1 = buf_size buf.
Proof.
  induction buf as [|x l IH]; intros H; [congruence|]. destruct l as [|y l].
  - simpl. lia.
  - change (join (B ",") (x :: y :: l)) with (x ++ B "," ++ join (B ",") (y :: l)).
    rewrite !app_length. simpl length at 2. specialize (IH ltac:(discriminate)). simpl buf_size. simpl buf_size in IH. lia.
Qed.

Lemma monitor_loop_spec (P : bytes -> Prop) subcmd maxl targets : forall buf,
  (forall t, P t -> ~ In ","%char t /\ length t + 1 <= maxl) ->
  Forall P (buf ++ targets) ->
  buf_size buf <= maxl ->
  flat_map read_monitor (monitor_loop subcmd maxl buf (buf_size buf) targets) = buf ++ targets /\
  Forall (fun m => exists b, b <> [] /\ m = monitor_msg subcmd b /\ buf_size b <= maxl /\ Forall P b)
    (monitor_loop subcmd maxl buf (buf_size buf) targets).
Proof.
  intros buf HP. revert buf.
  assert (Rd : forall b, b <> [] -> Forall P b -> read_monitor (monitor_msg subcmd b) = b).
  { intros b Hne Hf. unfold read_monitor, monitor_msg. cbn [m_params msg]. apply split_join; [exact Hne|].
    eapply Forall_impl; [|exact Hf]. intros a Ha. apply HP. exact Ha. }
  induction targets as [|t targets IH]; intros buf Hf Hn.
  - rewrite app_nil_r in *. cbn [monitor_loop]. destruct buf as [|x buf]; [split; [reflexivity|constructor]|].
    split.
    + cbn [flat_map]. rewrite app_nil_r. apply Rd; [discriminate|exact Hf].
    + constructor; [|constructor]. exists (x :: buf). split; [discriminate|]. split; [reflexivity|]. split; [exact Hn|exact Hf].
  - cbn [monitor_loop]. pose proof Hf as Hf'. apply Forall_app in Hf' as [Hfb Hft]. pose proof (Forall_inv Hft) as Ht.
    apply HP in Ht as Ht'.
    destruct (Nat.ltb_spec maxl (buf_size buf + length t + 1)) as [Hlt|Hle].
    + assert (buf <> []) by (intros ->; simpl in Hlt; lia).
      destruct (IH [t]) as [I1 I2]; [exact Hft|simpl; lia|].
      simpl buf_size in I1, I2. rewrite Nat.add_0_r in I1, I2. split.
      * cbn [flat_map]. rewrite I1. rewrite (Rd buf) by assumption. reflexivity.
      * constructor; [|exact I2]. exists buf. split; [assumption|]. split; [reflexivity|]. split; assumption.
    + destruct (IH (buf ++ [t])) as [I1 I2].
      * rewrite <- app_assoc. exact Hf.
      * rewrite buf_size_app. simpl. lia.
      * rewrite buf_size_app in I1, I2. simpl buf_size in I1, I2. rewrite Nat.add_0_r, Nat.add_assoc in I1, I2.
        split; [rewrite I1, <- app_assoc; reflexivity|exact I2].
Qed.

Definition monitor_target (subcmd t : bytes) : Prop :=
  ~ In ","%char t /\ ~ In " "%char t /\ t <> [] /\ (forall r, t <> ":"%char :: r) /\
  length subcmd + length t + 10 <= 512.

Lemma monitor_wire_length subcmd b :
  b <> [] -> Forall (monitor_target subcmd) b ->
  length (format_message (monitor_msg subcmd b)) = 8 + length subcmd + buf_size b.
Proof.
  intros Hne Hf. rewrite <- (join_length_size b Hne).
  unfold format_message, monitor_msg. cbn [m_prefix msg m_command m_params app format_params].
  rewrite format_trailing_word.
  - rewrite app_length. cbn [length]. rewrite app_length. cbn [length]. change (length (B "MONITOR")) with 7. lia.
  - intros E. apply join_empty in E; [congruence|]. eapply Forall_impl; [|exact Hf]. intros a Ha. apply Ha.
  - apply join_notin; [simpl; intuition discriminate|]. eapply Forall_impl; [|exact Hf]. intros a Ha. apply Ha.
  - apply join_head. eapply Forall_impl; [|exact Hf]. intros a Ha. split; apply Ha.
Qed.

(** ** ISUPPORT *)

Lemma isupport_roundtrip tok : isupport_decode (isupport_encode tok) = tok.
Proof.
  assert (G : forall c s, c <> "\"%char -> isupport_decode (c :: s) = c :: isupport_decode s).
  { intros c s H. simpl. destruct s as [|x [|h [|l s]]]; try reflexivity.
    destruct (aeqb_spec c "\"); [congruence|]. reflexivity. }
  induction tok as [|c tok IH]; [reflexivity|].
  cbn [isupport_encode flat_map]. unfold isupport_encode_byte.
  destruct (aeqb_spec c " ") as [->|H1].
  - change (isupport_decode (B "\x20" ++ isupport_encode tok) = " "%char :: tok).
    transitivity (" "%char :: isupport_decode (isupport_encode tok)); [reflexivity|]. rewrite IH. reflexivity.
  - destruct (aeqb_spec c "\") as [->|H2].
    + change (isupport_decode (B "\x5C" ++ isupport_encode tok) = "\"%char :: tok).
      transitivity ("\"%char :: isupport_decode (isupport_encode tok)); [reflexivity|]. rewrite IH. reflexivity.
    + cbn [app]. rewrite (G c _ H2). f_equal. exact IH.
Qed.

Lemma isupport_no_space tok : ~ In " "%char (isupport_encode tok).
Proof.
  unfold isupport_encode. rewrite in_flat_map. intros [c [_ H]]. unfold isupport_encode_byte in H.
  destruct (aeqb_spec c " "); [simpl in H; intuition discriminate|].
  destruct (aeqb_spec c "\"); [simpl in H; intuition discriminate|].
  simpl in H. destruct H as [H|[]]. congruence.
Qed.

Lemma read_isupport_msg toks : read_isupport (isupport_msg toks) = toks.
Proof.
  unfold read_isupport, isupport_msg. cbn [m_params msg].
  rewrite removelast_last, map_map. rewrite <- (map_id toks) at 2. apply map_ext. apply isupport_roundtrip.
Qed.

Lemma isupport_loop_spec fuel : forall toks,
  length toks <= fuel ->
  flat_map read_isupport (isupport_loop fuel toks) = toks /\
  Forall (fun m => exists ts, m = isupport_msg ts /\ 1 <= length ts <= 13) (isupport_loop fuel toks).
Proof.
  induction fuel as [|fuel IH]; intros toks Hl.
  - destruct toks; [|simpl in Hl; lia]. split; [reflexivity|constructor].
  - destruct toks as [|t toks]; [split; [reflexivity|constructor]|].
    set (all := t :: toks) in *. cbn [isupport_loop].
    replace (match all with [] => _ | _ :: _ => _ end) with
      (if Nat.ltb (max_message_params - 2) (length all)
       then isupport_msg (firstn (max_message_params - 2) all) :: isupport_loop fuel (skipn (max_message_params - 2) all)
       else [isupport_msg all]) by reflexivity.
    change (max_message_params - 2) with 13.
    destruct (Nat.ltb_spec 13 (length all)) as [Hlt|Hle].
    + destruct (IH (skipn 13 all)) as [I1 I2]; [rewrite skipn_length; lia|].
      cbn [flat_map]. rewrite I1, read_isupport_msg, firstn_skipn. split; [reflexivity|].
      constructor; [|exact I2]. exists (firstn 13 all). split; [reflexivity|]. rewrite firstn_length. lia.
    + cbn [flat_map]. rewrite read_isupport_msg, app_nil_r. split; [reflexivity|].
      constructor; [|constructor]. exists all. split; [reflexivity|]. subst all. simpl in *. lia.
Qed.

(** ** MOTD *)

Lemma split_on_nosep_all sep s : Forall (fun l => ~ In sep l) (split_on sep s).
Proof.
  induction s as [|c s IH]; simpl; [repeat constructor; intros []|].
  destruct (aeqb_spec c sep) as [->|Hn]; [constructor; [intros []|exact IH]|].
  destruct (split_on sep s) as [|x l]; [constructor; [|constructor]|].
  - intros [?|[]]; congruence.
  - inversion IH; subst. constructor; [|assumption]. intros [?|?]; [congruence|tauto].
Qed.

(** ** NAMES *)

Lemma names_loop_spec status channel maxl members : forall b,
  Forall (fun s => s <> [] /\ ~ In " "%char s) (b ++ members) ->
  (b = [] \/ length b = 1 \/ length (join (B " ") b) <= maxl) ->
  flat_map read_names (names_loop status channel maxl (join (B " ") b) members) = b ++ members /\
  Forall (fun m => exists b', b' <> [] /\ m = names_msg status channel (join (B " ") b') /\
            Forall (fun s => s <> [] /\ ~ In " "%char s) b' /\
            (length b' = 1 \/ length (join (B " ") b') <= maxl))
    (names_loop status channel maxl (join (B " ") b) members).
Proof.
  assert (Ne : forall b, Forall (fun s => s <> [] /\ ~ In " "%char s) b ->
            nonempty (join (B " ") b) = true <-> b <> []).
  { intros b Hf. rewrite nonempty_true. split; [intros H ->; apply H; reflexivity|].
    intros H E. apply H. eapply join_empty; [|exact E]. eapply Forall_impl; [|exact Hf]. intros a [Ha _]; exact Ha. }
  assert (Rd : forall b, b <> [] -> Forall (fun s => s <> [] /\ ~ In " "%char s) b ->
            read_names (names_msg status channel (join (B " ") b)) = b).
  { intros b Hne Hf. unfold read_names, names_msg. cbn [m_params msg]. apply split_join; [exact Hne|].
    eapply Forall_impl; [|exact Hf]. intros a [_ Ha]; exact Ha. }
  induction members as [|s members IH]; intros b Hf Hl.
  - rewrite app_nil_r in *. cbn [names_loop]. destruct (nonempty (join (B " ") b)) eqn:E.
    + apply (Ne b Hf) in E. cbn [flat_map]. rewrite app_nil_r, (Rd b E Hf). split; [reflexivity|].
      constructor; [|constructor]. exists b. split; [exact E|]. split; [reflexivity|]. split; [exact Hf|].
      destruct Hl as [?|?]; [congruence|assumption].
    + destruct b as [|b b0]; [split; [reflexivity|constructor]|].
      assert (nonempty (join (B " ") (b :: b0)) = true) by (apply (Ne _ Hf); discriminate). congruence.
  - cbn [names_loop]. assert (Hfb := Hf). apply Forall_app in Hfb as [Hfb Hfm].
    assert (Hfb' : Forall (fun x => x <> []) b) by (eapply Forall_impl; [|exact Hfb]; intros a [Ha _]; exact Ha).
    destruct (nonempty (join (B " ") b)) eqn:E; cbn [andb].
    + pose proof E as E'. apply (Ne b Hfb) in E'.
      match goal with |- context [Nat.ltb maxl ?n] => destruct (Nat.ltb_spec maxl n) as [Hlt|Hle] end.
      * destruct (IH [s]) as [I1 I2]; [exact Hfm|right; left; reflexivity|].
        change (join (B " ") [s]) with (buf_add " " [] s) in I1, I2.
        cbn [flat_map]. rewrite I1, (Rd b E' Hfb). split; [reflexivity|].
        constructor; [|exact I2]. exists b. split; [exact E'|]. split; [reflexivity|]. split; [exact Hfb|].
        destruct Hl as [?|?]; [congruence|assumption].
      * assert (Ej : buf_add " " (join (B " ") b) s = join (B " ") (b ++ [s])) by exact (buf_add_join " " b s Hfb').
        rewrite Ej.
        destruct (IH (b ++ [s])) as [I1 I2].
        -- rewrite <- app_assoc. exact Hf.
        -- right; right. rewrite join_app by exact E'. rewrite !app_length. simpl length at 2. lia.
        -- rewrite <- app_assoc in I1. split; assumption.
    + assert (b = []).
      { destruct b as [|b b0]; [reflexivity|]. assert (nonempty (join (B " ") (b :: b0)) = true) by (apply (Ne _ Hfb); discriminate). congruence. }
      subst b. destruct (IH [s]) as [I1 I2]; [exact Hfm|right; left; reflexivity|].
      change (join (B " ") [s]) with (buf_add " " (join (B " ") []) s) in I1, I2. split; assumption.
Qed.

Lemma names_wire_length status channel names :
  length (format_message (names_msg status channel names)) <=
  length (format_message (names_msg status channel [])) + length names.
Proof.
  unfold format_message, names_msg. cbn [m_prefix msg m_command m_params app format_params].
  assert (H : length (format_trailing names) <= 2 + length names).
  { unfold format_trailing. destruct names as [|c r]; [simpl; lia|].
    destruct (_ || _); simpl; lia. }
  rewrite !app_length. simpl length. rewrite !app_length. simpl length. rewrite !app_length. simpl length at 6. lia.
Qed.

(** ** SASL *)

Lemma sasl_loop_spec fuel : forall rest,
  length rest < fuel ->
  exists full last,
    sasl_loop fuel rest = map (fun c => c) full ++ [sasl_chunk last] /\
    Forall (fun c => length c = 400) full /\ length last < 400 /\ concat full ++ last = rest.
Proof.
  induction fuel as [|fuel IH]; intros rest Hl; [lia|]. cbn [sasl_loop].
  destruct (Nat.ltb_spec (length rest) max_sasl_length) as [Hlt|Hle].
  - exists [], rest. repeat split; [constructor|exact Hlt].
  - assert (Hm : max_sasl_length = 400) by reflexivity.
    destruct (IH (skipn max_sasl_length rest)) as (full & last & E & Hf & Hl' & Hc).
    { rewrite skipn_length. lia. }
    exists (firstn max_sasl_length rest :: full), last. rewrite E. repeat split.
    + cbn [map app]. f_equal. unfold sasl_chunk.
      destruct (firstn max_sasl_length rest) eqn:Ef; [|reflexivity].
      assert (length (firstn max_sasl_length rest) = 400) by (rewrite firstn_length; lia).
      rewrite Ef in H. discriminate.
    + constructor; [rewrite firstn_length; lia|exact Hf].
    + exact Hl'.
    + cbn [concat]. rewrite <- app_assoc, Hc, firstn_skipn. reflexivity.
Qed.

Lemma b64_no_plus_alone s : b64_encode B64Std s <> B "+".
Proof. destruct s as [|[] [|[] [|[] s]]]; cbn [b64_encode]; discriminate. Qed.

Lemma sasl_receive_chunks full last :
  Forall (fun c => length c = 400) full -> length last < 400 -> last <> B "+" ->
  sasl_receive (full ++ [sasl_chunk last]) = Some (concat full ++ last, []).
Proof.
  intros Hf Hl Hp. induction Hf as [|c full Hc _ IH].
  - cbn [app sasl_receive concat]. unfold sasl_chunk. destruct last as [|x last].
    + reflexivity.
    + cbn [nonempty]. destruct (Nat.eqb_spec (length (x :: last)) 400); [lia|].
      destruct (beqb_spec (x :: last) (B "+")); [congruence|reflexivity].
  - cbn [app sasl_receive concat]. rewrite Hc. cbn [Nat.eqb]. rewrite IH. rewrite app_assoc. reflexivity.
Qed.

(** Base64 text has a length that is a multiple of 4, so a partial chunk cannot
    be a lone "+". *)
Lemma b64_std_len4 s : exists k, length (b64_encode B64Std s) = 4 * k.
Proof.
  induction s as [|a|a b|a b c s IH] using list_ind3.
  - exists 0. reflexivity.
  - destruct a. exists 1. reflexivity.
  - destruct a, b. exists 1. reflexivity.
  - destruct a, b, c. destruct IH as [k Hk]. exists (S k). cbn [b64_encode length]. lia.
Qed.

Lemma concat_len400 full : Forall (fun c : bytes => length c = 400) full -> length (concat full) = 400 * length full.
Proof. induction 1 as [|c l H _ IH]; [reflexivity|]. cbn [concat length]. rewrite app_length. lia. Qed.

Lemma generate_sasl_chunks resp :
  exists full last,
    map m_params (generate_sasl resp) = map (fun c => [c]) (full ++ [sasl_chunk last]) /\
    Forall (fun c => length c = 400) full /\ length last < 400 /\
    last <> B "+" /\ concat full ++ last = b64_encode B64Std resp.
Proof.
  unfold generate_sasl. set (e := b64_encode B64Std resp).
  destruct (sasl_loop_spec (S (length e)) e ltac:(lia)) as (full & last & E & Hf & Hl & Hc).
  exists full, last. rewrite E, map_id, map_map. repeat split; try assumption.
  intros ->. destruct (b64_std_len4 resp) as [k Hk]. fold e in Hk. rewrite <- Hc, app_length, concat_len400 in Hk by exact Hf.
  simpl in Hk. lia.
Qed.

Lemma recv_all_full full : forall pending last,
  Forall (fun c => length c = 400) full -> length last < 400 -> last <> B "+" ->
  (N.of_nat (length pending + length (concat full ++ last)) <= 10240)%N ->
  recv_all pending (full ++ [sasl_chunk last]) =
  match b64_decode B64Std (pending ++ concat full ++ last) with
  | Some r => Some ([], Some r) | None => None end.
Proof.
  induction full as [|c full IH]; intros pending last Hf Hl Hp Hn.
  - cbn [app recv_all concat] in *. unfold recv_chunk.
    assert (E : (if beqb (sasl_chunk last) (B "+") then [] else sasl_chunk last) = last).
    { unfold sasl_chunk. destruct last as [|x l]; [reflexivity|]. cbn [nonempty].
      destruct (beqb_spec (x :: l) (B "+")); [congruence|reflexivity]. }
    rewrite E. destruct (N.ltb_spec 10240 (N.of_nat (length pending + length last))); [lia|].
    destruct (Nat.eqb_spec (length last) max_sasl_length) as [Hx|_]; [unfold max_sasl_length in Hx; lia|].
    destruct (b64_decode B64Std (pending ++ last)); reflexivity.
  - inversion Hf as [|? ? Hc Hf']; subst. cbn [app recv_all concat] in *. unfold recv_chunk.
    destruct (beqb_spec c (B "+")) as [->|_]; [discriminate|].
    rewrite !app_length in Hn. destruct (N.ltb_spec 10240 (N.of_nat (length pending + length c))); [lia|].
    rewrite Hc. cbn [Nat.eqb max_sasl_length].
    rewrite IH; try assumption.
    + rewrite <- !app_assoc. reflexivity.
    + rewrite !app_length. lia.
Qed.
