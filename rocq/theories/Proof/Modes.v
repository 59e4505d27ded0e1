From Verif.Base Require Import Bytes.
From Verif.Model Require Import CaseMap Membership Modes.
From Verif.Spec Require Import Modes.
From Verif.Proof Require Import Membership.
From Verif.Proof Require CaseMap.

Definition ascii_only (s : bytes) : Prop := Forall (fun c => (code c < 128)%N) s.

(** ** User modes *)

Lemma um_add_In ms c x :
  (code c < 128)%N -> In x (um_add ms c) <-> x = c \/ In x ms.
Proof.
  intros Hc. unfold um_add, um_has. destruct (amem c ms) eqn:E.
  - apply amem_In in E. split; [intros H; right; exact H|intros [->|H]; assumption].
  - rewrite utf8_of_byte_ascii by exact Hc. rewrite in_app_iff. simpl. intuition.
Qed.

Lemma um_add_nodup ms c : (code c < 128)%N -> NoDup ms -> NoDup (um_add ms c).
Proof.
  intros Hc Hnd. unfold um_add, um_has. destruct (amem c ms) eqn:E; [exact Hnd|].
  rewrite utf8_of_byte_ascii by exact Hc. apply amem_nIn in E.
  apply (Permutation_NoDup (l := c :: ms)); [apply Permutation_cons_append|].
  constructor; assumption.
Qed.

Lemma um_del_In ms c x : NoDup ms -> In x (um_del ms c) <-> x <> c /\ In x ms.
Proof.
  induction ms as [|y ms IH]; intros Hnd; simpl; [tauto|].
  inversion Hnd as [|? ? H1 H2]; subst. destruct (aeqb_spec y c) as [->|Hn].
  - split; [intros H; split; [intros ->; exact (H1 H)|right; exact H]|].
    intros [Hne [->|H]]; [congruence|exact H].
  - simpl. rewrite (IH H2). split.
    + intros [->|[Ha Hb]]; [split; [exact Hn|left; reflexivity]|split; [exact Ha|right; exact Hb]].
    + intros [Ha [->|Hb]]; [left; reflexivity|right; split; assumption].
Qed.

Lemma um_del_nodup ms c : NoDup ms -> NoDup (um_del ms c).
Proof.
  induction ms as [|y ms IH]; intros Hnd; simpl; [constructor|].
  inversion Hnd as [|? ? H1 H2]; subst. destruct (aeqb y c); [exact H2|].
  constructor; [|apply IH; exact H2]. intros Hin. apply um_del_In in Hin as [_ Hin]; [exact (H1 Hin)|exact H2].
Qed.

(** The sign in force at the end of a prefix. *)
Definition last_sign (s : bytes) (cur : option bool) : option bool := sign_at s cur (length s).

Definition set_after_from (s : bytes) (cur : option bool) (c : ascii) (before : Prop) : Prop :=
  (exists i, nth_error s i = Some c /\ sign_at s cur i = Some true /\
     forall j, i < j -> nth_error s j <> Some c) \/
  (before /\ ~ In c s).

Definition malformed_from (s : bytes) (cur : option bool) : Prop :=
  exists i c, nth_error s i = Some c /\ ~ is_sign c /\ sign_at s cur i = None.

Definition step_sign (c : ascii) (cur : option bool) : option bool :=
  if aeqb c "+" then Some true else if aeqb c "-" then Some false else cur.

Lemma sign_at_S c s cur i : sign_at (c :: s) cur (S i) = sign_at s (step_sign c cur) i.
Proof. reflexivity. Qed.

Lemma sign_at_0 s cur : sign_at s cur 0 = cur.
Proof. destruct s; reflexivity. Qed.

Lemma set_after_sign c0 s cur c b :
  c0 <> c -> set_after_from (c0 :: s) cur c b <-> set_after_from s (step_sign c0 cur) c b.
Proof.
  intros Hne. unfold set_after_from. split.
  - intros [[i (H1 & H2 & H3)]|[Hb Hni]].
    + destruct i as [|i]; [simpl in H1; congruence|]. left. exists i.
      split; [exact H1|]. split; [exact H2|]. intros j Hj. apply (H3 (S j)). lia.
    + right. split; [exact Hb|]. intros H. apply Hni. right; exact H.
  - intros [[i (H1 & H2 & H3)]|[Hb Hni]].
    + left. exists (S i). split; [exact H1|]. split; [exact H2|].
      intros [|j] Hj; [lia|]. apply H3. lia.
    + right. split; [exact Hb|]. intros [H|H]; [congruence|exact (Hni H)].
Qed.

Lemma set_after_hit s cur c (b : Prop) (plus : bool) :
  cur = Some plus -> ~ is_sign c ->
  set_after_from (c :: s) cur c b <-> set_after_from s cur c (plus = true).
Proof.
  intros Hcur Hs.
  assert (Hst : step_sign c cur = cur).
  { unfold step_sign. destruct (aeqb_spec c "+") as [->|_]; [exfalso; apply Hs; left; reflexivity|].
    destruct (aeqb_spec c "-") as [->|_]; [exfalso; apply Hs; right; reflexivity|reflexivity]. }
  unfold set_after_from. split.
  - intros [[i (H1 & H2 & H3)]|[Hb Hni]].
    + destruct i as [|i].
      * right. rewrite sign_at_0 in H2. split; [congruence|].
        intros Hin. apply In_nth_error in Hin as [j Hj]. apply (H3 (S j)); [lia|exact Hj].
      * left. exists i. rewrite sign_at_S, Hst in H2.
        split; [exact H1|]. split; [exact H2|]. intros j Hj. apply (H3 (S j)). lia.
    + exfalso. apply Hni. left; reflexivity.
  - intros [[i (H1 & H2 & H3)]|[Hb Hni]].
    + left. exists (S i). rewrite sign_at_S, Hst. split; [exact H1|]. split; [exact H2|].
      intros [|j] Hj; [lia|]. apply H3. lia.
    + left. exists 0. rewrite sign_at_0. split; [reflexivity|]. split; [congruence|].
      intros [|j] Hj; [lia|]. simpl. intros Hn. apply Hni. eapply nth_error_In; exact Hn.
Qed.

Lemma malformed_cons c s cur :
  malformed_from (c :: s) cur <->
  (~ is_sign c /\ cur = None) \/ malformed_from s (step_sign c cur).
Proof.
  unfold malformed_from. split.
  - intros (i & x & H1 & H2 & H3). destruct i as [|i].
    + left. simpl in H1. injection H1 as ->. rewrite sign_at_0 in H3. split; assumption.
    + right. exists i, x. split; [exact H1|]. split; [exact H2|exact H3].
  - intros [[H1 H2]|(i & x & H1 & H2 & H3)].
    + exists 0, c. rewrite sign_at_0. split; [reflexivity|]. split; assumption.
    + exists (S i), x. split; [exact H1|]. split; [exact H2|exact H3].
Qed.

Lemma um_apply_ok_iff ms cur s :
  snd (um_apply ms cur s) = false <-> malformed_from s cur.
Proof.
  revert ms cur; induction s as [|c s IH]; intros ms cur.
  - simpl. split; [discriminate|]. intros (i & x & H & _). destruct i; discriminate.
  - rewrite malformed_cons. simpl. unfold step_sign, is_sign.
    destruct (aeqb_spec c "+") as [->|H1]; [rewrite IH; split; [tauto|intros [[Hx _]|H]; [tauto|exact H]]|].
    destruct (aeqb_spec c "-") as [->|H2]; [rewrite IH; split; [tauto|intros [[Hx _]|H]; [tauto|exact H]]|].
    destruct cur as [[|]|].
    + rewrite IH. split; [tauto|]. intros [[_ Hx]|H]; [discriminate|exact H].
    + rewrite IH. split; [tauto|]. intros [[_ Hx]|H]; [discriminate|exact H].
    + simpl. split; [intros _; left; split; [tauto|reflexivity]|reflexivity].
Qed.

Lemma um_apply_nodup ms cur s :
  ascii_only s -> NoDup ms -> NoDup (fst (um_apply ms cur s)).
Proof.
  revert ms cur; induction s as [|c s IH]; intros ms cur Ha Hnd; simpl; [exact Hnd|].
  inversion Ha as [|? ? Hc Ha']; subst.
  destruct (aeqb c "+"); [apply IH; assumption|]. destruct (aeqb c "-"); [apply IH; assumption|].
  destruct cur as [[|]|]; [| |exact Hnd]; apply IH; try assumption.
  - apply um_add_nodup; assumption.
  - apply um_del_nodup; assumption.
Qed.

Lemma set_after_from_iff s cur c (a b : Prop) :
  (a <-> b) -> set_after_from s cur c a <-> set_after_from s cur c b.
Proof. intros H. unfold set_after_from. rewrite H. reflexivity. Qed.

Lemma um_apply_In ms cur s c :
  ascii_only s -> NoDup ms -> ~ is_sign c -> snd (um_apply ms cur s) = true ->
  In c (fst (um_apply ms cur s)) <-> set_after_from s cur c (In c ms).
Proof.
  revert ms cur; induction s as [|x s IH]; intros ms cur Ha Hnd Hs Hok; simpl.
  - unfold set_after_from. split; [intros H; right; split; [exact H|intros []]|].
    intros [(i & H & _)|[H _]]; [destruct i; discriminate|exact H].
  - inversion Ha as [|? ? Hx Ha']; subst. simpl in Hok.
    destruct (aeqb_spec x "+") as [->|H1].
    { rewrite set_after_sign by (intros <-; apply Hs; left; reflexivity). apply IH; assumption. }
    destruct (aeqb_spec x "-") as [->|H2].
    { rewrite set_after_sign by (intros <-; apply Hs; right; reflexivity). apply IH; assumption. }
    assert (Hst : step_sign x cur = cur).
    { unfold step_sign. destruct (aeqb_spec x "+"); [congruence|]. destruct (aeqb_spec x "-"); [congruence|reflexivity]. }
    destruct cur as [[|]|]; [| |discriminate].
    + rewrite IH; [|assumption|apply um_add_nodup; assumption|assumption|assumption].
      destruct (ascii_dec x c) as [->|Hne].
      * rewrite (set_after_hit s (Some true) c (In c ms) true) by (auto; assumption).
        apply set_after_from_iff. rewrite um_add_In by assumption. split; auto.
      * rewrite set_after_sign, Hst by exact Hne.
        apply set_after_from_iff. rewrite um_add_In by assumption.
        split; [intros [->|H]; [congruence|exact H]|auto].
    + rewrite IH; [|assumption|apply um_del_nodup; assumption|assumption|assumption].
      destruct (ascii_dec x c) as [->|Hne].
      * rewrite (set_after_hit s (Some false) c (In c ms) false) by (auto; assumption).
        apply set_after_from_iff. rewrite um_del_In by assumption. split; [tauto|discriminate].
      * rewrite set_after_sign, Hst by exact Hne.
        apply set_after_from_iff. rewrite um_del_In by assumption.
        split; [tauto|]. intros H; split; [congruence|exact H].
Qed.

(** ** Channel modes *)

Section Al.
  Context {V : Type}.
  Implicit Types m : list (ascii * V).

  Lemma al_get_set m k v k' : al_get (al_set m k v) k' = if aeqb k' k then Some v else al_get m k'.
  Proof.
    induction m as [|[k0 v0] m IH]; simpl.
    - destruct (aeqb k' k); reflexivity.
    - destruct (aeqb_spec k k0) as [->|Hn]; simpl.
      + destruct (aeqb k' k0); reflexivity.
      + destruct (aeqb_spec k' k0) as [->|Hn'].
        * destruct (aeqb_spec k0 k); [congruence|reflexivity].
        * exact IH.
  Qed.

  Lemma al_set_keys m k v x : In x (map fst (al_set m k v)) <-> x = k \/ In x (map fst m).
  Proof.
    induction m as [|[k0 e0] m IH]; simpl.
    - split; [intros [<-|[]]; left; reflexivity|intros [->|[]]; left; reflexivity].
    - destruct (aeqb_spec k k0) as [->|Hn]; simpl.
      + split; [intros [<-|?]; tauto|]. intros [->|[?|?]]; auto.
      + rewrite IH. split; intros H; intuition.
  Qed.

  Lemma al_set_nodup m k v : NoDup (map fst m) -> NoDup (map fst (al_set m k v)).
  Proof.
    induction m as [|[k0 e0] m IH]; simpl; intros H.
    - constructor; [intros []|constructor].
    - inversion H as [|? ? H1 H2]; subst. destruct (aeqb_spec k k0) as [->|Hn]; simpl.
      + constructor; assumption.
      + constructor; [|apply IH; exact H2]. rewrite al_set_keys. intros [?|?]; [congruence|tauto].
  Qed.

  Lemma al_set_In m k v x : In x (al_set m k v) -> x = (k, v) \/ In x m.
  Proof.
    induction m as [|[k0 e0] m IH]; simpl.
    - intros [<-|[]]. left; reflexivity.
    - destruct (aeqb_spec k k0) as [->|Hn]; simpl.
      + intros [<-|?]; [left; reflexivity|right; right; assumption].
      + intros [<-|H]; [right; left; reflexivity|]. destruct (IH H); [left|right; right]; assumption.
  Qed.

  Lemma al_del_In m k x : In x (al_del m k) -> In x m /\ fst x <> k.
  Proof.
    induction m as [|[k0 e0] m IH]; simpl; [tauto|]. destruct (aeqb_spec k k0) as [->|Hn]; simpl.
    - intros H. destruct (IH H). split; [right|]; assumption.
    - intros [<-|H]; [split; [left; reflexivity|simpl; congruence]|]. destruct (IH H). split; [right|]; assumption.
  Qed.

  Lemma al_del_nodup m k : NoDup (map fst m) -> NoDup (map fst (al_del m k)).
  Proof.
    induction m as [|[k0 e0] m IH]; simpl; intros H; [constructor|].
    inversion H as [|? ? H1 H2]; subst. destruct (aeqb k k0); simpl; [apply IH; exact H2|].
    constructor; [|apply IH; exact H2]. intros Hin. apply H1.
    apply in_map_iff in Hin as [x [<- Hx]]. apply in_map. apply al_del_In in Hx. tauto.
  Qed.

  Lemma al_get_In m k v : NoDup (map fst m) -> (al_get m k = Some v <-> In (k, v) m).
  Proof.
    induction m as [|[k0 e0] m IH]; simpl; intros Hnd; [split; [discriminate|tauto]|].
    inversion Hnd as [|? ? H1 H2]; subst. destruct (aeqb_spec k k0) as [->|Hn].
    - split.
      + intros H; injection H as ->. left; reflexivity.
      + intros [H|H]; [congruence|]. exfalso. apply H1. apply in_map_iff.
        exists (k0, v). split; [reflexivity|exact H].
    - rewrite (IH H2). split; [intros H; right; exact H|intros [H|H]; [congruence|exact H]].
  Qed.
End Al.

(** The set of a channel's tracked modes stays consistent with the tables. *)
Definition chan_consistent avail table (ch : chan) : Prop :=
  match ch_modes ch with None => True | Some m => modes_consistent avail table m end.

Lemma set_mode_consistent avail table ch c v :
  chan_consistent avail table ch ->
  find_membership avail c = None -> ~ is_sign c ->
  (al_get table c = Some ModeB \/ al_get table c = Some ModeC \/
     (al_get table c = Some ModeD /\ v = [])) ->
  chan_consistent avail table (set_mode ch c v).
Proof.
  intros Hc Hf Hs Ht. unfold chan_consistent, set_mode in *.
  destruct (ch_modes ch) as [m|] eqn:E; [|rewrite E; exact I].
  simpl. destruct Hc as [Hnd Hall]. split; [apply al_set_nodup; exact Hnd|].
  intros c' v' Hin. apply al_set_In in Hin as [He|Hin]; [|apply Hall; exact Hin].
  injection He as -> ->. split; [exact Hf|]. split; assumption.
Qed.

Lemma del_mode_consistent avail table ch c :
  chan_consistent avail table ch -> chan_consistent avail table (del_mode ch c).
Proof.
  intros Hc. unfold chan_consistent, del_mode in *.
  destruct (ch_modes ch) as [m|] eqn:E; [|rewrite E; exact I].
  simpl. destruct Hc as [Hnd Hall]. split; [apply al_del_nodup; exact Hnd|].
  intros c' v' Hin. apply al_del_In in Hin as [Hin _]. apply Hall; exact Hin.
Qed.

Lemma change_member_modes avail ch plus mb member :
  ch_modes (change_member avail ch plus mb member) = ch_modes ch.
Proof. unfold change_member. destruct (cm_get _ _); reflexivity. Qed.

Lemma apply_modes_consistent avail table ch sign s args :
  chan_consistent avail table ch ->
  chan_consistent avail table (fst (apply_modes avail table ch sign s args)).
Proof.
  revert ch sign args; induction s as [|c s IH]; intros ch sign args Hc; simpl; [exact Hc|].
  destruct (aeqb_spec c "+") as [->|H1]; [apply IH; exact Hc|].
  destruct (aeqb_spec c "-") as [->|H2]; [apply IH; exact Hc|].
  assert (Hs : ~ is_sign c) by (intros [?|?]; congruence).
  destruct sign as [plus|]; [|exact Hc].
  destruct (find_membership avail c) as [mb|] eqn:Ef.
  - destruct args as [|member args]; [exact Hc|]. apply IH.
    unfold chan_consistent. rewrite change_member_modes. exact Hc.
  - destruct (al_get table c) as [[| | |]|] eqn:Et; try (apply IH; exact Hc).
    + apply IH. destruct plus; [|apply del_mode_consistent; exact Hc].
      apply set_mode_consistent; auto.
    + destruct plus; apply IH; [|apply del_mode_consistent; exact Hc].
      apply set_mode_consistent; auto.
    + apply IH. destruct plus; [|apply del_mode_consistent; exact Hc].
      apply set_mode_consistent; auto.
Qed.

(** Round trip. *)
Definition sets (kvs : list (ascii * bytes)) (m : list (ascii * bytes)) :=
  fold_left (fun m kv => al_set m (fst kv) (snd kv)) kvs m.

Definition settable avail table (c : ascii) (v : bytes) : Prop :=
  find_membership avail c = None /\ ~ is_sign c /\ (code c < 128)%N /\
  (al_get table c = Some ModeB \/ al_get table c = Some ModeC \/
   (al_get table c = Some ModeD /\ v = [])).

Lemma apply_with_values avail table kvs rest m mem args :
  Forall (fun kv => settable avail table (fst kv) (snd kv) /\ snd kv <> []) kvs ->
  apply_modes avail table (Chan (Some m) mem) (Some true)
    (flat_map (fun kv => utf8_of_byte (fst kv)) kvs ++ rest) (map snd kvs ++ args) =
  apply_modes avail table (Chan (Some (sets kvs m)) mem) (Some true) rest args.
Proof.
  revert m; induction kvs as [|[c v] kvs IH]; intros m Hf; [reflexivity|].
  inversion Hf as [|? ? [(H1 & H2 & H3 & H4) Hv] Hf']; subst. simpl in H1, H2, H3, H4, Hv.
  cbn [flat_map fst map snd sets fold_left]. rewrite utf8_of_byte_ascii by exact H3. cbn [app].
  simpl. destruct (aeqb_spec c "+") as [->|_]; [exfalso; apply H2; left; reflexivity|].
  destruct (aeqb_spec c "-") as [->|_]; [exfalso; apply H2; right; reflexivity|].
  rewrite H1. destruct H4 as [->|[->|[_ H4]]]; [| |congruence]; simpl; unfold set_mode; simpl;
    apply IH; exact Hf'.
Qed.

Lemma apply_without_values avail table kvs m mem :
  Forall (fun kv => settable avail table (fst kv) (snd kv) /\ snd kv = []) kvs ->
  apply_modes avail table (Chan (Some m) mem) (Some true)
    (flat_map (fun kv => utf8_of_byte (fst kv)) kvs) [] =
  (Chan (Some (sets kvs m)) mem, true).
Proof.
  revert m; induction kvs as [|[c v] kvs IH]; intros m Hf; [reflexivity|].
  inversion Hf as [|? ? [(H1 & H2 & H3 & H4) Hv] Hf']; subst. simpl in H1, H2, H3, H4, Hv. subst v.
  cbn [flat_map fst map snd sets fold_left]. rewrite utf8_of_byte_ascii by exact H3. cbn [app].
  simpl. destruct (aeqb_spec c "+") as [->|_]; [exfalso; apply H2; left; reflexivity|].
  destruct (aeqb_spec c "-") as [->|_]; [exfalso; apply H2; right; reflexivity|].
  rewrite H1. destruct H4 as [->|[->|[-> _]]]; simpl; unfold set_mode; simpl; apply IH; exact Hf'.
Qed.

Lemma sets_get kvs m k :
  NoDup (map fst kvs) ->
  al_get (sets kvs m) k = match al_get kvs k with Some v => Some v | None => al_get m k end.
Proof.
  revert m; induction kvs as [|[c v] kvs IH]; intros m Hnd; [reflexivity|].
  inversion Hnd as [|? ? H1 H2]; subst. cbn [sets fold_left fst snd].
  change (fold_left (fun m kv => al_set m (fst kv) (snd kv)) kvs (al_set m c v))
    with (sets kvs (al_set m c v)). rewrite (IH _ H2). simpl.
  rewrite al_get_set. destruct (aeqb_spec k c) as [->|Hn].
  - destruct (al_get kvs c) as [w|] eqn:E; [|reflexivity].
    exfalso. apply H1. apply (al_get_In _ _ _ H2) in E.
    apply in_map_iff. exists (c, w). split; [reflexivity|exact E].
  - reflexivity.
Qed.

Lemma filter_partition_perm {A} (f : A -> bool) l :
  Permutation l (filter f l ++ filter (fun x => negb (f x)) l).
Proof.
  induction l as [|x l IH]; simpl; [constructor|]. destruct (f x); simpl.
  - constructor. exact IH.
  - apply Permutation_cons_app. exact IH.
Qed.

Lemma al_get_perm {V} (a b : list (ascii * V)) k :
  NoDup (map fst a) -> Permutation a b -> al_get a k = al_get b k.
Proof.
  intros Hnd Hp.
  assert (Hnd' : NoDup (map fst b)).
  { eapply Permutation_NoDup; [apply Permutation_map; exact Hp|exact Hnd]. }
  destruct (al_get a k) as [v|] eqn:E.
  - symmetry. apply (al_get_In _ _ _ Hnd'). eapply Permutation_in; [exact Hp|].
    apply (al_get_In _ _ _ Hnd). exact E.
  - destruct (al_get b k) as [v|] eqn:E'; [|reflexivity].
    apply (al_get_In _ _ _ Hnd') in E'. apply Permutation_sym in Hp.
    apply (Permutation_in _ Hp) in E'. apply (al_get_In _ _ _ Hnd) in E'. congruence.
Qed.

Lemma format_apply avail table m order mem :
  modes_consistent avail table m ->
  (forall c v, In (c, v) m -> (code c < 128)%N) ->
  Permutation order m ->
  let (str, params) := format_modes order in
  exists m',
    apply_channel_modes avail table (Chan (Some []) mem) str params = (Chan (Some m') mem, true) /\
    NoDup (map fst m') /\ (forall k, al_get m' k = al_get m k).
Proof.
  intros [Hnd Hall] Hascii Hp. unfold format_modes.
  set (w := filter (fun kv => nonempty (snd kv)) order).
  set (wo := filter (fun kv => negb (nonempty (snd kv))) order).
  assert (Hset : forall kv, In kv order -> settable avail table (fst kv) (snd kv)).
  { intros [c v] Hin. apply (Permutation_in _ Hp) in Hin.
    destruct (Hall c v Hin) as (H1 & H2 & H3). split; [exact H1|]. split; [exact H2|].
    split; [eapply Hascii; exact Hin|exact H3]. }
  exists (sets wo (sets w [])).
  assert (Hpart : Permutation order (w ++ wo)) by apply filter_partition_perm.
  assert (Hndo : NoDup (map fst (w ++ wo))).
  { eapply Permutation_NoDup; [apply Permutation_map; exact Hpart|].
    eapply Permutation_NoDup; [apply Permutation_map; apply Permutation_sym; exact Hp|exact Hnd]. }
  rewrite map_app in Hndo.
  split; [|split].
  - unfold apply_channel_modes. cbn [apply_modes].
    replace (aeqb "+" "+") with true by reflexivity. cbn iota.
    rewrite <- (app_nil_r (map snd w)).
    rewrite apply_with_values.
    + apply apply_without_values. apply Forall_forall. intros kv Hin.
      apply filter_In in Hin as [Hin Hv]. split; [apply Hset; exact Hin|].
      destruct (snd kv); [reflexivity|discriminate].
    + apply Forall_forall. intros kv Hin. apply filter_In in Hin as [Hin Hv].
      split; [apply Hset; exact Hin|]. destruct (snd kv); [discriminate|discriminate].
  - assert (G : forall kvs m0, NoDup (map fst m0) -> NoDup (map fst (sets kvs m0))).
    { clear. intros kvs. induction kvs as [|[c v] kvs IH]; intros m0 H; [exact H|].
      cbn [sets fold_left]. apply IH. apply al_set_nodup. exact H. }
    apply G. apply G. constructor.
  - intros k. assert (Hw : NoDup (map fst w)).
    { clear -Hndo. induction (map fst w) as [|x l IH]; [constructor|].
      simpl in Hndo. inversion Hndo; subst. constructor; [|apply IH; assumption].
      intros Hin. apply H1. apply in_or_app. left; exact Hin. }
    assert (Hwo : NoDup (map fst wo)).
    { clear -Hndo. induction (map fst w) as [|x l IH]; [exact Hndo|].
      simpl in Hndo. inversion Hndo; subst. apply IH; assumption. }
    rewrite (sets_get wo _ _ Hwo), (sets_get w _ _ Hw). simpl.
    transitivity (al_get (wo ++ w) k).
    + clear. induction wo as [|[c v] l IH]; simpl.
      * destruct (al_get w k); reflexivity.
      * destruct (aeqb k c); [reflexivity|exact IH].
    + apply al_get_perm.
      * eapply Permutation_NoDup; [|rewrite <- map_app in Hndo; exact Hndo].
        apply Permutation_map. apply Permutation_app_comm.
      * eapply Permutation_trans; [apply Permutation_app_comm|].
        eapply Permutation_trans; [apply Permutation_sym; exact Hpart|exact Hp].
Qed.

(** ** What a MODE line does *)

Definition mget (ch : chan) (c : ascii) : option bytes :=
  match ch_modes ch with Some m => al_get m c | None => None end.

Lemma al_get_del {V} (m : list (ascii * V)) k k' : al_get (al_del m k) k' = if aeqb k' k then None else al_get m k'.
Proof.
  induction m as [|[k0 v0] m IH]; simpl.
  - destruct (aeqb k' k); reflexivity.
  - destruct (aeqb_spec k k0) as [->|Hn]; simpl.
    + rewrite IH. destruct (aeqb k' k0); reflexivity.
    + rewrite IH. destruct (aeqb_spec k' k0) as [->|Hn'].
      * destruct (aeqb_spec k0 k); [congruence|reflexivity].
      * reflexivity.
Qed.

Lemma find_existsb {A} (f : A -> bool) l : existsb f l = match find f l with Some _ => true | None => false end.
Proof. induction l as [|x l IH]; simpl; [reflexivity|]. destruct (f x); [reflexivity|exact IH]. Qed.

Lemma cm_get_set {V} (t : cmmap V) name v n :
  cm_get (cm_set t name v) n = if beqb (casemap (cm_fold t) name) (casemap (cm_fold t) n) then Some v else cm_get t n.
Proof.
  unfold cm_get, cm_set.
  destruct (gm_lookup (cm_m t) (casemap (cm_fold t) name)) as [e|]; cbn [cm_m cm_fold];
    rewrite Proof.CaseMap.gm_lookup_set, beqb_sym;
    destruct (beqb (casemap (cm_fold t) name) (casemap (cm_fold t) n)); reflexivity.
Qed.

Lemma cm_set_fold {V} (t : cmmap V) name v : cm_fold (cm_set t name v) = cm_fold t.
Proof. unfold cm_set. destruct (gm_lookup _ _); reflexivity. Qed.

Lemma cm_get_equiv {V} (t : cmmap V) n n' : casemap (cm_fold t) n = casemap (cm_fold t) n' -> cm_get t n = cm_get t n'.
Proof. intros H. unfold cm_get. rewrite H. reflexivity. Qed.

(** The change of a tracked letter. *)
Definition new_value (t : mode_type) (plus : bool) (arg : option bytes) : option bytes :=
  if plus then Some (match t with ModeD => [] | _ => match arg with Some a => a | None => [] end end) else None.

Record effect avail table (x : ascii) (cur : option bool) (args : list bytes) (ch ch1 : chan) : Prop := {
  ef_nil : ch_modes ch1 = None <-> ch_modes ch = None;
  ef_other : forall c, c <> x \/ (forall t, ~ tracked avail table c t) -> mget ch1 c = mget ch c;
  ef_mode : forall t plus, tracked avail table x t -> cur = Some plus -> ch_modes ch <> None ->
    mget ch1 x = new_value t plus (hd_error args);
  ef_fold : cm_fold (ch_members ch1) = cm_fold (ch_members ch);
  ef_member : forall n, cm_get (ch_members ch1) n = option_map (fun set => fold_left (ms_step avail)
    (match status_at avail table [x] args cur 0 with
     | Some (w, op) => if beqb (casemap (cm_fold (ch_members ch)) w) (casemap (cm_fold (ch_members ch)) n) then [op] else []
     | None => [] end) set) (cm_get (ch_members ch) n)
}.

Lemma option_map_id {A} (o : option A) : option_map (fun x => x) o = o.
Proof. destruct o; reflexivity. Qed.

Lemma effect_none avail table x cur args ch :
  status_at avail table [x] args cur 0 = None -> (forall t, tracked avail table x t -> cur <> None -> False) ->
  effect avail table x cur args ch ch.
Proof.
  intros Hs Ht. constructor.
  - tauto.
  - reflexivity.
  - intros t plus H1 H2. destruct (Ht t H1). congruence.
  - reflexivity.
  - intros n. rewrite Hs. simpl. rewrite option_map_id. reflexivity.
Qed.

Lemma effect_mode avail table x plus args ch t v ch1 : status_at avail table [x] args (Some plus) 0 = None ->
  tracked avail table x t -> (plus = true -> ch1 = set_mode ch x v) -> (plus = false -> ch1 = del_mode ch x) ->
  new_value t true (hd_error args) = Some v ->
  effect avail table x (Some plus) args ch ch1.
Proof.
  intros Hs Ht Hp Hm Hv.
  assert (Hmem : ch_members ch1 = ch_members ch).
  { destruct plus; [rewrite (Hp eq_refl); unfold set_mode|rewrite (Hm eq_refl); unfold del_mode]; destruct (ch_modes ch); reflexivity. }
  constructor.
  - destruct plus; [rewrite (Hp eq_refl); unfold set_mode|rewrite (Hm eq_refl); unfold del_mode];
      destruct (ch_modes ch) eqn:E; cbn [ch_modes]; rewrite ?E; split; congruence.
  - intros c [Hc|Hc].
    + unfold mget. destruct plus; [rewrite (Hp eq_refl); unfold set_mode|rewrite (Hm eq_refl); unfold del_mode];
        destruct (ch_modes ch) eqn:E; cbn [ch_modes]; rewrite ?E, ?al_get_set, ?al_get_del; try reflexivity;
        destruct (aeqb_spec c x); congruence.
    + unfold mget. assert (Hne : c <> x) by (intros ->; exact (Hc t Ht)).
      destruct plus; [rewrite (Hp eq_refl); unfold set_mode|rewrite (Hm eq_refl); unfold del_mode];
        destruct (ch_modes ch) eqn:E; cbn [ch_modes]; rewrite ?E, ?al_get_set, ?al_get_del; try reflexivity;
        destruct (aeqb_spec c x); congruence.
  - intros t' plus' Ht' E Hn. injection E as <-.
    assert (t' = t) by (destruct Ht as (_ & _ & E1 & _), Ht' as (_ & _ & E2 & _); congruence). subst t'.
    unfold mget. destruct plus; [rewrite (Hp eq_refl); unfold set_mode|rewrite (Hm eq_refl); unfold del_mode];
      destruct (ch_modes ch) eqn:E; try congruence; cbn [ch_modes]; rewrite ?al_get_set, ?al_get_del, aeqb_refl; [congruence|reflexivity].
  - rewrite Hmem. reflexivity.
  - intros n. rewrite Hs, Hmem. simpl. rewrite option_map_id. reflexivity.
Qed.

Lemma effect_status avail table x plus mb who args ch :
  find_membership avail x = Some mb -> ~ is_sign x ->
  effect avail table x (Some plus) (who :: args) ch (change_member avail ch plus mb who).
Proof.
  intros Hf Hs.
  assert (Hnt : forall t, ~ tracked avail table x t).
  { intros t (_ & H & _ & _). unfold find_membership in Hf. apply find_some in Hf as [H1 H2]. apply aeqb_eq in H2. exact (H mb H1 H2). }
  assert (Hsg : aeqb x "+" || aeqb x "-" = false).
  { apply orb_false_iff. split; apply aeqb_neq; intros E; apply Hs; [left|right]; exact E. }
  assert (Hmo : ch_modes (change_member avail ch plus mb who) = ch_modes ch).
  { unfold change_member. destruct (cm_get (ch_members ch) who); reflexivity. }
  constructor.
  - rewrite Hmo. tauto.
  - intros c _. unfold mget. rewrite Hmo. reflexivity.
  - intros t p H. destruct (Hnt t H).
  - unfold change_member. destruct (cm_get (ch_members ch) who); cbn [ch_members]; [apply cm_set_fold|reflexivity].
  - intros n. unfold status_at, arg_at, arg_no. cbn [nth_error]. rewrite Hsg. unfold find_membership in Hf. rewrite Hf.
    unfold sign_at. unfold change_member. destruct (cm_get (ch_members ch) who) as [m|] eqn:Ew.
    + cbn [ch_members]. rewrite cm_get_set.
      destruct (beqb_spec (casemap (cm_fold (ch_members ch)) who) (casemap (cm_fold (ch_members ch)) n)) as [E|E].
      * rewrite <- (cm_get_equiv _ _ _ E), Ew. cbn [option_map].
        destruct plus; destruct (beqb_spec (casemap (cm_fold (ch_members ch)) who) (casemap (cm_fold (ch_members ch)) n)); try congruence; reflexivity.
      * destruct plus; destruct (beqb_spec (casemap (cm_fold (ch_members ch)) who) (casemap (cm_fold (ch_members ch)) n)); try congruence;
          cbn [fold_left]; rewrite option_map_id; reflexivity.
    + destruct plus;
        (destruct (beqb_spec (casemap (cm_fold (ch_members ch)) who) (casemap (cm_fold (ch_members ch)) n)) as [E|E];
         [rewrite <- (cm_get_equiv _ _ _ E), Ew; reflexivity|cbn [fold_left]; rewrite option_map_id; reflexivity]).
Qed.

(** One letter. *)
Lemma apply_step avail table ch cur x s args ch' :
  apply_modes avail table ch cur (x :: s) args = (ch', true) ->
  exists ch1, effect avail table x cur args ch ch1 /\
    (cur = None -> is_sign x) /\
    apply_modes avail table ch1 (step_sign x cur) s (if takes_arg avail table x cur then tl args else args) = (ch', true).
Proof.
  intros H. cbn [apply_modes] in H. unfold step_sign, takes_arg.
  destruct (aeqb_spec x "+") as [->|H1].
  { exists ch. split; [|split].
    - apply effect_none; [reflexivity|]. intros t (Hs & _) _. apply Hs. left. reflexivity.
    - intros _. left. reflexivity.
    - destruct cur; exact H. }
  destruct (aeqb_spec x "-") as [->|H2].
  { exists ch. split; [|split].
    - apply effect_none; [reflexivity|]. intros t (Hs & _) _. apply Hs. right. reflexivity.
    - intros _. right. reflexivity.
    - destruct cur; exact H. }
  assert (Hs : ~ is_sign x) by (intros [?|?]; congruence).
  destruct cur as [plus|]; [|discriminate]. cbn [orb].
  assert (Hsg : aeqb x "+" || aeqb x "-" = false).
  { apply orb_false_iff. split; apply aeqb_neq; assumption. }
  rewrite find_existsb. unfold find_membership in H. destruct (find (fun m => aeqb (mb_mode m) x) avail) as [mb|] eqn:Ef.
  { destruct args as [|who args]; [discriminate|].
    exists (change_member avail ch plus mb who). split; [exact (effect_status _ _ _ _ _ _ _ _ Ef Hs)|].
    split; [discriminate|exact H]. }
  assert (Hst : status_at avail table [x] args (Some plus) 0 = None).
  { unfold status_at. cbn [nth_error]. rewrite Hsg, Ef. reflexivity. }
  assert (Hna : forall mb, In mb avail -> mb_mode mb <> x).
  { intros mb Hin E. apply (find_none _ _ Ef) in Hin. apply aeqb_neq in Hin. exact (Hin E). }
  destruct (al_get table x) as [t|] eqn:Et.
  - destruct t.
    + exists ch. split; [|split; [discriminate|exact H]].
      apply effect_none; [exact Hst|]. intros t (_ & _ & E & Hn) _. congruence.
    + exists (if plus then set_mode ch x (match args with a :: _ => a | [] => [] end) else del_mode ch x).
      split; [|split; [discriminate|exact H]].
      apply (effect_mode _ _ _ _ _ _ ModeB (match args with a :: _ => a | [] => [] end)); try exact Hst.
      * split; [exact Hs|]. split; [exact Hna|]. split; [exact Et|discriminate].
      * intros ->. reflexivity.
      * intros ->. reflexivity.
      * destruct args; reflexivity.
    + exists (if plus then set_mode ch x (match args with a :: _ => a | [] => [] end) else del_mode ch x).
      split; [|split; [discriminate|destruct plus; exact H]].
      apply (effect_mode _ _ _ _ _ _ ModeC (match args with a :: _ => a | [] => [] end)); try exact Hst.
      * split; [exact Hs|]. split; [exact Hna|]. split; [exact Et|discriminate].
      * intros ->. reflexivity.
      * intros ->. reflexivity.
      * destruct args; reflexivity.
    + exists (if plus then set_mode ch x [] else del_mode ch x).
      split; [|split; [discriminate|exact H]].
      apply (effect_mode _ _ _ _ _ _ ModeD []); try exact Hst.
      * split; [exact Hs|]. split; [exact Hna|]. split; [exact Et|discriminate].
      * intros ->. reflexivity.
      * intros ->. reflexivity.
      * reflexivity.
  - exists ch. split; [|split; [discriminate|exact H]].
    apply effect_none; [exact Hst|]. intros t (_ & _ & E & _) _. congruence.
Qed.

(** Letters that do not occur, or are not tracked, keep their value. *)
Lemma line_other avail table s : forall ch cur args ch' c,
  apply_modes avail table ch cur s args = (ch', true) ->
  ~ In c s \/ (forall t, ~ tracked avail table c t) -> mget ch' c = mget ch c.
Proof.
  induction s as [|x s IH]; intros ch cur args ch' c H Hc.
  - cbn [apply_modes] in H. injection H as <-. reflexivity.
  - destruct (apply_step _ _ _ _ _ _ _ _ H) as (ch1 & He & _ & H1).
    rewrite (IH _ _ _ _ c H1).
    + apply (ef_other _ _ _ _ _ _ _ He). destruct Hc as [Hc|Hc]; [left; intros ->; apply Hc; left; reflexivity|right; exact Hc].
    + destruct Hc as [Hc|Hc]; [left; intros Hin; apply Hc; right; exact Hin|right; exact Hc].
Qed.

Lemma nth_error_tl {A} (l : list A) k : nth_error (tl l) k = nth_error l (S k).
Proof. destruct l; [destruct k; reflexivity|reflexivity]. Qed.

Lemma nth_error_hd {A} (l : list A) : nth_error l 0 = hd_error l.
Proof. destruct l; reflexivity. Qed.

Lemma arg_at_S avail table x s args cur i :
  arg_at avail table (x :: s) args cur (S i) =
  arg_at avail table s (if takes_arg avail table x cur then tl args else args) (step_sign x cur) i.
Proof.
  unfold arg_at. cbn [arg_no]. fold (step_sign x cur). destruct (takes_arg avail table x cur); cbn [Nat.add]; [|reflexivity].
  rewrite nth_error_tl. reflexivity.
Qed.

(** The last occurrence of a tracked letter decides. *)
Lemma line_last avail table s : forall ch cur args ch' c t i,
  apply_modes avail table ch cur s args = (ch', true) -> ch_modes ch <> None ->
  tracked avail table c t -> nth_error s i = Some c -> (forall j, i < j -> nth_error s j <> Some c) ->
  exists plus, sign_at s cur i = Some plus /\ mget ch' c = new_value t plus (arg_at avail table s args cur i).
Proof.
  induction s as [|x s IH]; intros ch cur args ch' c t i H Hn Ht Hi Hl; [destruct i; discriminate|].
  destruct (apply_step _ _ _ _ _ _ _ _ H) as (ch1 & He & Hcur & H1).
  destruct i as [|i].
  - cbn [nth_error] in Hi. injection Hi as ->. rewrite sign_at_0.
    destruct cur as [plus|]; [|destruct Ht as [Hs _]; destruct (Hs (Hcur eq_refl))].
    exists plus. split; [reflexivity|].
    rewrite (line_other avail table s _ _ _ _ c H1).
    + unfold arg_at. cbn [arg_no]. rewrite nth_error_hd. exact (ef_mode _ _ _ _ _ _ _ He t plus Ht eq_refl Hn).
    + left. intros Hin. apply In_nth_error in Hin as [j Hj]. exact (Hl (S j) ltac:(lia) Hj).
  - cbn [nth_error] in Hi. rewrite sign_at_S, arg_at_S.
    apply (IH ch1 _ _ ch' c t i H1); [|exact Ht|exact Hi|].
    + intros E. apply Hn. apply (ef_nil _ _ _ _ _ _ _ He). exact E.
    + intros j Hj. apply (Hl (S j)). lia.
Qed.

Lemma status_at_0 avail table x s args cur : status_at avail table (x :: s) args cur 0 = status_at avail table [x] args cur 0.
Proof. reflexivity. Qed.

Lemma status_at_S avail table x s args cur i :
  status_at avail table (x :: s) args cur (S i) =
  status_at avail table s (if takes_arg avail table x cur then tl args else args) (step_sign x cur) i.
Proof. unfold status_at. cbn [nth_error]. rewrite arg_at_S, sign_at_S. reflexivity. Qed.

Lemma status_changes_cons avail table x s args cur cm n :
  status_changes avail table (x :: s) args cur cm n =
  (match status_at avail table [x] args cur 0 with
   | Some (w, op) => if beqb (casemap cm w) (casemap cm n) then [op] else []
   | None => [] end) ++
  status_changes avail table s (if takes_arg avail table x cur then tl args else args) (step_sign x cur) cm n.
Proof.
  unfold status_changes. cbn [length seq flat_map]. rewrite status_at_0. f_equal.
  rewrite <- seq_shift, flat_map_concat_map, map_map, <- flat_map_concat_map. apply flat_map_ext. intros i. rewrite status_at_S. reflexivity.
Qed.

(** The statuses of the members. *)
Lemma line_members avail table s : forall ch cur args ch',
  apply_modes avail table ch cur s args = (ch', true) ->
  cm_fold (ch_members ch') = cm_fold (ch_members ch) /\
  forall n, cm_get (ch_members ch') n =
    option_map (fun set => fold_left (ms_step avail) (status_changes avail table s args cur (cm_fold (ch_members ch)) n) set) (cm_get (ch_members ch) n).
Proof.
  induction s as [|x s IH]; intros ch cur args ch' H.
  - cbn [apply_modes] in H. injection H as <-. split; [reflexivity|]. intros n. cbn. rewrite option_map_id. reflexivity.
  - destruct (apply_step _ _ _ _ _ _ _ _ H) as (ch1 & He & _ & H1).
    destruct (IH _ _ _ _ H1) as [Hf Hm]. split; [rewrite Hf; exact (ef_fold _ _ _ _ _ _ _ He)|].
    intros n. rewrite Hm, (ef_member _ _ _ _ _ _ _ He n), (ef_fold _ _ _ _ _ _ _ He), status_changes_cons.
    destruct (cm_get (ch_members ch) n) as [set|]; cbn [option_map]; [|reflexivity].
    rewrite fold_left_app. reflexivity.
Qed.

(** A line fails when a letter comes before any sign, or a status lacks its argument. *)
Lemma line_fails avail table s : forall ch cur args,
  snd (apply_modes avail table ch cur s args) = false <->
  malformed_from s cur \/
  exists i c mb, nth_error s i = Some c /\ ~ is_sign c /\ find (fun m => aeqb (mb_mode m) c) avail = Some mb /\
    arg_at avail table s args cur i = None.
Proof.
  induction s as [|x s IH]; intros ch cur args.
  - cbn. split; [discriminate|]. intros [(i & c & H & _)|(i & c & mb & H & _)]; destruct i; discriminate.
  - assert (Hrec : forall ch1, snd (apply_modes avail table ch1 (step_sign x cur) s (if takes_arg avail table x cur then tl args else args)) = false <->
      malformed_from s (step_sign x cur) \/
      exists i c mb, nth_error s i = Some c /\ ~ is_sign c /\ find (fun m => aeqb (mb_mode m) c) avail = Some mb /\
        arg_at avail table (x :: s) args cur (S i) = None).
    { intros ch1. rewrite IH. split; (intros [Hm|(i & c & mb & A1 & A2 & A3 & A4)]; [left; exact Hm|right; exists i, c, mb]).
      - rewrite arg_at_S. auto.
      - rewrite arg_at_S in A4. auto. }
    assert (Hsplit : (exists i c mb, nth_error (x :: s) i = Some c /\ ~ is_sign c /\ find (fun m => aeqb (mb_mode m) c) avail = Some mb /\
        arg_at avail table (x :: s) args cur i = None) <->
      (~ is_sign x /\ (exists mb, find (fun m => aeqb (mb_mode m) x) avail = Some mb) /\ args = []) \/
      exists i c mb, nth_error s i = Some c /\ ~ is_sign c /\ find (fun m => aeqb (mb_mode m) c) avail = Some mb /\
        arg_at avail table (x :: s) args cur (S i) = None).
    { split.
      - intros (i & c & mb & A1 & A2 & A3 & A4). destruct i as [|i].
        + left. cbn [nth_error] in A1. injection A1 as ->. split; [exact A2|]. split; [exists mb; exact A3|].
          unfold arg_at in A4. cbn [arg_no] in A4. destruct args; [reflexivity|discriminate].
        + right. exists i, c, mb. auto.
      - intros [(A1 & [mb A2] & ->)|(i & c & mb & A)].
        + exists 0, x, mb. split; [reflexivity|]. split; [exact A1|]. split; [exact A2|]. reflexivity.
        + exists (S i), c, mb. exact A. }
    rewrite Hsplit, malformed_cons. cbn [apply_modes]. unfold takes_arg, step_sign in *.
    destruct (aeqb_spec x "+") as [->|H1].
    { assert (Hs : is_sign "+") by (left; reflexivity). destruct cur; rewrite Hrec; tauto. }
    destruct (aeqb_spec x "-") as [->|H2].
    { assert (Hs : is_sign "-") by (right; reflexivity). destruct cur; rewrite Hrec; tauto. }
    assert (Hs : ~ is_sign x) by (intros [?|?]; congruence).
    destruct cur as [plus|]; [|cbn [snd]; tauto]. cbn [orb] in Hrec. rewrite find_existsb in Hrec.
    unfold find_membership. destruct (find (fun m => aeqb (mb_mode m) x) avail) as [mb|] eqn:Ef.
    { destruct args as [|who args].
      - cbn [snd]. split; [|reflexivity]. intros _. right. left. split; [exact Hs|]. split; [exists mb; reflexivity|reflexivity].
      - cbn [tl] in Hrec. rewrite Hrec. split; [intros [H|H]; [left; right; exact H|right; right; exact H]|].
        intros [[[_ H]|H]|[(_ & _ & H)|H]]; try discriminate; [left; exact H|right; exact H]. }
    assert (Hno : ~ (~ is_sign x /\ (exists mb, @None membership = Some mb) /\ args = [])).
    { intros (_ & [mb H] & _). discriminate. }
    destruct (al_get table x) as [[| | |]|]; try destruct plus; rewrite Hrec;
      (split; [intros [H|H]; [left; right; exact H|right; right; exact H]|
               intros [[[_ H]|H]|[H|H]]; [discriminate|left; exact H|destruct (Hno H)|right; exact H]]).
Qed.

Lemma line_nil avail table s : forall ch cur args ch',
  apply_modes avail table ch cur s args = (ch', true) -> ch_modes ch' = None <-> ch_modes ch = None.
Proof.
  induction s as [|x s IH]; intros ch cur args ch' H.
  - cbn [apply_modes] in H. injection H as <-. reflexivity.
  - destruct (apply_step _ _ _ _ _ _ _ _ H) as (ch1 & He & _ & H1).
    rewrite (IH _ _ _ _ H1). exact (ef_nil _ _ _ _ _ _ _ He).
Qed.
