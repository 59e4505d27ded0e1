From Verif.Base Require Import Bytes.
From Verif.Model Require Import Caps.
From Verif.Spec Require Import Caps.
From Coq Require Import ZArith Permutation.
Open Scope nat_scope.

(** ** Maps and sets *)

Lemma bget_set m k v k' : bget (bset m k v) k' = if beqb k k' then Some v else bget m k'.
Proof.
  induction m as [|[k0 v0] m IH]; cbn [bset bget].
  - destruct (beqb k k'); reflexivity.
  - destruct (beqb_spec k0 k) as [->|Hn]; cbn [bget].
    + destruct (beqb_spec k k'); reflexivity.
    + rewrite IH. destruct (beqb_spec k0 k') as [->|Hn']; [|reflexivity].
      destruct (beqb_spec k k'); [congruence|reflexivity].
Qed.

Lemma bget_del m k k' : bget (bdel m k) k' = if beqb k k' then None else bget m k'.
Proof.
  unfold bdel. induction m as [|[k0 v0] m IH]; cbn [filter bget].
  - destruct (beqb k k'); reflexivity.
  - cbn [fst]. destruct (beqb_spec k0 k) as [->|Hn]; cbn [negb bget].
    + rewrite IH. destruct (beqb k k'); reflexivity.
    + rewrite IH. destruct (beqb_spec k0 k') as [->|Hn']; [|reflexivity].
      destruct (beqb_spec k k'); [congruence|reflexivity].
Qed.

Lemma bget_In m k v : bget m k = Some v -> In (k, v) m.
Proof.
  induction m as [|[k0 v0] m IH]; cbn [bget]; [discriminate|].
  destruct (beqb_spec k0 k) as [->|Hn]; [injection 1 as ->; left; reflexivity|]. intros H. right. exact (IH H).
Qed.

Lemma bget_None m k : bget m k = None <-> ~ In k (map fst m).
Proof.
  induction m as [|[k0 v0] m IH]; cbn [bget map fst]; [split; [intros _ []|reflexivity]|].
  destruct (beqb_spec k0 k) as [->|Hn].
  - split; [discriminate|]. intros H. exfalso. apply H. left. reflexivity.
  - rewrite IH. split; [intros H [E|Hi]; [exact (Hn E)|exact (H Hi)]|intros H Hi; apply H; right; exact Hi].
Qed.

Lemma In_bget m k v : NoDup (map fst m) -> In (k, v) m -> bget m k = Some v.
Proof.
  induction m as [|[k0 v0] m IH]; cbn [map fst bget]; [intros _ []|].
  intros Hnd. apply NoDup_cons_iff in Hnd as [Hn Hnd]. intros [E|Hi].
  - injection E as -> ->. rewrite beqb_refl. reflexivity.
  - destruct (beqb_spec k0 k) as [->|Hd]; [|exact (IH Hnd Hi)].
    exfalso. apply Hn. apply (in_map fst) in Hi. exact Hi.
Qed.

Lemma bset_keys m k v x : In x (map fst (bset m k v)) <-> x = k \/ In x (map fst m).
Proof.
  assert (H : forall y, In y (map fst (bset m k v)) <-> bget (bset m k v) y <> None).
  { intros y. destruct (bget (bset m k v) y) eqn:E.
    - split; [discriminate|]. intros _. apply bget_In in E. apply (in_map fst) in E. exact E.
    - apply bget_None in E. split; [intros Hi; destruct (E Hi)|congruence]. }
  rewrite H, bget_set. destruct (beqb_spec k x) as [->|Hn].
  - split; [left; reflexivity|discriminate].
  - destruct (bget m x) eqn:E.
    + apply bget_In in E. apply (in_map fst) in E. split; [intros _; right; exact E|discriminate].
    + apply bget_None in E. split; [congruence|]. intros [->|Hi]; [congruence|destruct (E Hi)].
Qed.

Lemma bset_nodup m k v : NoDup (map fst m) -> NoDup (map fst (bset m k v)).
Proof.
  induction m as [|[k0 v0] m IH]; cbn [bset map fst]; intros Hnd.
  - constructor; [intros []|constructor].
  - apply NoDup_cons_iff in Hnd as [Hn Hnd]. destruct (beqb_spec k0 k) as [->|Hd]; cbn [map fst].
    + constructor; assumption.
    + constructor; [|exact (IH Hnd)]. rewrite bset_keys. intros [E|Hi]; [exact (Hd E)|exact (Hn Hi)].
Qed.

Lemma bdel_nodup m k : NoDup (map fst m) -> NoDup (map fst (bdel m k)).
Proof.
  unfold bdel. induction m as [|[k0 v0] m IH]; cbn [filter map fst]; intros Hnd; [constructor|].
  apply NoDup_cons_iff in Hnd as [Hn Hnd]. destruct (negb (beqb k0 k)); cbn [map fst]; [|exact (IH Hnd)].
  constructor; [|exact (IH Hnd)]. intros Hi. apply Hn. apply in_map_iff in Hi as (p & E & Hp). apply filter_In in Hp as [Hp _].
  rewrite <- E. apply in_map. exact Hp.
Qed.

Lemma find_bget m k : option_map snd (find (fun p : bytes * bytes => beqb (fst p) k) m) = bget m k.
Proof.
  induction m as [|[k0 v0] m IH]; cbn [find bget fst]; [reflexivity|]. destruct (beqb k0 k); [reflexivity|exact IH].
Qed.

Lemma bget_perm m m' k : NoDup (map fst m) -> Permutation m m' -> bget m' k = bget m k.
Proof.
  intros Hnd Hp.
  assert (Hnd' : NoDup (map fst m')) by (apply (Permutation_NoDup (l := map fst m)); [apply Permutation_map; exact Hp|exact Hnd]).
  destruct (bget m k) as [v|] eqn:E.
  - apply bget_In in E. apply In_bget; [exact Hnd'|]. exact (Permutation_in _ Hp E).
  - apply bget_None. apply bget_None in E. intros Hi. apply E.
    apply (Permutation_in (l := map fst m')); [apply Permutation_map; apply Permutation_sym; exact Hp|exact Hi].
Qed.

Lemma set_enabled_In en n b x : In x (set_enabled en n b) <-> if beqb n x then b = true else In x en.
Proof.
  unfold set_enabled. destruct b.
  - destruct (bmem n en) eqn:E.
    + apply bmem_In in E. destruct (beqb_spec n x) as [->|Hn]; [tauto|tauto].
    + rewrite in_app_iff. cbn [In]. destruct (beqb_spec n x) as [->|Hn]; [tauto|]. split; [intros [H|[H|[]]]; [exact H|congruence]|left; assumption].
  - rewrite filter_In, negb_true_iff, beqb_neq. destruct (beqb_spec n x) as [->|Hn]; [split; [intros [_ H]; congruence|discriminate]|].
    split; [tauto|]. intros H. split; [exact H|congruence].
Qed.

Lemma believe_In en x n : In n (believe en x) <-> if beqb (fst x) n then snd x = true else In n en.
Proof.
  unfold believe. destruct x as [k b]. cbn [fst snd]. destruct b.
  - cbn [In]. destruct (beqb_spec k n) as [->|Hn]; [tauto|]. split; [intros [H|H]; [congruence|exact H]|tauto].
  - rewrite filter_In, negb_true_iff, beqb_neq. destruct (beqb_spec k n) as [->|Hn].
    + split; [intros [_ H]; congruence|discriminate].
    + split; [tauto|]. intros H. split; [exact H|congruence].
Qed.

(** The last mention of a name decides. *)
Lemma fold_last (f : list bytes -> bytes * bool -> list bytes) :
  (forall en x n, In n (f en x) <-> if beqb (fst x) n then snd x = true else In n en) ->
  forall l en n, coherent l ->
  (forall b, In (n, b) l -> (In n (fold_left f l en) <-> b = true)) /\
  ((forall b, ~ In (n, b) l) -> (In n (fold_left f l en) <-> In n en)).
Proof.
  intros Hf l. induction l as [|[k b0] l IH] using rev_ind; intros en n Hc.
  - split; [intros b []|intros _; reflexivity].
  - assert (Hc' : coherent l).
    { intros m b b' H1 H2. apply (Hc m); apply in_app_iff; left; assumption. }
    rewrite fold_left_app. cbn [fold_left]. split.
    + intros b Hin. rewrite Hf. cbn [fst snd]. destruct (beqb_spec k n) as [->|Hn].
      * assert (b = b0) as -> by (apply (Hc n); [exact Hin|apply in_app_iff; right; left; reflexivity]). reflexivity.
      * apply in_app_iff in Hin as [Hin|[E|[]]]; [|congruence]. apply (proj1 (IH en n Hc')). exact Hin.
    + intros Hno. rewrite Hf. cbn [fst snd]. destruct (beqb_spec k n) as [->|Hn].
      * destruct (Hno b0). apply in_app_iff. right. left. reflexivity.
      * apply (proj2 (IH en n Hc')). intros b Hin. apply (Hno b). apply in_app_iff. left. exact Hin.
Qed.

(** ** Requests *)

Definition refused_b (s : cstate) (x : bytes * bool) : bool :=
  negb (Bool.eqb (snd x) (is_enabled s (fst x))) &&
  (negb (is_available s (fst x)) || (beqb (fst x) (B "cap-notify") && Z.leb 302 (cs_version s) && negb (snd x)) ||
   beqb (fst x) (B "soju.im/account-required")).
Definition differs (s : cstate) (x : bytes * bool) : bool := negb (Bool.eqb (snd x) (is_enabled s (fst x))).

Lemma refused_b_iff s x : refused_b s x = true <-> refused s x.
Proof.
  unfold refused_b, refused. rewrite andb_true_iff, !orb_true_iff, !andb_true_iff, !negb_true_iff, !beqb_eq, Z.leb_le, eqb_false_iff. tauto.
Qed.

Lemma req_loop_eq s toks : forall m,
  req_loop s toks m = if existsb (refused_b s) (map req_token toks) then None
                      else Some (m ++ filter (differs s) (map req_token toks)).
Proof.
  induction toks as [|t toks IH]; intros m; cbn [req_loop map existsb filter].
  - rewrite app_nil_r. reflexivity.
  - destruct (req_token t) as [name enable]. unfold refused_b at 1, differs at 1. cbn [fst snd].
    destruct (Bool.eqb enable (is_enabled s name)); cbn [negb andb]; [exact (IH m)|].
    destruct (is_available s name); cbn [negb orb]; [|reflexivity].
    destruct (beqb name (B "cap-notify") && Z.leb 302 (cs_version s) && negb enable); cbn [orb]; [reflexivity|].
    destruct (beqb name (B "soju.im/account-required")); cbn [orb]; [reflexivity|].
    rewrite IH. destruct (existsb (refused_b s) (map req_token toks)); [reflexivity|]. rewrite <- app_assoc. reflexivity.
Qed.

Lemma set_negotiating_enabled s b : cs_enabled (set_negotiating s b) = cs_enabled s.
Proof. unfold set_negotiating. destruct (cs_registered s); reflexivity. Qed.
Lemma set_negotiating_avail s b : cs_avail (set_negotiating s b) = cs_avail s.
Proof. unfold set_negotiating. destruct (cs_registered s); reflexivity. Qed.
Lemma set_negotiating_version s b : cs_version (set_negotiating s b) = cs_version s.
Proof. unfold set_negotiating. destruct (cs_registered s); reflexivity. Qed.
Lemma set_negotiating_registered s b : cs_registered (set_negotiating s b) = cs_registered s.
Proof. unfold set_negotiating. destruct (cs_registered s) eqn:E; [exact E|reflexivity]. Qed.

Lemma coherent_filter f l : coherent l -> coherent (filter f l).
Proof. intros H n b b' H1 H2. apply filter_In in H1 as [H1 _], H2 as [H2 _]. exact (H n b b' H1 H2). Qed.

Lemma cap_req_spec s a rest s' outs :
  cap_req s (a :: rest) = (s', outs) ->
  cs_avail s' = cs_avail s /\ cs_version s' = cs_version s /\
  ((exists x, In x (wanted a) /\ refused s x) /\ outs = [Cap (B "NAK") a] /\ cs_enabled s' = cs_enabled s \/
   (forall x, In x (wanted a) -> ~ refused s x) /\ outs = [Cap (B "ACK") a] /\
   cs_enabled s' = fold_left (fun en x => set_enabled en (fst x) (snd x)) (filter (differs s) (wanted a)) (cs_enabled s)).
Proof.
  unfold cap_req. rewrite req_loop_eq. fold (wanted a). destruct (existsb (refused_b s) (wanted a)) eqn:E; intros H; injection H as <- <-.
  - rewrite set_negotiating_avail, set_negotiating_version, set_negotiating_enabled. split; [reflexivity|]. split; [reflexivity|]. left.
    apply existsb_exists in E as (x & Hx & E). split; [|split; reflexivity]. exists x. split; [exact Hx|apply refused_b_iff; exact E].
  - rewrite set_negotiating_avail, set_negotiating_version, set_negotiating_enabled. split; [reflexivity|]. split; [reflexivity|]. right.
    split; [|split; reflexivity]. intros x Hx Hr. apply refused_b_iff in Hr.
    assert (E' : existsb (refused_b s) (wanted a) = true) by (apply existsb_exists; exists x; split; assumption).
    congruence.
Qed.

Lemma enabled_after s l n : coherent l ->
  (forall b, In (n, b) l -> (In n (fold_left (fun en x => set_enabled en (fst x) (snd x)) (filter (differs s) l) (cs_enabled s)) <-> b = true)) /\
  ((forall b, ~ In (n, b) l) -> (In n (fold_left (fun en x => set_enabled en (fst x) (snd x)) (filter (differs s) l) (cs_enabled s)) <-> In n (cs_enabled s))).
Proof.
  intros Hc.
  destruct (fold_last (fun en x => set_enabled en (fst x) (snd x)) (fun en x n => set_enabled_In en (fst x) (snd x) n)
    (filter (differs s) l) (cs_enabled s) n (coherent_filter _ _ Hc)) as [H1 H2].
  split.
  - intros b Hin. destruct (differs s (n, b)) eqn:E.
    + apply H1. apply filter_In. split; assumption.
    + rewrite H2.
      * unfold differs in E. cbn [fst snd] in E. apply negb_false_iff, eqb_prop in E. rewrite E. unfold is_enabled. rewrite bmem_In. tauto.
      * intros b' Hin'. apply filter_In in Hin' as [Hin' E']. assert (b' = b) as -> by (apply (Hc n); assumption). congruence.
  - intros Hno. apply H2. intros b Hin. apply filter_In in Hin as [Hin _]. exact (Hno b Hin).
Qed.

(** ** Names *)

Definition plain_name (k : bytes) : Prop := k <> [] /\ ~ In " "%char k /\ ~ In "="%char k.
Definition plain_b (k : bytes) : bool := negb (beqb k []) && negb (amem " " k) && negb (amem "=" k).
Lemma plain_b_iff k : plain_b k = true <-> plain_name k.
Proof.
  unfold plain_b, plain_name. rewrite !andb_true_iff, !negb_true_iff, beqb_neq, !amem_nIn. tauto.
Qed.

Definition wf_map (m : list (bytes * bytes)) : Prop :=
  NoDup (map fst m) /\ Forall (fun kv => plain_name (fst kv) /\ ~ In " "%char (snd kv)) m.

Lemma wf_set m k v : wf_map m -> plain_name k -> ~ In " "%char v -> wf_map (bset m k v).
Proof.
  intros [Hnd Hf] Hk Hv. split; [apply bset_nodup; exact Hnd|].
  clear Hnd. induction m as [|[k0 v0] m IH]; cbn [bset].
  - constructor; [split; assumption|constructor].
  - apply Forall_cons_iff in Hf as [[H1 H2] Hf]. destruct (beqb k0 k).
    + constructor; [split; assumption|exact Hf].
    + constructor; [split; assumption|exact (IH Hf)].
Qed.

Lemma wf_del m k : wf_map m -> wf_map (bdel m k).
Proof.
  intros [Hnd Hf]. split; [apply bdel_nodup; exact Hnd|].
  rewrite Forall_forall in *. intros x Hx. apply filter_In in Hx as [Hx _]. exact (Hf x Hx).
Qed.

Lemma wf_sets m ks : wf_map m -> (forall k, In k ks -> plain_name k) -> wf_map (fold_left (fun m k => bset m k []) ks m).
Proof.
  revert m. induction ks as [|k ks IH]; intros m Hm Hk; [exact Hm|]. cbn [fold_left]. apply IH.
  - apply wf_set; [exact Hm|apply Hk; left; reflexivity|intros []].
  - intros k' H. apply Hk. right. exact H.
Qed.

Lemma need_all_plain k : In k need_all_caps -> plain_name k.
Proof.
  intros H. apply plain_b_iff. assert (E : forallb plain_b need_all_caps = true) by (vm_compute; reflexivity).
  rewrite forallb_forall in E. exact (E k H).
Qed.

Lemma need_all_facts k : In k need_all_caps -> k <> B "cap-notify" /\ k <> B "soju.im/account-required".
Proof.
  intros H. assert (E : forallb (fun k => negb (beqb k (B "cap-notify")) && negb (beqb k (B "soju.im/account-required"))) need_all_caps = true) by (vm_compute; reflexivity).
  rewrite forallb_forall in E. specialize (E k H). apply andb_true_iff in E as [E1 E2]. apply negb_true_iff, beqb_neq in E1, E2. split; assumption.
Qed.

Lemma wf_new plain oauth store : wf_map (cs_avail (new_caps plain oauth store)).
Proof.
  assert (H : forall m, (forallb (fun kv => plain_b (fst kv) && negb (amem " " (snd kv))) m &&
    (length (nodup bytes_dec (map fst m)) =? length m)) = true -> wf_map m).
  { intros m H. apply andb_true_iff in H as [H1 H2]. split.
    - apply Nat.eqb_eq in H2. rewrite <- (map_length fst m) in H2.
      assert (Hs : incl (map fst m) (nodup bytes_dec (map fst m))) by (intros x Hx; apply nodup_In; exact Hx).
      apply (NoDup_incl_NoDup (l := nodup bytes_dec (map fst m))); [apply NoDup_nodup|lia|].
      intros x Hx. apply nodup_In in Hx. exact Hx.
    - rewrite forallb_forall in H1. rewrite Forall_forall. intros x Hx. specialize (H1 x Hx).
      apply andb_true_iff in H1 as [A1 A2]. apply plain_b_iff in A1. apply negb_true_iff, amem_nIn in A2. split; assumption. }
  apply H. destruct plain, oauth, store; vm_compute; reflexivity.
Qed.

(** ** The changes of updateSupportedCaps *)

Definition good_change (c : bytes * option bytes) : Prop :=
  plain_name (fst c) /\ fst c <> B "cap-notify" /\ fst c <> B "soju.im/account-required" /\
  match snd c with Some v => ~ In " "%char v | None => True end.

Lemma join_chars sep l c : In c (join sep l) -> In c sep \/ exists x, In x l /\ In c x.
Proof.
  induction l as [|x l IH]; cbn [join]; [intros []|].
  destruct l as [|y l].
  - intros H. right. exists x. split; [left; reflexivity|exact H].
  - rewrite !in_app_iff. intros [H|[H|H]].
    + right. exists x. split; [left; reflexivity|exact H].
    + left. exact H.
    + destruct (IH H) as [H'|(z & Hz & H')]; [left; exact H'|right; exists z; split; [right; exact Hz|exact H']].
Qed.

Lemma split_chars sep s x c : In x (split_on sep s) -> In c x -> In c s.
Proof.
  intros Hx Hc. rewrite <- (join_split sep s).
  assert (H : forall l, In x l -> In c (join [sep] l)).
  { induction l as [|y l IH]; [intros []|]. cbn [join]. destruct l as [|z l].
    - intros [->|[]]. exact Hc.
    - intros [->|H]; apply in_app_iff; [left; exact Hc|right; apply in_app_iff; right; exact (IH H)]. }
  exact (H _ Hx).
Qed.

Lemma strip_sub l x : In x (strip_before_connect l) -> In x l.
Proof.
  induction l as [|y l IH]; cbn [strip_before_connect]; [intros []|].
  destruct (beqb y (B "before-connect")); [intros H; right; exact H|].
  intros [->|H]; [left; reflexivity|right; exact (IH H)].
Qed.

Lemma changes_good names bound up hist :
  valid_ev (EUpdate names bound up hist) -> Forall good_change (supported_changes names bound up hist).
Proof.
  intros [Hp Hu]. unfold supported_changes. apply Forall_app. split; [|apply Forall_app; split].
  - rewrite Forall_forall. intros c Hc. apply in_map_iff in Hc as (n & <- & Hn).
    apply (Permutation_in _ Hp) in Hn. split; [exact (need_all_plain n Hn)|]. destruct (need_all_facts n Hn) as [H1 H2].
    split; [exact H1|]. split; [exact H2|]. cbn [snd]. destruct (if bound then up else None) as [u|]; [destruct (bmem n (up_enabled u))|]; try exact I; intros [].
  - assert (Hs : forall o, match o with Some v => ~ In " "%char v | None => True end -> good_change (B "sasl", o)).
    { intros o Ho. split; [apply plain_b_iff; vm_compute; reflexivity|]. split; [discriminate|]. split; [discriminate|exact Ho]. }
    assert (Hv : ~ In " "%char (B "PLAIN,ANONYMOUS")) by (apply amem_nIn; vm_compute; reflexivity).
    destruct (if bound then up else None) as [u|]; [destruct (up_sasl_plain u)|destruct bound];
      try (constructor; [apply Hs; first [exact Hv|exact I]|constructor]). constructor.
  - constructor; [|constructor; [|constructor]].
    + split; [apply plain_b_iff; vm_compute; reflexivity|]. split; [discriminate|]. split; [discriminate|]. cbn [snd].
      destruct bound; [|exact I]. destruct up as [u|]; [|exact I]. destruct (bmem _ (up_enabled u)); [|exact I].
      intros Hi. apply join_chars in Hi as [Hi|(x & Hx & Hi)].
      * apply amem_In in Hi. vm_compute in Hi. discriminate.
      * apply Hu. apply (split_chars "," _ x); [apply strip_sub; exact Hx|exact Hi].
    + split; [apply plain_b_iff; vm_compute; reflexivity|]. split; [discriminate|]. split; [discriminate|]. cbn [snd].
      destruct (hist && bound); [intros []|exact I].
Qed.

(** ** What is enabled is available *)

Definition inv (s : cstate) : Prop :=
  wf_map (cs_avail s) /\
  (forall n, In n (cs_enabled s) -> is_available s n = true /\ n <> B "soju.im/account-required") /\
  is_available s (B "cap-notify") = true.

Lemma is_available_iff s n : is_available s n = true <-> bget (cs_avail s) n <> None.
Proof. unfold is_available. destruct (bget (cs_avail s) n); split; congruence. Qed.

Lemma bget_sets ks : forall m n, bget m n <> None -> bget (fold_left (fun m k => bset m k []) ks m) n <> None.
Proof.
  induction ks as [|k ks IH]; intros m n H; [exact H|]. cbn [fold_left]. apply IH. rewrite bget_set. destruct (beqb k n); [discriminate|exact H].
Qed.

Lemma fold_enabled_sub l : forall en n, In n (fold_left (fun en x => set_enabled en (fst x) (snd x)) l en) -> In n en \/ In (n, true) l.
Proof.
  induction l as [|[k b] l IH]; intros en n; cbn [fold_left fst snd]; [tauto|]. intros H. apply IH in H as [H|H].
  - apply set_enabled_In in H. destruct (beqb_spec k n) as [->|Hn]; [subst b; right; left; reflexivity|left; exact H].
  - right. right. exact H.
Qed.

Lemma inv_new plain oauth store : inv (new_caps plain oauth store).
Proof.
  split; [apply wf_new|]. split; [intros n []|]. destruct plain, oauth, store; vm_compute; reflexivity.
Qed.

Lemma inv_negotiating s b : inv s -> inv (set_negotiating s b).
Proof.
  intros (H1 & H2 & H3). unfold inv, is_available in *. rewrite set_negotiating_avail, set_negotiating_enabled. split; [exact H1|]. split; assumption.
Qed.

Lemma inv_set s name value : inv s -> good_change (name, Some value) -> inv (fst (set_supported s name value)).
Proof.
  intros (H1 & H2 & H3) (G1 & G2 & G3 & G4). cbn [fst snd] in *. unfold inv. cbn [set_supported fst cs_avail cs_enabled]. split; [apply wf_set; assumption|].
  assert (Ha : forall n, is_available s n = true -> is_available (fst (set_supported s name value)) n = true).
  { intros n Hn. apply is_available_iff. cbn [set_supported fst cs_avail]. rewrite bget_set. destruct (beqb name n); [discriminate|]. apply is_available_iff. exact Hn. }
  split; [|exact (Ha _ H3)]. intros n Hn. destruct (H2 n Hn) as [A1 A2]. split; [exact (Ha n A1)|exact A2].
Qed.

Lemma inv_unset s name : inv s -> good_change (name, None) -> inv (fst (unset_supported s name)).
Proof.
  intros (H1 & H2 & H3) (G1 & G2 & G3 & _). cbn [fst snd] in *. unfold inv. cbn [unset_supported fst cs_avail cs_enabled]. split; [apply wf_del; assumption|].
  assert (Ha : forall n, is_available s n = true -> n <> name -> is_available (fst (unset_supported s name)) n = true).
  { intros n Hn Hd. apply is_available_iff. cbn [unset_supported fst cs_avail]. rewrite bget_del. destruct (beqb_spec name n); [congruence|]. apply is_available_iff. exact Hn. }
  split; [|apply (Ha _ H3); congruence]. intros n Hn. apply set_enabled_In in Hn. destruct (beqb_spec name n) as [->|Hd]; [discriminate|].
  destruct (H2 n Hn) as [A1 A2]. split; [apply (Ha n A1); congruence|exact A2].
Qed.

Lemma inv_changes l : forall x, inv (fst x) -> Forall good_change l -> inv (fst (fold_left change_supported l x)).
Proof.
  induction l as [|[n o] l IH]; intros x Hi Hg; [exact Hi|]. apply Forall_cons_iff in Hg as [Hg Hl]. cbn [fold_left]. apply IH; [|exact Hl].
  unfold change_supported. cbn [fst snd]. destruct o as [v|]; [apply inv_set; assumption|apply inv_unset; assumption].
Qed.

Section Caps.
  Variable atoi : bytes -> option Z.

  Lemma inv_step s e : valid_ev e -> inv s -> inv (fst (cstep atoi s e)).
  Proof.
    intros Hv Hi. destruct e as [ord params| |names bound up hist]; cbn [cstep].
    - unfold handle_cap. destruct params as [|cmd args]; [exact Hi|].
      destruct (beqb (to_upper cmd) (B "LS")).
      { unfold cap_ls. destruct (match args with [] => Some (cs_version s) | a :: _ => atoi a end) as [v|]; [|exact Hi].
        cbn [fst]. apply inv_negotiating. destruct Hi as (H1 & H2 & H3). unfold inv. cbn [cs_avail cs_enabled].
        set (avail := if negb (cs_registered s) && Z.leb 302 v then fold_left (fun m k => bset m k []) need_all_caps (cs_avail s) else cs_avail s).
        assert (Hw : wf_map avail).
        { unfold avail. destruct (negb (cs_registered s) && Z.leb 302 v); [|exact H1]. apply wf_sets; [exact H1|exact need_all_plain]. }
        assert (Ha : forall n, bget (cs_avail s) n <> None -> bget avail n <> None).
        { intros n Hn. unfold avail. destruct (negb (cs_registered s) && Z.leb 302 v); [apply bget_sets; exact Hn|exact Hn]. }
        split; [exact Hw|]. split.
        - intros n Hn. assert (Hc : In n (cs_enabled s) \/ n = B "cap-notify").
          { destruct (Z.leb 302 v); [|left; exact Hn]. apply set_enabled_In in Hn. destruct (beqb_spec (B "cap-notify") n); [right; congruence|left; exact Hn]. }
          destruct Hc as [Hc| ->].
          + destruct (H2 n Hc) as [A1 A2]. split; [|exact A2]. apply is_available_iff. apply Ha. apply is_available_iff. exact A1.
          + split; [|discriminate]. apply is_available_iff. apply Ha. apply is_available_iff. exact H3.
        - apply is_available_iff. apply Ha. apply is_available_iff. exact H3. }
      destruct (beqb (to_upper cmd) (B "LIST")); [exact Hi|].
      destruct (beqb (to_upper cmd) (B "REQ")).
      { destruct args as [|a rest]; [exact Hi|].
        destruct (cap_req s (a :: rest)) as [s' outs] eqn:E. destruct (cap_req_spec _ _ _ _ _ E) as (Ha & _ & H). cbn [fst].
        destruct Hi as (H1 & H2 & H3). unfold inv, is_available in *. rewrite Ha. split; [exact H1|]. split; [|exact H3].
        destruct H as [(_ & _ & He)|(Hr & _ & He)]; rewrite He; [exact H2|].
        intros n Hn. apply fold_enabled_sub in Hn as [Hn|Hn]; [exact (H2 n Hn)|].
        apply filter_In in Hn as [Hn Hd].
        assert (Hnr : ~ refused s (n, true)) by exact (Hr (n, true) Hn). unfold differs in Hd. cbn [fst snd] in Hd.
        apply negb_true_iff, eqb_false_iff in Hd. unfold refused in Hnr. cbn [fst snd] in Hnr.
        fold (is_available s n). destruct (is_available s n) eqn:Ea.
        - split; [reflexivity|]. intros ->. apply Hnr. split; [exact Hd|]. right. right. reflexivity.
        - exfalso. apply Hnr. split; [exact Hd|]. left. reflexivity. }
      destruct (beqb (to_upper cmd) (B "END")); [apply inv_negotiating; exact Hi|exact Hi].
    - exact Hi.
    - apply inv_changes; [exact Hi|]. apply changes_good. exact Hv.
  Qed.

  Lemma inv_run es : forall s, Forall valid_ev es -> inv s -> inv (fst (crun atoi s es)).
  Proof.
    induction es as [|e es IH]; intros s Hv Hi; [exact Hi|]. apply Forall_cons_iff in Hv as [He Hes].
    cbn [crun fst]. apply IH; [exact Hes|]. apply inv_step; assumption.
  Qed.

  (** ** Clients of version 302 *)

  Definition modern_inv (s : cstate) : Prop := inv s /\ (302 <= cs_version s)%Z /\ In (B "cap-notify") (cs_enabled s).

  Lemma words_single w : w <> [] -> ~ In " "%char w -> words w = [w].
  Proof. intros H1 H2. unfold words. destruct w as [|c w]; [congruence|]. apply split_on_nosep. exact H2. Qed.

  Lemma read_cap_token v k x : (302 <= v)%Z -> plain_name k -> read_cap (cap_token v (k, x)) = (k, x).
  Proof.
    intros Hv (_ & _ & Hk). unfold cap_token, read_cap. cbn [fst snd]. apply Z.leb_le in Hv. rewrite Hv. cbn [andb].
    destruct (beqb_spec x []) as [->|Hn]; cbn [negb].
    - rewrite cut_on_nosep by exact Hk. reflexivity.
    - change (B "=" ++ x) with ("="%char :: x). rewrite cut_on_app by exact Hk. reflexivity.
  Qed.

  Lemma token_word v k x : plain_name k -> ~ In " "%char x -> cap_token v (k, x) <> [] /\ ~ In " "%char (cap_token v (k, x)).
  Proof.
    intros (H1 & H2 & _) Hx. unfold cap_token. cbn [fst snd]. destruct (Z.leb 302 v && negb (beqb x [])); [|split; assumption].
    split; [destruct k; [congruence|discriminate]|]. rewrite !in_app_iff. intros [H|[[H|[]]|H]]; [exact (H2 H)|discriminate|exact (Hx H)].
  Qed.

  Lemma words_join v m : wf_map m -> (302 <= v)%Z -> map read_cap (words (join (B " ") (map (cap_token v) m))) = m.
  Proof.
    intros [_ Hf] Hv.
    assert (Hw : words (join (B " ") (map (cap_token v) m)) = map (cap_token v) m).
    { destruct m as [|[k x] m]; [reflexivity|].
      assert (Hne : join (B " ") (map (cap_token v) ((k, x) :: m)) <> []).
      { pose proof (Forall_inv Hf) as [Hk Hx]. cbn [fst snd] in Hk, Hx. destruct (token_word v k x Hk Hx) as [Hn _].
        cbn [map join]. destruct (map (cap_token v) m); [exact Hn|]. destruct (cap_token v (k, x)); [congruence|discriminate]. }
      unfold words. destruct (join (B " ") (map (cap_token v) ((k, x) :: m))) eqn:E; [congruence|]. rewrite <- E.
      apply split_join; [discriminate|]. rewrite Forall_forall. intros t Ht. apply in_map_iff in Ht as ([k' x'] & <- & Hi).
      rewrite Forall_forall in Hf. destruct (Hf _ Hi) as [A1 A2]. exact (proj2 (token_word v k' x' A1 A2)). }
    rewrite Hw, map_map. rewrite <- (map_id m) at 2. apply map_ext_in. intros [k x] Hi.
    rewrite Forall_forall in Hf. destruct (Hf _ Hi) as [A1 _]. apply read_cap_token; assumption.
  Qed.

  Lemma perm_wf m m' : Permutation m m' -> wf_map m -> wf_map m'.
  Proof.
    intros Hp [H1 H2]. split.
    - apply (Permutation_NoDup (l := map fst m)); [apply Permutation_map; exact Hp|exact H1].
    - rewrite Forall_forall in *. intros x Hx. apply H2. apply (Permutation_in _ (Permutation_sym Hp)). exact Hx.
  Qed.

  (** The offer. *)
  Definition sees (s : cstate) (o : offered) : Prop := forall k, o k = bget (cs_avail s) k.

  Lemma ls_sees s ord args s' outs v : inv s -> (forall l, Permutation l (ord l)) ->
    cap_ls atoi s ord args = (s', outs) -> match args with [] => Some (cs_version s) | a :: _ => atoi a end = Some v -> (302 <= v)%Z ->
    (forall o, sees s' (fold_left see_offer outs o)) /\ cs_version s' = v /\ In (B "cap-notify") (cs_enabled s').
  Proof.
    intros Hi Hp H Hv Hm. unfold cap_ls in H. rewrite Hv in H. apply pair_equal_spec in H as [<- <-].
    unfold sees. rewrite set_negotiating_avail, set_negotiating_version, set_negotiating_enabled. cbn [cs_avail cs_version cs_enabled fold_left].
    split; [|split; [reflexivity|]].
    - intros o k. unfold see_offer. change (beqb (B "LS") (B "LS")) with true. cbv iota.
      set (avail := if negb (cs_registered s) && Z.leb 302 v then fold_left (fun m k => bset m k []) need_all_caps (cs_avail s) else cs_avail s).
      assert (Hw : wf_map avail).
      { unfold avail. destruct Hi as (H1 & _). destruct (negb (cs_registered s) && Z.leb 302 v); [|exact H1]. apply wf_sets; [exact H1|exact need_all_plain]. }
      rewrite words_join; [|exact (perm_wf _ _ (Hp avail) Hw)|exact Hm]. cbv beta. rewrite find_bget.
      apply bget_perm; [exact (proj1 Hw)|apply Hp].
    - apply Z.leb_le in Hm. rewrite Hm. apply set_enabled_In. rewrite beqb_refl. reflexivity.
  Qed.

  Lemma set_sees s name value o : good_change (name, Some value) -> modern_inv s -> sees s o ->
    sees (fst (set_supported s name value)) (fold_left see_offer (snd (set_supported s name value)) o).
  Proof.
    intros (G1 & G2 & G3 & G4) (Hi & Hv & Hn) Ho k. cbn [fst snd] in *. cbn [set_supported fst snd cs_avail].
    rewrite bget_set.
    assert (He : is_enabled (Cstate (bset (cs_avail s) name value) (cs_enabled s) (cs_version s) (cs_registered s) (cs_negotiating s)) (B "cap-notify") = true)
      by (unfold is_enabled; cbn [cs_enabled]; apply bmem_In; exact Hn).
    rewrite He. cbn [andb].
    destruct (match bget (cs_avail s) name with Some v => negb (beqb v value) | None => true end) eqn:Ec; cbn [fold_left].
    - unfold see_offer. change (beqb (B "NEW") (B "LS")) with false. change (beqb (B "NEW") (B "NEW")) with true. cbv iota.
      destruct (token_word (cs_version s) name value G1 G4) as [T1 T2]. rewrite words_single by assumption.
      cbn [map fold_left]. rewrite read_cap_token by assumption. cbn [fst snd]. destruct (beqb name k); [reflexivity|exact (Ho k)].
    - rewrite Ho. destruct (beqb_spec name k) as [<-|Hd]; [|reflexivity].
      destruct (bget (cs_avail s) name) as [v|]; [|discriminate]. apply negb_false_iff, beqb_eq in Ec. rewrite Ec. reflexivity.
  Qed.

  Lemma unset_sees s name o : good_change (name, None) -> modern_inv s -> sees s o ->
    sees (fst (unset_supported s name)) (fold_left see_offer (snd (unset_supported s name)) o).
  Proof.
    intros (G1 & G2 & G3 & _) (Hi & Hv & Hn) Ho k. cbn [fst snd] in *. cbn [unset_supported fst snd cs_avail].
    rewrite bget_del.
    assert (He : is_enabled (Cstate (bdel (cs_avail s) name) (set_enabled (cs_enabled s) name false) (cs_version s) (cs_registered s) (cs_negotiating s)) (B "cap-notify") = true).
    { unfold is_enabled. cbn [cs_enabled]. apply bmem_In. apply set_enabled_In. destruct (beqb_spec name (B "cap-notify")); [congruence|exact Hn]. }
    rewrite He. cbn [andb]. unfold is_available. destruct (bget (cs_avail s) name) as [v|] eqn:Eg; cbn [fold_left].
    - unfold see_offer. change (beqb (B "DEL") (B "LS")) with false. change (beqb (B "DEL") (B "NEW")) with false. change (beqb (B "DEL") (B "DEL")) with true. cbv iota.
      destruct G1 as (T1 & T2 & _). rewrite words_single by assumption. cbn [fold_left]. destruct (beqb name k); [reflexivity|exact (Ho k)].
    - rewrite Ho. destruct (beqb_spec name k) as [<-|Hd]; [exact Eg|reflexivity].
  Qed.

  Lemma change_modern s c : good_change c -> modern_inv s -> modern_inv (fst (change_supported (s, []) c)).
  Proof.
    intros Hg (Hi & Hv & Hn). destruct c as [n [v|]]; unfold change_supported; cbn [fst snd].
    - split; [apply inv_set; assumption|]. split; [exact Hv|exact Hn].
    - split; [apply inv_unset; assumption|]. split; [exact Hv|]. cbn [unset_supported fst cs_enabled]. apply set_enabled_In.
      destruct Hg as (_ & G2 & _). cbn [fst] in G2. destruct (beqb_spec n (B "cap-notify")); [congruence|exact Hn].
  Qed.

  Lemma change_acc s l c : change_supported (s, l) c = (fst (change_supported (s, []) c), l ++ snd (change_supported (s, []) c)).
  Proof. unfold change_supported. cbn [fst snd]. reflexivity. Qed.

  Lemma fold_change_acc l : forall s acc, fold_left change_supported l (s, acc) =
    (fst (fold_left change_supported l (s, [])), acc ++ snd (fold_left change_supported l (s, []))).
  Proof.
    induction l as [|c l IH]; intros s acc; cbn [fold_left]; [rewrite app_nil_r; reflexivity|].
    rewrite (change_acc s acc c). rewrite IH. symmetry. destruct (change_supported (s, []) c) as [s1 o1] eqn:E. cbn [fst snd].
    rewrite (IH s1 o1). cbn [fst snd]. rewrite app_assoc. reflexivity.
  Qed.

  Lemma update_sees l : forall s o, Forall good_change l -> modern_inv s -> sees s o ->
    sees (fst (fold_left change_supported l (s, []))) (fold_left see_offer (snd (fold_left change_supported l (s, []))) o) /\
    modern_inv (fst (fold_left change_supported l (s, []))).
  Proof.
    induction l as [|c l IH]; intros s o Hg Hm Ho; [split; assumption|].
    apply Forall_cons_iff in Hg as [Hc Hl]. cbn [fold_left].
    pose proof (change_modern s c Hc Hm) as Hm1.
    assert (Hs1 : sees (fst (change_supported (s, []) c)) (fold_left see_offer (snd (change_supported (s, []) c)) o)).
    { destruct c as [n [v|]]; unfold change_supported; cbn [fst snd]; rewrite app_nil_l; [apply set_sees|apply unset_sees]; assumption. }
    destruct (change_supported (s, []) c) as [s1 o1]. cbn [fst snd] in *. rewrite fold_change_acc. cbn [fst snd]. rewrite fold_left_app.
    exact (IH s1 _ Hl Hm1 Hs1).
  Qed.

  Definition quiet (c : cout) : Prop := match c with Cap sub _ => sub <> B "LS" /\ sub <> B "NEW" /\ sub <> B "DEL" | _ => True end.
  Lemma quiet_offer o c : quiet c -> see_offer o c = o.
  Proof.
    destruct c as [sub t| |]; try reflexivity. intros (H1 & H2 & H3). unfold see_offer.
    apply beqb_neq in H1, H2, H3. rewrite H1, H2, H3. reflexivity.
  Qed.

  Lemma step_sees s e o : valid_ev e -> modern atoi e -> modern_inv s -> sees s o ->
    modern_inv (fst (cstep atoi s e)) /\ sees (fst (cstep atoi s e)) (fold_left see_offer (snd (cstep atoi s e)) o).
  Proof.
    intros Hv Hmod Hm Ho. pose proof Hm as (Hi & Hver & Hn).
    destruct e as [ord params| |names bound up hist].
    - pose proof (inv_step s (ECap ord params) Hv Hi) as Hi'.
      cbn [cstep] in *. unfold handle_cap in *. destruct params as [|cmd args]; [split; assumption|].
      destruct (beqb (to_upper cmd) (B "LS")) eqn:EL.
      { destruct (match args with [] => Some (cs_version s) | a :: _ => atoi a end) as [v|] eqn:Ev.
        - assert (H302 : (302 <= v)%Z).
          { destruct args as [|a args]; [injection Ev as <-; exact Hver|]. apply Hmod. cbn [announces]. rewrite EL. exact Ev. }
          destruct (cap_ls atoi s ord args) as [s' outs] eqn:E.
          destruct (ls_sees s ord args s' outs v Hi Hv E Ev H302) as (H1 & H2 & H3). cbn [fst snd] in *.
          split; [|apply H1]. split; [exact Hi'|]. split; [rewrite H2; exact H302|exact H3].
        - unfold cap_ls. rewrite Ev. cbn [fst snd fold_left see_offer]. split; assumption. }
      destruct (beqb (to_upper cmd) (B "LIST")).
      { cbn [cap_list fst snd fold_left]. rewrite quiet_offer by (split; [discriminate|split; discriminate]). split; assumption. }
      destruct (beqb (to_upper cmd) (B "REQ")).
      { destruct args as [|a rest]; [split; assumption|].
        destruct (cap_req s (a :: rest)) as [s' outs] eqn:E. destruct (cap_req_spec _ _ _ _ _ E) as (Ha & Hv' & H). cbn [fst snd] in *.
        assert (Hq : fold_left see_offer outs o = o).
        { destruct H as [(_ & -> & _)|(_ & -> & _)]; cbn [fold_left]; apply quiet_offer; (split; [discriminate|split; discriminate]). }
        rewrite Hq. split; [|unfold sees in *; rewrite Ha; exact Ho].
        split; [exact Hi'|]. split; [rewrite Hv'; exact Hver|].
        destruct H as [(_ & _ & ->)|(Hr & _ & ->)]; [exact Hn|].
        (* cap-notify cannot be disabled *)
        assert (Hnone : forall l en, (forall b, In (B "cap-notify", b) l -> b = true) -> In (B "cap-notify") en ->
          In (B "cap-notify") (fold_left (fun en x => set_enabled en (fst x) (snd x)) l en)).
        { clear. induction l as [|[k b] l IH]; intros en Hb Hin; [exact Hin|]. cbn [fold_left fst snd]. apply IH.
          - intros b' H'. apply Hb. right. exact H'.
          - apply set_enabled_In. destruct (beqb_spec k (B "cap-notify")) as [->|Hd]; [apply Hb; left; reflexivity|exact Hin]. }
        apply Hnone; [|exact Hn]. intros b Hb. apply filter_In in Hb as [Hb Hd]. destruct b; [reflexivity|].
        exfalso. apply (Hr _ Hb). unfold differs in Hd. apply negb_true_iff, eqb_false_iff in Hd. split; [exact Hd|].
        right. left. split; [reflexivity|]. split; [reflexivity|exact Hver]. }
      destruct (beqb (to_upper cmd) (B "END")).
      { cbn [fst snd fold_left] in *. split; [|unfold sees in *; rewrite set_negotiating_avail; exact Ho].
        split; [exact Hi'|]. rewrite set_negotiating_version, set_negotiating_enabled. split; assumption. }
      split; assumption.
    - cbn [cstep fst snd fold_left]. split; [|exact Ho]. split; [exact Hi|]. split; assumption.
    - cbn [cstep]. unfold update_supported.
      destruct (update_sees (supported_changes names bound up hist) s o (changes_good _ _ _ _ Hv) Hm Ho) as [H1 H2]. split; assumption.
  Qed.

  Lemma run_sees es : forall s o, Forall valid_ev es -> Forall (modern atoi) es -> modern_inv s -> sees s o ->
    modern_inv (fst (crun atoi s es)) /\ sees (fst (crun atoi s es)) (fold_left see_offer (snd (crun atoi s es)) o).
  Proof.
    induction es as [|e es IH]; intros s o Hv Hm Hi Ho; [split; assumption|].
    apply Forall_cons_iff in Hv as [Hve Hv]. apply Forall_cons_iff in Hm as [Hme Hm].
    destruct (step_sees s e o Hve Hme Hi Ho) as [H1 H2]. cbn [crun fst snd]. rewrite fold_left_app. exact (IH _ _ Hv Hm H1 H2).
  Qed.

  Lemma crun_app es1 es2 : forall s, crun atoi s (es1 ++ es2) =
    (fst (crun atoi (fst (crun atoi s es1)) es2), snd (crun atoi s es1) ++ snd (crun atoi (fst (crun atoi s es1)) es2)).
  Proof.
    induction es1 as [|e es1 IH]; intros s; cbn [app crun fst snd].
    - destruct (crun atoi s es2); reflexivity.
    - rewrite IH. cbn [fst snd]. rewrite app_assoc. reflexivity.
  Qed.

  (** From the first CAP LS 302 on, the client knows the offer and is notified. *)
  Theorem offer_known plain oauth store es1 ls es2 o v :
    Forall valid_ev (es1 ++ ls :: es2) -> announces atoi ls = Some v -> (302 <= v)%Z -> Forall (modern atoi) es2 ->
    let r := crun atoi (new_caps plain oauth store) (es1 ++ ls :: es2) in
    (forall k, fold_left see_offer (snd r) o k = bget (cs_avail (fst r)) k) /\ In (B "cap-notify") (cs_enabled (fst r)).
  Proof.
    intros Hv Ha H302 Hm r. unfold r. clear r. apply Forall_app in Hv as [Hv1 Hv2]. apply Forall_cons_iff in Hv2 as [Hvl Hv2].
    rewrite crun_app. cbn [fst snd crun].
    pose proof (inv_run es1 _ Hv1 (inv_new plain oauth store)) as Hi.
    set (s1 := fst (crun atoi (new_caps plain oauth store) es1)) in *.
    assert (Hl : modern_inv (fst (cstep atoi s1 ls)) /\ forall o, sees (fst (cstep atoi s1 ls)) (fold_left see_offer (snd (cstep atoi s1 ls)) o)).
    { pose proof (inv_step s1 ls Hvl Hi) as Hi'. destruct ls as [ord params| |]; try discriminate.
      destruct params as [|cmd [|a rest]]; try discriminate. cbn [announces] in Ha. destruct (beqb (to_upper cmd) (B "LS")) eqn:EL; [|discriminate].
      cbn [cstep] in *. unfold handle_cap in *. rewrite EL in *.
      destruct (cap_ls atoi s1 ord (a :: rest)) as [s' outs] eqn:E.
      destruct (ls_sees s1 ord (a :: rest) s' outs v Hi Hvl E Ha H302) as (H1 & H2 & H3). cbn [fst snd] in *.
      split; [|exact H1]. split; [exact Hi'|]. split; [rewrite H2; exact H302|exact H3]. }
    destruct Hl as [Hl1 Hl2].
    rewrite !fold_left_app.
    destruct (run_sees es2 _ _ Hv2 Hm Hl1 (Hl2 (fold_left see_offer (snd (crun atoi (new_caps plain oauth store) es1)) o))) as [H1 H2].
    split; [exact H2|]. exact (proj2 (proj2 H1)).
  Qed.

  (** ** What the client believes to be enabled *)

  Definition agrees (s : cstate) (en : list bytes) : Prop := forall n, In n en <-> In n (cs_enabled s).

  Lemma update_agrees l : forall s en, Forall good_change l -> modern_inv s -> agrees s en ->
    agrees (fst (fold_left change_supported l (s, []))) (fold_left see_enabled (snd (fold_left change_supported l (s, []))) en).
  Proof.
    induction l as [|c l IH]; intros s en Hg Hm Ha; [exact Ha|].
    apply Forall_cons_iff in Hg as [Hc Hl]. cbn [fold_left].
    pose proof (change_modern s c Hc Hm) as Hm1.
    assert (Ha1 : agrees (fst (change_supported (s, []) c)) (fold_left see_enabled (snd (change_supported (s, []) c)) en)).
    { destruct Hm as (Hi & Hv & Hn). destruct c as [n [v|]]; unfold change_supported; cbn [fst snd]; rewrite app_nil_l.
      - unfold set_supported. cbn [fst snd]. set (b := is_enabled _ _ && _). destruct b; cbn [fold_left]; [|exact Ha].
        unfold see_enabled. change (beqb (B "NEW") (B "ACK")) with false. change (beqb (B "NEW") (B "DEL")) with false. cbv iota. exact Ha.
      - destruct Hc as (G1 & G2 & G3 & _). cbn [fst] in *. unfold unset_supported. cbn [fst snd].
        assert (He : is_enabled (Cstate (bdel (cs_avail s) n) (set_enabled (cs_enabled s) n false) (cs_version s) (cs_registered s) (cs_negotiating s)) (B "cap-notify") = true).
        { unfold is_enabled. cbn [cs_enabled]. apply bmem_In. apply set_enabled_In. destruct (beqb_spec n (B "cap-notify")); [congruence|exact Hn]. }
        rewrite He. cbn [andb]. destruct (is_available s n) eqn:Ea; cbn [fold_left].
        + unfold see_enabled. change (beqb (B "DEL") (B "ACK")) with false. change (beqb (B "DEL") (B "DEL")) with true. cbv iota.
          destruct G1 as (T1 & T2 & _). rewrite words_single by assumption. cbn [map fold_left].
          intros x. rewrite believe_In. cbn [fst snd cs_enabled]. rewrite set_enabled_In. destruct (beqb n x); [tauto|exact (Ha x)].
        + intros x. cbn [cs_enabled]. rewrite set_enabled_In. destruct (beqb_spec n x) as [<-|Hd]; [|exact (Ha x)].
          rewrite (Ha n). split; [|discriminate]. intros Hx. destruct Hi as (_ & H2 & _). destruct (H2 n Hx) as [A _]. congruence. }
    destruct (change_supported (s, []) c) as [s1 o1]. cbn [fst snd] in *. rewrite fold_change_acc. cbn [fst snd]. rewrite fold_left_app.
    exact (IH s1 _ Hl Hm1 Ha1).
  Qed.

  Lemma step_agrees s e en : valid_ev e -> modern atoi e -> coherent_ev e -> modern_inv s -> agrees s en ->
    agrees (fst (cstep atoi s e)) (fold_left see_enabled (snd (cstep atoi s e)) en).
  Proof.
    intros Hv Hmod Hco Hm Ha. pose proof Hm as (Hi & Hver & Hn).
    destruct e as [ord params| |names bound up hist].
    - cbn [cstep]. unfold handle_cap. destruct params as [|cmd args]; [exact Ha|].
      destruct (beqb (to_upper cmd) (B "LS")) eqn:EL.
      { unfold cap_ls. destruct (match args with [] => Some (cs_version s) | a :: _ => atoi a end) as [v|] eqn:Ev; [|exact Ha].
        cbn [fst snd fold_left]. unfold see_enabled. change (beqb (B "LS") (B "ACK")) with false. change (beqb (B "LS") (B "DEL")) with false. cbv iota.
        intros n. rewrite set_negotiating_enabled. cbn [cs_enabled]. destruct (Z.leb 302 v); [|exact (Ha n)].
        rewrite set_enabled_In. destruct (beqb_spec (B "cap-notify") n) as [<-|Hd]; [|exact (Ha n)].
        rewrite (Ha (B "cap-notify")). tauto. }
      destruct (beqb (to_upper cmd) (B "LIST")).
      { cbn [cap_list fst snd fold_left]. unfold see_enabled. change (beqb (B "LIST") (B "ACK")) with false. change (beqb (B "LIST") (B "DEL")) with false. cbv iota. exact Ha. }
      destruct (beqb (to_upper cmd) (B "REQ")) eqn:ER.
      { destruct args as [|a rest]; [exact Ha|].
        destruct (cap_req s (a :: rest)) as [s' outs] eqn:E. destruct (cap_req_spec _ _ _ _ _ E) as (_ & _ & H). cbn [fst snd].
        destruct H as [(_ & -> & He)|(Hr & -> & He)]; cbn [fold_left]; unfold see_enabled.
        - change (beqb (B "NAK") (B "ACK")) with false. change (beqb (B "NAK") (B "DEL")) with false. cbv iota.
          intros n. rewrite He. exact (Ha n).
        - change (beqb (B "ACK") (B "ACK")) with true. cbv iota. intros n. rewrite He.
          cbn [coherent_ev] in Hco. apply beqb_eq in ER. specialize (Hco ER).
          destruct (enabled_after s (wanted a) n Hco) as [A1 A2].
          destruct (fold_last believe believe_In (wanted a) en n Hco) as [B1 B2].
          destruct (existsb (fun x => beqb (fst x) n) (wanted a)) eqn:Ex.
          + apply existsb_exists in Ex as ([k b] & Hin & E1). cbn [fst] in E1. apply beqb_eq in E1. subst k. rewrite (A1 b Hin), (B1 b Hin). tauto.
          + assert (Hno : forall b, ~ In (n, b) (wanted a)).
            { intros b Hin. assert (E1 : existsb (fun x => beqb (fst x) n) (wanted a) = true) by (apply existsb_exists; exists (n, b); split; [exact Hin|apply beqb_refl]). congruence. }
            rewrite (A2 Hno), (B2 Hno). exact (Ha n). }
      destruct (beqb (to_upper cmd) (B "END")); [|exact Ha].
      cbn [fst snd fold_left]. intros n. rewrite set_negotiating_enabled. exact (Ha n).
    - exact Ha.
    - cbn [cstep]. unfold update_supported. apply update_agrees; [exact (changes_good _ _ _ _ Hv)|exact Hm|exact Ha].
  Qed.

  Lemma run_agrees es : forall s en, Forall valid_ev es -> Forall (modern atoi) es -> Forall coherent_ev es -> modern_inv s -> agrees s en ->
    agrees (fst (crun atoi s es)) (fold_left see_enabled (snd (crun atoi s es)) en).
  Proof.
    induction es as [|e es IH]; intros s en Hv Hm Hc Hi Ha; [exact Ha|].
    apply Forall_cons_iff in Hv as [Hve Hv]. apply Forall_cons_iff in Hm as [Hme Hm]. apply Forall_cons_iff in Hc as [Hce Hc].
    cbn [crun fst snd]. rewrite fold_left_app. apply (IH _ _ Hv Hm Hc).
    - exact (proj1 (step_sees s e (fun k => bget (cs_avail s) k) Hve Hme Hi (fun k => eq_refl))).
    - apply step_agrees; assumption.
  Qed.

  Theorem enabled_known plain oauth store ls es v :
    Forall valid_ev (ls :: es) -> announces atoi ls = Some v -> (302 <= v)%Z -> Forall (modern atoi) es -> Forall coherent_ev es ->
    let r := crun atoi (new_caps plain oauth store) (ls :: es) in
    forall n, In n (fold_left see_enabled (snd r) [B "cap-notify"]) <-> In n (cs_enabled (fst r)).
  Proof.
    intros Hv Ha H302 Hm Hc r. unfold r. clear r. apply Forall_cons_iff in Hv as [Hvl Hv].
    cbn [crun fst snd]. rewrite fold_left_app.
    destruct ls as [ord params| |]; try discriminate.
    destruct params as [|cmd [|a rest]]; try discriminate. cbn [announces] in Ha. destruct (beqb (to_upper cmd) (B "LS")) eqn:EL; [|discriminate].
    set (s0 := new_caps plain oauth store).
    pose proof (inv_step s0 (ECap ord (cmd :: a :: rest)) Hvl (inv_new plain oauth store)) as Hi'.
    assert (Es : cs_version (fst (cstep atoi s0 (ECap ord (cmd :: a :: rest)))) = v /\
                 cs_enabled (fst (cstep atoi s0 (ECap ord (cmd :: a :: rest)))) = [B "cap-notify"] /\
                 fold_left see_enabled (snd (cstep atoi s0 (ECap ord (cmd :: a :: rest)))) [B "cap-notify"] = [B "cap-notify"]).
    { cbn [cstep]. unfold handle_cap. rewrite EL. unfold cap_ls. rewrite Ha. apply Z.leb_le in H302. rewrite H302. cbn [fst snd].
      rewrite set_negotiating_version, set_negotiating_enabled. cbn [cs_version cs_enabled fold_left]. split; [reflexivity|]. split; reflexivity. }
    destruct Es as (E1 & E2 & E3). rewrite E3.
    apply (run_agrees es); try assumption.
    - split; [exact Hi'|]. split; [rewrite E1; exact H302|]. rewrite E2. left. reflexivity.
    - intros n. rewrite E2. reflexivity.
  Qed.
End Caps.
