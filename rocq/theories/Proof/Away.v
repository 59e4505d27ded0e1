(** Proofs about the automatic away state. *)
From Verif.Base Require Import Bytes.
From Verif.Model Require Import Message Away.
From Verif.Spec Require Import Away.
From Coq Require Import NArith Lia.

Definition hears (n : N) (o : list aout) (b : bool) : bool := fold_left (fun b o => hear n o b) o b.
Definition tolds (n : N) (o : list aout) (b : bool) : bool := fold_left (fun b o => told n o b) o b.
Definition sends (o : list aout) (n : N) (p : list bytes) : Prop := In (ASend n p) o.

Lemma hears_app n a b x : hears n (a ++ b) x = hears n b (hears n a x).
Proof. apply fold_left_app. Qed.
Lemma hears_other n o x : (forall p, ~ In (ASend n p) o) -> hears n o x = x.
Proof.
  revert x. induction o as [|a o IH]; intros x H; [reflexivity|]. cbn.
  rewrite <- (IH x) at 2 by (intros p Hp; apply (H p); right; exact Hp). f_equal.
  destruct a as [m p|]; [|reflexivity]. cbn. destruct (N.eqb_spec m n) as [->|]; [|reflexivity]. exfalso. apply (H p). left. reflexivity.
Qed.
Lemma tolds_none n o x : (forall a, ~ In (ATell n a) o) -> tolds n o x = x.
Proof.
  revert x. induction o as [|a o IH]; intros x H; [reflexivity|]. cbn.
  rewrite <- (IH x) at 2 by (intros p Hp; apply (H p); right; exact Hp). f_equal.
  destruct a as [|m p]; [reflexivity|]. cbn. destruct (N.eqb_spec m n) as [->|]; [|reflexivity]. exfalso. apply (H p). left. reflexivity.
Qed.

(** The servers' views [f] agree with what the bouncer has noted. *)
Definition wk (f : N -> bool) (nets : list anet) : Prop := forall net c, In net nets -> an_conn net = Some c -> f (an_id net) = a_away c.
Definition st (cls : list acl) (nets : list anet) : Prop :=
  forall net c, In net nets -> an_conn net = Some c -> an_auto net = true -> a_away c = all_away (an_id net) cls.
(** Nothing but needed messages to networks in the list. *)
Definition tidy (f : N -> bool) (nets : list anet) (o : list aout) : Prop :=
  (forall c a, ~ In (ATell c a) o) /\
  (forall n p, In (ASend n p) o -> (exists c, In (ANet n true (Some c)) nets) /\ hears n o (f n) <> f n).
Definition same_nets (a b : list anet) : Prop := map an_id a = map an_id b /\
  (forall n u, (exists c, In (ANet n u (Some c)) a) <-> (exists c, In (ANet n u (Some c)) b)).

Lemma update_away_ok cls f net net' o : (forall c, an_conn net = Some c -> f (an_id net) = a_away c) -> update_away cls net = (net', o) ->
  an_id net' = an_id net /\ an_auto net' = an_auto net /\ (an_conn net' = None <-> an_conn net = None) /\
  (forall c, an_conn net' = Some c -> hears (an_id net) o (f (an_id net)) = a_away c /\ (an_auto net = true -> a_away c = all_away (an_id net) cls)) /\
  (forall c a, ~ In (ATell c a) o) /\
  (forall n p, In (ASend n p) o -> n = an_id net /\ (exists c, net = ANet n true (Some c)) /\ hears n o (f n) <> f n).
Proof.
  destruct net as [id auto conn]. unfold update_away. cbn [an_conn an_id an_auto]. intros W.
  destruct conn as [c|].
  2:{ intros E. inversion E; subst; clear E. cbn [an_conn an_id an_auto].
      split; [reflexivity|]. split; [reflexivity|]. split; [tauto|]. split; [discriminate|]. split; [auto|]. intros n p []. }
  specialize (W c eq_refl). destruct auto; cbn [negb].
  2:{ intros E. inversion E; subst; clear E. cbn [an_conn an_id an_auto].
      split; [reflexivity|]. split; [reflexivity|]. split; [tauto|]. split; [|split; [auto|intros n p []]].
      intros c' [= <-]. split; [exact W|discriminate]. }
  destruct (Bool.eqb (all_away id cls) (a_away c)) eqn:Ea.
  - apply Bool.eqb_prop in Ea. intros E. inversion E; subst; clear E. cbn [an_conn an_id an_auto].
    split; [reflexivity|]. split; [reflexivity|]. split; [tauto|]. split; [|split; [auto|intros n p []]].
    intros c' [= <-]. split; [exact W|symmetry; exact Ea].
  - apply Bool.eqb_false_iff in Ea. intros E. apply pair_equal_spec in E as [<- <-]. cbn [an_conn an_id an_auto].
    assert (Hh : hears id [ASend id (if all_away id cls then [if a_pre c then B "*" else B "Auto away"] else [])] (f id) = all_away id cls).
    { cbn [hears fold_left hear]. rewrite N.eqb_refl. destruct (all_away id cls); [|reflexivity]. destruct (a_pre c); reflexivity. }
    split; [reflexivity|]. split; [reflexivity|]. split; [split; discriminate|]. split; [|split].
    + intros c' [= <-]. cbn [a_away]. split; [exact Hh|reflexivity].
    + intros d a [H|[]]. discriminate H.
    + intros n p [H|[]]. assert (id = n) by congruence. subst n. split; [reflexivity|]. split; [exists c; reflexivity|].
      rewrite Hh, W. exact Ea.
Qed.

Lemma conn_some net : an_conn net = None \/ exists c, net = ANet (an_id net) (an_auto net) (Some c).
Proof. destruct net as [i a [c|]]; [right; exists c; reflexivity|left; reflexivity]. Qed.

Lemma same_cons n n' r r' : an_id n' = an_id n -> an_auto n' = an_auto n -> (an_conn n' = None <-> an_conn n = None) -> same_nets r r' -> same_nets (n :: r) (n' :: r').
Proof.
  intros Hi Ha Hc [Hm Hx]. split; [cbn; congruence|]. intros m u. specialize (Hx m u).
  destruct n as [i a c], n' as [i' a' c']. cbn in Hi, Ha, Hc. subst i' a'.
  split; intros [d [Hd|Hd]].
  - inversion Hd; subst. destruct c' as [c'|]; [exists c'; left; reflexivity|]. destruct Hc as [Hc _]. discriminate (Hc eq_refl).
  - destruct (proj1 Hx (ex_intro _ d Hd)) as [d' Hd']. exists d'. right. exact Hd'.
  - inversion Hd; subst. destruct c as [c|]; [exists c; left; reflexivity|]. destruct Hc as [_ Hc]. discriminate (Hc eq_refl).
  - destruct (proj2 Hx (ex_intro _ d Hd)) as [d' Hd']. exists d'. right. exact Hd'.
Qed.
Lemma same_refl r : same_nets r r.
Proof. split; [reflexivity|tauto]. Qed.

Lemma update_all_ok cls f nets nets' o : NoDup (map an_id nets) -> wk f nets -> update_all cls nets = (nets', o) ->
  same_nets nets nets' /\ wk (fun n => hears n o (f n)) nets' /\ st cls nets' /\ tidy f nets o.
Proof.
  revert nets' o. induction nets as [|net r IH]; intros nets' o Hd W; cbn [update_all].
  - intros E. inversion E; subst. split; [apply same_refl|]. split; [intros ? ? []|]. split; [intros ? ? []|]. split; [auto|]. intros ? ? [].
  - destruct (update_away cls net) as [n' o1] eqn:E1. destruct (update_all cls r) as [r' o2] eqn:E2. intros E. inversion E; subst; clear E.
    cbn in Hd. inversion Hd as [|? ? Hni Hdr]; subst.
    destruct (update_away_ok cls f net n' o1) as [Hi [Ha [Hc [Hw [Ht Hs]]]]]; [intros c; apply W; left; reflexivity|exact E1|].
    destruct (IH r' o2 Hdr) as [Hm [Hw2 [Hs2 [Ht2 Ho2]]]]; [intros x c Hx; apply W; right; exact Hx|reflexivity|].
    assert (Hin : forall x c, In (ANet x true (Some c)) r -> x <> an_id net).
    { intros x c Hx ->. apply Hni. change (an_id net) with (an_id (ANet (an_id net) true (Some c))). apply in_map. exact Hx. }
    assert (Ho2n : forall x, hears (an_id net) o2 x = x).
    { intros x. apply hears_other. intros p Hp. destruct (Ho2 _ _ Hp) as [[c Hin'] _]. exact (Hin _ _ Hin' eq_refl). }
    assert (Ho1 : forall m x, m <> an_id net -> hears m o1 x = x).
    { intros m x Hm'. apply hears_other. intros p Hp. destruct (Hs _ _ Hp) as [He _]. exact (Hm' He). }
    split; [apply same_cons; assumption|]. split; [|split; [|split]].
    + intros x c [<-|Hx] Hxc.
      * rewrite Hi, hears_app, Ho2n. exact (proj1 (Hw c Hxc)).
      * rewrite hears_app, Ho1; [exact (Hw2 x c Hx Hxc)|]. intros He. apply Hni. rewrite <- He. destruct Hm as [Hm _]. rewrite Hm. apply in_map. exact Hx.
    + intros x c [<-|Hx] Hxc Hxa; [|exact (Hs2 x c Hx Hxc Hxa)]. rewrite Hi. rewrite Ha in Hxa. exact (proj2 (Hw c Hxc) Hxa).
    + intros c a Hp. apply in_app_iff in Hp as [Hp|Hp]; [exact (Ht _ _ Hp)|exact (Ht2 _ _ Hp)].
    + intros m p Hp. apply in_app_iff in Hp as [Hp|Hp].
      * destruct (Hs _ _ Hp) as [-> [[c Hc'] Hne]]. split; [exists c; left; exact Hc'|]. rewrite hears_app, Ho2n. exact Hne.
      * destruct (Ho2 _ _ Hp) as [[c Hc'] Hne]. split; [exists c; right; exact Hc'|]. rewrite hears_app, Ho1; [exact Hne|exact (Hin _ _ Hc')].
Qed.

Lemma update_one_ok cls f id nets nets' o : NoDup (map an_id nets) -> wk f nets -> update_one cls id nets = (nets', o) ->
  (forall net c, In net nets -> an_id net <> id -> an_conn net = Some c -> an_auto net = true -> a_away c = all_away (an_id net) cls) ->
  same_nets nets nets' /\ wk (fun n => hears n o (f n)) nets' /\ st cls nets' /\ tidy f nets o.
Proof.
  revert nets' o. induction nets as [|net r IH]; intros nets' o Hd W; cbn [update_one].
  - intros E _. inversion E; subst. split; [apply same_refl|]. split; [intros ? ? []|]. split; [intros ? ? []|]. split; [auto|]. intros ? ? [].
  - cbn in Hd. inversion Hd as [|? ? Hni Hdr]; subst.
    destruct (N.eqb_spec (an_id net) id) as [He|He].
    + destruct (update_away cls net) as [n' o1] eqn:E1. intros E Hst. inversion E; subst; clear E.
      destruct (update_away_ok cls f net n' o) as [Hi [Ha [Hc [Hw [Ht Hs]]]]]; [intros c; apply W; left; reflexivity|exact E1|].
      split; [apply same_cons; auto using same_refl|]. split; [|split; [|split]].
      * intros x c [<-|Hx] Hxc; [rewrite Hi; exact (proj1 (Hw c Hxc))|].
        rewrite hears_other; [apply W; [right; exact Hx|exact Hxc]|]. intros p Hp. destruct (Hs _ _ Hp) as [He' _]. apply Hni. rewrite <- He'. apply in_map. exact Hx.
      * intros x c [<-|Hx] Hxc Hxa; [rewrite Hi; rewrite Ha in Hxa; exact (proj2 (Hw c Hxc) Hxa)|].
        apply (Hst x c); [right; exact Hx| |exact Hxc|exact Hxa]. intros He'. apply Hni. rewrite <- He'. apply in_map. exact Hx.
      * exact Ht.
      * intros m p Hp. destruct (Hs _ _ Hp) as [-> [[c Hc'] Hne]]. split; [exists c; left; exact Hc'|exact Hne].
    + destruct (update_one cls id r) as [r' o1] eqn:E1. intros E Hst. inversion E; subst; clear E.
      destruct (IH r' o Hdr) as [Hm [Hw2 [Hs2 [Ht2 Ho2]]]]; [intros x c Hx; apply W; right; exact Hx|reflexivity|intros x c Hx; apply Hst; right; exact Hx|].
      split; [apply same_cons; tauto|]. split; [|split; [|split]].
      * intros x c [<-|Hx] Hxc; [|exact (Hw2 x c Hx Hxc)].
        rewrite hears_other; [apply W; [left; reflexivity|exact Hxc]|]. intros p Hp. destruct (Ho2 _ _ Hp) as [[c' Hc'] _].
        apply Hni. change (an_id net) with (an_id (ANet (an_id net) true (Some c'))). apply in_map. exact Hc'.
      * intros x c [<-|Hx] Hxc Hxa; [|exact (Hs2 x c Hx Hxc Hxa)]. apply (Hst net c); [left; reflexivity|exact He|exact Hxc|exact Hxa].
      * exact Ht2.
      * intros m p Hp. destruct (Ho2 _ _ Hp) as [[c Hc'] Hne]. split; [exists c; right; exact Hc'|exact Hne].
Qed.

(** The invariant. *)
Definition is_away (c : acl) : bool := match ac_away c with Some _ => true | None => false end.
Record inv (tr : atrace) (s : ast) : Prop := {
  i_nets : NoDup (map an_id (a_nets s));
  i_netlt : forall n, In n (a_nets s) -> (an_id n < a_nextnet s)%N;
  i_cls : NoDup (map ac_id (a_cls s));
  i_cllt : forall c, In c (a_cls s) -> (ac_id c < a_nextcl s)%N;
  i_on : forall c n, In c (a_cls s) -> ac_net c = Some n -> (n < a_nextnet s)%N;
  i_reg : forall c, In c (a_cls s) -> ac_reg c = false -> ac_in c = false /\ ac_net c = None;
  i_wk : wk (fun n => server_away n tr) (a_nets s);
  i_st : st (a_cls s) (a_nets s);
  i_told : forall c, In c (a_cls s) -> client_away (ac_id c) tr = is_away c;
  i_new : forall c, (a_nextcl s <= c)%N -> client_away c tr = false /\ forall n, ~ present n c tr;
  i_present : forall n c, present n c tr <-> exists x, In x (a_cls s) /\ ac_id x = c /\ ac_in x = true /\ ac_net x = Some n
}.

Lemma present_cons n c e o tr : present n c ((e, o) :: tr) <-> e = ARegister c (Some n) true \/ (e <> AClose c /\ present n c tr).
Proof.
  split.
  - intros [[|a tr2] [o' [tr1 [E H]]]]; cbn in E; [left; congruence|right]. assert (a = (e, o)) by congruence. subst a.
    split; [apply (H (e, o)); left; reflexivity|]. exists tr2, o', tr1. split; [congruence|]. intros x Hx. apply H. right. exact Hx.
  - intros [->|[Hn [tr2 [o' [tr1 [-> H]]]]]]; [exists [], o, tr; split; [reflexivity|intros x []]|].
    exists ((e, o) :: tr2), o', tr1. split; [reflexivity|]. intros x [<-|Hx]; [exact Hn|apply H; exact Hx].
Qed.

Lemma all_away_ext n a b : filter (fun c => ac_in c && on_net n c) a = filter (fun c => ac_in c && on_net n c) b -> all_away n a = all_away n b.
Proof. unfold all_away. intros ->. reflexivity. Qed.

Lemma map_at_cl id f cls : (forall c, ac_id c = id -> ac_id (f c) = id) -> map ac_id (at_cl id f cls) = map ac_id cls.
Proof.
  intros Hf. unfold at_cl. rewrite map_map. apply map_ext. intros c. destruct (N.eqb_spec (ac_id c) id) as [E|E]; [rewrite (Hf c E); auto|reflexivity].
Qed.
Lemma in_at_cl id f cls c : In c (at_cl id f cls) <-> exists d, In d cls /\ (if (ac_id d =? id)%N then c = f d else c = d).
Proof.
  unfold at_cl. rewrite in_map_iff. split; intros [d H]; exists d; (destruct (ac_id d =? id)%N; [destruct H; split; auto|destruct H; split; auto]).
Qed.
Lemma at_cl_away n id f cls : (forall c, In c cls -> ac_id c = id -> (ac_in c && on_net n c) = false /\ (ac_in (f c) && on_net n (f c)) = false) ->
  all_away n (at_cl id f cls) = all_away n cls.
Proof.
  intros H. apply all_away_ext. unfold at_cl. induction cls as [|c r IH]; [reflexivity|]. cbn [map filter].
  rewrite IH by (intros d Hd; apply H; right; exact Hd).
  destruct (N.eqb_spec (ac_id c) id) as [E|E]; [|reflexivity]. destruct (H c (or_introl eq_refl) E) as [-> ->]. reflexivity.
Qed.

Lemma nodup_map_filter {A B} (f : A -> B) p (l : list A) : NoDup (map f l) -> NoDup (map f (filter p l)).
Proof.
  induction l as [|a r IH]; cbn; [auto|]. intros H. inversion H as [|? ? Hn Hr]; subst. destruct (p a); [|auto].
  cbn. constructor; [|auto]. intros Hi. apply Hn. apply in_map_iff in Hi as [x [E Hx]]. apply filter_In in Hx. apply in_map_iff. exists x. tauto.
Qed.
Lemma find_id id cls (c : acl) : find (fun c => (ac_id c =? id)%N) cls = Some c -> In c cls /\ ac_id c = id.
Proof. intros H. apply find_some in H as [H E]. apply N.eqb_eq in E. auto. Qed.
Lemma uniq cls (a b : acl) : NoDup (map ac_id cls) -> In a cls -> In b cls -> ac_id a = ac_id b -> a = b.
Proof.
  induction cls as [|c r IH]; [intros _ []|]. cbn. intros H. inversion H as [|? ? Hn Hr]; subst.
  intros [<-|Ha] [<-|Hb] E; [reflexivity| | |auto].
  - exfalso. apply Hn. rewrite E. apply in_map. exact Hb.
  - exfalso. apply Hn. rewrite <- E. apply in_map. exact Ha.
Qed.

Lemma ids_lt nets nets' (k : N) : same_nets nets nets' -> (forall n, In n nets -> (an_id n < k)%N) -> forall n, In n nets' -> (an_id n < k)%N.
Proof.
  intros [Hm _] H n Hn. assert (Hi : In (an_id n) (map an_id nets)) by (rewrite Hm; apply in_map; exact Hn).
  apply in_map_iff in Hi as [x [<- Hx]]. apply H. exact Hx.
Qed.
Lemma ids_nodup nets nets' : same_nets nets nets' -> NoDup (map an_id nets) -> NoDup (map an_id nets').
Proof. intros [<- _]. auto. Qed.

(** A step: the invariant, the messages sent, and why. *)
Definition sane (tr : atrace) (s : ast) (e : aev) (s' : ast) (o : list aout) : Prop :=
  forall n p, In (ASend n p) o -> connected n true s' /\ hears n o (fresh n e (server_away n tr)) <> fresh n e (server_away n tr).

Lemma tidy_sane (f : N -> bool) nets nets' o n p : same_nets nets nets' -> tidy f nets o -> In (ASend n p) o -> (exists c, In (ANet n true (Some c)) nets') /\ hears n o (f n) <> f n.
Proof. intros [_ Hx] [_ Ht] H. destruct (Ht n p H) as [Hc Hn]. split; [apply Hx; exact Hc|exact Hn]. Qed.

Lemma inv_step tr s e s' o : inv tr s -> astep e s = Some (s', o) -> inv ((e, o) :: tr) s' /\ sane tr s e s' o.
Proof.
  intros I. destruct I as [In1 In2 Ic1 Ic2 Ion Ireg Iwk Ist Itold Inew Ipres].
  destruct e as [|id params|id net ok|id|n pre|n|auto|n auto|n]; cbn [astep].
  - (* open *)
    intros E. inversion E; subst; clear E. split; [|intros ? ? []].
    destruct s as [nets cls nn nc]; cbn [a_nets a_cls a_nextnet a_nextcl] in *.
    assert (Hf : ~ In nc (map ac_id cls)) by (intros H; apply in_map_iff in H as [x [E Hx]]; specialize (Ic2 x Hx); lia).
    constructor; cbn [a_nets a_cls a_nextnet a_nextcl].
    + exact In1.
    + exact In2.
    + cbn. constructor; assumption.
    + intros c [<-|Hc]; [cbn; lia|specialize (Ic2 c Hc); lia].
    + intros c n [<-|Hc]; [discriminate|exact (Ion c n Hc)].
    + intros c [<-|Hc]; [intros _; cbn; auto|exact (Ireg c Hc)].
    + exact Iwk.
    + intros net c Hn Hc Ha. rewrite (Ist net c Hn Hc Ha). apply all_away_ext. reflexivity.
    + intros c [<-|Hc]; [apply (Inew nc); lia|exact (Itold c Hc)].
    + intros c Hc. destruct (Inew c) as [H1 H2]; [lia|]. split; [exact H1|]. intros n Hp. apply present_cons in Hp as [Hp|[_ Hp]]; [discriminate|exact (H2 n Hp)].
    + intros n c. rewrite present_cons, Ipres. split.
      * intros [H|[_ [x [Hx H]]]]; [discriminate|]. exists x. split; [right; exact Hx|exact H].
      * intros [x [[<-|Hx] H]]; [cbn in H; destruct H as [_ [H _]]; discriminate|]. right. split; [discriminate|]. exists x. auto.
  - (* AWAY *)
    destruct (find (fun c => (ac_id c =? id)%N) (a_cls s)) as [c0|] eqn:Ef; [|discriminate].
    destruct (find_id _ _ _ Ef) as [H0 Hid].
    set (away := match params with [] => None | p :: _ => Some p end).
    set (fc := fun c => ACl id (ac_reg c) (ac_in c) (ac_net c) away).
    set (cls := at_cl id fc (a_cls s)).
    set (b := match away with Some _ => true | None => false end).
    destruct s as [nets cls0 nn nc]; cbn [a_nets a_cls a_nextnet a_nextcl] in *.
    assert (Hids : map ac_id cls = map ac_id cls0) by (apply map_at_cl; intros c _; reflexivity).
    assert (Hcl : forall c, In c cls -> exists d, In d cls0 /\ ac_id c = ac_id d /\ ac_reg c = ac_reg d /\ ac_in c = ac_in d /\ ac_net c = ac_net d /\
      is_away c = if (ac_id d =? id)%N then b else is_away d).
    { intros c Hc. apply in_at_cl in Hc as [d [Hd Hc]]. exists d. split; [exact Hd|]. destruct (N.eqb_spec (ac_id d) id) as [E|E]; subst c; cbn; auto 10. }
    assert (Hcl2 : forall d, In d cls0 -> exists c, In c cls /\ ac_id c = ac_id d /\ ac_in c = ac_in d /\ ac_net c = ac_net d).
    { intros d Hd. destruct (N.eqb_spec (ac_id d) id) as [E|E].
      - exists (fc d). split; [apply in_at_cl; exists d; split; [exact Hd|]; rewrite E, N.eqb_refl; reflexivity|cbn; auto].
      - exists d. split; [apply in_at_cl; exists d; split; [exact Hd|]; apply N.eqb_neq in E; rewrite E; reflexivity|auto]. }
    assert (Haw : forall m, ac_net c0 <> Some m \/ ac_in c0 = false -> all_away m cls = all_away m cls0).
    { intros m Hm. apply at_cl_away. intros c Hc Hci. assert (c = c0) by (apply (uniq cls0); auto; congruence). subst c. cbn [fc ac_in ac_net on_net].
      assert (Hf : ac_in c0 && on_net m c0 = false).
      { destruct Hm as [Hm|Hm]; [|rewrite Hm; reflexivity]. unfold on_net. destruct (ac_net c0) as [k|]; [|apply andb_false_r].
        destruct (N.eqb_spec k m) as [->|]; [exfalso; auto|apply andb_false_r]. }
      split; exact Hf. }
    (* the rest, given the networks *)
    assert (K : forall nets' o', same_nets nets nets' -> wk (fun n => hears n o' (server_away n tr)) nets' -> st cls nets' -> tidy (fun n => server_away n tr) nets o' ->
      inv ((AAway id params, ATell id b :: o') :: tr) (ASt nets' cls nn nc) /\
      sane tr (ASt nets cls0 nn nc) (AAway id params) (ASt nets' cls nn nc) (ATell id b :: o')).
    { intros nets' o' Hs Hw Hst Ht.
      assert (Htold : forall c, client_away c ((AAway id params, ATell id b :: o') :: tr) = if (id =? c)%N then b else client_away c tr).
      { intros c. cbn [client_away fold_left told]. change (tolds c o' (if (id =? c)%N then b else client_away c tr) = if (id =? c)%N then b else client_away c tr).
        apply tolds_none. intros a. apply Ht. }
      split.
      - constructor; cbn [a_nets a_cls a_nextnet a_nextcl].
        + exact (ids_nodup _ _ Hs In1).
        + exact (ids_lt _ _ _ Hs In2).
        + rewrite Hids. exact Ic1.
        + intros c Hc. destruct (Hcl c Hc) as [d [Hd [-> _]]]. exact (Ic2 d Hd).
        + intros c n Hc. destruct (Hcl c Hc) as [d [Hd [_ [_ [_ [-> _]]]]]]. exact (Ion d n Hd).
        + intros c Hc. destruct (Hcl c Hc) as [d [Hd [_ [-> [-> [-> _]]]]]]. exact (Ireg d Hd).
        + exact Hw.
        + exact Hst.
        + intros c Hc. destruct (Hcl c Hc) as [d [Hd [Hi [_ [_ [_ Ha]]]]]]. rewrite Htold, Ha, Hi, (N.eqb_sym id). rewrite (Itold d Hd). reflexivity.
        + intros c Hc. destruct (Inew c Hc) as [H1 H2]. rewrite Htold. assert (E : (id =? c)%N = false) by (apply N.eqb_neq; specialize (Ic2 c0 H0); lia).
          rewrite E. split; [exact H1|]. intros n Hp. apply present_cons in Hp as [Hp|[_ Hp]]; [discriminate|exact (H2 n Hp)].
        + intros n c. rewrite present_cons, Ipres. split.
          * intros [H|[_ [x [Hx [Hxi [Hxn Hxe]]]]]]; [discriminate|]. destruct (Hcl2 x Hx) as [y [Hy [Hy1 [Hy2 Hy3]]]]. exists y. split; [exact Hy|]. rewrite Hy1, Hy2, Hy3. auto.
          * intros [x [Hx [Hxi [Hxn Hxe]]]]. right. split; [discriminate|]. destruct (Hcl x Hx) as [d [Hd [E1 [_ [E2 [E3 _]]]]]]. exists d. split; [exact Hd|]. rewrite <- E1, <- E2, <- E3. auto.
      - intros n p [H|Hp]; [discriminate|]. destruct (tidy_sane _ _ _ _ n p Hs Ht Hp) as [Hc Hn]. split; [exact Hc|exact Hn]. }
    assert (Kno : forall m, ac_net c0 <> Some m \/ ac_in c0 = false -> forall net c, In net nets -> an_conn net = Some c -> an_auto net = true -> an_id net = m -> a_away c = all_away m cls).
    { intros m Hm net c Hn Hc Ha <-. rewrite (Ist net c Hn Hc Ha). symmetry. apply Haw. exact Hm. }
    assert (Kquiet : ac_reg c0 = false \/ ac_net c0 = None -> inv ((AAway id params, [ATell id b]) :: tr) (ASt nets cls nn nc) /\
      sane tr (ASt nets cls0 nn nc) (AAway id params) (ASt nets cls nn nc) [ATell id b]).
    { intros Hq. apply K; [apply same_refl|exact Iwk| |split; [intros ? ? []|intros ? ? []]].
      intros net c Hn Hc Ha. apply (Kno (an_id net)) with (net := net); auto. destruct Hq as [Hq|Hq]; [right; exact (proj1 (Ireg c0 H0 Hq))|left; rewrite Hq; discriminate]. }
    destruct (ac_reg c0) eqn:Er; [destruct (ac_net c0) as [m|] eqn:Em|].
    2:{ intros E. inversion E; subst; clear E. apply Kquiet. auto. }
    2:{ intros E. inversion E; subst; clear E. apply Kquiet. auto. }
    destruct (update_one cls m nets) as [nets' o'] eqn:Eu. intros E. inversion E; subst; clear E.
    destruct (update_one_ok cls (fun n => server_away n tr) m nets nets' o' In1 Iwk Eu) as [Hs [Hw [Hst Ht]]].
    { intros net c Hn Hne Hc Ha. apply (Kno (an_id net)) with (net := net); auto. left. congruence. }
    exact (K nets' o' Hs Hw Hst Ht).
  - (* registration *)
    destruct (find (fun c => (ac_id c =? id)%N) (a_cls s)) as [c0|] eqn:Ef; [|discriminate].
    destruct (find_id _ _ _ Ef) as [H0 Hid].
    destruct (ac_reg c0) eqn:Er; cbn [orb]; [discriminate|]. destruct (Ireg c0 H0 Er) as [Hin0 Hnet0].
    assert (Hnet : forall n, net = Some n -> (n < a_nextnet s)%N \/ has_net s n = false).
    { intros n _. destruct (has_net s n) eqn:Hh; [left|right; reflexivity]. unfold has_net in Hh. apply existsb_exists in Hh as [x [Hx E]]. apply N.eqb_eq in E. subst n. exact (In2 x Hx). }
    destruct (match net with Some n => negb (has_net s n) | None => false end) eqn:Eg; [discriminate|].
    assert (Hnet' : forall n, net = Some n -> (n < a_nextnet s)%N).
    { intros n ->. destruct (Hnet n eq_refl) as [H|H]; [exact H|]. rewrite H in Eg. discriminate. }
    clear Hnet Eg.
    set (fc := fun c => ACl id true ok net (ac_away c)).
    set (cls := at_cl id fc (a_cls s)).
    destruct s as [nets cls0 nn nc]; cbn [a_nets a_cls a_nextnet a_nextcl with_cls with_nets] in *.
    assert (Hids : map ac_id cls = map ac_id cls0) by (apply map_at_cl; intros c _; reflexivity).
    assert (Hc0 : forall d, In d cls0 -> ac_id d = id -> d = c0) by (intros d Hd E; apply (uniq cls0); auto; congruence).
    assert (Hcl : forall c, In c cls <-> c = fc c0 \/ (In c cls0 /\ ac_id c <> id)).
    { intros c. unfold cls. rewrite in_at_cl. split.
      - intros [d [Hd Hc]]. destruct (N.eqb_spec (ac_id d) id) as [E|E]; [left; rewrite (Hc0 d Hd E) in Hc; exact Hc|right; subst c; auto].
      - intros [->|[Hc E]]; [exists c0; split; [exact H0|]; rewrite Hid, N.eqb_refl; reflexivity|].
        exists c. split; [exact Hc|]. apply N.eqb_neq in E. rewrite E. reflexivity. }
    assert (K : forall nets' o', (forall c a, ~ In (ATell c a) o') -> same_nets nets nets' -> wk (fun n => hears n o' (server_away n tr)) nets' -> st cls nets' -> tidy (fun n => server_away n tr) nets o' ->
      inv ((ARegister id net ok, o') :: tr) (ASt nets' cls nn nc) /\
      sane tr (ASt nets cls0 nn nc) (ARegister id net ok) (ASt nets' cls nn nc) o').
    { intros nets' o' Hno Hs Hw Hst Ht.
      assert (Htold : forall c, client_away c ((ARegister id net ok, o') :: tr) = client_away c tr) by (intros c; cbn [client_away]; apply tolds_none; intros a; apply Ht).
      split.
      - constructor; cbn [a_nets a_cls a_nextnet a_nextcl].
        + exact (ids_nodup _ _ Hs In1).
        + exact (ids_lt _ _ _ Hs In2).
        + rewrite Hids. exact Ic1.
        + intros c Hc. apply Hcl in Hc as [->|[Hc _]]; [cbn; specialize (Ic2 c0 H0); lia|exact (Ic2 c Hc)].
        + intros c n Hc. apply Hcl in Hc as [->|[Hc _]]; [cbn; exact (Hnet' n)|exact (Ion c n Hc)].
        + intros c Hc. apply Hcl in Hc as [->|[Hc _]]; [cbn; discriminate|exact (Ireg c Hc)].
        + exact Hw.
        + exact Hst.
        + intros c Hc. rewrite Htold. apply Hcl in Hc as [->|[Hc _]]; [|exact (Itold c Hc)]. cbn [fc ac_id]. rewrite <- Hid. exact (Itold c0 H0).
        + intros c Hc. destruct (Inew c Hc) as [H1 H2]. rewrite Htold. split; [exact H1|]. intros n Hp. apply present_cons in Hp as [Hp|[_ Hp]]; [|exact (H2 n Hp)].
          assert (id = c) by congruence. specialize (Ic2 c0 H0). lia.
        + intros n c. rewrite present_cons, Ipres. split.
          * intros [H|[_ [x [Hx [Hxi [Hxn Hxe]]]]]].
            -- assert (id = c) by congruence. assert (net = Some n) by congruence. assert (ok = true) by congruence. subst.
               exists (fc c0). split; [apply Hcl; left; reflexivity|]. cbn. auto.
            -- exists x. split; [|auto]. apply Hcl. right. split; [exact Hx|]. intros E. rewrite (Hc0 x Hx E) in Hxn. congruence.
          * intros [x [Hx [Hxi [Hxn Hxe]]]]. apply Hcl in Hx as [->|[Hx Hne]].
            -- cbn in Hxi, Hxn, Hxe. left. congruence.
            -- right. split; [discriminate|]. exists x. auto.
      - intros n p Hp. destruct (tidy_sane _ _ _ _ n p Hs Ht Hp) as [Hc Hn]. split; [exact Hc|exact Hn]. }
    destruct ok.
    + destruct (update_all cls nets) as [nets' o'] eqn:Eu. intros E. inversion E; subst; clear E.
      destruct (update_all_ok cls (fun n => server_away n tr) nets nets' o In1 Iwk Eu) as [Hs [Hw [Hst Ht]]].
      apply K; auto. apply Ht.
    + intros E. inversion E; subst; clear E. apply K; [intros ? ? []|apply same_refl|exact Iwk| |split; [intros ? ? []|intros ? ? []]].
      intros x c Hn Hc Ha. rewrite (Ist x c Hn Hc Ha). symmetry. apply at_cl_away. intros d Hd Hdi. rewrite (Hc0 d Hd Hdi), Hin0. cbn. auto.
  - (* disconnection *)
    set (cls := filter (fun c => negb (ac_id c =? id)%N) (a_cls s)).
    destruct (update_all cls (a_nets s)) as [nets' o'] eqn:Eu. intros E. inversion E; subst; clear E.
    destruct (update_all_ok cls (fun n => server_away n tr) (a_nets s) nets' o In1 Iwk Eu) as [Hs [Hw [Hst Ht]]].
    destruct s as [nets cls0 nn nc]; cbn [a_nets a_cls a_nextnet a_nextcl with_cls with_nets] in *.
    assert (Htold : forall c, client_away c ((AClose id, o) :: tr) = client_away c tr) by (intros c; cbn [client_away]; apply tolds_none; intros a; apply Ht).
    assert (Hcl : forall c, In c cls <-> In c cls0 /\ ac_id c <> id) by (intros c; unfold cls; rewrite filter_In, Bool.negb_true_iff, N.eqb_neq; reflexivity).
    split.
    + constructor; cbn [a_nets a_cls a_nextnet a_nextcl].
      * exact (ids_nodup _ _ Hs In1).
      * exact (ids_lt _ _ _ Hs In2).
      * apply nodup_map_filter. exact Ic1.
      * intros c Hc. apply Hcl in Hc as [Hc _]. exact (Ic2 c Hc).
      * intros c n Hc. apply Hcl in Hc as [Hc _]. exact (Ion c n Hc).
      * intros c Hc. apply Hcl in Hc as [Hc _]. exact (Ireg c Hc).
      * exact Hw.
      * exact Hst.
      * intros c Hc. rewrite Htold. apply Hcl in Hc as [Hc _]. exact (Itold c Hc).
      * intros c Hc. destruct (Inew c Hc) as [H1 H2]. rewrite Htold. split; [exact H1|]. intros n Hp. apply present_cons in Hp as [Hp|[_ Hp]]; [discriminate|exact (H2 n Hp)].
      * intros n c. rewrite present_cons, Ipres. split.
        -- intros [H|[Hne [x [Hx [Hxi H]]]]]; [discriminate|]. exists x. split; [|auto]. apply Hcl. split; [exact Hx|]. intros E. apply Hne. congruence.
        -- intros [x [Hx [Hxi H]]]. apply Hcl in Hx as [Hx Hne]. right. split; [congruence|]. exists x. auto.
    + intros n p Hp. destruct (tidy_sane _ _ _ _ n p Hs Ht Hp) as [Hc Hn]. split; [exact Hc|exact Hn].
  - (* connected *)
    destruct (has_net s n) eqn:Eh; [|discriminate].
    set (nets1 := at_net n (set_conn (Some (AConn pre false))) (a_nets s)).
    destruct (update_one (a_cls s) n nets1) as [nets' o'] eqn:Eu. intros E. inversion E; subst; clear E.
    destruct s as [nets cls nn nc]; cbn [a_nets a_cls a_nextnet a_nextcl with_cls with_nets] in *.
    assert (Hids : map an_id nets1 = map an_id nets).
    { unfold nets1, at_net. rewrite map_map. apply map_ext. intros x. destruct (an_id x =? n)%N; reflexivity. }
    set (f := fun m => fresh m (AUp n pre) (server_away m tr)).
    assert (Hn1 : forall x, In x nets1 -> exists y, In y nets /\ an_id x = an_id y /\ an_auto x = an_auto y /\ (if (an_id y =? n)%N then an_conn x = Some (AConn pre false) else x = y)).
    { intros x Hx. apply in_map_iff in Hx as [y [<- Hy]]. exists y. split; [exact Hy|]. destruct (an_id y =? n)%N; auto. }
    destruct (update_one_ok cls f n nets1 nets' o) as [Hs [Hw [Hst Ht]]]; [rewrite Hids; exact In1| |exact Eu| |].
    { intros x c Hx Hc. destruct (Hn1 x Hx) as [y [Hy [Hi [_ Hxy]]]]. unfold f, fresh. destruct (N.eqb_spec (an_id y) n) as [E|E].
      - rewrite Hi, E, N.eqb_refl. rewrite Hc in Hxy. inversion Hxy. reflexivity.
      - subst x. rewrite (proj2 (N.eqb_neq n (an_id y))) by congruence. exact (Iwk y c Hy Hc). }
    { intros x c Hx Hne Hc Ha. destruct (Hn1 x Hx) as [y [Hy [Hi [_ Hxy]]]]. destruct (N.eqb_spec (an_id y) n) as [E|E]; [congruence|]. subst x. exact (Ist y c Hy Hc Ha). }
    assert (Htold : forall c, client_away c ((AUp n pre, o) :: tr) = client_away c tr) by (intros c; cbn [client_away]; apply tolds_none; intros a; apply Ht).
    split.
    + constructor; cbn [a_nets a_cls a_nextnet a_nextcl].
      * apply (ids_nodup _ _ Hs). rewrite Hids. exact In1.
      * apply (ids_lt _ _ _ Hs). intros x Hx. destruct (Hn1 x Hx) as [y [Hy [-> _]]]. exact (In2 y Hy).
      * exact Ic1.
      * exact Ic2.
      * exact Ion.
      * exact Ireg.
      * exact Hw.
      * exact Hst.
      * intros c Hc. rewrite Htold. exact (Itold c Hc).
      * intros c Hc. destruct (Inew c Hc) as [H1 H2]. rewrite Htold. split; [exact H1|]. intros m Hp. apply present_cons in Hp as [Hp|[_ Hp]]; [discriminate|exact (H2 m Hp)].
      * intros m c. rewrite present_cons, Ipres. split; [intros [H|[_ H]]; [discriminate|exact H]|intros H; right; split; [discriminate|exact H]].
    + intros m p Hp. destruct (tidy_sane _ _ _ _ m p Hs Ht Hp) as [Hc Hn]. split; [exact Hc|exact Hn].
  - (* connection lost *)
    intros E. inversion E; subst; clear E. split; [|intros ? ? []].
    destruct s as [nets cls nn nc]; cbn [a_nets a_cls a_nextnet a_nextcl with_cls with_nets] in *.
    assert (Hn1 : forall x, In x (at_net n (set_conn None) nets) -> exists y, In y nets /\ an_id x = an_id y /\ (an_conn x = None \/ x = y)).
    { intros x Hx. apply in_map_iff in Hx as [y [<- Hy]]. exists y. split; [exact Hy|]. destruct (an_id y =? n)%N; auto. }
    constructor; cbn [a_nets a_cls a_nextnet a_nextcl].
    + assert (E : map an_id (at_net n (set_conn None) nets) = map an_id nets); [|unfold with_nets; cbn [a_nets]; rewrite E; exact In1].
      unfold at_net. rewrite map_map. apply map_ext. intros x. destruct (an_id x =? n)%N; reflexivity.
    + intros x Hx. destruct (Hn1 x Hx) as [y [Hy [-> _]]]. exact (In2 y Hy).
    + exact Ic1.
    + exact Ic2.
    + exact Ion.
    + exact Ireg.
    + intros x c Hx Hc. destruct (Hn1 x Hx) as [y [Hy [_ [H| ->]]]]; [congruence|]. exact (Iwk y c Hy Hc).
    + intros x c Hx Hc. destruct (Hn1 x Hx) as [y [Hy [_ [H| ->]]]]; [congruence|]. exact (Ist y c Hy Hc).
    + exact Itold.
    + intros c Hc. destruct (Inew c Hc) as [H1 H2]. split; [exact H1|]. intros m Hp. apply present_cons in Hp as [Hp|[_ Hp]]; [discriminate|exact (H2 m Hp)].
    + intros m c. rewrite present_cons, Ipres. split; [intros [H|[_ H]]; [discriminate|exact H]|intros H; right; split; [discriminate|exact H]].
  - (* added *)
    intros E. inversion E; subst; clear E. split; [|intros ? ? []].
    destruct s as [nets cls nn nc]; cbn [a_nets a_cls a_nextnet a_nextcl with_cls with_nets] in *.
    constructor; cbn [a_nets a_cls a_nextnet a_nextcl].
    + rewrite map_app. cbn. apply NoDup_rev in In1. rewrite <- (rev_involutive (map an_id nets ++ [nn])). apply NoDup_rev. rewrite rev_app_distr. cbn.
      constructor; [|exact In1]. intros H. apply in_rev in H. apply in_map_iff in H as [x [E Hx]]. specialize (In2 x Hx). lia.
    + intros x Hx. apply in_app_iff in Hx as [Hx|[<-|[]]]; [specialize (In2 x Hx); lia|cbn; lia].
    + exact Ic1.
    + exact Ic2.
    + intros c n Hc Hn. specialize (Ion c n Hc Hn). lia.
    + exact Ireg.
    + intros x c Hx Hc. apply in_app_iff in Hx as [Hx|[<-|[]]]; [exact (Iwk x c Hx Hc)|discriminate].
    + intros x c Hx Hc. apply in_app_iff in Hx as [Hx|[<-|[]]]; [exact (Ist x c Hx Hc)|discriminate].
    + exact Itold.
    + intros c Hc. destruct (Inew c Hc) as [H1 H2]. split; [exact H1|]. intros m Hp. apply present_cons in Hp as [Hp|[_ Hp]]; [discriminate|exact (H2 m Hp)].
    + intros m c. rewrite present_cons, Ipres. split; [intros [H|[_ H]]; [discriminate|exact H]|intros H; right; split; [discriminate|exact H]].
  - (* changed *)
    destruct (has_net s n) eqn:Eh; [|discriminate]. intros E. inversion E; subst; clear E. split; [|intros ? ? []].
    assert (Hlt : (n < a_nextnet s)%N) by (unfold has_net in Eh; apply existsb_exists in Eh as [x [Hx E]]; apply N.eqb_eq in E; subst n; exact (In2 x Hx)).
    destruct s as [nets cls0 nn nc]; cbn [a_nets a_cls a_nextnet a_nextcl with_cls with_nets] in *.
    set (g := fun c => if on_net n c && negb (ac_in c) then ACl (ac_id c) (ac_reg c) (ac_in c) None (ac_away c) else c).
    assert (Hg : forall c, ac_id (g c) = ac_id c /\ ac_reg (g c) = ac_reg c /\ ac_in (g c) = ac_in c /\ ac_away (g c) = ac_away c /\ (ac_net (g c) = None \/ ac_net (g c) = ac_net c) /\ (ac_in c = true -> g c = c)).
    { intros c. unfold g. destruct (on_net n c && negb (ac_in c)) eqn:Eg; cbn; [|auto 10]. apply andb_true_iff in Eg as [_ Eg]. apply negb_true_iff in Eg.
      split; [reflexivity|]. split; [reflexivity|]. split; [reflexivity|]. split; [reflexivity|]. split; [auto|congruence]. }
    assert (Hfil : forall m, all_away m (map g cls0) = all_away m cls0).
    { intros m. apply all_away_ext. clear - Hg. induction cls0 as [|c r IH]; [reflexivity|]. cbn [map filter].
      destruct (Hg c) as [_ [_ [Hi [_ [_ He]]]]]. destruct (ac_in c) eqn:Ec.
      - rewrite (He eq_refl), Ec. cbn [andb]. rewrite IH. reflexivity.
      - rewrite Hi. cbn [andb]. exact IH. }
    constructor; cbn [a_nets a_cls a_nextnet a_nextcl].
    + rewrite map_app. cbn. rewrite <- (rev_involutive (map an_id _ ++ [n])). apply NoDup_rev. rewrite rev_app_distr. cbn.
      constructor; [|apply NoDup_rev; apply nodup_map_filter; exact In1]. intros H. apply in_rev in H. apply in_map_iff in H as [x [E Hx]]. apply filter_In in Hx as [_ Hx].
      rewrite E, N.eqb_refl in Hx. discriminate.
    + intros x Hx. apply in_app_iff in Hx as [Hx|[<-|[]]]; [apply filter_In in Hx as [Hx _]; exact (In2 x Hx)|exact Hlt].
    + rewrite map_map. rewrite (map_ext (fun x => ac_id (g x)) ac_id); [exact Ic1|]. intros c. apply Hg.
    + intros c Hc. apply in_map_iff in Hc as [d [<- Hd]]. rewrite (proj1 (Hg d)). exact (Ic2 d Hd).
    + intros c m Hc. apply in_map_iff in Hc as [d [<- Hd]]. destruct (Hg d) as [_ [_ [_ [_ [[H|H] _]]]]]; rewrite H; [discriminate|exact (Ion d m Hd)].
    + intros c Hc. apply in_map_iff in Hc as [d [<- Hd]]. destruct (Hg d) as [_ [-> [-> [_ [H _]]]]]. intros Hr. destruct (Ireg d Hd Hr) as [H1 H2]. split; [exact H1|]. destruct H; congruence.
    + intros x c Hx Hc. apply in_app_iff in Hx as [Hx|[<-|[]]]; [apply filter_In in Hx as [Hx _]; exact (Iwk x c Hx Hc)|discriminate].
    + intros x c Hx Hc Ha. rewrite Hfil. apply in_app_iff in Hx as [Hx|[<-|[]]]; [apply filter_In in Hx as [Hx _]; exact (Ist x c Hx Hc Ha)|discriminate].
    + intros c Hc. apply in_map_iff in Hc as [d [<- Hd]]. unfold is_away. destruct (Hg d) as [-> [_ [_ [-> _]]]]. exact (Itold d Hd).
    + intros c Hc. destruct (Inew c Hc) as [H1 H2]. split; [exact H1|]. intros m Hp. apply present_cons in Hp as [Hp|[_ Hp]]; [discriminate|exact (H2 m Hp)].
    + intros m c. rewrite present_cons, Ipres. split.
      * intros [H|[_ [x [Hx [Hxi [Hxn Hxe]]]]]]; [discriminate|]. exists x. split; [|auto]. apply in_map_iff. exists x. split; [apply (Hg x); exact Hxn|exact Hx].
      * intros [x [Hx [Hxi [Hxn Hxe]]]]. right. split; [discriminate|]. apply in_map_iff in Hx as [d [<- Hd]]. destruct (Hg d) as [H1 [_ [H3 [_ [_ H6]]]]]. exists d. split; [exact Hd|].
        rewrite H3 in Hxn. rewrite (H6 Hxn) in Hxi, Hxe. auto.
  - (* deleted *)
    intros E. inversion E; subst; clear E. split; [|intros ? ? []].
    destruct s as [nets cls nn nc]; cbn [a_nets a_cls a_nextnet a_nextcl with_cls with_nets] in *.
    constructor; cbn [a_nets a_cls a_nextnet a_nextcl].
    + apply nodup_map_filter. exact In1.
    + intros x Hx. apply filter_In in Hx as [Hx _]. exact (In2 x Hx).
    + exact Ic1.
    + exact Ic2.
    + exact Ion.
    + exact Ireg.
    + intros x c Hx Hc. apply filter_In in Hx as [Hx _]. exact (Iwk x c Hx Hc).
    + intros x c Hx Hc. apply filter_In in Hx as [Hx _]. exact (Ist x c Hx Hc).
    + exact Itold.
    + intros c Hc. destruct (Inew c Hc) as [H1 H2]. split; [exact H1|]. intros m Hp. apply present_cons in Hp as [Hp|[_ Hp]]; [discriminate|exact (H2 m Hp)].
    + intros m c. rewrite present_cons, Ipres. split; [intros [H|[_ H]]; [discriminate|exact H]|intros H; right; split; [discriminate|exact H]].
Qed.

Lemma runs_inv tr s : aruns tr s -> inv tr s.
Proof.
  induction 1 as [|tr s e s' o H IH E]; [|exact (proj1 (inv_step tr s e s' o IH E))].
  constructor; cbn.
  - constructor.
  - intros ? [].
  - constructor.
  - intros ? [].
  - intros ? ? [].
  - intros ? [].
  - intros ? ? [].
  - intros ? ? [].
  - intros ? [].
  - intros c _. split; [reflexivity|]. intros n [tr2 [o [tr1 [E _]]]]. destruct tr2; discriminate.
  - intros n c. split; [intros [tr2 [o [tr1 [E _]]]]; destruct tr2; discriminate|intros [x [[] _]]].
Qed.

Theorem away tr s n : aruns tr s -> connected n true s ->
  (server_away n tr = true <-> forall c, present n c tr -> client_away c tr = true).
Proof.
  intros H [c Hc]. apply runs_inv in H. destruct H as [_ _ _ _ _ _ Iwk Ist Itold _ Ipres].
  pose proof (Iwk _ c Hc eq_refl) as E1. pose proof (Ist _ c Hc eq_refl eq_refl) as E2. cbn [an_id] in E1, E2. rewrite E1, E2. unfold all_away. rewrite forallb_forall. split.
  - intros Ha d Hd. apply Ipres in Hd as [x [Hx [<- [Hi Hn]]]]. rewrite (Itold x Hx). unfold is_away. apply Ha. apply filter_In. split; [exact Hx|].
    rewrite Hi. unfold on_net. rewrite Hn, N.eqb_refl. reflexivity.
  - intros Ha x Hx. apply filter_In in Hx as [Hx Hf]. apply andb_true_iff in Hf as [Hi Hf]. unfold on_net in Hf. destruct (ac_net x) as [m|] eqn:En; [|discriminate].
    apply N.eqb_eq in Hf. subst m. change (is_away x = true). rewrite <- (Itold x Hx). apply Ha. apply Ipres. exists x. auto.
Qed.

Theorem sparing tr s e s' o n p : aruns tr s -> astep e s = Some (s', o) -> In (ASend n p) o ->
  connected n true s' /\ server_away n ((e, o) :: tr) = negb (fresh n e (server_away n tr)).
Proof.
  intros H E Hp. apply runs_inv in H. destruct (inv_step tr s e s' o H E) as [_ Hs]. destruct (Hs n p Hp) as [Hc Hn]. split; [exact Hc|].
  cbn [server_away]. unfold hears in Hn. revert Hn. destruct (fold_left _ o _), (fresh n e (server_away n tr)); intros Hn; cbn; congruence.
Qed.

Lemma step_told e s s' o c : astep e s = Some (s', o) ->
  forall b, tolds c o b = match e with AAway d params => if N.eqb d c then match params with [] => false | _ => true end else b | _ => b end.
Proof.
  assert (U1 : forall cls net net' o, update_away cls net = (net', o) -> forall d a, ~ In (ATell d a) o).
  { intros cls net net' o0. unfold update_away. destruct (an_conn net); [|intros E; inversion E; auto]. destruct (negb (an_auto net)); [intros E; inversion E; auto|].
    destruct (Bool.eqb _ _); intros E; [inversion E; auto|]. apply pair_equal_spec in E as [_ <-]. intros d x [H|[]]. discriminate. }
  assert (U2 : forall cls nets nets' o, update_all cls nets = (nets', o) -> forall d a, ~ In (ATell d a) o).
  { intros cls nets. induction nets as [|n r IH]; cbn [update_all]; intros nets' o0 E; [inversion E; auto|].
    destruct (update_away cls n) as [n' o1] eqn:E1. destruct (update_all cls r) as [r' o2]. apply pair_equal_spec in E as [_ <-]. intros d a Hd.
    apply in_app_iff in Hd as [Hd|Hd]; [exact (U1 _ _ _ _ E1 d a Hd)|exact (IH r' o2 eq_refl d a Hd)]. }
  assert (U3 : forall cls id nets nets' o, update_one cls id nets = (nets', o) -> forall d a, ~ In (ATell d a) o).
  { intros cls id nets. induction nets as [|n r IH]; cbn [update_one]; intros nets' o0 E; [inversion E; auto|]. destruct (an_id n =? id)%N.
    - destruct (update_away cls n) as [n' o1] eqn:E1. apply pair_equal_spec in E as [_ <-]. exact (U1 _ _ _ _ E1).
    - destruct (update_one cls id r) as [r' o2]. apply pair_equal_spec in E as [_ <-]. exact (IH r' o2 eq_refl). }
  intros E b. destruct e as [|id params|id net ok|id|n pre|n|auto|n auto|n]; cbn [astep] in E.
  - inversion E; subst. reflexivity.
  - destruct (find _ (a_cls s)) as [c0|]; [|discriminate].
    assert (K : forall o', (forall d a, ~ In (ATell d a) o') ->
      tolds c (ATell id (match (match params with [] => None | p :: _ => Some p end) with Some _ => true | None => false end) :: o') b =
      if (id =? c)%N then match params with [] => false | _ => true end else b).
    { intros o' Ho'. unfold tolds. cbn [fold_left told]. change (tolds c o' (if (id =? c)%N then match (match params with [] => None | p :: _ => Some p end) with Some _ => true | None => false end else b) = if (id =? c)%N then match params with [] => false | _ => true end else b).
      rewrite tolds_none by (intros a; apply Ho'). destruct params; reflexivity. }
    destruct (ac_reg c0); [destruct (ac_net c0) as [m|]|].
    + destruct (update_one _ m (a_nets s)) as [nets' o'] eqn:Eu. assert (o = ATell id (match (match params with [] => None | p :: _ => Some p end) with Some _ => true | None => false end) :: o') by congruence. subst o. apply K. exact (U3 _ _ _ _ _ Eu).
    + match type of E with Some (_, ?l) = _ => assert (o = l) by congruence end. subst o. apply K. intros d a [].
    + match type of E with Some (_, ?l) = _ => assert (o = l) by congruence end. subst o. apply K. intros d a [].
  - destruct (find _ (a_cls s)) as [c0|]; [|discriminate]. destruct (ac_reg c0 || _); [discriminate|]. destruct ok.
    + destruct (update_all _ (a_nets s)) as [nets' o'] eqn:Eu. assert (o = o') by congruence. subst o. apply tolds_none. intros a. exact (U2 _ _ _ _ Eu c a).
    + inversion E; subst. reflexivity.
  - destruct (update_all _ (a_nets s)) as [nets' o'] eqn:Eu. assert (o = o') by congruence. subst o. apply tolds_none. intros a. exact (U2 _ _ _ _ Eu c a).
  - destruct (has_net s n); [|discriminate]. destruct (update_one _ n _) as [nets' o'] eqn:Eu. assert (o = o') by congruence. subst o. apply tolds_none. intros a. exact (U3 _ _ _ _ _ Eu c a).
  - inversion E; subst. reflexivity.
  - inversion E; subst. reflexivity.
  - destruct (has_net s n); [|discriminate]. inversion E; subst. reflexivity.
  - inversion E; subst. reflexivity.
Qed.

Theorem asked_told tr s c : aruns tr s -> (forall params o, In (AAway c ([] :: params), o) tr -> False) -> client_away c tr = asked_away c tr.
Proof.
  induction 1 as [|tr s e s' o H IH E]; intros Hn; [reflexivity|].
  cbn [client_away]. change (tolds c o (client_away c tr) = asked_away c ((e, o) :: tr)). rewrite (step_told e s s' o c E).
  rewrite IH by (intros params o' Ho; apply (Hn params o'); right; exact Ho).
  destruct e as [|id params|id net ok|id|n pre|n|auto|n auto|n]; try reflexivity.
  cbn [asked_away]. destruct (N.eqb_spec id c) as [->|]; [|reflexivity]. destruct params as [|[|a p] r]; [reflexivity| |reflexivity].
  exfalso. apply (Hn r o). left. reflexivity.
Qed.
