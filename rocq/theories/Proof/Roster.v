(** Proofs for C44: the bouncer's channels and members are the server's. *)
From Verif.Base Require Import Bytes.
From Verif.Model Require Import Message CaseMap Membership Modes Roster.
From Verif.Spec Require Import Membership Modes Roster.
From Verif.Proof Require Import Membership.
From Verif.Proof Require Import CaseMap Modes.
Open Scope nat_scope.

(** ** Maps, by key *)

Definition look {V} (t : cmmap V) (k : bytes) : option (bytes * V) :=
  option_map (fun e => (original_key e, entry_value e)) (gm_lookup (cm_m t) k).

Lemma look_get {V} (t : cmmap V) n : cm_get t n = option_map snd (look t (casemap (cm_fold t) n)).
Proof. unfold cm_get, look. destruct (gm_lookup _ _) as [[o v]|]; reflexivity. Qed.

Lemma look_has {V} (t : cmmap V) n : cm_has t n = match look t (casemap (cm_fold t) n) with Some _ => true | None => false end.
Proof. unfold cm_has, look. destruct (gm_lookup _ _) as [[o v]|]; reflexivity. Qed.

Lemma look_set {V} (t : cmmap V) n v k :
  look (cm_set t n v) k = if beqb k (casemap (cm_fold t) n)
    then Some (match look t (casemap (cm_fold t) n) with Some (o, _) => o | None => n end, v) else look t k.
Proof.
  unfold look, cm_set. destruct (gm_lookup (cm_m t) (casemap (cm_fold t) n)) as [[o w]|] eqn:E; cbn [cm_m option_map original_key];
    rewrite gm_lookup_set; destruct (beqb k _); reflexivity.
Qed.

Lemma look_del {V} (t : cmmap V) n k : look (cm_del t n) k = if beqb k (casemap (cm_fold t) n) then None else look t k.
Proof. unfold look, cm_del. cbn [cm_m]. rewrite gm_lookup_del. destruct (beqb k _); reflexivity. Qed.

Lemma look_update {V} (f : V -> V) (t : cmmap V) k : look (cm_update f t) k = option_map (fun p => (fst p, f (snd p))) (look t k).
Proof.
  unfold look, cm_update. cbn [cm_m]. induction (cm_m t) as [|[k0 [o v]] l IH]; [reflexivity|].
  cbn [map gm_lookup fst snd]. destruct (beqb k k0); [reflexivity|exact IH].
Qed.

Lemma set_fold {V} (t : cmmap V) n v : cm_fold (cm_set t n v) = cm_fold t.
Proof. apply cm_set_fold. Qed.

Lemma wf_set {V} (t : cmmap V) n v : wf t -> wf (cm_set t n v).
Proof. exact (wf_step t (OpSet n v)). Qed.

Lemma wf_del {V} (t : cmmap V) n : wf t -> wf (cm_del t n).
Proof. exact (wf_step t (OpDel n)). Qed.

Lemma wf_new {V} cm : wf (@cm_new V cm).
Proof. split; [constructor|constructor]. Qed.

Lemma wf_update {V} (f : V -> V) (t : cmmap V) : wf t -> wf (cm_update f t).
Proof.
  intros [H1 H2]. unfold wf, cm_update, gkeys. cbn [cm_m cm_fold]. rewrite map_map. cbn [fst]. split; [exact H1|].
  rewrite Forall_forall in *. intros x Hx. apply in_map_iff in Hx as ([k [o v]] & <- & Hin). exact (H2 _ Hin).
Qed.

Lemma wf_key {V} (t : cmmap V) k o v : wf t -> look t k = Some (o, v) -> k = casemap (cm_fold t) o.
Proof.
  intros [Hnd Hf] H. unfold look in H. destruct (gm_lookup (cm_m t) k) as [[o' v']|] eqn:E; [|discriminate].
  cbn [option_map original_key entry_value] in H. injection H as -> ->. apply (gm_lookup_In _ _ _ Hnd) in E.
  rewrite Forall_forall in Hf. exact (Hf _ E).
Qed.

Lemma wf_entries {V} (t : cmmap V) o v : wf t -> In (o, v) (cm_entries t) <-> look t (casemap (cm_fold t) o) = Some (o, v).
Proof.
  intros H. unfold cm_entries. rewrite in_map_iff. split.
  - intros ([k [o' v']] & E & Hin). cbn [snd original_key entry_value] in E. injection E as -> ->.
    pose proof (proj2 H) as Hf. rewrite Forall_forall in Hf. specialize (Hf _ Hin). cbn [fst snd original_key] in Hf. subst k.
    unfold look. rewrite (proj2 (gm_lookup_In _ _ _ (proj1 H)) Hin). reflexivity.
  - intros E. unfold look in E. destruct (gm_lookup (cm_m t) (casemap (cm_fold t) o)) as [[o' v']|] eqn:El; [|discriminate].
    cbn in E. injection E as -> ->. exists (casemap (cm_fold t) o, Entry o v). split; [reflexivity|].
    exact (proj1 (gm_lookup_In _ _ _ (proj1 H)) El).
Qed.

Lemma wf_entries_nodup {V} (t : cmmap V) : wf t -> NoDup (map fst (cm_entries t)).
Proof.
  intros [Hnd Hf]. unfold cm_entries. rewrite map_map. unfold gkeys in Hnd.
  apply (NoDup_map_inv (casemap (cm_fold t))). rewrite map_map. cbn [fst].
  erewrite map_ext_in; [exact Hnd|]. intros x Hx. rewrite Forall_forall in Hf. symmetry. exact (Hf x Hx).
Qed.

(** ** Mode lines keep the spelling of names *)

Lemma change_member_look avail ch plus mb who k :
  cm_fold (ch_members (change_member avail ch plus mb who)) = cm_fold (ch_members ch) /\
  (wf (ch_members ch) -> wf (ch_members (change_member avail ch plus mb who))) /\
  option_map fst (look (ch_members (change_member avail ch plus mb who)) k) = option_map fst (look (ch_members ch) k).
Proof.
  unfold change_member. rewrite look_get. destruct (look (ch_members ch) (casemap (cm_fold (ch_members ch)) who)) as [[o ms]|] eqn:E; cbn [option_map snd]; [|auto].
  cbn [ch_members]. split; [apply set_fold|]. split; [apply wf_set|]. rewrite look_set.
  destruct (beqb_spec k (casemap (cm_fold (ch_members ch)) who)) as [->|]; [|reflexivity]. rewrite E. reflexivity.
Qed.

Lemma set_mode_members ch c v : ch_members (set_mode ch c v) = ch_members ch.
Proof. unfold set_mode. destruct (ch_modes ch); reflexivity. Qed.
Lemma del_mode_members ch c : ch_members (del_mode ch c) = ch_members ch.
Proof. unfold del_mode. destruct (ch_modes ch); reflexivity. Qed.

Lemma apply_modes_look avail table s : forall ch cur args k,
  let ch' := fst (apply_modes avail table ch cur s args) in
  cm_fold (ch_members ch') = cm_fold (ch_members ch) /\
  (wf (ch_members ch) -> wf (ch_members ch')) /\
  option_map fst (look (ch_members ch') k) = option_map fst (look (ch_members ch) k).
Proof.
  induction s as [|x s IH]; intros ch cur args k; [cbn; auto|]. cbn [apply_modes]. cbn zeta.
  assert (G : forall ch1 cur' args', ch_members ch1 = ch_members ch ->
    cm_fold (ch_members (fst (apply_modes avail table ch1 cur' s args'))) = cm_fold (ch_members ch) /\
    (wf (ch_members ch) -> wf (ch_members (fst (apply_modes avail table ch1 cur' s args')))) /\
    option_map fst (look (ch_members (fst (apply_modes avail table ch1 cur' s args'))) k) = option_map fst (look (ch_members ch) k)).
  { intros ch1 cur' args' E. rewrite <- E. apply IH. }
  destruct (aeqb x "+"); [apply G; reflexivity|]. destruct (aeqb x "-"); [apply G; reflexivity|].
  destruct cur as [plus|]; [|auto]. destruct (find_membership avail x) as [mb|].
  - destruct args as [|who args]; [auto|].
    destruct (change_member_look avail ch plus mb who k) as (A1 & A2 & A3).
    destruct (IH (change_member avail ch plus mb who) (Some plus) args k) as (B1 & B2 & B3).
    split; [congruence|]. split; [auto|congruence].
  - destruct (al_get table x) as [[| | |]|]; try destruct plus; apply G;
      rewrite ?set_mode_members, ?del_mode_members; reflexivity.
Qed.

(** ** Status sets *)

Section Good.
  Variable multi : bool.
  Variable avail : list membership.
  Hypothesis Hnd : NoDup (map mb_prefix avail).
  Let Hnd' : NoDup avail := NoDup_map_inv _ _ Hnd.

  Definition good (l : list membership) (st : status) : Prop := in_order l avail /\ (multi = true -> forall m, In m l <-> st m = true).

  Lemma good_step l st o : good l st -> (forall m, o = MsAdd m -> In m avail) -> good (ms_step avail l o) (after_ops [o] st).
  Proof.
    intros [H1 H2] Ho. unfold after_ops. cbn [fold_left]. destruct o as [m|m]; cbn [ms_step].
    - rewrite ms_add_rec. split; [apply add_rec_in_order; auto|]. intros Hm x. specialize (H2 Hm). rewrite (add_rec_In _ _ _ _ H1), H2, orb_true_iff, mb_eqb_eq.
      intuition congruence.
    - split; [apply ms_remove_in_order; exact H1|]. intros Hm x. specialize (H2 Hm). rewrite ms_remove_In by (eapply in_order_nodup; eassumption).
      rewrite H2, andb_true_iff, negb_true_iff. destruct (mb_eqb_spec m x); intuition congruence.
  Qed.

  Lemma good_steps ops : forall l st, good l st -> (forall m, In (MsAdd m) ops -> In m avail) ->
    good (fold_left (ms_step avail) ops l) (after_ops ops st).
  Proof.
    induction ops as [|o ops IH]; intros l st H Ho; [exact H|]. cbn [fold_left].
    change (after_ops (o :: ops) st) with (after_ops ops (after_ops [o] st)).
    apply IH; [|intros m Hm; apply Ho; right; exact Hm]. apply good_step; [exact H|]. intros m ->. apply Ho. left. reflexivity.
  Qed.

  Lemma good_nil : good [] (fun _ => false).
  Proof. split; [constructor|]. intros _ m. split; [intros []|discriminate]. Qed.

  Lemma changes_known table s args cur cm who m : In (MsAdd m) (status_changes avail table s args cur cm who) -> In m avail.
  Proof.
    unfold status_changes. intros H. apply in_flat_map in H as (i & _ & H). unfold status_at in H.
    destruct (nth_error s i) as [c|]; [|destruct H]. destruct (aeqb c "+" || aeqb c "-"); [destruct H|].
    destruct (find (fun mb => aeqb (mb_mode mb) c) avail) as [mb|] eqn:Ef; [|destruct H].
    destruct (arg_at avail table s args cur i); [|destruct H]. destruct (sign_at s cur i) as [[|]|]; [| |destruct H].
    - destruct (beqb _ _); [|destruct H]. destruct H as [E|[]]. injection E as ->. apply find_some in Ef. tauto.
    - destruct (beqb _ _); [|destruct H]. destruct H as [E|[]]. discriminate.
  Qed.

  Lemma changes_none table s args cur cm who :
    (forall c, In c s -> find (fun mb => aeqb (mb_mode mb) c) avail = None) -> status_changes avail table s args cur cm who = [].
  Proof.
    intros H. unfold status_changes. assert (G : forall l, flat_map (fun i => match status_at avail table s args cur i with
      | Some (w, op) => if beqb (casemap cm w) (casemap cm who) then [op] else [] | None => [] end) l = []).
    { induction l as [|i l IH]; [reflexivity|]. cbn [flat_map]. rewrite IH, app_nil_r. unfold status_at.
      destruct (nth_error s i) as [c|] eqn:E; [|reflexivity]. destruct (aeqb c "+" || aeqb c "-"); [reflexivity|].
      rewrite (H c (nth_error_In _ _ E)). reflexivity. }
    apply G.
  Qed.
End Good.

(** ** Parts of the state that do not touch channels *)

Definition core (r r' : rst) : Prop := r_tab r' = r_tab r /\ r_nick r' = r_nick r /\ r_chans r' = r_chans r.

Lemma core_refl r : core r r. Proof. repeat split. Qed.
Lemma core_trans a b c : core a b -> core b c -> core a c.
Proof. intros (A1 & A2 & A3) (B1 & B2 & B3). repeat split; congruence. Qed.

Lemma cache_core n i r : n <> [] -> exists r', cache_user n i r = Some r' /\ core r r'.
Proof. intros H. unfold cache_user. destruct n; [congruence|]. eexists. split; [reflexivity|]. repeat split. Qed.

Lemma forget_core r n : core r (forget r n).
Proof. unfold forget. destruct (should_cache r n); repeat split. Qed.

Lemma forgets_core l : forall r, core r (fold_left forget l r).
Proof. induction l as [|n l IH]; intros r; [apply core_refl|]. cbn [fold_left]. eapply core_trans; [apply forget_core|apply IH]. Qed.

Lemma unmonitor_core l : forall r, core r (fold_left (fun s x => forget (Roster.with_mon s (cm_del (r_mon s) x)) x) l r).
Proof.
  induction l as [|n l IH]; intros r; [apply core_refl|]. cbn [fold_left]. eapply core_trans; [|apply IH].
  eapply core_trans; [|apply forget_core]. repeat split.
Qed.

(** ** The server's own invariant *)

Ltac cmd := repeat match goal with |- context [beqb (B ?a) (B ?b)] =>
  let v := eval vm_compute in (beqb (B a) (B b)) in change (beqb (B a) (B b)) with v end; cbn [orb andb]; cbv iota.

Lemma upd_same {A} (f : nat -> A) i x : upd f i x i = x.
Proof. unfold upd. rewrite Nat.eqb_refl. reflexivity. Qed.
Lemma upd_other {A} (f : nat -> A) i x j : j <> i -> upd f i x j = f j.
Proof. intros H. unfold upd. rewrite (proj2 (Nat.eqb_neq j i) H). reflexivity. Qed.
Lemma updk_same {A} (f : bytes -> A) k x : updk f k x k = x.
Proof. unfold updk. rewrite beqb_refl. reflexivity. Qed.
Lemma updk_other {A} (f : bytes -> A) k x k' : k' <> k -> updk f k x k' = f k'.
Proof. intros H. unfold updk. rewrite (proj2 (beqb_neq k' k) H). reflexivity. Qed.

Section Mirror.
  Variable t : tables.
  Variables multi ext plain : bool.
  Hypothesis Hpre : NoDup (map mb_prefix (t_avail t)).
  Hypothesis Hsp : ~ In " "%char (map mb_prefix (t_avail t)).

  Let key (n : bytes) : bytes := casemap (t_cm t) n.

  Record swf (s : server) : Prop := {
    sw_me : exists u, sv_users s me = Some u;
    sw_member : forall k id, inside s k id -> sv_users s id <> None;
    sw_unique : forall i j u v, sv_users s i = Some u -> sv_users s j = Some v -> key (su_nick u) = key (su_nick v) -> i = j;
    sw_valid : forall i u, sv_users s i = Some u -> valid_nick t (su_nick u);
    sw_status : forall k i st m, sv_in s k i = Some st -> st m = true -> In m (t_avail t);
    sw_listed : forall k id, sv_listed s k = true -> inside s k me -> inside s k id -> sv_told s k id = true
  }.

  (** Changing the details of one user. *)
  Lemma swf_user s id u u' : swf s -> sv_users s id = Some u \/ (sv_users s id = None /\ forall k, sv_in s k id = None) ->
    valid_nick t (su_nick u') -> unused t s id (su_nick u') -> swf (Spec.Roster.with_users s (upd (sv_users s) id (Some u'))).
  Proof.
    intros [W1 W2 W3 W4 W5 W6] H Hv Hu. split; cbn [Spec.Roster.with_users sv_users sv_in sv_told sv_listed]; try assumption.
    - destruct W1 as [v W1]. destruct (Nat.eq_dec me id) as [<-|Hn]; [rewrite upd_same; eauto|rewrite upd_other by exact Hn; eauto].
    - intros k j Hj. destruct (Nat.eq_dec j id) as [->|Hn]; [rewrite upd_same; discriminate|rewrite upd_other by exact Hn]. exact (W2 k j Hj).
    - intros i j a b Hi Hj E. destruct (Nat.eq_dec i id) as [->|Hn], (Nat.eq_dec j id) as [->|Hn']; try reflexivity.
      + rewrite upd_same in Hi. rewrite upd_other in Hj by exact Hn'. assert (a = u') by congruence. subst a.
        exfalso. exact (Hu j b Hn' Hj (eq_sym E)).
      + rewrite upd_same in Hj. rewrite upd_other in Hi by exact Hn. assert (b = u') by congruence. subst b.
        exfalso. exact (Hu i a Hn Hi E).
      + rewrite upd_other in Hi by exact Hn. rewrite upd_other in Hj by exact Hn'. exact (W3 i j a b Hi Hj E).
    - intros i a Hi. destruct (Nat.eq_dec i id) as [->|Hn]; [rewrite upd_same in Hi; assert (a = u') by congruence; subst; exact Hv|].
      rewrite upd_other in Hi by exact Hn. exact (W4 i a Hi).
  Qed.

  Lemma swf_same_nick s id u u' : swf s -> sv_users s id = Some u -> su_nick u' = su_nick u ->
    swf (Spec.Roster.with_users s (upd (sv_users s) id (Some u'))).
  Proof.
    intros W H E. apply (swf_user s id u); [exact W|left; exact H|rewrite E; exact (sw_valid _ W _ _ H)|].
    rewrite E. intros j v Hj Hv C. apply Hj. exact (sw_unique _ W _ _ _ _ Hv H C).
  Qed.

  Lemma swf_leave s k id : swf s ->
    swf (Server (sv_users s) (updk (sv_in s) k (upd (sv_in s k) id None)) (sv_told s) (sv_listed s)).
  Proof.
    intros [W1 W2 W3 W4 W5 W6].
    assert (G : forall k' j, updk (sv_in s) k (upd (sv_in s k) id None) k' j = sv_in s k' j \/ updk (sv_in s) k (upd (sv_in s k) id None) k' j = None).
    { intros k' j. unfold updk, upd. destruct (beqb_spec k' k) as [->|]; [|left; reflexivity]. destruct (Nat.eqb j id); [right|left]; reflexivity. }
    assert (I : forall k' j, updk (sv_in s) k (upd (sv_in s k) id None) k' j <> None -> inside s k' j).
    { intros k' j Hj. destruct (G k' j) as [E|E]; [rewrite E in Hj; exact Hj|congruence]. }
    split; cbn [sv_users sv_in sv_told sv_listed]; try assumption.
    - intros k' j Hj. exact (W2 k' j (I _ _ Hj)).
    - intros k' i st m Hi. destruct (G k' i) as [E|E]; rewrite E in Hi; [exact (W5 k' i st m Hi)|discriminate].
    - intros k' j Hl H1 H2. exact (W6 k' j Hl (I _ _ H1) (I _ _ H2)).
  Qed.

  Lemma after_ops_known ops st m : (forall x, In (MsAdd x) ops -> In x (t_avail t)) -> (st m = true -> In m (t_avail t)) ->
    after_ops ops st m = true -> In m (t_avail t).
  Proof.
    intros Ho Hs. unfold after_ops. revert Hs. generalize (st m) as b. induction ops as [|o ops IH]; intros b Hb; cbn [fold_left]; [exact Hb|].
    apply IH; [intros x Hx; apply Ho; right; exact Hx|]. destruct o as [x|x].
    - rewrite orb_true_iff. intros [E|E]; [exact (Hb E)|]. apply mb_eqb_eq in E as <-. apply Ho. left. reflexivity.
    - rewrite andb_true_iff. intros [E _]. exact (Hb E).
  Qed.

  Lemma swf_step s l s' : swf s -> sstep t multi ext plain s l s' -> swf s'.
  Proof.
    intros W H. pose proof W as [W1 W2 W3 W4 W5 W6]. destruct H as [id u H1 H2 H3|id u name away H1 H2 H3 H4 H5 H6|u name st H1 H2 H3 H4|p nick status name ids xs H1 H2 H3 H4
      |p nick name text H1 H2 H3|id u name reason H1 H2 H3 H4|p id u name nick reason H1 H2 H3 H4|id u reason seen H1 H2 H3|id u new seen H1 H2 H3 H4 H5 H6
      |p name str args H1 H2|p nick name str args H1 H2|id u real seen H1 H2 H3 H4 H5|id u acc seen H1 H2 H3 H4|id u reason seen H1 H2 H3|id u user host seen H0 H1 H2|id u i H1 H2
      |p nick targets command H0 H1|removes]; try exact W.
    - apply (swf_user s id u); try assumption. right. split; [exact H1|]. intros k. destruct (sv_in s k id) eqn:E; [|reflexivity].
      exfalso. apply (W2 k id); [unfold inside; congruence|exact H1].
    - split; cbn [sv_users sv_in sv_told sv_listed]; try assumption.
      + intros k j Hj. unfold inside in Hj. cbn [sv_in] in Hj. destruct (bytes_dec k (casemap (t_cm t) name)) as [->|Hn].
        * rewrite updk_same in Hj. destruct (Nat.eq_dec j id) as [->|Hn']; [congruence|]. rewrite upd_other in Hj by exact Hn'. exact (W2 _ _ Hj).
        * rewrite updk_other in Hj by exact Hn. exact (W2 _ _ Hj).
      + intros k j st m Hj. destruct (bytes_dec k (casemap (t_cm t) name)) as [->|Hn].
        * rewrite updk_same in Hj. destruct (Nat.eq_dec j id) as [->|Hn']; [rewrite upd_same in Hj; injection Hj as <-; discriminate|].
          rewrite upd_other in Hj by exact Hn'. exact (W5 _ _ _ _ Hj).
        * rewrite updk_other in Hj by exact Hn. exact (W5 _ _ _ _ Hj).
      + intros k j Hl Hm Hj. unfold inside in Hj, Hm. cbn [sv_in] in Hj, Hm. destruct (bytes_dec k (casemap (t_cm t) name)) as [->|Hn].
        * rewrite updk_same in Hj, Hm. rewrite upd_other in Hm by congruence. rewrite updk_same.
          destruct (Nat.eq_dec j id) as [->|Hn']; [rewrite upd_same; reflexivity|].
          rewrite upd_other by exact Hn'. rewrite upd_other in Hj by exact Hn'. exact (W6 _ _ Hl Hm Hj).
        * rewrite updk_other in Hj by exact Hn. rewrite updk_other in Hm by exact Hn. rewrite updk_other by exact Hn. exact (W6 _ _ Hl Hm Hj).
    - split; cbn [sv_users sv_in sv_told sv_listed]; try assumption.
      + intros k j Hj. unfold inside in Hj. cbn [sv_in] in Hj. destruct (bytes_dec k (casemap (t_cm t) name)) as [->|Hn].
        * rewrite updk_same in Hj. destruct (Nat.eq_dec j me) as [->|Hn']; [congruence|]. rewrite upd_other in Hj by exact Hn'. exact (W2 _ _ Hj).
        * rewrite updk_other in Hj by exact Hn. exact (W2 _ _ Hj).
      + intros k j st' m Hj. destruct (bytes_dec k (casemap (t_cm t) name)) as [->|Hn].
        * rewrite updk_same in Hj. destruct (Nat.eq_dec j me) as [->|Hn'].
          -- rewrite upd_same in Hj. assert (st' = st) by congruence. subst. exact (H4 m).
          -- rewrite upd_other in Hj by exact Hn'. exact (W5 _ _ _ _ Hj).
        * rewrite updk_other in Hj by exact Hn. exact (W5 _ _ _ _ Hj).
      + intros k j Hl Hm Hj. unfold inside in Hj, Hm. cbn [sv_in] in Hj, Hm. destruct (bytes_dec k (casemap (t_cm t) name)) as [->|Hn].
        * rewrite updk_same in Hl. discriminate.
        * rewrite updk_other in Hj by exact Hn. rewrite updk_other in Hl by exact Hn. rewrite updk_other in Hm by exact Hn. rewrite updk_other by exact Hn. exact (W6 _ _ Hl Hm Hj).
    - split; cbn [sv_users sv_in sv_told sv_listed]; try assumption.
      intros k j Hl Hm Hj. destruct (bytes_dec k (casemap (t_cm t) name)) as [->|Hn].
      + rewrite updk_same. rewrite (W6 _ _ Hl Hm Hj). apply orb_true_r.
      + rewrite updk_other by exact Hn. exact (W6 _ _ Hl Hm Hj).
    - split; cbn [sv_users sv_in sv_told sv_listed]; try assumption.
      intros k j Hl Hm Hj. destruct (bytes_dec k (casemap (t_cm t) name)) as [->|Hn]; [exact (H3 j Hj)|].
      rewrite updk_other in Hl by exact Hn. exact (W6 _ _ Hl Hm Hj).
    - apply swf_leave. exact W.
    - apply swf_leave. exact W.
    - assert (I : forall k j, upd (sv_in s k) id None j <> None -> j <> id /\ inside s k j).
      { intros k j Hj. destruct (Nat.eq_dec j id) as [->|Hn]; [rewrite upd_same in Hj; congruence|]. rewrite upd_other in Hj by exact Hn. split; [exact Hn|exact Hj]. }
      assert (U : forall j v, upd (sv_users s) id None j = Some v -> sv_users s j = Some v).
      { intros j v Hj. destruct (Nat.eq_dec j id) as [->|Hn]; [rewrite upd_same in Hj; discriminate|]. rewrite upd_other in Hj by exact Hn. exact Hj. }
      split; cbn [sv_users sv_in sv_told sv_listed].
      + destruct W1 as [v W1]. exists v. rewrite upd_other by congruence. exact W1.
      + intros k j Hj. apply I in Hj as [Hn Hj]. rewrite upd_other by exact Hn. exact (W2 _ _ Hj).
      + intros i j a b Hi Hj. exact (W3 i j a b (U _ _ Hi) (U _ _ Hj)).
      + intros i a Hi. exact (W4 i a (U _ _ Hi)).
      + intros k i st m Hi. destruct (I k i ltac:(congruence)) as [Hn _]. rewrite upd_other in Hi by exact Hn. exact (W5 _ _ _ _ Hi).
      + intros k j Hl Hm Hj. exact (W6 k j Hl (proj2 (I _ _ Hm)) (proj2 (I _ _ Hj))).
    - apply (swf_user s id u); try assumption. left. exact H1.
    - assert (I : forall k j, updk (sv_in s) (casemap (t_cm t) name) (fun id =>
              match sv_users s id, sv_in s (casemap (t_cm t) name) id with
              | Some u, Some st => Some (after_ops (status_changes (t_avail t) (t_modes t) str args None (t_cm t) (su_nick u)) st)
              | _, x => x end) k j <> None -> inside s k j).
      { intros k j Hj. unfold updk in Hj. destruct (beqb_spec k (casemap (t_cm t) name)) as [->|]; [|exact Hj].
        unfold inside. destruct (sv_users s j), (sv_in s (casemap (t_cm t) name) j); congruence. }
      split; cbn [sv_users sv_in sv_told sv_listed]; try assumption.
      + intros k j Hj. exact (W2 k j (I _ _ Hj)).
      + intros k i st m Hi Hm. unfold updk in Hi. destruct (beqb_spec k (casemap (t_cm t) name)) as [->|]; [|exact (W5 _ _ _ _ Hi Hm)].
        destruct (sv_users s i) as [v|] eqn:Ev, (sv_in s (casemap (t_cm t) name) i) as [st0|] eqn:E0; try discriminate.
        * injection Hi as <-. revert Hm. apply after_ops_known; [intros x Hx; exact (changes_known _ _ _ _ _ _ _ _ Hx)|exact (W5 _ _ _ _ E0)].
        * exfalso. apply (W2 (casemap (t_cm t) name) i); [unfold inside; congruence|exact Ev].
      + intros k j Hl Hm Hj. exact (W6 k j Hl (I _ _ Hm) (I _ _ Hj)).
    - apply (swf_same_nick s id u); [exact W|exact H1|reflexivity].
    - apply (swf_same_nick s id u); [exact W|exact H1|reflexivity].
    - apply (swf_same_nick s id u); [exact W|exact H1|reflexivity].
    - apply (swf_same_nick s id u); [exact W|exact H1|reflexivity].
  Qed.

  (** ** The mirror *)

  Record chan_ok (s : server) (k : bytes) (u : uchan) : Prop := {
    ck_fold : cm_fold (uh_members u) = t_cm t;
    ck_wf : wf (uh_members u);
    ck_complete : uh_complete u = sv_listed s k;
    ck_in : forall id w st, sv_users s id = Some w -> sv_in s k id = Some st -> sv_told s k id = true ->
      exists l, look (uh_members u) (key (su_nick w)) = Some (su_nick w, l) /\ good multi (t_avail t) l st;
    ck_out : forall nk o l, look (uh_members u) nk = Some (o, l) ->
      exists id w st, sv_users s id = Some w /\ sv_in s k id = Some st /\ sv_told s k id = true /\ key (su_nick w) = nk
  }.

  Record agree (s : server) (r : rst) : Prop := {
    ag_tab : r_tab r = t;
    ag_nick : exists u, sv_users s me = Some u /\ su_nick u = r_nick r;
    ag_fold : cm_fold (r_chans r) = t_cm t;
    ag_wf : wf (r_chans r);
    ag_chans : forall k, match look (r_chans r) k with
      | None => sv_in s k me = None
      | Some (_, u) => inside s k me /\ chan_ok s k u
      end
  }.

  Lemma agree_core s r r' : agree s r -> core r r' -> agree s r'.
  Proof.
    intros [A1 A2 A3 A4 A5] (E1 & E2 & E3). split; rewrite ?E1, ?E2, ?E3; assumption.
  Qed.

  Lemma our_me s r u n : agree s r -> sv_users s me = Some u -> key n = key (su_nick u) -> is_our_nick r n = true.
  Proof.
    intros A H E. destruct (ag_nick _ _ A) as (v & Hv & En). assert (v = u) by congruence. subst v.
    unfold is_our_nick, r_cm. rewrite (ag_tab _ _ A), <- En. apply beqb_eq. symmetry. exact E.
  Qed.

  Lemma our_other s r id u n : swf s -> agree s r -> id <> me -> sv_users s id = Some u -> key n = key (su_nick u) -> is_our_nick r n = false.
  Proof.
    intros W A Hn H E. destruct (ag_nick _ _ A) as (v & Hv & En). unfold is_our_nick, r_cm. rewrite (ag_tab _ _ A), <- En.
    apply (proj2 (beqb_neq _ _)). intros C. apply Hn. apply (sw_unique _ W _ _ _ _ H Hv). change (key (su_nick v) = key n) in C. congruence.
  Qed.

  Lemma nick_nonempty s id u : swf s -> sv_users s id = Some u -> su_nick u <> [].
  Proof. intros W H. exact (proj1 (sw_valid _ W _ _ H)). Qed.

  (** The server changes, the bouncer does not. *)
  Lemma agree_same s s' r : agree s r ->
    (forall u, sv_users s me = Some u -> exists u', sv_users s' me = Some u' /\ su_nick u' = su_nick u) ->
    (forall k, sv_in s' k me = None <-> sv_in s k me = None) ->
    (forall k u, inside s k me -> chan_ok s k u -> chan_ok s' k u) -> agree s' r.
  Proof.
    intros [A1 A2 A3 A4 A5] H1 H2 H3. split; try assumption.
    - destruct A2 as (u & Hu & E). destruct (H1 u Hu) as (u' & Hu' & E'). exists u'. split; congruence.
    - intros k. specialize (A5 k). destruct (look (r_chans r) k) as [[o u]|]; [|apply H2; exact A5].
      destruct A5 as [I C]. split; [intros E; apply I; apply H2; exact E|exact (H3 k u I C)].
  Qed.

  (** Both change, in one channel. *)
  Lemma agree_chan s s' r name o u u' : agree s r -> look (r_chans r) (key name) = Some (o, u) ->
    (forall i, sv_users s' i = sv_users s i) -> inside s' (key name) me -> chan_ok s' (key name) u' ->
    (forall k, k <> key name -> (forall i, sv_in s' k i = sv_in s k i) /\ (forall i, sv_told s' k i = sv_told s k i) /\ sv_listed s' k = sv_listed s k) ->
    agree s' (with_chans r (cm_set (r_chans r) name u')).
  Proof.
    intros [A1 A2 A3 A4 A5] El H1 H2 H3 H4. split; cbn [with_chans r_tab r_nick r_chans].
    - exact A1.
    - destruct A2 as (v & Hv & E). exists v. rewrite H1. split; assumption.
    - rewrite set_fold. exact A3.
    - apply wf_set. exact A4.
    - intros k. rewrite look_set, A3. change (casemap (t_cm t) name) with (key name). destruct (beqb_spec k (key name)) as [->|Hn].
      + split; assumption.
      + specialize (A5 k). destruct (H4 k Hn) as (E1 & E2 & E3). destruct (look (r_chans r) k) as [[o' v]|]; [|rewrite E1; exact A5].
        destruct A5 as [I [C1 C2 C3 C4 C5]]. split; [unfold inside; rewrite E1; exact I|]. split; try assumption.
        * rewrite E3. exact C3.
        * intros id w st Hw Hi Ht. rewrite H1 in Hw. rewrite E1 in Hi. rewrite E2 in Ht. exact (C4 id w st Hw Hi Ht).
        * intros nk o0 l Hl. destruct (C5 nk o0 l Hl) as (id & w & st & Q1 & Q2 & Q3 & Q4). exists id, w, st. rewrite H1, E1, E2. auto.
  Qed.

  (** A channel of ours. *)
  Lemma our_chan s r name : agree s r -> inside s (key name) me ->
    exists o u, look (r_chans r) (key name) = Some (o, u) /\ cm_get (r_chans r) name = Some u /\ chan_ok s (key name) u.
  Proof.
    intros A I. pose proof (ag_chans _ _ A (key name)) as H. rewrite look_get, (ag_fold _ _ A). change (casemap (t_cm t) name) with (key name).
    destruct (look (r_chans r) (key name)) as [[o u]|]; [|contradiction]. exists o, u. cbn [option_map snd]. tauto.
  Qed.

  Lemma no_chan s r name : agree s r -> sv_in s (key name) me = None -> cm_get (r_chans r) name = None /\ look (r_chans r) (key name) = None.
  Proof.
    intros A I. pose proof (ag_chans _ _ A (key name)) as H. rewrite look_get, (ag_fold _ _ A). change (casemap (t_cm t) name) with (key name).
    destruct (look (r_chans r) (key name)) as [[o u]|]; [|auto]. destruct H as [H _]. contradiction.
  Qed.

  (** Only the details of users change, or a user who is in none of our channels. *)
  Lemma chan_users s s' k u : chan_ok s k u -> (forall i, sv_in s' k i = sv_in s k i) -> (forall i, sv_told s' k i = sv_told s k i) ->
    sv_listed s' k = sv_listed s k ->
    (forall i w, inside s k i -> sv_users s i = Some w -> exists w', sv_users s' i = Some w' /\ su_nick w' = su_nick w) ->
    (forall i w', inside s k i -> sv_users s' i = Some w' -> exists w, sv_users s i = Some w /\ su_nick w' = su_nick w) ->
    chan_ok s' k u.
  Proof.
    intros [C1 C2 C3 C4 C5] E1 E2 E3 U1 U2. split; try assumption.
    - rewrite E3. exact C3.
    - intros id w' st Hw Hi Ht. rewrite E1 in Hi. rewrite E2 in Ht.
      destruct (U2 id w' ltac:(unfold inside; congruence) Hw) as (w & Hw' & En). rewrite En. exact (C4 id w st Hw' Hi Ht).
    - intros nk o l Hl. destruct (C5 nk o l Hl) as (id & w & st & Q1 & Q2 & Q3 & Q4).
      destruct (U1 id w ltac:(unfold inside; congruence) Q1) as (w' & Hw' & En). exists id, w', st. rewrite E1, E2, En. auto.
  Qed.

  (** Details of a user other than the nickname. *)
  Lemma agree_detail s r id u u' : agree s r -> sv_users s id = Some u -> su_nick u' = su_nick u ->
    agree (Spec.Roster.with_users s (upd (sv_users s) id (Some u'))) r.
  Proof.
    intros A H E. apply (agree_same s); [exact A| |intros k; reflexivity|].
    - intros v Hv. cbn [Spec.Roster.with_users sv_users]. destruct (Nat.eq_dec me id) as [<-|Hn].
      + rewrite upd_same. exists u'. split; [reflexivity|congruence].
      + rewrite upd_other by exact Hn. eauto.
    - intros k v I C. apply (chan_users s); try assumption; try reflexivity; cbn [Spec.Roster.with_users sv_users]; intros i w Hi Hw.
      + destruct (Nat.eq_dec i id) as [->|Hn]; [rewrite upd_same; exists u'; split; [reflexivity|congruence]|rewrite upd_other by exact Hn; eauto].
      + destruct (Nat.eq_dec i id) as [->|Hn]; [rewrite upd_same in Hw; exists u; split; [exact H|congruence]|rewrite upd_other in Hw by exact Hn; eauto].
  Qed.

  Lemma events_one e r : on_events [e] r = match on_event e r with None => None | Some (r', ok) => Some (r', ok) end.
  Proof. cbn [on_events]. destruct (on_event e r) as [[r' ok]|]; [|reflexivity]. cbn. rewrite andb_true_r. reflexivity. Qed.

  (** *** Joining *)

  Lemma away_core id u params r s : swf s -> sv_users s id = Some u -> exists r', on_events [from u (B "AWAY") params] r = Some (r', true) /\ core r r'.
  Proof.
    intros W H. rewrite events_one. unfold from. cbn [on_event]. unfold handle. cbn [m_command m_params]. cmd. change (p_name (su_prefix u)) with (su_nick u).
    destruct (cm_get (r_users r) (su_nick u)) as [uu|]; [destruct (nonempty (uu_flags uu))|]; [|exists r; split; [reflexivity|apply core_refl]..].
    set (fl := match params with _ :: _ => replace_byte "H" "G" (uu_flags uu) | [] => replace_byte "G" "H" (uu_flags uu) end).
    destruct (cache_core (su_nick u) (UUser [] [] [] [] fl [] []) r (nick_nonempty s id u W H)) as (r' & E & K). rewrite E.
    exists r'. split; [reflexivity|exact K].
  Qed.

  Lemma events_app l1 l2 : forall r, on_events (l1 ++ l2) r =
    match on_events l1 r with None => None | Some (r1, ok) => option_map (fun q => (fst q, ok && snd q)) (on_events l2 r1) end.
  Proof.
    induction l1 as [|e l1 IH]; intros r.
    - cbn. destruct (on_events l2 r) as [[a b]|]; reflexivity.
    - cbn [app on_events]. destruct (on_event e r) as [[r1 ok]|]; [|reflexivity]. rewrite IH.
      destruct (on_events l1 r1) as [[r2 ok2]|]; [|reflexivity]. cbn [option_map fst snd].
      destruct (on_events l2 r2) as [[r3 ok3]|]; [|reflexivity]. cbn. rewrite andb_assoc. reflexivity.
  Qed.

  Lemma join_ok s r id u name : id <> me -> swf s -> agree s r -> sv_users s id = Some u -> valid_chan t name ->
    sv_in s (key name) id = None ->
    exists r', on_events (match sv_in s (key name) me with Some _ => [RMsg (join_message ext u name) (su_prefix u)] | None => [] end) r = Some (r', true) /\
      agree (Server (sv_users s) (updk (sv_in s) (key name) (upd (sv_in s (key name)) id (Some (fun _ => false))))
               (updk (sv_told s) (key name) (upd (sv_told s (key name)) id true)) (sv_listed s)) r'.
  Proof.
    intros Hid W A Hu [Hv _] Hno. destruct (sv_in s (key name) me) as [stm|] eqn:Em.
    - destruct (our_chan s r name A ltac:(unfold inside; congruence)) as (o & c & El & Eg & C).
      destruct (cache_core (su_nick u) (join_info r (join_message ext u name) (su_prefix u)) r (nick_nonempty s id u W Hu)) as (r1 & E1 & K1).
      pose proof (agree_core _ _ _ A K1) as A1. pose proof K1 as (K11 & K12 & K13).
      rewrite events_one. cbn [on_event]. unfold handle, join_message. cbn [m_command m_params]. cmd.
      change (p_name (su_prefix u)) with (su_nick u). unfold join_message in E1. rewrite E1. cbn [option_map].
      destruct ext.
      all: rewrite split_on_nosep by exact Hv; cbn [until_error]; unfold join_one;
        rewrite (our_other s r1 id u (su_nick u) W A1 Hid Hu eq_refl), K13, Eg; eexists; (split; [reflexivity|]);
        rewrite <- K13; rewrite <- K13 in El; apply (agree_chan s _ r1 name o c); try assumption;
        [reflexivity|unfold inside; cbn [sv_in]; rewrite updk_same, upd_other by congruence; congruence| |
         intros k Hk; cbn [sv_in sv_told sv_listed]; rewrite !updk_other by exact Hk; auto].
      all: destruct C as [C1 C2 C3 C4 C5]; split; cbn [with_members uh_members uh_chan ch_members uh_complete sv_users sv_in sv_told sv_listed];
        [rewrite set_fold; exact C1|apply wf_set; exact C2|exact C3| |].
      all: rewrite ?updk_same.
      all: assert (Hfree : look (uh_members c) (key (su_nick u)) = None)
        by (destruct (look (uh_members c) (key (su_nick u))) as [[o' l']|] eqn:E'; [|reflexivity];
            destruct (C5 _ _ _ E') as (j & w & st & Q1 & Q2 & Q3 & Q4);
            assert (j = id) by exact (sw_unique _ W _ _ _ _ Q1 Hu Q4); subst j; congruence).
      1, 3: intros j w st Hw Hj Ht; fold (uh_members c); rewrite look_set, C1; change (casemap (t_cm t) (su_nick u)) with (key (su_nick u)).
      1, 2: destruct (Nat.eq_dec j id) as [->|Hn];
        [assert (w = u) by congruence; subst w; rewrite beqb_refl, Hfree; rewrite upd_same in Hj;
         exists []; split; [reflexivity|injection Hj as <-; apply good_nil]|].
      1, 2: rewrite upd_other in Hj by exact Hn; rewrite upd_other in Ht by exact Hn;
        rewrite (proj2 (beqb_neq _ _)) by (intros E'; apply Hn; exact (sw_unique _ W _ _ _ _ Hw Hu E'));
        exact (C4 j w st Hw Hj Ht).
      all: intros nk o' l' Hl; fold (uh_members c) in Hl; rewrite look_set, C1 in Hl; change (casemap (t_cm t) (su_nick u)) with (key (su_nick u)) in Hl;
        destruct (beqb_spec nk (key (su_nick u))) as [->|Hn];
        [exists id, u, (fun _ => false); rewrite !upd_same; auto|];
        destruct (C5 _ _ _ Hl) as (j & w & st & Q1 & Q2 & Q3 & Q4); exists j, w, st;
        (rewrite !upd_other by (intros ->; apply Hn; congruence)); auto.
    - exists r. split; [reflexivity|]. apply (agree_same s); [exact A|eauto| |].
      + intros k. cbn [sv_in]. unfold updk. destruct (beqb_spec k (key name)) as [->|]; [|reflexivity]. rewrite upd_other by congruence. reflexivity.
      + intros k c I C. assert (Hk : k <> key name) by (intros ->; contradiction).
        apply (chan_users s); try assumption; cbn [sv_users sv_in sv_told sv_listed]; rewrite ?updk_other by exact Hk; try reflexivity; eauto.
  Qed.

  Lemma join_me_ok s r u name st : swf s -> agree s r -> sv_users s me = Some u -> valid_chan t name -> sv_in s (key name) me = None ->
    exists r', on_events [RMsg (join_message ext u name) (su_prefix u)] r = Some (r', true) /\
      agree (Server (sv_users s) (updk (sv_in s) (key name) (upd (sv_in s (key name)) me (Some st)))
               (updk (sv_told s) (key name) (fun _ => false)) (updk (sv_listed s) (key name) false)) r'.
  Proof.
    intros W A Hu [Hv _] Hno.
    destruct (cache_core (su_nick u) (join_info r (join_message ext u name) (su_prefix u)) r (nick_nonempty s me u W Hu)) as (r1 & E1 & K1).
    pose proof (agree_core _ _ _ A K1) as A1.
    assert (E : on_events [RMsg (join_message ext u name) (su_prefix u)] r =
      Some (with_chans r1 (cm_set (r_chans r1) name (UChan (Chan None (cm_new (r_cm r1))) false)), true)).
    { rewrite events_one. cbn [on_event]. unfold handle, join_message. cbn [m_command m_params]. cmd.
      change (p_name (su_prefix u)) with (su_nick u). unfold join_message in E1. rewrite E1. cbn [option_map].
      destruct ext; rewrite split_on_nosep by exact Hv; cbn [until_error]; unfold join_one; rewrite (our_me s r1 u (su_nick u) A1 Hu eq_refl); reflexivity. }
    rewrite E. eexists. split; [reflexivity|]. destruct (no_chan s r1 name A1 Hno) as [_ El].
    destruct A1 as [B1 B2 B3 B4 B5]. split; cbn [with_chans r_tab r_nick r_chans sv_users].
    - exact B1.
    - exact B2.
    - rewrite set_fold. exact B3.
    - apply wf_set. exact B4.
    - intros k. rewrite look_set, B3. change (casemap (t_cm t) name) with (key name). destruct (beqb_spec k (key name)) as [->|Hn].
      + split; [unfold inside; cbn [sv_in]; rewrite updk_same, upd_same; discriminate|].
        split; cbn [uh_members uh_chan ch_members uh_complete sv_users sv_in sv_told sv_listed].
        * unfold r_cm. rewrite B1. reflexivity.
        * apply wf_new.
        * rewrite updk_same. reflexivity.
        * intros id w st' _ _ Ht. rewrite updk_same in Ht. discriminate.
        * intros nk o l Hl. discriminate.
      + specialize (B5 k). unfold inside. cbn [sv_in]. rewrite updk_other by exact Hn. destruct (look (r_chans r1) k) as [[o c]|]; [|exact B5].
        destruct B5 as [I C]. split; [exact I|]. apply (chan_users s); try assumption; cbn [sv_users sv_in sv_told sv_listed]; rewrite ?updk_other by exact Hn; try reflexivity; eauto.
  Qed.

  (** *** Lists of members *)

  Lemma split_space_join xs : Forall (fun x => x <> [] /\ ~ In " "%char x) xs -> split_space (join (B " ") xs) = xs.
  Proof.
    intros H. unfold split_space. destruct xs as [|x xs]; [reflexivity|]. change (B " ") with [" "%char].
    rewrite split_join; [|discriminate|eapply Forall_impl; [|exact H]; intros a [_ Ha]; exact Ha].
    induction (x :: xs) as [|y l IH]; [reflexivity|]. inversion H as [|? ? [H1 _] H2]; subst. cbn [filter].
    destruct y; [congruence|]. cbn [nonempty]. rewrite IH by exact H2. reflexivity.
  Qed.

  Definition add_entry (m : cmmap (list membership)) (x : bytes) : cmmap (list membership) :=
    let (ms, nick) := parse_membership_prefix (t_avail t) x in cm_set m nick ms.

  Lemma lists_valid s k id x : swf s -> lists t multi s k id x -> x <> [] /\ ~ In " "%char x.
  Proof.
    intros W (u & st & l & H1 & H2 & H3 & H4 & ->). destruct (sw_valid _ W _ _ H1) as (V1 & V2 & V3). split.
    - intros E. apply app_eq_nil in E as [_ E]. contradiction.
    - rewrite in_app_iff. intros [H|H]; [|contradiction]. apply in_map_iff in H as (m & E & Hm). apply Hsp. apply in_map_iff.
      exists m. split; [exact E|]. exact (in_order_In _ _ _ H3 Hm).
  Qed.

  Lemma names_one s k u id x : swf s -> chan_ok s k u -> lists t multi s k id x ->
    chan_ok (Server (sv_users s) (sv_in s) (updk (sv_told s) k (fun i => Nat.eqb i id || sv_told s k i)) (sv_listed s)) k
      (with_members u (add_entry (uh_members u) x)).
  Proof.
    intros W [C1 C2 C3 C4 C5] (w0 & st0 & l0 & H1 & H2 & H3 & H4 & ->). unfold add_entry.
    destruct (sw_valid _ W _ _ H1) as (V1 & V2 & V3). rewrite (parse_format _ _ _ H3 Hpre V3).
    assert (Ek : forall v, look (cm_set (uh_members u) (su_nick w0) l0) (key v) = if beqb (key v) (key (su_nick w0)) then Some (su_nick w0, l0) else look (uh_members u) (key v)).
    { intros v. rewrite look_set, C1. change (casemap (t_cm t) (su_nick w0)) with (key (su_nick w0)).
      destruct (beqb (key v) (key (su_nick w0))); [|reflexivity].
      destruct (look (uh_members u) (key (su_nick w0))) as [[o l]|] eqn:E; [|reflexivity].
      destruct (C5 _ _ _ E) as (j & w & st & Q1 & Q2 & Q3 & Q4). assert (j = id) by exact (sw_unique _ W _ _ _ _ Q1 H1 Q4). subst j.
      assert (w = w0) by congruence. subst w. destruct (C4 _ _ _ Q1 Q2 Q3) as (l' & E' & _). congruence. }
    split; cbn [with_members uh_members uh_chan ch_members uh_complete sv_users sv_in sv_told sv_listed].
    - rewrite set_fold. exact C1.
    - apply wf_set. exact C2.
    - exact C3.
    - intros j w st Hw Hj Ht. rewrite updk_same in Ht. fold (uh_members u). rewrite Ek.
      destruct (beqb_spec (key (su_nick w)) (key (su_nick w0))) as [E|Hn].
      + assert (j = id) by exact (sw_unique _ W _ _ _ _ Hw H1 E). subst j. assert (w = w0) by congruence. subst w.
        exists l0. split; [reflexivity|]. split; [exact H3|]. assert (st = st0) by congruence. subst st. exact H4.
      + destruct (Nat.eqb_spec j id) as [->|Hn']; [congruence|]. cbn [orb] in Ht. exact (C4 j w st Hw Hj Ht).
    - intros nk o l Hl. fold (uh_members u) in Hl. rewrite look_set, C1 in Hl. change (casemap (t_cm t) (su_nick w0)) with (key (su_nick w0)) in Hl.
      destruct (beqb_spec nk (key (su_nick w0))) as [->|Hn].
      + exists id, w0, st0. rewrite updk_same, Nat.eqb_refl. auto.
      + destruct (C5 _ _ _ Hl) as (j & w & st & Q1 & Q2 & Q3 & Q4). exists j, w, st. rewrite updk_same, Q3, orb_true_r. auto.
  Qed.

  Lemma swf_told s f : swf s -> (forall k i, sv_told s k i = true -> f k i = true) -> swf (Server (sv_users s) (sv_in s) f (sv_listed s)).
  Proof. intros [W1 W2 W3 W4 W5 W6] H. split; cbn [sv_users sv_in sv_told sv_listed]; try assumption. intros k id A1 A2 A3. apply H. exact (W6 k id A1 A2 A3). Qed.

  Lemma names_all k ids xs : forall s u, swf s -> chan_ok s k u -> Forall2 (lists t multi s k) ids xs ->
    chan_ok (Server (sv_users s) (sv_in s) (updk (sv_told s) k (fun i => existsb (Nat.eqb i) ids || sv_told s k i)) (sv_listed s)) k
      (with_members u (fold_left add_entry xs (uh_members u))).
  Proof.
    revert xs. induction ids as [|id ids IH]; intros xs s u W C H; inversion H as [|? x ? xs' H1 H2]; subst; cbn [fold_left existsb orb].
    - apply (chan_users s); cbn [sv_users sv_in sv_told sv_listed]; try reflexivity; eauto.
      + destruct u as [[m c] b]. exact C.
      + intros i. rewrite updk_same. reflexivity.
    - pose proof (names_one s k u id x W C H1) as C'.
      assert (W' : swf (Server (sv_users s) (sv_in s) (updk (sv_told s) k (fun i => Nat.eqb i id || sv_told s k i)) (sv_listed s))).
      { apply swf_told; [exact W|]. intros k' i E. unfold updk. destruct (beqb_spec k' k) as [->|]; [rewrite E; apply orb_true_r|exact E]. }
      specialize (IH xs' _ _ W' C' H2). cbn [sv_users sv_in sv_told sv_listed with_members uh_members uh_chan ch_members] in IH.
      eapply chan_users; [exact IH|reflexivity| |reflexivity|cbn [sv_users]; eauto|cbn [sv_users]; eauto].
      intros i. cbn [sv_told]. rewrite !updk_same. destruct (Nat.eqb i id), (existsb (Nat.eqb i) ids); reflexivity.
  Qed.

  Lemma names_ok s r p nick status name ids xs : swf s -> agree s r -> inside s (key name) me ->
    In status [B "="; B "*"; B "@"] -> Forall2 (lists t multi s (key name)) ids xs ->
    exists r', on_events [by_server p (B "353") [nick; status; name; join (B " ") xs]] r = Some (r', true) /\
      agree (Server (sv_users s) (sv_in s)
               (updk (sv_told s) (key name) (fun i => existsb (Nat.eqb i) ids || sv_told s (key name) i)) (sv_listed s)) r'.
  Proof.
    intros W A I Hst H. destruct (our_chan s r name A I) as (o & c & El & Eg & C).
    rewrite events_one. unfold by_server. cbn [on_event]. unfold handle. cbn [m_command m_params]. cmd. rewrite Eg.
    rewrite split_space_join.
    - exists (with_chans r (cm_set (r_chans r) name (with_members c (fold_left add_entry xs (uh_members c))))). split.
      + rewrite (ag_tab _ _ A). destruct Hst as [<-|[<-|[<-|[]]]]; reflexivity.
      + apply (agree_chan s _ r name o c); try assumption; [reflexivity|apply names_all; assumption|].
        intros k Hk. cbn [sv_in sv_told sv_listed]. rewrite !updk_other by exact Hk. auto.
    - clear -H W Hsp. induction H as [|id x ids xs H1 H2 IH]; [constructor|]. constructor; [exact (lists_valid _ _ _ _ W H1)|exact IH].
  Qed.

  Lemma names_end_ok s r p nick name text : agree s r -> inside s (key name) me -> sv_listed s (key name) = false ->
    exists r', on_events [by_server p (B "366") [nick; name; text]] r = Some (r', true) /\
      agree (Server (sv_users s) (sv_in s) (sv_told s) (updk (sv_listed s) (key name) true)) r'.
  Proof.
    intros A I H. destruct (our_chan s r name A I) as (o & c & El & Eg & C).
    rewrite events_one. unfold by_server. cbn [on_event]. unfold handle. cbn [m_command m_params]. cmd. rewrite Eg, (ck_complete _ _ _ C), H.
    eexists. split; [reflexivity|]. apply (agree_chan s _ r name o c); try assumption; [reflexivity| |].
    - destruct C as [C1 C2 C3 C4 C5]. split; try assumption. cbn [uh_complete sv_listed]. rewrite updk_same. reflexivity.
    - intros k Hk. cbn [sv_in sv_told sv_listed]. rewrite !updk_other by exact Hk. auto.
  Qed.

  (** *** Leaving *)

  Lemma leave_me_ok s r name : agree s r -> inside s (key name) me ->
    agree (Server (sv_users s) (updk (sv_in s) (key name) (upd (sv_in s (key name)) me None)) (sv_told s) (sv_listed s)) (leave r name).
  Proof.
    intros A I. destruct (our_chan s r name A I) as (o & c & El & Eg & C). unfold leave. rewrite Eg.
    eapply agree_core; [|apply forgets_core]. destruct A as [A1 A2 A3 A4 A5]. split; cbn [with_chans r_tab r_nick r_chans sv_users].
    - exact A1.
    - exact A2.
    - exact A3.
    - apply wf_del. exact A4.
    - intros k. rewrite look_del, A3. change (casemap (t_cm t) name) with (key name). unfold inside. cbn [sv_in].
      destruct (beqb_spec k (key name)) as [->|Hn].
      + rewrite updk_same, upd_same. reflexivity.
      + rewrite updk_other by exact Hn. specialize (A5 k). destruct (look (r_chans r) k) as [[o' v]|]; [|exact A5]. destruct A5 as [J D].
        split; [exact J|]. apply (chan_users s); try assumption; cbn [sv_users sv_in sv_told sv_listed]; rewrite ?updk_other by exact Hn; try reflexivity; eauto.
  Qed.

  Lemma drop_ok s r id u name nick : swf s -> agree s r -> id <> me -> sv_users s id = Some u -> key nick = key (su_nick u) ->
    inside s (key name) me -> exists r', drop_member r name nick = (r', true) /\
    agree (Server (sv_users s) (updk (sv_in s) (key name) (upd (sv_in s (key name)) id None)) (sv_told s) (sv_listed s)) r'.
  Proof.
    intros W A Hid Hu En I. destruct (our_chan s r name A I) as (o & c & El & Eg & C). unfold drop_member. rewrite Eg.
    eexists. split; [reflexivity|]. eapply agree_core; [|apply forget_core]. apply (agree_chan s _ r name o c); try assumption; [reflexivity| | |].
    - unfold inside. cbn [sv_in]. rewrite updk_same, upd_other by congruence. exact I.
    - destruct C as [C1 C2 C3 C4 C5]. split; cbn [with_members uh_members uh_chan ch_members uh_complete sv_users sv_in sv_told sv_listed]; fold (uh_members c).
      + exact C1.
      + apply wf_del. exact C2.
      + exact C3.
      + intros j w st Hw Hj Ht. rewrite updk_same in Hj. rewrite look_del, C1. change (casemap (t_cm t) nick) with (key nick). rewrite En.
        destruct (Nat.eq_dec j id) as [->|Hn]; [rewrite upd_same in Hj; discriminate|]. rewrite upd_other in Hj by exact Hn.
        rewrite (proj2 (beqb_neq _ _)) by (intros E; apply Hn; exact (sw_unique _ W _ _ _ _ Hw Hu E)). exact (C4 j w st Hw Hj Ht).
      + intros nk o' l Hl. rewrite look_del, C1 in Hl. change (casemap (t_cm t) nick) with (key nick) in Hl. rewrite En in Hl.
        destruct (beqb_spec nk (key (su_nick u))) as [|Hn]; [discriminate|].
        destruct (C5 _ _ _ Hl) as (j & w & st & Q1 & Q2 & Q3 & Q4). exists j, w, st. rewrite updk_same.
        rewrite upd_other by (intros ->; apply Hn; congruence). auto.
    - intros k Hk. cbn [sv_in sv_told sv_listed]. rewrite !updk_other by exact Hk. auto.
  Qed.

  (** Leaving a channel we are not in. *)
  Lemma leave_elsewhere s r name id : agree s r -> sv_in s (key name) me = None ->
    agree (Server (sv_users s) (updk (sv_in s) (key name) (upd (sv_in s (key name)) id None)) (sv_told s) (sv_listed s)) r.
  Proof.
    intros A E. apply (agree_same s); [exact A|eauto| |].
    - intros k. cbn [sv_in]. unfold updk, upd. destruct (beqb_spec k (key name)) as [->|]; [|reflexivity]. destruct (Nat.eqb me id); [rewrite E|]; reflexivity.
    - intros k c I C. assert (Hk : k <> key name) by (intros ->; contradiction).
      apply (chan_users s); try assumption; cbn [sv_users sv_in sv_told sv_listed]; rewrite ?updk_other by exact Hk; try reflexivity; eauto.
  Qed.

  Lemma part_ok s r id u name reason : swf s -> agree s r -> sv_users s id = Some u -> valid_chan t name ->
    exists r', on_events (match sv_in s (key name) me with Some _ => [from u (B "PART") (name :: reason)] | None => [] end) r = Some (r', true) /\
      agree (Server (sv_users s) (updk (sv_in s) (key name) (upd (sv_in s (key name)) id None)) (sv_told s) (sv_listed s)) r'.
  Proof.
    intros W A Hu [Hv _]. destruct (sv_in s (key name) me) eqn:Em.
    - assert (I : inside s (key name) me) by (unfold inside; congruence). rewrite events_one. unfold from. cbn [on_event]. unfold handle.
      cbn [m_command m_params]. cmd. rewrite split_on_nosep by exact Hv. cbn [until_error]. unfold part_one.
      change (p_name (su_prefix u)) with (su_nick u). destruct (Nat.eq_dec id me) as [->|Hid].
      + rewrite (our_me s r u (su_nick u) A Hu eq_refl). eexists. split; [reflexivity|]. apply leave_me_ok; assumption.
      + rewrite (our_other s r id u (su_nick u) W A Hid Hu eq_refl).
        destruct (drop_ok s r id u name (su_nick u) W A Hid Hu eq_refl I) as (r' & E & A'). rewrite E. eexists. split; [reflexivity|exact A'].
    - eexists. split; [reflexivity|]. apply leave_elsewhere; assumption.
  Qed.

  Lemma kick_ok s r p id u name nick reason : swf s -> agree s r -> sv_users s id = Some u -> key nick = key (su_nick u) ->
    exists r', on_events (match sv_in s (key name) me with Some _ => [by_server p (B "KICK") (name :: nick :: reason)] | None => [] end) r = Some (r', true) /\
      agree (Server (sv_users s) (updk (sv_in s) (key name) (upd (sv_in s (key name)) id None)) (sv_told s) (sv_listed s)) r'.
  Proof.
    intros W A Hu En. destruct (sv_in s (key name) me) eqn:Em.
    - assert (I : inside s (key name) me) by (unfold inside; congruence). rewrite events_one. unfold by_server. cbn [on_event]. unfold handle.
      cbn [m_command m_params]. cmd. destruct (Nat.eq_dec id me) as [->|Hid].
      + rewrite (our_me s r u nick A Hu En). eexists. split; [reflexivity|]. apply leave_me_ok; assumption.
      + rewrite (our_other s r id u nick W A Hid Hu En).
        destruct (drop_ok s r id u name nick W A Hid Hu En I) as (r' & E & A'). rewrite E. eexists. split; [reflexivity|exact A'].
    - eexists. split; [reflexivity|]. apply leave_elsewhere; assumption.
  Qed.

  (** All channels at once. *)
  Lemma agree_all s s' r f nick' : agree s r -> (exists u, sv_users s' me = Some u /\ su_nick u = nick') ->
    (forall k, sv_in s' k me = None <-> sv_in s k me = None) ->
    (forall k u, inside s k me -> chan_ok s k u -> chan_ok s' k (f u)) ->
    agree s' (with_chans (Roster.with_nick r nick') (cm_update f (r_chans r))).
  Proof.
    intros [A1 A2 A3 A4 A5] H1 H2 H3. split; cbn [with_chans Roster.with_nick r_tab r_nick r_chans].
    - exact A1.
    - exact H1.
    - exact A3.
    - apply wf_update. exact A4.
    - intros k. rewrite look_update. specialize (A5 k). destruct (look (r_chans r) k) as [[o u]|]; cbn [option_map fst snd]; [|apply H2; exact A5].
      destruct A5 as [I C]. split; [intros E; apply I; apply H2; exact E|exact (H3 k u I C)].
  Qed.

  Lemma quit_ok s r id u reason seen : swf s -> agree s r -> id <> me -> sv_users s id = Some u -> (sharing s id -> seen = true) ->
    exists r', on_events (if seen then [from u (B "QUIT") reason] else []) r = Some (r', true) /\
      agree (Server (upd (sv_users s) id None) (fun k => upd (sv_in s k) id None) (sv_told s) (sv_listed s)) r'.
  Proof.
    intros W A Hid Hu Hs. assert (Hme : forall v, sv_users s me = Some v -> upd (sv_users s) id None me = Some v)
      by (intros v Hv; rewrite upd_other by congruence; exact Hv).
    destruct seen.
    - rewrite events_one. unfold from. cbn [on_event]. unfold handle. cbn [m_command m_params]. cmd.
      change (p_name (su_prefix u)) with (su_nick u). eexists. split; [reflexivity|].
      assert (G : agree (Server (upd (sv_users s) id None) (fun k => upd (sv_in s k) id None) (sv_told s) (sv_listed s))
        (with_chans (Roster.with_nick r (r_nick r)) (cm_update (quit_member (su_nick u)) (r_chans r)))).
      { apply (agree_all s); [exact A| | |].
        - destruct (ag_nick _ _ A) as (v & Hv & E). exists v. split; [exact (Hme v Hv)|exact E].
        - intros k. cbn [sv_in]. rewrite upd_other by congruence. reflexivity.
        - intros k c I C. destruct C as [C1 C2 C3 C4 C5]. unfold quit_member. rewrite look_has, C1.
          change (casemap (t_cm t) (su_nick u)) with (key (su_nick u)).
          set (c' := if match look (uh_members c) (key (su_nick u)) with Some _ => true | None => false end
            then with_members c (cm_del (uh_members c) (su_nick u)) else c).
          assert (L : cm_fold (uh_members c') = t_cm t /\ wf (uh_members c') /\ uh_complete c' = uh_complete c /\
            forall nk, look (uh_members c') nk = if beqb nk (key (su_nick u)) then None else look (uh_members c) nk).
          { subst c'. destruct (look (uh_members c) (key (su_nick u))) as [p|] eqn:E.
            - split; [exact C1|]. split; [apply wf_del; exact C2|]. split; [reflexivity|]. intros nk.
              change (uh_members (with_members c (cm_del (uh_members c) (su_nick u)))) with (cm_del (uh_members c) (su_nick u)).
              rewrite look_del, C1. reflexivity.
            - split; [exact C1|]. split; [exact C2|]. split; [reflexivity|]. intros nk.
              destruct (beqb_spec nk (key (su_nick u))) as [->|]; [exact E|reflexivity]. }
          destruct L as (L1 & L2 & L3 & L4). split; cbn [sv_users sv_in sv_told sv_listed]; try assumption.
          + rewrite L3. exact C3.
          + intros j w st Hw Hj Ht. destruct (Nat.eq_dec j id) as [->|Hn]; [rewrite upd_same in Hw; discriminate|].
            rewrite upd_other in Hw by exact Hn. rewrite upd_other in Hj by exact Hn. rewrite L4, (proj2 (beqb_neq _ _)) by (intros E; apply Hn; exact (sw_unique _ W _ _ _ _ Hw Hu E)).
            exact (C4 j w st Hw Hj Ht).
          + intros nk o l Hl. rewrite L4 in Hl. destruct (beqb_spec nk (key (su_nick u))) as [|Hn]; [discriminate|].
            destruct (C5 _ _ _ Hl) as (j & w & st & Q1 & Q2 & Q3 & Q4). assert (j <> id) by (intros ->; apply Hn; congruence).
            exists j, w, st. rewrite !upd_other by assumption. auto. }
      eapply agree_core; [exact G|]. repeat split.
    - exists r. split; [reflexivity|]. assert (Hns : ~ sharing s id) by (intros H; specialize (Hs H); discriminate).
      apply (agree_same s); [exact A|intros v Hv; exists v; split; [exact (Hme v Hv)|reflexivity]| |].
      + intros k. cbn [sv_in]. rewrite upd_other by congruence. reflexivity.
      + intros k c I C. assert (Hout : sv_in s k id = None).
        { destruct (sv_in s k id) eqn:E; [|reflexivity]. exfalso. apply Hns. exists k. split; [exact I|unfold inside; congruence]. }
        apply (chan_users s); try assumption; cbn [sv_users sv_in sv_told sv_listed]; try reflexivity.
        * intros i. destruct (Nat.eq_dec i id) as [->|Hn]; [rewrite upd_same; symmetry; exact Hout|apply upd_other; exact Hn].
        * intros i w Hi Hw. assert (i <> id) by (intros ->; contradiction). rewrite upd_other by assumption. eauto.
        * intros i w Hi Hw. assert (i <> id) by (intros ->; contradiction). rewrite upd_other in Hw by assumption. eauto.
  Qed.

  (** *** Nicknames *)

  Lemma nick_chan s k c id u new : swf s -> chan_ok s k c -> sv_users s id = Some u -> unused t s id new ->
    chan_ok (Spec.Roster.with_users s (upd (sv_users s) id (Some (su_with_nick u new)))) k (rename_member (su_nick u) new c).
  Proof.
    intros W [C1 C2 C3 C4 C5] Hu Hun.
    set (M := match look (uh_members c) (key (su_nick u)) with Some (_, ms) => cm_set (cm_del (uh_members c) (su_nick u)) new ms | None => uh_members c end).
    assert (EM : uh_members (rename_member (su_nick u) new c) = M /\ uh_complete (rename_member (su_nick u) new c) = uh_complete c).
    { unfold rename_member, M. rewrite look_get, C1. change (casemap (t_cm t) (su_nick u)) with (key (su_nick u)).
      destruct (look (uh_members c) (key (su_nick u))) as [[o ms]|]; split; reflexivity. }
    destruct EM as [EM1 EM2].
    (* nobody else uses the new name in the channel *)
    assert (Hfree : key new <> key (su_nick u) -> look (uh_members c) (key new) = None).
    { intros Hne. destruct (look (uh_members c) (key new)) as [[o l]|] eqn:E; [|reflexivity].
      destruct (C5 _ _ _ E) as (j & w & st & Q1 & Q2 & Q3 & Q4). destruct (Nat.eq_dec j id) as [->|Hn].
      - exfalso. apply Hne. rewrite <- Q4. congruence.
      - exfalso. exact (Hun j w Hn Q1 Q4). }
    assert (HM : cm_fold M = t_cm t /\ wf M /\ forall nk, look M nk =
      match look (uh_members c) (key (su_nick u)) with
      | Some (_, ms) => if beqb nk (key new) then Some (new, ms) else if beqb nk (key (su_nick u)) then None else look (uh_members c) nk
      | None => look (uh_members c) nk end).
    { unfold M. destruct (look (uh_members c) (key (su_nick u))) as [[o ms]|] eqn:E; [|auto].
      split; [rewrite set_fold; exact C1|]. split; [apply wf_set, wf_del; exact C2|]. intros nk.
      assert (Ef : cm_fold (cm_del (uh_members c) (su_nick u)) = t_cm t) by exact C1. rewrite look_set, !look_del, Ef, C1.
      change (casemap (t_cm t) new) with (key new). change (casemap (t_cm t) (su_nick u)) with (key (su_nick u)).
      destruct (beqb nk (key new)); [|reflexivity]. destruct (beqb_spec (key new) (key (su_nick u))) as [|Hne]; [reflexivity|].
      rewrite (Hfree Hne). reflexivity. }
    destruct HM as (M1 & M2 & M3).
    split; rewrite ?EM1, ?EM2; cbn [Spec.Roster.with_users sv_users sv_in sv_told sv_listed]; try assumption.
    - intros j w st Hw Hj Ht. rewrite M3. destruct (Nat.eq_dec j id) as [->|Hn].
      + rewrite upd_same in Hw. assert (w = su_with_nick u new) by congruence. subst w. cbn [su_with_nick su_nick].
        destruct (C4 id u st Hu Hj Ht) as (l & El & G). rewrite El, beqb_refl. exists l. split; [reflexivity|exact G].
      + rewrite upd_other in Hw by exact Hn. destruct (C4 j w st Hw Hj Ht) as (l & El & G). exists l. split; [|exact G].
        assert (N1 : key (su_nick w) <> key new) by exact (Hun j w Hn Hw).
        assert (N2 : key (su_nick w) <> key (su_nick u)) by (intros E; apply Hn; exact (sw_unique _ W _ _ _ _ Hw Hu E)).
        rewrite (proj2 (beqb_neq _ _) N1), (proj2 (beqb_neq _ _) N2).
        destruct (look (uh_members c) (key (su_nick u))) as [[? ?]|]; exact El.
    - intros nk o l Hl. rewrite M3 in Hl. destruct (look (uh_members c) (key (su_nick u))) as [[o0 ms]|] eqn:E0.
      + destruct (C5 _ _ _ E0) as (i & w & st & Q1 & Q2 & Q3 & Q4). assert (i = id) by exact (sw_unique _ W _ _ _ _ Q1 Hu Q4). subst i.
        destruct (beqb_spec nk (key new)) as [->|N1].
        * exists id, (su_with_nick u new), st. rewrite upd_same. auto.
        * destruct (beqb_spec nk (key (su_nick u))) as [|N2]; [discriminate|].
          destruct (C5 _ _ _ Hl) as (j & w' & st' & R1 & R2 & R3 & R4). assert (j <> id) by (intros ->; apply N2; congruence).
          exists j, w', st'. rewrite upd_other by assumption. auto.
      + destruct (C5 _ _ _ Hl) as (j & w' & st' & R1 & R2 & R3 & R4). exists j, w', st'.
        assert (j <> id). { intros ->. assert (w' = u) by congruence. subst w'. rewrite R4 in E0. congruence. }
        rewrite upd_other by assumption. auto.
  Qed.

  Lemma nick_ok s r id u new seen : swf s -> agree s r -> sv_users s id = Some u -> unused t s id new ->
    (sharing s id -> seen = true) -> (id = me -> seen = true) ->
    exists r', on_events (if seen then [from u (B "NICK") [new]] else []) r = Some (r', true) /\
      agree (Spec.Roster.with_users s (upd (sv_users s) id (Some (su_with_nick u new)))) r'.
  Proof.
    intros W A Hu Hun Hs Hme. destruct seen.
    - rewrite events_one. unfold from. cbn [on_event]. unfold handle. cbn [m_command m_params]. cmd.
      change (p_name (su_prefix u)) with (su_nick u).
      set (r1 := if is_our_nick r (su_nick u) then with_nick r new else r).
      set (r2 := with_chans r1 (cm_update (rename_member (su_nick u) new) (r_chans r1))).
      destruct (cache_core (su_nick u) (UUser new [] [] [] [] [] []) r2 (nick_nonempty s id u W Hu)) as (r3 & E3 & K3).
      rewrite E3. eexists. split; [reflexivity|]. eapply agree_core; [|exact K3].
      assert (Er2 : r2 = with_chans (with_nick r (if is_our_nick r (su_nick u) then new else r_nick r)) (cm_update (rename_member (su_nick u) new) (r_chans r))).
      { unfold r2, r1. destruct (is_our_nick r (su_nick u)); [reflexivity|]. destruct r. reflexivity. }
      rewrite Er2. apply (agree_all s); [exact A| |intros k; reflexivity|].
      + cbn [Spec.Roster.with_users sv_users]. destruct (Nat.eq_dec id me) as [->|Hid].
        * rewrite (our_me s r u (su_nick u) A Hu eq_refl), upd_same. eexists. split; reflexivity.
        * rewrite (our_other s r id u (su_nick u) W A Hid Hu eq_refl). rewrite upd_other by congruence. exact (ag_nick _ _ A).
      + intros k c _ C. apply nick_chan; assumption.
    - exists r. split; [reflexivity|]. assert (Hid : id <> me) by (intros E; specialize (Hme E); discriminate).
      assert (Hns : ~ sharing s id) by (intros H; specialize (Hs H); discriminate).
      apply (agree_same s); [exact A| |intros k; reflexivity|].
      + intros v Hv. cbn [Spec.Roster.with_users sv_users]. rewrite upd_other by congruence. eauto.
      + intros k c I C. assert (Hout : ~ inside s k id) by (intros H; apply Hns; exists k; split; assumption).
        apply (chan_users s); try assumption; cbn [Spec.Roster.with_users sv_users sv_in sv_told sv_listed]; try reflexivity.
        * intros i w Hi Hw. rewrite upd_other by (intros ->; contradiction). eauto.
        * intros i w Hi Hw. rewrite upd_other in Hw by (intros ->; contradiction). eauto.
  Qed.

  (** *** Modes *)

  Lemma modes_chan s s' k c ch0 ch' str args : chan_ok s k c -> swf s -> ch_members ch0 = uh_members c ->
    apply_channel_modes (t_avail t) (t_modes t) ch0 str args = (ch', true) ->
    (forall i, sv_users s' i = sv_users s i) -> (forall i, sv_told s' k i = sv_told s k i) -> sv_listed s' k = sv_listed s k ->
    (forall i u st, sv_users s i = Some u -> sv_in s k i = Some st ->
       sv_in s' k i = Some (after_ops (status_changes (t_avail t) (t_modes t) str args None (t_cm t) (su_nick u)) st)) ->
    (forall i, sv_in s' k i <> None -> sv_in s k i <> None) ->
    chan_ok s' k (UChan ch' (uh_complete c)).
  Proof.
    intros [C1 C2 C3 C4 C5] W E0 L E1 E2 E3 Hin Hin'.
    unfold apply_channel_modes in L.
    pose proof (line_members _ _ _ _ _ _ _ L) as [F1 F2].
    assert (G : forall nk, cm_fold (ch_members ch') = t_cm t /\ wf (ch_members ch') /\ option_map fst (look (ch_members ch') nk) = option_map fst (look (uh_members c) nk)).
    { intros nk. pose proof (apply_modes_look (t_avail t) (t_modes t) str ch0 None args nk) as Q. rewrite L, E0 in Q. cbn [fst] in Q.
      destruct Q as (Q1 & Q2 & Q3). split; [congruence|]. split; [exact (Q2 C2)|exact Q3]. }
    rewrite E0, C1 in F2.
    assert (H : forall n, option_map snd (look (ch_members ch') (key n)) =
      option_map (fun set => fold_left (ms_step (t_avail t)) (status_changes (t_avail t) (t_modes t) str args None (t_cm t) n) set) (option_map snd (look (uh_members c) (key n)))).
    { intros n. specialize (F2 n). rewrite !look_get, C1 in F2. rewrite (proj1 (G [])) in F2. exact F2. }
    split; change (uh_members (UChan ch' (uh_complete c))) with (ch_members ch').
    - exact (proj1 (G [])).
    - exact (proj1 (proj2 (G []))).
    - rewrite E3. exact C3.
    - intros j w st Hw Hj Ht. rewrite E1 in Hw. rewrite E2 in Ht.
      destruct (sv_in s k j) as [st0|] eqn:E; [|exfalso; apply (Hin' j); congruence].
      rewrite (Hin j w st0 Hw E) in Hj. injection Hj as <-. destruct (C4 j w st0 Hw E Ht) as (l & El & Gl).
      specialize (H (su_nick w)). rewrite El in H. pose proof (proj2 (proj2 (G (key (su_nick w))))) as Gn. rewrite El in Gn.
      destruct (look (ch_members ch') (key (su_nick w))) as [[o l']|]; [|discriminate]. cbn [option_map fst snd] in H, Gn.
      injection H as ->. injection Gn as ->. eexists. split; [reflexivity|]. apply good_steps; [exact Hpre|exact Gl|].
      intros m Hm. exact (changes_known _ _ _ _ _ _ _ _ Hm).
    - intros nk o l Hl. pose proof (proj2 (proj2 (G nk))) as Gn. rewrite Hl in Gn.
      destruct (look (uh_members c) nk) as [[o' l']|] eqn:E; [|discriminate].
      destruct (C5 _ _ _ E) as (j & w & st & Q1 & Q2 & Q3 & Q4). eexists j, w, _. rewrite E1, E2. split; [exact Q1|].
      split; [exact (Hin j w st Q1 Q2)|]. auto.
  Qed.

  Lemma mode_accepted ch str args : mode_line t str args -> snd (apply_channel_modes (t_avail t) (t_modes t) ch str args) = true.
  Proof.
    intros [H1 H2]. destruct (snd (apply_channel_modes (t_avail t) (t_modes t) ch str args)) eqn:E; [reflexivity|]. exfalso.
    apply (line_fails (t_avail t) (t_modes t) str ch None args) in E as [E|(i & c & mb & Q1 & Q2 & Q3 & Q4)]; [exact (H1 E)|exact (H2 i c mb Q1 Q2 Q3 Q4)].
  Qed.

  Lemma mode_ok s r p name str args : swf s -> agree s r -> valid_chan t name -> mode_line t str args ->
    exists r', on_events (match sv_in s (key name) me with Some _ => [by_server p (B "MODE") (name :: str :: args)] | None => [] end) r = Some (r', true) /\
      agree (Server (sv_users s)
           (updk (sv_in s) (key name) (fun id =>
              match sv_users s id, sv_in s (key name) id with
              | Some u, Some st => Some (after_ops (status_changes (t_avail t) (t_modes t) str args None (t_cm t) (su_nick u)) st)
              | _, x => x
              end)) (sv_told s) (sv_listed s)) r'.
  Proof.
    intros W A (_ & c0 & n0 & En & Hc0) Hm. destruct (sv_in s (key name) me) as [stm|] eqn:Em.
    - assert (I : inside s (key name) me) by (unfold inside; congruence). destruct (our_chan s r name A I) as (o & c & El & Eg & C).
      rewrite events_one. unfold by_server. cbn [on_event]. unfold handle. cbn [m_command m_params]. cmd.
      assert (Hch : is_channel r name = true). { unfold is_channel. rewrite En, (ag_tab _ _ A). apply amem_In. exact Hc0. }
      rewrite Hch, Eg, (ag_tab _ _ A). pose proof (mode_accepted (uh_chan c) str args Hm) as Hok.
      destruct (apply_channel_modes (t_avail t) (t_modes t) (uh_chan c) str args) as [ch' ok] eqn:Ea. cbn [snd] in Hok. subst ok.
      eexists. split; [reflexivity|]. apply (agree_chan s _ r name o c); try assumption; [reflexivity| | |].
      + unfold inside. cbn [sv_in]. rewrite updk_same, Em. destruct (sv_users s me); discriminate.
      + apply (modes_chan s _ _ c (uh_chan c) ch' str args); try assumption; cbn [sv_users sv_in sv_told sv_listed]; try reflexivity.
        * intros i u st Hu Hi. rewrite updk_same, Hu, Hi. reflexivity.
        * intros i Hi. rewrite updk_same in Hi. destruct (sv_users s i), (sv_in s (key name) i); congruence.
      + intros k Hk. cbn [sv_in sv_told sv_listed]. rewrite !updk_other by exact Hk. auto.
    - exists r. split; [reflexivity|]. apply (agree_same s); [exact A|eauto| |].
      + intros k. cbn [sv_in]. unfold updk. destruct (beqb_spec k (key name)) as [->|]; [|reflexivity]. rewrite Em. destruct (sv_users s me); reflexivity.
      + intros k c I C. assert (Hk : k <> key name) by (intros ->; contradiction).
        apply (chan_users s); try assumption; cbn [sv_users sv_in sv_told sv_listed]; rewrite ?updk_other by exact Hk; try reflexivity; eauto.
  Qed.

  Lemma modeis_ok s r p nick name str args : swf s -> agree s r -> mode_line t str args ->
    (forall c, In c str -> find (fun m => aeqb (mb_mode m) c) (t_avail t) = None) ->
    exists r', on_events [by_server p (B "324") (nick :: name :: str :: args)] r = Some (r', true) /\ agree s r'.
  Proof.
    intros W A Hm Hno. rewrite events_one. unfold by_server. cbn [on_event]. unfold handle. cbn [m_command m_params]. cmd.
    destruct (sv_in s (key name) me) as [stm|] eqn:Em.
    - assert (I : inside s (key name) me) by (unfold inside; congruence). destruct (our_chan s r name A I) as (o & c & El & Eg & C).
      rewrite Eg, (ag_tab _ _ A). cbn [tl]. pose proof (mode_accepted (Chan (Some []) (uh_members c)) str args Hm) as Hok.
      destruct (apply_channel_modes (t_avail t) (t_modes t) (Chan (Some []) (uh_members c)) str args) as [ch' ok] eqn:Ea. cbn [snd] in Hok. subst ok.
      eexists. split; [reflexivity|]. apply (agree_chan s _ r name o c); try assumption; [reflexivity| |auto].
      apply (modes_chan s _ _ c (Chan (Some []) (uh_members c)) ch' str args); try assumption; try reflexivity.
      + intros i u st Hu Hi. rewrite changes_none by exact Hno. exact Hi.
      + auto.
    - rewrite (proj1 (no_chan s r name A Em)). eexists. split; [reflexivity|exact A].
  Qed.

  (** ** Every step *)

  Lemma cached_ok s r id u i command params : swf s -> agree s r -> sv_users s id = Some u ->
    handle (Message [] (Some (su_prefix u)) command params) (su_prefix u) r = option_map (fun r => (r, true)) (cache_user (su_nick u) i r) ->
    exists r', on_events [from u command params] r = Some (r', true) /\ agree s r'.
  Proof.
    intros W A Hu H. rewrite events_one. unfold from. cbn [on_event]. rewrite H.
    destruct (cache_core (su_nick u) i r (nick_nonempty s id u W Hu)) as (r' & E & K). rewrite E. eexists. split; [reflexivity|exact (agree_core _ _ _ A K)].
  Qed.

  Lemma step_ok s l s' r : swf s -> agree s r -> sstep t multi ext plain s l s' -> exists r', on_events l r = Some (r', true) /\ agree s' r'.
  Proof.
    intros W A H. destruct H as [id u H1 H2 H3|id u name away H1 H2 H3 H4 H5 H6|u name st H1 H2 H3 H4|p nick status name ids xs H1 H2 H3 H4
      |p nick name text H1 H2 H3|id u name reason H1 H2 H3 H4|p id u name nick reason H1 H2 H3 H4|id u reason seen H1 H2 H3|id u new seen H1 H2 H3 H4 H5 H6
      |p name str args H1 H2|p nick name str args H1 H2|id u real seen H1 H2 H3 H4 H5|id u acc seen H1 H2 H3 H4|id u reason seen H1 H2 H3|id u user host seen H0 H1 H2|id u i H1 H2
      |p nick targets command H0 H1|removes].
    - exists r. split; [reflexivity|]. assert (Hid : id <> me) by (intros ->; destruct (sw_me _ W); congruence).
      assert (Hout : forall k, ~ inside s k id) by (intros k Hk; exact (sw_member _ W k id Hk H1)).
      apply (agree_same s); [exact A| |intros k; reflexivity|].
      + intros v Hv. cbn [Spec.Roster.with_users sv_users]. rewrite upd_other by congruence. eauto.
      + intros k c I C. apply (chan_users s); try assumption; cbn [Spec.Roster.with_users sv_users sv_in sv_told sv_listed]; try reflexivity.
        * intros i w Hi Hw. rewrite upd_other by (intros ->; exact (Hout k Hi)). eauto.
        * intros i w Hi Hw. rewrite upd_other in Hw by (intros ->; exact (Hout k Hi)). eauto.
    - destruct (join_ok s r id u name H1 W A H2 H3 H4) as (r1 & E1 & A1). change (casemap (t_cm t) name) with (key name).
      destruct (sv_in s (key name) me); [|exists r1; split; assumption]. destruct away as [rs|]; [|exists r1; split; assumption].
      destruct (away_core id u [rs] r1 s W H2) as (r2 & E2 & K2). exists r2. split; [|exact (agree_core _ _ _ A1 K2)].
      change (RMsg (join_message ext u name) (su_prefix u) :: [from u (B "AWAY") [rs]]) with ([RMsg (join_message ext u name) (su_prefix u)] ++ [from u (B "AWAY") [rs]]).
      rewrite events_app, E1, E2. reflexivity.
    - apply join_me_ok; assumption.
    - apply names_ok; assumption.
    - apply names_end_ok; assumption.
    - apply part_ok; assumption.
    - apply (kick_ok s r p id u); assumption.
    - apply quit_ok; assumption.
    - apply nick_ok; assumption.
    - apply mode_ok; assumption.
    - apply modeis_ok; assumption.
    - destruct seen; [|exists r; split; [reflexivity|apply (agree_detail s r id u); [exact A|exact H1|reflexivity]]].
      destruct (cached_ok s r id u (UUser [] [] [] [] [] [] real) (B "SETNAME") [real] W A H1 eq_refl) as (r' & E & A').
      exists r'. split; [exact E|]. apply (agree_detail s r' id u); [exact A'|exact H1|reflexivity].
    - destruct seen; [|exists r; split; [reflexivity|apply (agree_detail s r id u); [exact A|exact H1|reflexivity]]].
      destruct (cached_ok s r id u (UUser [] [] [] [] [] (match acc with Some a => a | None => B "*" end) []) (B "ACCOUNT") [match acc with Some a => a | None => B "*" end] W A H1 eq_refl) as (r' & E & A').
      exists r'. split; [exact E|]. apply (agree_detail s r' id u); [exact A'|exact H1|reflexivity].
    - destruct seen; [|exists r; split; [reflexivity|apply (agree_detail s r id u); [exact A|exact H1|reflexivity]]].
      destruct (away_core id u (match reason with Some r0 => [r0] | None => [] end) r s W H1) as (r' & E & K).
      exists r'. split; [exact E|]. apply (agree_detail s r' id u); [exact (agree_core _ _ _ A K)|exact H1|reflexivity].
    - exists r. split; [|apply (agree_detail s r id u); [exact A|exact H1|reflexivity]]. destruct seen; reflexivity.
    - rewrite events_one. cbn [on_event]. destruct (should_cache r (uu_nick i)); [|exists r; split; [reflexivity|exact A]].
      destruct H2 as [E _]. rewrite E. destruct (cache_core (su_nick u) i r (nick_nonempty s id u W H1)) as (r' & E' & K). rewrite E'.
      exists r'. split; [reflexivity|exact (agree_core _ _ _ A K)].
    - rewrite events_one. unfold by_server. cbn [on_event]. unfold handle. cbn [m_command m_params].
      destruct H1 as [<-|[<-|[]]]; cmd; (eexists; split; [reflexivity|]; eapply agree_core; [exact A|repeat split]).
    - rewrite events_one. cbn [on_event]. eexists. split; [reflexivity|]. exact (agree_core _ _ _ A (unmonitor_core removes r)).
  Qed.

  Lemma runs_ok s l s' r : swf s -> agree s r -> runs t multi ext plain s l s' -> swf s' /\ exists r', on_events l r = Some (r', true) /\ agree s' r'.
  Proof.
    intros W A H. induction H as [|l1 s1 l2 s2 _ (W1 & r1 & E1 & A1) H2]; [split; [exact W|exists r; split; [reflexivity|exact A]]|].
    split; [exact (swf_step _ _ _ W1 H2)|]. destruct (step_ok _ _ _ _ W1 A1 H2) as (r2 & E2 & A2).
    exists r2. split; [|exact A2]. rewrite events_app, E1, E2. reflexivity.
  Qed.

  Lemma fresh_agree s nick : fresh t s nick -> swf s /\ agree s (new_rst t nick).
  Proof.
    intros [F1 F2 F3 F4 F5 F6]. split.
    - split; try assumption.
      + destruct F1 as (u & Hu & _). eauto.
      + intros k id _ H _. unfold inside in H. rewrite F2 in H. congruence.
    - split; cbn [new_rst r_tab r_nick r_chans]; try reflexivity; [exact F1|apply wf_new|]. intros k. exact (F2 k).
  Qed.

  (** ** What it means for one channel *)

  Theorem mirror s l s' nick : fresh t s nick -> runs t multi ext plain s l s' ->
    exists r, on_events l (new_rst t nick) = Some (r, true) /\
      (exists u, sv_users s' me = Some u /\ r_nick r = su_nick u) /\
      forall name, match cm_get (r_chans r) name with
      | None => ~ inside s' (key name) me
      | Some c => inside s' (key name) me /\ uh_complete c = sv_listed s' (key name) /\ NoDup (map fst (cm_entries (uh_members c))) /\
          (forall n ms, In (n, ms) (cm_entries (uh_members c)) -> member t multi s' name n ms) /\
          (uh_complete c = true -> forall n ms, member t multi s' name n ms ->
             exists ms', In (n, ms') (cm_entries (uh_members c)) /\ (multi = true -> ms' = ms))
      end.
  Proof.
    intros F H. destruct (fresh_agree _ _ F) as [W0 A0]. destruct (runs_ok _ _ _ _ W0 A0 H) as (W & r & E & A). exists r. split; [exact E|].
    split; [destruct (ag_nick _ _ A) as (u & Hu & En); exists u; split; [exact Hu|congruence]|].
    intros name. pose proof (ag_chans _ _ A (key name)) as G. rewrite look_get, (ag_fold _ _ A). change (casemap (t_cm t) name) with (key name).
    destruct (look (r_chans r) (key name)) as [[o c]|]; cbn [option_map snd]; [|intros I; contradiction].
    destruct G as [I [C1 C2 C3 C4 C5]]. split; [exact I|]. split; [exact C3|]. split; [apply wf_entries_nodup; exact C2|].
    assert (Huniq : multi = true -> forall l1 l2 st, good multi (t_avail t) l1 st -> good multi (t_avail t) l2 st -> l1 = l2).
    { clear -Hpre. intros Hmu l1 l2 st [G1 G2] [G3 G4]. specialize (G2 Hmu). specialize (G4 Hmu). assert (Hsame : forall m, In m l1 <-> In m l2) by (intros m; rewrite G2, G4; reflexivity).
      apply NoDup_map_inv in Hpre. clear G2 G4 st. revert l2 G3 Hsame. induction G1 as [av|x l1 av G1 IH|x l1 av G1 IH]; intros l2 G3 Hsame.
      - destruct l2 as [|y l2]; [reflexivity|]. exfalso. apply (Hsame y). left. reflexivity.
      - inversion Hpre as [|? ? N1 N2]; subst. inversion G3 as [|? l2' ? G3'|? ? ? G3']; subst.
        + exfalso. apply (Hsame x). left. reflexivity.
        + f_equal. apply (IH N2 _ G3'). intros m. specialize (Hsame m). cbn [In] in Hsame.
          split; intros Hm.
          * destruct (proj1 Hsame (or_intror Hm)) as [<-|]; [|assumption]. exfalso. apply N1. exact (in_order_In _ _ _ G1 Hm).
          * destruct (proj2 Hsame (or_intror Hm)) as [<-|]; [|assumption]. exfalso. apply N1. exact (in_order_In _ _ _ G3' Hm).
        + exfalso. apply N1. apply (in_order_In _ _ _ G3'). apply Hsame. left. reflexivity.
      - inversion Hpre as [|? ? N1 N2]; subst. inversion G3 as [|? l2' ? G3'|? ? ? G3']; subst.
        + apply (IH N2); [constructor|exact Hsame].
        + exfalso. apply N1. apply (in_order_In _ _ _ G1). apply Hsame. left. reflexivity.
        + apply (IH N2); [exact G3'|exact Hsame]. }
    split.
    - intros n ms Hn. apply (wf_entries _ _ _ C2) in Hn. rewrite C1 in Hn. destruct (C5 _ _ _ Hn) as (id & w & st & Q1 & Q2 & Q3 & Q4).
      destruct (C4 _ _ _ Q1 Q2 Q3) as (l' & El & G). rewrite Q4 in El. assert (su_nick w = n) by congruence. assert (l' = ms) by congruence. subst l'.
      exists id, w, st. destruct G. auto.
    - intros Hc n ms (id & w & st & Q1 & Q2 & Q3 & Q4 & Q5).
      assert (Ht : sv_told s' (key name) id = true) by (apply (sw_listed _ W); [congruence|exact I|unfold inside, key; congruence]).
      destruct (C4 _ _ _ Q1 Q3 Ht) as (l' & El & G). exists l'. split; [|intros Hmu; exact (Huniq Hmu l' ms st G (conj Q4 Q5))].
      apply (wf_entries _ _ _ C2). rewrite C1, <- Q2. exact El.
  Qed.
End Mirror.
