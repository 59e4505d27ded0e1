From Verif.Base Require Import Bytes.
From Verif.Model Require Import CaseMap.
From Verif.Spec Require Import CaseMap.

Definition foldb (cm : casemapping) : ascii -> ascii :=
  match cm with
  | CmASCII => fold_ascii
  | CmRFC1459 => fold_rfc1459
  | CmRFC1459Strict => fold_rfc1459_strict
  end.

Lemma casemap_map cm x : casemap cm x = map (foldb cm) x.
Proof. destruct cm; reflexivity. Qed.

Definition all_bytes : list ascii := map ascii_of_nat (seq 0 256).

Lemma all_bytes_In c : In c all_bytes.
Proof.
  apply in_map_iff. exists (nat_of_ascii c). split; [apply ascii_nat_embedding|].
  apply in_seq. split; [lia|]. pose proof (nat_ascii_bounded c). lia.
Qed.

Definition byte_equivb (cm : casemapping) (a b : ascii) : bool :=
  aeqb a b
  || existsb (fun p => aeqb a (fst p) && aeqb b (snd p)) (pairs_of cm)
  || existsb (fun p => aeqb b (fst p) && aeqb a (snd p)) (pairs_of cm).

Lemma pair_existsb (l : list (ascii * ascii)) a b :
  existsb (fun p => aeqb a (fst p) && aeqb b (snd p)) l = true <-> In (a, b) l.
Proof.
  rewrite existsb_exists. split.
  - intros [[x y] [Hin He]]. apply andb_true_iff in He as [H1 H2].
    apply aeqb_eq in H1. apply aeqb_eq in H2. simpl in *. subst. exact Hin.
  - intros H. exists (a, b). simpl. rewrite !aeqb_refl. split; [exact H|reflexivity].
Qed.

Lemma byte_equivb_iff cm a b : byte_equivb cm a b = true <-> byte_equiv cm a b.
Proof.
  unfold byte_equivb, byte_equiv. rewrite !orb_true_iff, aeqb_eq, !pair_existsb. tauto.
Qed.

Lemma fold_check cm :
  forallb (fun a => forallb (fun b => eqb (aeqb (foldb cm a) (foldb cm b)) (byte_equivb cm a b))
                            all_bytes) all_bytes = true.
Proof. destruct cm; vm_compute; reflexivity. Qed.

Lemma fold_byte_iff cm a b : foldb cm a = foldb cm b <-> byte_equiv cm a b.
Proof.
  pose proof (fold_check cm) as H. rewrite forallb_forall in H.
  specialize (H a (all_bytes_In a)). rewrite forallb_forall in H.
  specialize (H b (all_bytes_In b)). apply eqb_prop in H.
  rewrite <- byte_equivb_iff, <- H. symmetry. apply aeqb_eq.
Qed.

Lemma casemap_equiv cm x y : casemap cm x = casemap cm y <-> name_equiv cm x y.
Proof.
  rewrite !casemap_map. unfold name_equiv. revert y.
  induction x as [|a x IH]; intros [|b y]; simpl; split; intros H;
    try constructor; try discriminate; try (inversion H; fail).
  - injection H as H1 H2. apply fold_byte_iff. exact H1.
  - injection H as H1 H2. apply IH. exact H2.
  - inversion H; subst. f_equal; [apply fold_byte_iff; assumption|apply IH; assumption].
Qed.

Lemma fold_idem_check cm :
  forallb (fun a => aeqb (foldb cm (foldb cm a)) (foldb cm a)) all_bytes = true.
Proof. destruct cm; vm_compute; reflexivity. Qed.

Lemma casemap_idem cm x : casemap cm (casemap cm x) = casemap cm x.
Proof.
  rewrite !casemap_map, map_map. apply map_ext. intros a.
  pose proof (fold_idem_check cm) as H. rewrite forallb_forall in H.
  apply aeqb_eq. apply H. apply all_bytes_In.
Qed.

Lemma casemap_length cm x : length (casemap cm x) = length x.
Proof. rewrite casemap_map. apply map_length. Qed.

Lemma pairs_incl_coarser a b : incl (pairs_of b) (pairs_of a) -> coarser a b.
Proof.
  intros Hi x y H. induction H as [|u v x y Huv H IH]; constructor; [|exact IH].
  unfold byte_equiv in *. destruct Huv as [?|[?|?]]; [left|right; left|right; right]; auto.
Qed.

Lemma strict_coarser_ascii : coarser CmRFC1459Strict CmASCII.
Proof. apply pairs_incl_coarser. simpl. apply incl_appl. apply incl_refl. Qed.

Lemma rfc1459_coarser_strict : coarser CmRFC1459 CmRFC1459Strict.
Proof. apply pairs_incl_coarser. simpl. apply incl_appl. apply incl_refl. Qed.

(** ** Maps *)

Section Gomap.
  Context {V : Type}.
  Implicit Types m : gomap V.

  Lemma gm_lookup_set m k e k' :
    gm_lookup (gm_set m k e) k' = if beqb k' k then Some e else gm_lookup m k'.
  Proof.
    induction m as [|[k0 e0] m IH]; simpl.
    - destruct (beqb k' k); reflexivity.
    - destruct (beqb_spec k k0) as [->|Hn]; simpl.
      + destruct (beqb k' k0); reflexivity.
      + destruct (beqb_spec k' k0) as [->|Hn'].
        * destruct (beqb_spec k0 k); [congruence|reflexivity].
        * exact IH.
  Qed.

  Lemma gm_lookup_del m k k' :
    gm_lookup (gm_del m k) k' = if beqb k' k then None else gm_lookup m k'.
  Proof.
    induction m as [|[k0 e0] m IH]; simpl.
    - destruct (beqb k' k); reflexivity.
    - destruct (beqb_spec k k0) as [->|Hn]; simpl.
      + rewrite IH. destruct (beqb_spec k' k0); reflexivity.
      + rewrite IH. destruct (beqb_spec k' k0) as [->|Hn'].
        * destruct (beqb_spec k0 k); [congruence|reflexivity].
        * reflexivity.
  Qed.

  Definition gkeys m := map fst m.

  Lemma gm_lookup_None m k : gm_lookup m k = None <-> ~ In k (gkeys m).
  Proof.
    induction m as [|[k0 e0] m IH]; simpl; [tauto|].
    destruct (beqb_spec k k0) as [->|Hn].
    - split; [discriminate|intros H; exfalso; apply H; left; reflexivity].
    - rewrite IH. split; intros H; [intros [?|?]; [congruence|tauto]|tauto].
  Qed.

  Lemma gm_set_keys m k e x : In x (gkeys (gm_set m k e)) <-> x = k \/ In x (gkeys m).
  Proof.
    induction m as [|[k0 e0] m IH]; simpl.
    - split; [intros [<-|[]]; left; reflexivity|intros [->|[]]; left; reflexivity].
    - destruct (beqb_spec k k0) as [->|Hn]; simpl.
      + split; [intros [<-|?]; tauto|]. intros [->|[?|?]]; auto.
      + rewrite IH. split; intros H; intuition.
  Qed.

  Lemma gm_del_keys m k x : In x (gkeys (gm_del m k)) -> In x (gkeys m).
  Proof.
    induction m as [|[k0 e0] m IH]; simpl; [tauto|].
    destruct (beqb k k0); simpl; intuition.
  Qed.

  Lemma gm_set_nodup m k e : NoDup (gkeys m) -> NoDup (gkeys (gm_set m k e)).
  Proof.
    induction m as [|[k0 e0] m IH]; simpl; intros H.
    - constructor; [intros []|constructor].
    - inversion H as [|? ? H1 H2]; subst. destruct (beqb_spec k k0) as [->|Hn]; simpl.
      + constructor; assumption.
      + constructor; [|apply IH; exact H2]. rewrite gm_set_keys. intros [?|?]; [congruence|tauto].
  Qed.

  Lemma gm_del_nodup m k : NoDup (gkeys m) -> NoDup (gkeys (gm_del m k)).
  Proof.
    induction m as [|[k0 e0] m IH]; simpl; intros H; [constructor|].
    inversion H as [|? ? H1 H2]; subst. destruct (beqb k k0); simpl; [apply IH; exact H2|].
    constructor; [|apply IH; exact H2]. intros Hin. apply H1. eapply gm_del_keys; exact Hin.
  Qed.

  Lemma gm_lookup_In m k e : NoDup (gkeys m) -> (gm_lookup m k = Some e <-> In (k, e) m).
  Proof.
    induction m as [|[k0 e0] m IH]; simpl; intros Hnd; [split; [discriminate|tauto]|].
    inversion Hnd as [|? ? H1 H2]; subst. destruct (beqb_spec k k0) as [->|Hn].
    - split.
      + intros H; injection H as ->. left; reflexivity.
      + intros [H|H]; [congruence|]. exfalso. apply H1. apply in_map_iff.
        exists (k0, e). split; [reflexivity|exact H].
    - rewrite (IH H2). split; [intros H; right; exact H|intros [H|H]; [congruence|exact H]].
  Qed.

  (** Each key is the folded original spelling, without repetition. *)
  Definition wf (t : cmmap V) : Prop :=
    NoDup (gkeys (cm_m t)) /\
    Forall (fun ke => fst ke = casemap (cm_fold t) (original_key (snd ke))) (cm_m t).

  Lemma gm_set_In m k e x : In x (gm_set m k e) -> x = (k, e) \/ In x m.
  Proof.
    induction m as [|[k0 e0] m IH]; simpl.
    - intros [<-|[]]. left; reflexivity.
    - destruct (beqb_spec k k0) as [->|Hn]; simpl.
      + intros [<-|?]; [left; reflexivity|right; right; assumption].
      + intros [<-|H]; [right; left; reflexivity|]. destruct (IH H); [left|right; right]; assumption.
  Qed.

  Lemma gm_del_In m k x : In x (gm_del m k) -> In x m.
  Proof.
    induction m as [|[k0 e0] m IH]; simpl; [tauto|]. destruct (beqb k k0); simpl; intuition.
  Qed.

  Lemma wf_step t o : wf t -> wf (cm_step t o).
  Proof.
    intros [Hnd Hf]. destruct o as [n v|n]; unfold cm_step, cm_set, cm_del.
    - destruct (gm_lookup (cm_m t) (casemap (cm_fold t) n)) as [e|] eqn:E; split; simpl.
      + apply gm_set_nodup; exact Hnd.
      + rewrite Forall_forall in *. intros x Hx. apply gm_set_In in Hx as [->|Hx].
        * simpl. apply (gm_lookup_In _ _ _ Hnd) in E. exact (Hf _ E).
        * apply Hf; exact Hx.
      + apply gm_set_nodup; exact Hnd.
      + rewrite Forall_forall in *. intros x Hx. apply gm_set_In in Hx as [->|Hx].
        * reflexivity.
        * apply Hf; exact Hx.
    - split; simpl; [apply gm_del_nodup; exact Hnd|].
      rewrite Forall_forall in *. intros x Hx. apply Hf. eapply gm_del_In; exact Hx.
  Qed.

  Lemma step_fold t (o : cm_op V) : cm_fold (cm_step t o) = cm_fold t.
  Proof.
    destruct o; simpl; unfold cm_set; [|reflexivity].
    destruct (gm_lookup _ _); reflexivity.
  Qed.

  Lemma run_app cm (h : list (cm_op V)) o : cm_run cm (h ++ [o]) = cm_step (cm_run cm h) o.
  Proof. unfold cm_run. rewrite fold_left_app. reflexivity. Qed.

  Lemma run_wf cm (h : list (cm_op V)) : wf (cm_run cm h) /\ cm_fold (cm_run cm h) = cm.
  Proof.
    induction h as [|o h IH] using rev_ind.
    - split; [split; constructor|reflexivity].
    - rewrite run_app. destruct IH as [H1 H2]. split; [apply wf_step; exact H1|].
      rewrite step_fold. exact H2.
  Qed.

  Definition entry_pair (e : entry V) : bytes * V := (original_key e, entry_value e).

  Lemma run_lookup cm (h : list (cm_op V)) name r :
    lookup_spec cm name h r ->
    option_map entry_pair (gm_lookup (cm_m (cm_run cm h)) (casemap cm name)) = r.
  Proof.
    induction 1 as [|h n v He Hs IH|h n v n0 v0 He Hs IH|h n r He Hs IH|h n v r He Hs IH|h n r He Hs IH].
    - reflexivity.
    - rewrite run_app. simpl. unfold cm_set. destruct (run_wf cm h) as [_ Hc]. rewrite Hc.
      apply casemap_equiv in He. rewrite He.
      destruct (gm_lookup (cm_m (cm_run cm h)) (casemap cm name)) eqn:E; [discriminate|].
      cbn [cm_m]. rewrite gm_lookup_set, beqb_refl. reflexivity.
    - rewrite run_app. simpl. unfold cm_set. destruct (run_wf cm h) as [_ Hc]. rewrite Hc.
      apply casemap_equiv in He. rewrite He.
      destruct (gm_lookup (cm_m (cm_run cm h)) (casemap cm name)) as [e|] eqn:E; [|discriminate].
      cbn [cm_m]. rewrite gm_lookup_set, beqb_refl. simpl in IH. injection IH as H1 H2.
      unfold entry_pair; simpl. congruence.
    - rewrite run_app. simpl. unfold cm_del. destruct (run_wf cm h) as [_ Hc]. rewrite Hc.
      apply casemap_equiv in He. rewrite He. simpl. rewrite gm_lookup_del, beqb_refl. reflexivity.
    - rewrite run_app. simpl. unfold cm_set. destruct (run_wf cm h) as [_ Hc]. rewrite Hc.
      assert (Hb : beqb (casemap cm name) (casemap cm n) = false).
      { apply beqb_neq. intros Hq. apply He. apply casemap_equiv. congruence. }
      destruct (gm_lookup (cm_m (cm_run cm h)) (casemap cm n)); cbn [cm_m];
        rewrite gm_lookup_set, Hb; exact IH.
    - rewrite run_app. simpl. unfold cm_del. destruct (run_wf cm h) as [_ Hc]. rewrite Hc.
      simpl. rewrite gm_lookup_del.
      replace (beqb (casemap cm name) (casemap cm n)) with false; [exact IH|].
      symmetry. apply beqb_neq. intros Hq. apply He. apply casemap_equiv. congruence.
  Qed.

  Lemma name_equiv_dec cm x y : name_equiv cm x y \/ ~ name_equiv cm x y.
  Proof.
    destruct (bytes_dec (casemap cm x) (casemap cm y)) as [H|H].
    - left. apply casemap_equiv; exact H.
    - right. intros H'. apply H. apply casemap_equiv; exact H'.
  Qed.

  Lemma lookup_spec_total cm (h : list (cm_op V)) name : exists r, lookup_spec cm name h r.
  Proof.
    induction h as [|o h [r IH]] using rev_ind; [exists None; constructor|].
    destruct o as [n v|n]; destruct (name_equiv_dec cm n name) as [He|He].
    - destruct r as [[n0 v0]|]; eexists; [eapply LsSetUpd|eapply LsSetNew]; eassumption.
    - exists r; apply LsSetOther; assumption.
    - exists None; eapply LsDel; eassumption.
    - exists r; apply LsDelOther; assumption.
  Qed.

  Lemma run_lookup_conv cm (h : list (cm_op V)) name :
    lookup_spec cm name h
      (option_map entry_pair (gm_lookup (cm_m (cm_run cm h)) (casemap cm name))).
  Proof.
    destruct (lookup_spec_total cm h name) as [r Hr].
    rewrite (run_lookup _ _ _ _ Hr). exact Hr.
  Qed.

  Lemma run_get cm (h : list (cm_op V)) name r :
    lookup_spec cm name h r ->
    cm_get (cm_run cm h) name = option_map snd r /\
    cm_has (cm_run cm h) name = match r with Some _ => true | None => false end.
  Proof.
    intros H. apply run_lookup in H. unfold cm_get, cm_has.
    destruct (run_wf cm h) as [_ ->].
    destruct (gm_lookup _ _); simpl in H; subst r; split; reflexivity.
  Qed.

  Lemma run_entries cm (h : list (cm_op V)) n v :
    In (n, v) (cm_entries (cm_run cm h)) <-> lookup_spec cm n h (Some (n, v)).
  Proof.
    destruct (run_wf cm h) as [[Hnd Hf] Hc]. rewrite Hc in Hf.
    unfold cm_entries. rewrite in_map_iff. split.
    - intros [[k e] [He Hin]]. simpl in He. injection He as H1 H2.
      rewrite Forall_forall in Hf. pose proof (Hf _ Hin) as Hk. simpl in Hk. subst k.
      apply (gm_lookup_In _ _ _ Hnd) in Hin.
      pose proof (run_lookup_conv cm h n) as Hs. rewrite <- H1 in Hs at 2.
      rewrite Hin in Hs. simpl in Hs. unfold entry_pair in Hs. congruence.
    - intros H. apply run_lookup in H.
      destruct (gm_lookup _ _) as [e|] eqn:E; [|discriminate].
      apply (gm_lookup_In _ _ _ Hnd) in E. exists (casemap cm n, e). split; [|exact E].
      simpl in *. unfold entry_pair in H. congruence.
  Qed.

  Lemma run_entries_distinct cm (h : list (cm_op V)) i j a b :
    nth_error (cm_entries (cm_run cm h)) i = Some a ->
    nth_error (cm_entries (cm_run cm h)) j = Some b ->
    name_equiv cm (fst a) (fst b) -> i = j.
  Proof.
    intros Hi Hj He. destruct (run_wf cm h) as [[Hnd Hf] Hc]. rewrite Hc in Hf.
    unfold cm_entries in *. rewrite nth_error_map in Hi, Hj.
    destruct (nth_error (cm_m (cm_run cm h)) i) as [[ki ei]|] eqn:Ei; [|discriminate].
    destruct (nth_error (cm_m (cm_run cm h)) j) as [[kj ej]|] eqn:Ej; [|discriminate].
    simpl in Hi, Hj. injection Hi as <-. injection Hj as <-. simpl in He.
    rewrite Forall_forall in Hf.
    pose proof (Hf _ (nth_error_In _ _ Ei)) as H1. pose proof (Hf _ (nth_error_In _ _ Ej)) as H2.
    simpl in H1, H2. apply casemap_equiv in He.
    rewrite (NoDup_nth_error) in Hnd. apply Hnd.
    - unfold gkeys. rewrite map_length. apply nth_error_Some. congruence.
    - unfold gkeys. rewrite !nth_error_map, Ei, Ej. simpl. congruence.
  Qed.

  (** SetCaseMapping. *)
  Definition last_equiv (new : casemapping) (order : list (entry V)) (k : bytes) : option (entry V) :=
    fold_left (fun a e => if beqb k (casemap new (original_key e)) then Some e else a) order None.

  Lemma set_casemapping_lookup order new k :
    gm_lookup (cm_m (cm_set_casemapping order new)) k = last_equiv new order k.
  Proof.
    unfold cm_set_casemapping, last_equiv. simpl.
    change (@None (entry V)) with (gm_lookup (@nil (bytes * entry V)) k).
    generalize (@nil (bytes * entry V)) as m.
    induction order as [|e order IH]; intros m; simpl; [reflexivity|].
    rewrite IH. f_equal. apply gm_lookup_set.
  Qed.

  Lemma last_equiv_In new order k e :
    last_equiv new order k = Some e -> In e order /\ k = casemap new (original_key e).
  Proof.
    unfold last_equiv. intros H.
    assert (G : forall a, fold_left (fun a e => if beqb k (casemap new (original_key e)) then Some e else a) order a = Some e ->
                a = Some e \/ (In e order /\ k = casemap new (original_key e))).
    { clear H. induction order as [|e0 order IH]; intros a Ha; simpl in *; [left; exact Ha|].
      apply IH in Ha as [Ha|[H1 H2]]; [|right; split; [right; exact H1|exact H2]].
      destruct (beqb_spec k (casemap new (original_key e0))) as [Hk|Hk]; [|left; exact Ha].
      right. injection Ha as <-. split; [left; reflexivity|exact Hk]. }
    destruct (G None H) as [?|?]; [discriminate|assumption].
  Qed.

  Lemma last_equiv_None new order k :
    last_equiv new order k = None -> forall e, In e order -> k <> casemap new (original_key e).
  Proof.
    unfold last_equiv.
    assert (G : forall a, fold_left (fun a e => if beqb k (casemap new (original_key e)) then Some e else a) order a = None ->
                a = None /\ forall e, In e order -> k <> casemap new (original_key e)).
    { induction order as [|e0 order IH]; intros a Ha; simpl in *; [split; [exact Ha|tauto]|].
      apply IH in Ha as [Ha Hr].
      destruct (beqb_spec k (casemap new (original_key e0))) as [Hk|Hk]; [discriminate|].
      split; [exact Ha|]. intros e [<-|He]; [exact Hk|apply Hr; exact He]. }
    intros H. apply (G None H).
  Qed.

  Lemma set_casemapping_wf order new : wf (cm_set_casemapping order new).
  Proof.
    unfold cm_set_casemapping, wf. simpl.
    assert (G : forall m, NoDup (gkeys m) /\ Forall (fun ke : bytes * entry V => fst ke = casemap new (original_key (snd ke))) m ->
      NoDup (gkeys (fold_left (fun m e => gm_set m (casemap new (original_key e)) e) order m)) /\
      Forall (fun ke : bytes * entry V => fst ke = casemap new (original_key (snd ke)))
             (fold_left (fun m e => gm_set m (casemap new (original_key e)) e) order m)).
    { induction order as [|e order IH]; intros m [H1 H2]; simpl; [split; assumption|].
      apply IH. split; [apply gm_set_nodup; exact H1|].
      rewrite Forall_forall in *. intros x Hx. apply gm_set_In in Hx as [->|Hx]; [reflexivity|apply H2; exact Hx]. }
    apply G. split; constructor.
  Qed.

  Lemma set_casemapping_entries_sub order new n v :
    In (n, v) (cm_entries (cm_set_casemapping order new)) -> In (n, v) (map entry_pair order).
  Proof.
    intros H. unfold cm_entries in H. apply in_map_iff in H as [[k e] [He Hin]].
    destruct (set_casemapping_wf order new) as [Hnd _].
    apply (gm_lookup_In _ _ _ Hnd) in Hin. rewrite set_casemapping_lookup in Hin.
    apply last_equiv_In in Hin as [Hin _]. simpl in He.
    apply in_map_iff. exists e. split; [exact He|exact Hin].
  Qed.

  Lemma set_casemapping_covers order new (e : entry V) :
    In e order ->
    exists n v, In (n, v) (cm_entries (cm_set_casemapping order new)) /\ name_equiv new n (original_key e).
  Proof.
    intros Hin. destruct (last_equiv new order (casemap new (original_key e))) as [e'|] eqn:E.
    - exists (original_key e'), (entry_value e'). split.
      + unfold cm_entries. apply in_map_iff. exists (casemap new (original_key e), e').
        split; [reflexivity|]. destruct (set_casemapping_wf order new) as [Hnd _].
        apply (gm_lookup_In _ _ _ Hnd). rewrite set_casemapping_lookup. exact E.
      + apply last_equiv_In in E as [_ E]. apply casemap_equiv. symmetry. exact E.
    - exfalso. eapply last_equiv_None; [exact E|exact Hin|reflexivity].
  Qed.

  Lemma set_casemapping_keeps order new (e : entry V) :
    In e order ->
    (forall e', In e' order -> name_equiv new (original_key e') (original_key e) -> e' = e) ->
    In (original_key e, entry_value e) (cm_entries (cm_set_casemapping order new)).
  Proof.
    intros Hin Hu. destruct (set_casemapping_covers order new e Hin) as (n & v & Hnv & He).
    pose proof Hnv as H. apply set_casemapping_entries_sub in H.
    apply in_map_iff in H as [e' [Hp Hin']]. unfold entry_pair in Hp.
    injection Hp as H1 H2. subst n v. rewrite (Hu e' Hin' He) in Hnv. exact Hnv.
  Qed.

  Lemma wf_entries_distinct (t : cmmap V) i j a b :
    wf t ->
    nth_error (cm_entries t) i = Some a -> nth_error (cm_entries t) j = Some b ->
    name_equiv (cm_fold t) (fst a) (fst b) -> i = j.
  Proof.
    intros [Hnd Hf] Hi Hj He. unfold cm_entries in *. rewrite nth_error_map in Hi, Hj.
    destruct (nth_error (cm_m t) i) as [[ki ei]|] eqn:Ei; [|discriminate].
    destruct (nth_error (cm_m t) j) as [[kj ej]|] eqn:Ej; [|discriminate].
    simpl in Hi, Hj. injection Hi as <-. injection Hj as <-. simpl in He.
    rewrite Forall_forall in Hf.
    pose proof (Hf _ (nth_error_In _ _ Ei)) as H1. pose proof (Hf _ (nth_error_In _ _ Ej)) as H2.
    simpl in H1, H2. apply casemap_equiv in He.
    rewrite (NoDup_nth_error) in Hnd. apply Hnd.
    - unfold gkeys. rewrite map_length. apply nth_error_Some. congruence.
    - unfold gkeys. rewrite !nth_error_map, Ei, Ej. simpl. congruence.
  Qed.

  Lemma wf_get (t : cmmap V) name :
    wf t ->
    (forall v, cm_get t name = Some v <->
       exists n, In (n, v) (cm_entries t) /\ name_equiv (cm_fold t) n name).
  Proof.
    intros [Hnd Hf] v. unfold cm_get, cm_entries. rewrite Forall_forall in Hf. split.
    - destruct (gm_lookup _ _) as [e|] eqn:E; [|discriminate]. intros H; injection H as <-.
      apply (gm_lookup_In _ _ _ Hnd) in E. exists (original_key e). split.
      + apply in_map_iff. exists (casemap (cm_fold t) name, e). split; [reflexivity|exact E].
      + apply casemap_equiv. symmetry. exact (Hf _ E).
    - intros (n & Hin & He). apply in_map_iff in Hin as [[k e] [Hp Hin]].
      simpl in Hp. injection Hp as H1 H2. pose proof (Hf _ Hin) as Hk. simpl in Hk.
      apply casemap_equiv in He. apply (gm_lookup_In _ _ _ Hnd) in Hin.
      replace (casemap (cm_fold t) name) with k by congruence. rewrite Hin. congruence.
  Qed.
End Gomap.
