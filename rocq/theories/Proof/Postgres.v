(** Proofs about the PostgreSQL database. *)
From Verif.Base Require Import Bytes.
From Verif.Model Require Import Message TimeFmt Glob Sql SqlQuery Postgres.
From Verif.Proof Require Import Sql SqlStore SqlQuery.
From Verif.Spec Require Import Sql SqlQuery Postgres.
From Coq Require Import ZArith NArith Permutation Sorted Lia.
Open Scope N_scope.

(** ** Texts *)

Lemma code_octet n : n < 256 -> code (octet n) = n.
Proof. intros H. unfold code, octet. apply N_ascii_embedding. exact H. Qed.

Ltac dm c k := let D := fresh "D" in assert (D : k <> 0) by discriminate; pose proof (N.div_mod c k D); pose proof (N.mod_lt c k D); pose proof (N.le_0_l (c mod k)); clear D.

Lemma cont_octet x : x < 64 -> cont (octet (128 + x)) = true.
Proof.
  intros H. unfold cont, within. rewrite code_octet by lia. apply andb_true_intro. split; apply N.leb_le; lia.
Qed.

Lemma not_cont n : n < 256 -> n < 128 \/ 192 <= n -> cont (octet n) = false.
Proof.
  intros H K. unfold cont, within. rewrite code_octet by lia. apply andb_false_iff. destruct K.
  - left. apply N.leb_gt. lia.
  - right. apply N.leb_gt. lia.
Qed.

Lemma not_nul n : 0 < n < 256 -> aeqb (octet n) "000" = false.
Proof.
  intros H. apply aeqb_neq. intros E. assert (K : code (octet n) = code "000") by (rewrite E; reflexivity).
  rewrite code_octet in K by lia. cbn in K. lia.
Qed.

Definition nul_free (s : bytes) : bool := forallb (fun c => negb (aeqb c "000")) s.

Ltac leb_split := repeat match goal with |- context [N.ltb ?a ?b] => destruct (N.ltb_spec a b); try lia
  | |- context [N.eqb ?a ?b] => destruct (N.eqb_spec a b); try lia end.

(** The encoding of a character: text, not empty, one character. *)
Lemma encode_spec c s : scalar c ->
  utf8 (encode c ++ s) = utf8 s /\ nul_free (encode c) = true /\
  forall k, cut_chars (k + 1) (encode c ++ s) = let '(a, b) := cut_chars k s in (encode c ++ a, b).
Proof.
  intros H. unfold encode.
  assert (P : forall k, (k + 1 =? 0) = false) by (intros k; apply N.eqb_neq; lia).
  assert (Q : forall k, k + 1 - 1 = k) by (intros k; lia).
  destruct (N.ltb_spec c 128) as [H1|H1]; [|destruct (N.ltb_spec c 2048) as [H2|H2]; [|destruct (N.ltb_spec c 65536) as [H3|H3]]].
  - assert (0 < c) by (unfold scalar in H; lia). split; [|split].
    + cbn [app utf8]. rewrite code_octet by lia. apply N.ltb_lt in H1. rewrite H1. reflexivity.
    + unfold nul_free. cbn [forallb]. rewrite not_nul by lia. reflexivity.
    + intros k. cbn [app cut_chars]. rewrite not_cont, P, Q by lia. destruct (cut_chars k s). reflexivity.
  - dm c 64. assert (B1 : 2 <= c / 64 < 32) by lia. split; [|split].
    + cbn [app utf8]. rewrite (code_octet (192 + _)) by lia.
      replace (192 + c / 64 <? 128) with false by (symmetry; apply N.ltb_ge; lia).
      assert (L : lead (192 + c / 64) = Some (1%nat, 128, 191)) by (unfold lead; leb_split; reflexivity).
      rewrite L. fold (cont (octet (128 + c mod 64))). rewrite cont_octet by lia. reflexivity.
    + unfold nul_free. cbn [forallb]. rewrite !not_nul by lia. reflexivity.
    + intros k. cbn [app cut_chars]. rewrite (not_cont (192 + _)), P, Q, cont_octet by lia. destruct (cut_chars k s). reflexivity.
  - dm c 64. dm c 4096. dm (c / 64) 64.
    assert (D1 : c / 64 / 64 = c / 4096) by (rewrite N.div_div by discriminate; reflexivity). rewrite D1 in *.
    assert (B1 : c / 4096 < 16) by lia. split; [|split].
    + cbn [app utf8]. rewrite (code_octet (224 + _)) by lia.
      replace (224 + c / 4096 <? 128) with false by (symmetry; apply N.ltb_ge; lia).
      assert (L : exists lo hi, lead (224 + c / 4096) = Some (2%nat, lo, hi) /\ lo <= 128 + (c / 64) mod 64 <= hi).
      { unfold lead, scalar in *. leb_split; eexists; eexists; (split; [reflexivity|]); lia. }
      destruct L as (lo & hi & L & Hl). rewrite L, (cont_octet (c mod 64)) by lia.
      replace (within lo hi (octet (128 + (c / 64) mod 64))) with true.
      2:{ unfold within. rewrite code_octet by lia. symmetry. apply andb_true_intro. split; apply N.leb_le; lia. }
      reflexivity.
    + unfold nul_free. cbn [forallb]. rewrite !not_nul by lia. reflexivity.
    + intros k. cbn [app cut_chars]. rewrite (not_cont (224 + _)), P, Q, !cont_octet by lia. destruct (cut_chars k s). reflexivity.
  - dm c 64. dm c 4096. dm c 262144. dm (c / 64) 64. dm (c / 4096) 64.
    assert (D1 : c / 64 / 64 = c / 4096) by (rewrite N.div_div by discriminate; reflexivity). rewrite D1 in *.
    assert (D2 : c / 4096 / 64 = c / 262144) by (rewrite N.div_div by discriminate; reflexivity). rewrite D2 in *.
    assert (B1 : c / 262144 < 5) by (unfold scalar in H; lia). split; [|split].
    + cbn [app utf8]. rewrite (code_octet (240 + _)) by lia.
      replace (240 + c / 262144 <? 128) with false by (symmetry; apply N.ltb_ge; lia).
      assert (L : exists lo hi, lead (240 + c / 262144) = Some (3%nat, lo, hi) /\ lo <= 128 + (c / 4096) mod 64 <= hi).
      { unfold lead, scalar in *. leb_split; eexists; eexists; (split; [reflexivity|]); lia. }
      destruct L as (lo & hi & L & Hl). rewrite L, (cont_octet (c mod 64)), (cont_octet ((c / 64) mod 64)) by lia.
      replace (within lo hi (octet (128 + (c / 4096) mod 64))) with true.
      2:{ unfold within. rewrite code_octet by lia. symmetry. apply andb_true_intro. split; apply N.leb_le; lia. }
      reflexivity.
    + unfold nul_free. cbn [forallb]. rewrite !not_nul by lia. reflexivity.
    + intros k. cbn [app cut_chars]. rewrite (not_cont (240 + _)), P, Q, !cont_octet by lia. destruct (cut_chars k s). reflexivity.
Qed.

Lemma text_text_ok s : text s -> text_ok s = true.
Proof.
  intros (l & Hl & ->). unfold text_ok. fold (nul_free (flat_map encode l)).
  assert (K : utf8 (flat_map encode l) = true /\ nul_free (flat_map encode l) = true).
  { induction l as [|c l IH]; [split; reflexivity|]. cbn [flat_map].
    destruct (encode_spec c (flat_map encode l) (Hl c (or_introl eq_refl))) as (E1 & E2 & _).
    destruct (IH (fun x Hx => Hl x (or_intror Hx))) as [I1 I2]. split; [rewrite E1; exact I1|].
    unfold nul_free in *. rewrite forallb_app, E2, I2. reflexivity. }
  destruct K as [-> ->]. reflexivity.
Qed.

Lemma cut_short l : (forall c, In c l -> scalar c) -> forall k, N.of_nat (length l) <= k ->
  cut_chars k (flat_map encode l) = (flat_map encode l, []).
Proof.
  induction l as [|c l IH]; intros Hl k Hk; [reflexivity|]. cbn [flat_map length] in *.
  destruct (encode_spec c (flat_map encode l) (Hl c (or_introl eq_refl))) as (_ & _ & E).
  specialize (E (k - 1)). replace (k - 1 + 1) with k in E by lia. rewrite E.
  rewrite (IH (fun x Hx => Hl x (or_intror Hx)) (k - 1)) by lia. reflexivity.
Qed.

Lemma short_ok k s : short k s -> vok k s = true /\ vc k s = s /\ nvc k s = null_string s.
Proof.
  intros (l & T & L). assert (Tx : text_ok s = true) by (apply text_text_ok; exists l; exact T). destruct T as [Hl E].
  pose proof (cut_short l Hl k L) as C. rewrite <- E in C. unfold vok, nvc, vc. rewrite C, Tx. split; [reflexivity|]. split; [reflexivity|].
  destruct s; reflexivity.
Qed.

Lemma vok_text k s : vok k s = true -> text_ok s = true.
Proof. unfold vok. intros H. apply andb_prop in H. apply H. Qed.

(** ** Times *)

Lemma pg_nearest t : nearest t (pg_time t).
Proof.
  unfold nearest, pg_time. split; [apply Z.mod_mul; discriminate|].
  pose proof (Z.div_mod (t + 500) 1000 ltac:(discriminate)) as D. pose proof (Z.mod_pos_bound (t + 500) 1000 ltac:(reflexivity)) as M.
  rewrite Z.mul_comm. lia.
Qed.

Lemma pg_time_whole t : (t mod 1000 = 0)%Z -> pg_time t = t.
Proof.
  intros H. unfold pg_time. pose proof (Z.div_mod t 1000 ltac:(discriminate)) as D. rewrite H in D. rewrite D at 1.
  rewrite Z.add_0_r, (Z.mul_comm 1000), Z.add_comm, Z.div_add by discriminate. change (500 / 1000)%Z with 0%Z. lia.
Qed.

Lemma null_nearest t : nearest t (time_of (pg_null_time t)).
Proof.
  unfold pg_null_time. destruct (Z.eqb_spec t 0) as [->|E]; [|apply pg_nearest]. cbn [time_of]. split; [reflexivity|lia].
Qed.

(** ** Constraints *)

Record pvalid (p : pg) : Prop := {
  pv_users : uniqb (pk pu_id) (p_users p) = true;
  pv_users_name : uniqb pusername_key (p_users p) = true;
  pv_nets : uniqb (pk nr_id) (p_nets p) = true;
  pv_nets_addr : uniqb net_addr_key (p_nets p) = true;
  pv_nets_name : uniqb net_name_key (p_nets p) = true;
  pv_nets_fk : refsb (puser_ids p) (fun n => Some (nr_user n)) (p_nets p) = true;
  pv_chans : uniqb (pk cr_id) (p_chans p) = true;
  pv_chans_key : uniqb chan_key (p_chans p) = true;
  pv_chans_fk : refsb (pnet_ids p) (fun c => Some (cr_network c)) (p_chans p) = true;
  pv_drcpts : uniqb (pk pd_id) (p_drcpts p) = true;
  pv_drcpts_key : uniqb pdrcpt_key (p_drcpts p) = true;
  pv_drcpts_fk : refsb (pnet_ids p) (fun r => Some (pd_network r)) (p_drcpts p) = true;
  pv_rrcpts : uniqb (pk pr_id) (p_rrcpts p) = true;
  pv_rrcpts_key : uniqb prrcpt_key (p_rrcpts p) = true;
  pv_rrcpts_fk : refsb (pnet_ids p) (fun r => Some (pr_network r)) (p_rrcpts p) = true;
  pv_subs : uniqb (pk ps_id) (p_subs p) = true;
  pv_subs_key : uniqb psub_key (p_subs p) = true;
  pv_subs_fk : refsb (puser_ids p) (fun s => Some (ps_user s)) (p_subs p) = true;
  pv_subs_net : refsb (pnet_ids p) ps_network (p_subs p) = true;
  pv_targets : uniqb (pk tr_id) (p_targets p) = true;
  pv_targets_key : uniqb target_key (p_targets p) = true;
  pv_targets_fk : refsb (pnet_ids p) (fun t => Some (tr_network t)) (p_targets p) = true;
  pv_msgs : uniqb (pk pm_id) (p_msgs p) = true;
  pv_msgs_fk : refsb (ptarget_ids p) (fun m => Some (pm_target m)) (p_msgs p) = true }.

Lemma pvalid_iff p : pvalidb p = true <-> pvalid p.
Proof.
  unfold pvalidb. split.
  - intros H. repeat match goal with H : _ && _ = true |- _ => apply andb_prop in H; destruct H end. constructor; assumption.
  - intros H. destruct H. repeat (apply andb_true_intro; split); assumption.
Qed.

Lemma pcheck_some ok p p' : pcheck ok p = Some p' -> p' = p /\ ok = true /\ pvalid p.
Proof.
  unfold pcheck. destruct ok; [|discriminate]. cbn [andb]. destruct (pvalidb p) eqn:E; [|discriminate].
  intros H. injection H as <-. split; [reflexivity|]. split; [reflexivity|]. apply pvalid_iff. exact E.
Qed.

Lemma pcheck_ok p : pvalid p -> pcheck true p = Some p.
Proof. intros H. unfold pcheck. apply pvalid_iff in H. rewrite H. reflexivity. Qed.

Lemma with_id_some {A} i (o : option A) q j : with_id i o = Some (q, j) -> o = Some q /\ j = i.
Proof. destruct o; [|discriminate]. intros H. injection H as <- <-. auto. Qed.

Ltac chk H := apply with_id_some in H; let E := fresh "E" in destruct H as [H ->]; apply pcheck_some in H; destruct H as (-> & E & H).

Lemma in_update' {A} (id : A -> N) i g (l : list A) y :
  In y (update id i g l) <-> (exists r, In r l /\ id r = i /\ y = g r) \/ (In y l /\ id y <> i).
Proof. apply in_update. Qed.

Lemma uniqb_nodup {A} (id : A -> N) l : uniqb (pk id) l = true -> NoDup (map id l).
Proof.
  induction l as [|x l IH]; cbn [uniqb map]; [constructor|]. intros H. apply andb_prop in H. destruct H as [H1 H2].
  constructor; [|exact (IH H2)]. intros K. apply in_map_iff in K. destruct K as (y & E & Hy). apply negb_true_iff in H1.
  assert (K : existsb (fun y => clash (pk id x) (pk id y)) l = true); [|congruence].
  apply existsb_exists. exists y. split; [exact Hy|]. rewrite clash_refl_pk. apply N.eqb_eq. congruence.
Qed.

(** A new row has an id of its own. *)
Lemma snoc_fresh {A} (id : A -> N) l x y : uniqb (pk id) (l ++ [x]) = true -> In y l -> id y <> id x.
Proof.
  intros H Hy E. apply uniqb_nodup in H. rewrite map_app in H. cbn [map] in H. apply NoDup_remove_2 in H. rewrite app_nil_r in H.
  apply H. rewrite <- E. apply in_map. exact Hy.
Qed.

(** ** Deletion keeps the constraints *)

Lemma refsb_kept {A B} (id : B -> N) (f : B -> bool) (par : list B) (col : A -> option N) (g : A -> bool) l :
  refsb (map id par) col l = true ->
  (forall x k b, g x = true -> col x = Some k -> In b par -> id b = k -> f b = true) ->
  refsb (map id (filter f par)) col (filter g l) = true.
Proof.
  rewrite !refsb_iff. intros H K x k Hx Ek. apply filter_In in Hx. destruct Hx as [Hx Gx]. specialize (H x k Hx Ek).
  apply in_map_iff in H. destruct H as (b & Eb & Hb). apply in_map_iff. exists b. split; [exact Eb|].
  apply filter_In. split; [exact Hb|]. eapply K; eassumption.
Qed.

Lemma cascade_valid users nets p : pvalid p ->
  (forall n, In n (p_nets p) -> dead users (nr_user n) = true -> dead nets (nr_id n) = true) -> pvalid (p_cascade users nets p).
Proof.
  intros V C. unfold p_cascade. destruct V.
  constructor; cbn [p_users p_nets p_chans p_drcpts p_rrcpts p_subs p_targets p_msgs puser_ids pnet_ids ptarget_ids];
    try (apply uniqb_filter; assumption); unfold puser_ids, pnet_ids, ptarget_ids in *;
    cbn [p_users p_nets p_chans p_drcpts p_rrcpts p_subs p_targets p_msgs].
  - rewrite refsb_iff in *. intros n k Hn E. injection E as <-. apply filter_In in Hn. destruct Hn as [Hn G].
    specialize (pv_nets_fk0 n (nr_user n) Hn eq_refl). apply in_map_iff in pv_nets_fk0. destruct pv_nets_fk0 as (b & Eb & Hb).
    apply in_map_iff. exists b. split; [exact Eb|]. apply filter_In. split; [exact Hb|]. rewrite Eb.
    destruct (dead users (nr_user n)) eqn:D; [|reflexivity]. rewrite (C n Hn D) in G. discriminate G.
  - eapply refsb_kept; [eassumption|]. cbn beta. intros x k b Gx Ek Hb Eb. injection Ek as <-. rewrite Eb. exact Gx.
  - eapply refsb_kept; [eassumption|]. cbn beta. intros x k b Gx Ek Hb Eb. injection Ek as <-. rewrite Eb. exact Gx.
  - eapply refsb_kept; [eassumption|]. cbn beta. intros x k b Gx Ek Hb Eb. injection Ek as <-. rewrite Eb. exact Gx.
  - eapply refsb_kept; [eassumption|]. cbn beta. intros x k b Gx Ek Hb Eb. injection Ek as <-. rewrite Eb.
    apply negb_true_iff in Gx. apply orb_false_iff in Gx. destruct Gx as [-> _]. reflexivity.
  - eapply refsb_kept; [eassumption|]. cbn beta. intros x k b Gx Ek Hb Eb. rewrite Ek in Gx. rewrite Eb.
    apply negb_true_iff in Gx. apply orb_false_iff in Gx. destruct Gx as [_ ->]. reflexivity.
  - eapply refsb_kept; [eassumption|]. cbn beta. intros x k b Gx Ek Hb Eb. injection Ek as <-. rewrite Eb. exact Gx.
  - eapply refsb_kept; [eassumption|]. cbn beta. intros x k b Gx Ek Hb Eb. injection Ek as <-.
    destruct (dead nets (tr_network b)) eqn:D; [|reflexivity]. exfalso.
    apply negb_true_iff in Gx. rewrite <- Eb in Gx.
    assert (dead (map tr_id (filter (fun t => dead nets (tr_network t)) (p_targets p))) (tr_id b) = true); [|congruence].
    apply dead_iff. apply in_map. apply filter_In. auto.
Qed.

Lemma cascade_erases p users nets : pvalid p ->
  p_erased p (p_cascade users nets p) (fun u => In u users) (fun k => In k nets).
Proof.
  intros V. assert (N0 : forall l k, negb (dead l k) = true <-> ~ In k l)
    by (intros l k; rewrite <- dead_iff; destruct (dead l k); cbn; intuition congruence).
  unfold p_cascade. constructor; cbn [p_users p_nets p_chans p_drcpts p_rrcpts p_subs p_targets p_msgs]; intros r; rewrite filter_In.
  1-5: rewrite N0; reflexivity.
  - rewrite negb_true_iff, orb_false_iff. split.
    + intros (Hr & D1 & D2). split; [exact Hr|]. split; [apply N0; rewrite D1; reflexivity|].
      intros k Ek. rewrite Ek in D2. apply N0. rewrite D2. reflexivity.
    + intros (Hr & D1 & D2). split; [exact Hr|]. split; [apply N0 in D1; apply negb_true_iff; exact D1|].
      destruct (ps_network r) as [k|]; [|reflexivity]. specialize (D2 k eq_refl). apply N0 in D2. apply negb_true_iff. exact D2.
  - rewrite N0. reflexivity.
  - rewrite N0. split; (intros [Hr K]; split; [exact Hr|]).
    + intros (k & (t & Ht & Et & En) & Hk). apply K. rewrite <- Et. apply in_map. apply filter_In. split; [exact Ht|].
      apply dead_iff. rewrite En. exact Hk.
    + intros H. apply K. apply in_map_iff in H. destruct H as (t & Et & Ht). apply filter_In in Ht. destruct Ht as [Ht D].
      apply dead_iff in D. exists (tr_network t). split; [exists t; auto|exact D].
Qed.

Lemma erased_iff p p' (U U' K K' : N -> Prop) : (forall x, U x <-> U' x) -> (forall x, K x <-> K' x) ->
  p_erased p p' U K -> p_erased p p' U' K'.
Proof.
  intros HU HK H. destruct H. constructor; intros r.
  - rewrite pe_users, HU. reflexivity.
  - rewrite pe_nets, HK. reflexivity.
  - rewrite pe_chans, HK. reflexivity.
  - rewrite pe_drcpts, HK. reflexivity.
  - rewrite pe_rrcpts, HK. reflexivity.
  - rewrite pe_subs, HU. split; intros (A & B & C); (split; [exact A|]; split; [exact B|]; intros k Ek; specialize (C k Ek); rewrite HK in *; exact C).
  - rewrite pe_targets, HK. reflexivity.
  - rewrite pe_msgs. split; (intros [A B]; split; [exact A|]; intros (k & M & Kk); apply B; exists k; split; [exact M|]; apply HK; exact Kk).
Qed.

Theorem delete_user_erases p u : pvalid p ->
  exists p', p_delete_user u p = Some p' /\ p_erased p p' (fun x => x = u) (p_owns p u).
Proof.
  intros V. unfold p_delete_user. set (nets := map nr_id _).
  assert (Hn : forall k, In k nets <-> p_owns p u k).
  { intros k. unfold nets, p_owns. rewrite in_map_iff. split.
    - intros (n & E & Hn). apply filter_In in Hn. destruct Hn as [Hn Eu]. apply N.eqb_eq in Eu. exists n. auto.
    - intros (n & Hn & E & Eu). exists n. split; [exact E|]. apply filter_In. split; [exact Hn|]. apply N.eqb_eq. exact Eu. }
  eexists. split.
  - apply pcheck_ok. apply cascade_valid; [exact V|]. intros n Hin D. apply dead_iff in D. destruct D as [D|[]].
    apply dead_iff. apply Hn. exists n. auto.
  - eapply erased_iff; [| |apply cascade_erases; exact V].
    + intros x. cbn [In]. split; [intros [->|[]]; reflexivity|intros ->; left; reflexivity].
    + exact Hn.
Qed.

Theorem delete_network_erases p k : pvalid p ->
  exists p', p_delete_network k p = Some p' /\ p_erased p p' (fun _ => False) (fun x => x = k).
Proof.
  intros V. unfold p_delete_network. eexists. split.
  - apply pcheck_ok. apply cascade_valid; [exact V|]. intros n _ D. discriminate D.
  - eapply erased_iff; [| |apply cascade_erases; exact V].
    + intros x. cbn [In]. reflexivity.
    + intros x. cbn [In]. split; [intros [->|[]]; reflexivity|intros ->; left; reflexivity].
Qed.

(** ** Every database reached meets the constraints *)

Lemma fst_with_id {A} i (o : option A) p : fst_opt (with_id i o) = Some p -> o = Some p.
Proof. destruct o; cbn; intros H; [injection H as ->; reflexivity|discriminate]. Qed.

Lemma insert_drcpts_valid net client l : forall p p', pvalid p -> p_insert_drcpts net client l p = Some p' -> pvalid p'.
Proof.
  induction l as [|[id [t m]] l IH]; intros p p' V H; cbn [p_insert_drcpts] in H; [injection H as <-; exact V|].
  destruct (pcheck _ _) as [q|] eqn:E; [|discriminate]. apply pcheck_some in E. destruct E as (-> & _ & W). eapply IH; [exact W|exact H].
Qed.

Section Reach.
Variable raw_of : message -> bytes.

Lemma add_target_valid fresh net name p p' : p_add_target fresh net name p = Some p' -> pvalid p'.
Proof.
  unfold p_add_target. destruct (existsb _ _); intros H; apply pcheck_some in H; destruct H as (-> & _ & V); exact V.
Qed.

Lemma insert_msgs_valid net name now l : forall p p', pvalid p -> p_insert_msgs raw_of net name now l p = Some p' -> pvalid p'.
Proof.
  induction l as [|[id m] l IH]; intros p p' V H; cbn [p_insert_msgs] in H; [injection H as <-; exact V|].
  destruct (p_insert_msg _ _ _ _ _ _ _) as [q|] eqn:E; [|discriminate]. eapply IH; [|exact H].
  unfold p_insert_msg in E. destruct (message_time now m); [|discriminate]. destruct (filter _ _) as [|r fl]; [discriminate|].
  apply pcheck_some in E. destruct E as (-> & _ & W). exact W.
Qed.

Lemma step_valid p c : pvalid p -> pvalid (p_step raw_of p c).
Proof.
  intros V. unfold p_step. destruct (p_perform raw_of c p) as [p'|] eqn:E; [|exact V].
  destruct c; cbn [p_perform] in E.
  - unfold p_store_user in E. destruct (N.eqb _ _); apply fst_with_id, pcheck_some in E; destruct E as (-> & _ & W); exact W.
  - apply pcheck_some in E; destruct E as (-> & _ & W); exact W.
  - unfold p_store_network in E. destruct (sasl_columns n) as [[[[[? ?] ?] ?] ?]|]; [|discriminate].
    destruct (N.eqb _ _); apply fst_with_id, pcheck_some in E; destruct E as (-> & _ & W); exact W.
  - apply pcheck_some in E; destruct E as (-> & _ & W); exact W.
  - unfold p_store_channel in E. destruct (N.eqb _ _); apply fst_with_id, pcheck_some in E; destruct E as (-> & _ & W); exact W.
  - apply pcheck_some in E; destruct E as (-> & _ & W); exact W.
  - unfold p_store_drcpts in E. destruct (pcheck _ _) as [q|] eqn:F; [|discriminate]. apply pcheck_some in F. destruct F as (-> & _ & W).
    eapply insert_drcpts_valid; [exact W|exact E].
  - unfold p_store_rrcpt in E. destruct (N.eqb _ _); apply fst_with_id, pcheck_some in E; destruct E as (-> & _ & W); exact W.
  - unfold p_store_sub in E. destruct (N.eqb _ _); apply fst_with_id, pcheck_some in E; destruct E as (-> & _ & W); exact W.
  - apply pcheck_some in E; destruct E as (-> & _ & W); exact W.
  - unfold p_store_messages in E. destruct l as [|x l]; [injection E as <-; exact V|].
    destruct (p_add_target _ _ _ _) as [q|] eqn:F; [|discriminate].
    destruct (p_insert_msgs _ _ _ _ _ _) as [q'|] eqn:G; [|discriminate]. injection E as <-.
    eapply insert_msgs_valid; [|exact G]. eapply add_target_valid. exact F.
Qed.

Lemma reachable_valid p : p_reachable raw_of p -> pvalid p.
Proof. induction 1 as [|p c H IH]; [apply pvalid_iff; reflexivity|apply step_valid; exact IH]. Qed.
End Reach.

(** ** Reading back *)

Lemma string_nvc k s : short k s -> string_of (nvc k s) = s.
Proof. intros H. destruct (short_ok k s H) as (_ & _ & ->). apply string_null. Qed.

Lemma uniqb_puser l r1 r2 : uniqb pusername_key l = true -> In r1 l -> In r2 l -> pu_username r1 = pu_username r2 -> r1 = r2.
Proof.
  induction l as [|z l IH]; [intros _ []|]. cbn [uniqb]. intros H H1 H2 E. apply andb_prop in H. destruct H as [K H].
  apply negb_true_iff in K.
  assert (C : forall w, In w l -> pu_username z <> pu_username w).
  { intros w Hw Ez. assert (existsb (fun y => clash (pusername_key z) (pusername_key y)) l = true); [|congruence].
    apply existsb_exists. exists w. split; [exact Hw|]. unfold pusername_key. cbn [clash ceqb]. rewrite Ez, beqb_refl. reflexivity. }
  destruct H1 as [<-|H1], H2 as [<-|H2]; [reflexivity|destruct (C _ H2 E)|destruct (C _ H1 (eq_sym E))|exact (IH H H1 H2 E)].
Qed.

Lemma get_user_found p r : pvalid p -> In r (p_users p) -> text_ok (pu_username r) = true ->
  p_get_user (pu_username r) p = Some (p_load_user r).
Proof.
  intros V Hr T. unfold p_get_user. rewrite T.
  destruct (filter _ _) as [|r' fl] eqn:F.
  - exfalso. assert (K : In r (filter (fun x => beqb (pu_username x) (pu_username r)) (p_users p)))
      by (apply filter_In; split; [exact Hr|apply beqb_refl]). rewrite F in K. destruct K.
  - assert (K : In r' (filter (fun x => beqb (pu_username x) (pu_username r)) (p_users p))) by (rewrite F; left; reflexivity).
    apply filter_In in K. destruct K as [K E]. apply beqb_eq in E.
    rewrite (uniqb_puser _ r' r (pv_users_name p V) K Hr E). reflexivity.
Qed.

Lemma get_user_inv p name u : p_get_user name p = Some u ->
  text_ok name = true /\ exists r, In r (p_users p) /\ pu_username r = name /\ u = p_load_user r.
Proof.
  unfold p_get_user. destruct (text_ok name); [|discriminate]. destruct (filter _ _) as [|r fl] eqn:F; [discriminate|].
  intros H. injection H as <-. split; [reflexivity|]. exists r.
  assert (K : In r (filter (fun x => beqb (pu_username x) name) (p_users p))) by (rewrite F; left; reflexivity).
  apply filter_In in K. destruct K as [K E]. apply beqb_eq in E. auto.
Qed.

(** What GetUser finds depends on the rows with the name only. *)
Lemma get_user_same p p' name : pvalid p -> pvalid p' ->
  (forall r, pu_username r = name -> (In r (p_users p') <-> In r (p_users p))) -> p_get_user name p' = p_get_user name p.
Proof.
  intros V V' K. destruct (p_get_user name p) as [u|] eqn:E.
  - apply get_user_inv in E. destruct E as (T & r & Hr & En & ->). subst name. apply get_user_found; [exact V'| |exact T].
    apply K; [reflexivity|exact Hr].
  - destruct (p_get_user name p') as [u|] eqn:E'; [|reflexivity].
    apply get_user_inv in E'. destruct E' as (T & r & Hr & En & ->). subst name. apply K in Hr; [|reflexivity].
    rewrite (get_user_found p r V Hr T) in E. discriminate E.
Qed.

Theorem store_user_reads p now fresh u p' id : pvalid p -> short_user u -> p_store_user now fresh u p = Some (p', id) ->
  (gu_id u <> 0 -> exists old, p_get_user (gu_username u) p = Some old /\ gu_id old = gu_id u) ->
  (gu_id u <> 0 -> id = gu_id u) /\ (gu_id u = 0 -> forall v, In v (p_list_users p) -> gu_id v <> id) /\
  (exists u', p_get_user (gu_username u) p' = Some u' /\ psaved_user id u u') /\
  (forall name, name <> gu_username u -> p_get_user name p' = p_get_user name p).
Proof.
  intros V (S1 & S2 & S3 & S4) H Hold. destruct (short_ok _ _ S1) as (O1 & C1 & _). unfold p_store_user in H.
  destruct (N.eqb_spec (gu_id u) 0) as [E0|E0].
  - chk H. set (row := PUser _ _ _ _ _ _ _ _ _ _) in *. cbn [p_users set_users] in *.
    assert (Hin : In row (p_users p ++ [row])) by (apply in_or_app; right; left; reflexivity).
    assert (En : pu_username row = gu_username u) by exact C1.
    split; [congruence|]. split; [|split].
    + intros _ v Hv. unfold p_list_users in Hv. apply in_map_iff in Hv. destruct Hv as (r & <- & Hr).
      exact (snoc_fresh pu_id _ _ r (pv_users _ H) Hr).
    + exists (p_load_user row). split.
      * rewrite <- En. apply get_user_found; [exact H|exact Hin|]. rewrite En. exact (vok_text _ _ O1).
      * unfold psaved_user, p_load_user, row. cbn [gu_id gu_username gu_password gu_nick gu_realname gu_admin gu_enabled gu_interacted gu_max
          pu_id pu_username pu_password pu_nick pu_realname pu_admin pu_enabled pu_interacted pu_max].
        rewrite !string_nvc by assumption. repeat (split; [first [reflexivity|exact C1|apply null_nearest]|]). reflexivity.
    + intros name Hn. apply get_user_same; [exact V|exact H|]. intros r Er. cbn [p_users set_users]. rewrite in_app_iff. split; [|auto].
      intros [Hr|[<-|[]]]; [exact Hr|]. congruence.
  - chk H. destruct (Hold E0) as (old & Ho & Ei). apply get_user_inv in Ho. destruct Ho as (T & r0 & Hr0 & En & ->).
    change (gu_id (p_load_user r0)) with (pu_id r0) in Ei. set (g := fun r => PUser _ _ _ _ _ _ _ _ _ _) in *.
    assert (Hin : In (g r0) (update pu_id (gu_id u) g (p_users p))) by (apply in_update'; left; exists r0; auto).
    split; [reflexivity|]. split; [congruence|]. split.
    + exists (p_load_user (g r0)). split.
      * rewrite <- En. change (pu_username r0) with (pu_username (g r0)).
        apply get_user_found; [exact H|exact Hin|]. change (pu_username (g r0)) with (pu_username r0). rewrite En. exact T.
      * unfold psaved_user, p_load_user, g. cbn [gu_id gu_username gu_password gu_nick gu_realname gu_admin gu_enabled gu_interacted gu_max
          pu_id pu_username pu_password pu_nick pu_realname pu_admin pu_enabled pu_interacted pu_max].
        rewrite !string_nvc by assumption. repeat (split; [first [reflexivity|assumption|apply null_nearest]|]). reflexivity.
    + intros name Hn. apply get_user_same; [exact V|exact H|]. intros r Er. cbn [p_users set_users]. rewrite in_update'. split.
      * intros [(r1 & Hr1 & Ei1 & ->)|[Hr _]]; [|exact Hr]. exfalso. apply Hn.
        rewrite (uniqb_pk pu_id _ r1 r0 (pv_users p V) Hr1 Hr0 ltac:(congruence)) in Er.
        change (pu_username (g r0)) with (pu_username r0) in Er. congruence.
      * intros Hr. right. split; [exact Hr|]. intros Ei1. apply Hn.
        rewrite (uniqb_pk pu_id _ r r0 (pv_users p V) Hr Hr0 ltac:(congruence)) in Er. congruence.
Qed.

(** ** Networks *)

Lemma in_p_list_networks p u x : In x (p_list_networks u p) <-> exists r, In r (p_nets p) /\ nr_user r = u /\ x = load_network r.
Proof.
  unfold p_list_networks. rewrite in_map_iff. split.
  - intros (r & E & Hr). apply filter_In in Hr. destruct Hr as [Hr Eu]. apply N.eqb_eq in Eu. exists r. auto.
  - intros (r & Hr & Eu & ->). exists r. split; [reflexivity|]. apply filter_In. split; [exact Hr|]. apply N.eqb_eq. exact Eu.
Qed.

Theorem store_network_reads p fresh u n p' id : pvalid p -> short_network n -> storable_cmds (gn_cmds n) ->
  p_store_network fresh u n p = Some (p', id) ->
  (gn_id n <> 0 -> exists old, In old (p_list_networks u p) /\ gn_id old = gn_id n) ->
  (gn_id n <> 0 -> id = gn_id n) /\
  (gn_id n = 0 -> forall u' x, In x (p_list_networks u' p) -> gn_id x <> id) /\
  forall u' x, In x (p_list_networks u' p') <->
    (u' = u /\ x = saved_network id n) \/ (In x (p_list_networks u' p) /\ gn_id x <> id).
Proof.
  intros V (S1 & S2 & S3 & S4 & S5 & S6 & S7 & S8 & S9 & S10) Hc H Hown. unfold p_store_network in H.
  destruct (sasl_columns n) as [[[[[mech pusr] ppass] cert] key]|] eqn:ES; [|discriminate].
  set (ok := _ && vok 255 (string_of ppass)) in H. set (row := fun id owner =>
    NetRow id (nvc 255 (gn_name n)) owner (vc 255 (gn_addr n)) (nvc 255 (gn_nick n)) (nvc 255 (gn_username n))
      (nvc 255 (gn_realname n)) (null_string (gn_certfp n)) (nvc 255 (gn_pass n))
      (nvc 1023 (join cmd_sep (gn_cmds n))) mech (nvc 255 (string_of pusr)) (nvc 255 (string_of ppass)) cert key
      (gn_away n) (gn_enabled n)) in H.
  change cmd_sep with (B (String "013" (String "010" EmptyString))) in *.
  assert (L : forall i o, load_network (row i o) = saved_network i n).
  { intros i o. unfold load_network, row, saved_network. cbn [nr_id nr_name nr_addr nr_nick nr_username nr_realname nr_pass nr_cmds
      nr_certfp nr_mech nr_puser nr_ppass nr_cert nr_key nr_away nr_enabled].
    rewrite (string_nvc _ _ S1), (string_nvc _ _ S3), (string_nvc _ _ S4), (string_nvc _ _ S5), (string_nvc _ _ S7), !string_null.
    destruct (short_ok _ _ S2) as (_ & -> & _). destruct (short_ok _ _ S8) as (_ & _ & ->).
    pose proof (cmds_roundtrip _ Hc) as R. change cmd_sep with (B (String "013" (String "010" EmptyString))) in R. rewrite R.
    unfold sasl_columns in ES. destruct (beqb_spec (gn_mech n) []) as [Em|Em].
    - injection ES as <- <- <- <- <-. rewrite Em. reflexivity.
    - destruct (beqb_spec (gn_mech n) (B "PLAIN")) as [Ep|Ep].
      + injection ES as <- <- <- <- <-. rewrite !string_null, (string_nvc _ _ S9), (string_nvc _ _ S10). reflexivity.
      + destruct (beqb (gn_mech n) (B "EXTERNAL")); [|discriminate]. injection ES as <- <- <- <- <-. rewrite string_null. reflexivity. }
  destruct (N.eqb_spec (gn_id n) 0) as [E0|E0].
  - chk H. split; [congruence|]. 
    assert (F : forall r, In r (p_nets p) -> nr_id r <> fresh) by (intros r Hr; exact (snoc_fresh nr_id _ _ r (pv_nets _ H) Hr)).
    split.
    { intros _ u' x Hx. apply in_p_list_networks in Hx. destruct Hx as (r & Hr & _ & ->). exact (F r Hr). }
    intros u' x. rewrite !in_p_list_networks. cbn [p_nets set_nets].
    split.
    + intros (r & Hr & Eu & ->). apply in_app_or in Hr. destruct Hr as [Hr|[<-|[]]].
      * right. split; [exists r; auto|]. exact (F r Hr).
      * left. split; [symmetry; exact Eu|apply L].
    + intros [[-> ->]|[(r & Hr & Eu & ->) _]].
      * exists (row fresh u). split; [apply in_or_app; right; left; reflexivity|]. split; [reflexivity|]. symmetry. apply L.
      * exists r. split; [apply in_or_app; left; exact Hr|]. auto.
  - chk H. split; [reflexivity|]. split; [congruence|]. intros u' x. rewrite !in_p_list_networks. cbn [p_nets set_nets].
    destruct (Hown E0) as (old & Hold & Ei0). apply in_p_list_networks in Hold. destruct Hold as (r0 & Hr0 & Eu0 & ->).
    change (gn_id (load_network r0)) with (nr_id r0) in Ei0.
    split.
    + intros (r & Hr & Eu & ->). apply in_update' in Hr. destruct Hr as [(r1 & Hr1 & Ei1 & ->)|[Hr Ei]].
      * left. assert (r1 = r0) by (eapply (uniqb_pk nr_id); try exact (pv_nets p V); try assumption; congruence). subst r1.
        split; [|rewrite <- Ei0; apply L]. cbn [row nr_user] in Eu. congruence.
      * right. split; [exists r; auto|exact Ei].
    + intros [[-> ->]|[(r & Hr & Eu & ->) Hne]].
      * exists (row (nr_id r0) (nr_user r0)). split; [apply in_update'; left; exists r0; auto|]. split; [exact Eu0|].
        rewrite <- Ei0. symmetry. apply L.
      * exists r. split; [|auto]. apply in_update'. right. split; [exact Hr|exact Hne].
Qed.

(** ** Channels *)

Lemma in_p_list_channels p k x : In x (p_list_channels k p) <-> exists r, In r (p_chans p) /\ cr_network r = k /\ x = load_channel r.
Proof.
  unfold p_list_channels. rewrite in_map_iff. split.
  - intros (r & E & Hr). apply filter_In in Hr. destruct Hr as [Hr Eu]. apply N.eqb_eq in Eu. exists r. auto.
  - intros (r & Hr & Eu & ->). exists r. split; [reflexivity|]. apply filter_In. split; [exact Hr|]. apply N.eqb_eq. exact Eu.
Qed.

Theorem store_channel_reads p fresh k c p' id : pvalid p -> short_channel c ->
  p_store_channel fresh k c p = Some (p', id) ->
  (gc_id c <> 0 -> exists old, In old (p_list_channels k p) /\ gc_id old = gc_id c) ->
  (gc_id c <> 0 -> id = gc_id c) /\
  (gc_id c = 0 -> forall k' x, In x (p_list_channels k' p) -> gc_id x <> id) /\
  exists c', saved_channel id c c' /\
  forall k' x, In x (p_list_channels k' p') <-> (k' = k /\ x = c') \/ (In x (p_list_channels k' p) /\ gc_id x <> id).
Proof.
  intros V (S1 & S2 & S3) H Hown. unfold p_store_channel in H.
  set (ok := _ && int4 (gc_on c)) in H. set (row := fun id net =>
    ChanRow id net (vc 255 (gc_name c)) (nvc 255 (gc_key c)) (gc_detached c) (nvc 255 (gc_dmsgid c))
      (gc_relay c) (gc_reattach c) (ceil_seconds (gc_after c)) (gc_on c)) in H.
  assert (L : forall i o, saved_channel i c (load_channel (row i o))).
  { intros i o. unfold saved_channel, load_channel, row. cbn [gc_id gc_name gc_key gc_detached gc_dmsgid gc_relay gc_reattach gc_after gc_on
      cr_id cr_name cr_key cr_detached cr_dmsgid cr_relay cr_reattach cr_after cr_on].
    rewrite (string_nvc _ _ S2), (string_nvc _ _ S3). destruct (short_ok _ _ S1) as (_ & -> & _).
    repeat (split; [first [reflexivity|apply ceil_rounded]|]). reflexivity. }
  assert (M : forall i o o', load_channel (row i o) = load_channel (row i o')) by reflexivity.
  destruct (N.eqb_spec (gc_id c) 0) as [E0|E0].
  - chk H. split; [congruence|]. 
    assert (F : forall r, In r (p_chans p) -> cr_id r <> fresh) by (intros r Hr; exact (snoc_fresh cr_id _ _ r (pv_chans _ H) Hr)).
    split.
    { intros _ u' x Hx. apply in_p_list_channels in Hx. destruct Hx as (r & Hr & _ & ->). exact (F r Hr). }
    exists (load_channel (row fresh k)). split; [apply L|].
    intros u' x. rewrite !in_p_list_channels. cbn [p_chans set_chans].
    split.
    + intros (r & Hr & Eu & ->). apply in_app_or in Hr. destruct Hr as [Hr|[<-|[]]].
      * right. split; [exists r; auto|]. exact (F r Hr).
      * left. split; [symmetry; exact Eu|reflexivity].
    + intros [[-> ->]|[(r & Hr & Eu & ->) _]].
      * exists (row fresh k). split; [apply in_or_app; right; left; reflexivity|]. split; reflexivity.
      * exists r. split; [apply in_or_app; left; exact Hr|]. auto.
  - chk H. split; [reflexivity|]. split; [congruence|]. exists (load_channel (row (gc_id c) k)). split; [apply L|].
    intros u' x. rewrite !in_p_list_channels. cbn [p_chans set_chans].
    destruct (Hown E0) as (old & Hold & Ei0). apply in_p_list_channels in Hold. destruct Hold as (r0 & Hr0 & Eu0 & ->).
    change (gc_id (load_channel r0)) with (cr_id r0) in Ei0.
    split.
    + intros (r & Hr & Eu & ->). apply in_update' in Hr. destruct Hr as [(r1 & Hr1 & Ei1 & ->)|[Hr Ei]].
      * left. assert (r1 = r0) by (eapply (uniqb_pk cr_id); try exact (pv_chans p V); try assumption; congruence). subst r1.
        split; [|rewrite <- Ei0; apply M]. cbn [row cr_network] in Eu. congruence.
      * right. split; [exists r; auto|exact Ei].
    + intros [[-> ->]|[(r & Hr & Eu & ->) Hne]].
      * exists (row (cr_id r0) (cr_network r0)). split; [apply in_update'; left; exists r0; auto|]. split; [exact Eu0|].
        rewrite <- Ei0. apply M.
      * exists r. split; [|auto]. apply in_update'. right. split; [exact Hr|exact Hne].
Qed.

(** ** Delivery receipts *)

Lemma in_p_list_drcpts p k t c m : In (t, c, m) (p_list_drcpts k p) <->
  exists r, In r (p_drcpts p) /\ pd_network r = k /\ pd_target r = t /\ pd_client r = c /\ pd_msgid r = m.
Proof.
  unfold p_list_drcpts. rewrite in_map_iff. split.
  - intros (r & E & Hr). injection E as E1 E2 E3. apply filter_In in Hr. destruct Hr as [Hr Eu]. apply N.eqb_eq in Eu. exists r. auto.
  - intros (r & Hr & Eu & <- & <- & <-). exists r. split; [reflexivity|]. apply filter_In. split; [exact Hr|]. apply N.eqb_eq. exact Eu.
Qed.

Definition short_receipts (l : list (N * (bytes * bytes))) : Prop :=
  forall id t m, In (id, (t, m)) l -> short 255 t /\ short 255 m.

Lemma insert_drcpts_in net client l : short 255 client -> short_receipts l -> forall p p', p_insert_drcpts net client l p = Some p' ->
  forall r, In r (p_drcpts p') <-> In r (p_drcpts p) \/ exists id t m, In (id, (t, m)) l /\ r = PDrcpt id net t client m.
Proof.
  intros Sc. induction l as [|[id [t m]] l IH]; intros Sl p p' H r; cbn [p_insert_drcpts] in H.
  - injection H as <-. split; [auto|]. intros [K|(? & ? & ? & [] & _)]. exact K.
  - destruct (pcheck _ _) as [q|] eqn:E; [|discriminate]. apply pcheck_some in E. destruct E as (-> & _ & _).
    destruct (Sl id t m (or_introl eq_refl)) as [St Sm].
    destruct (short_ok _ _ Sc) as (_ & Cc & _). destruct (short_ok _ _ St) as (_ & Ct & _). destruct (short_ok _ _ Sm) as (_ & Cm & _).
    rewrite Cc, Ct, Cm in H.
    rewrite (IH (fun i t m K => Sl i t m (or_intror K)) _ _ H r). cbn [p_drcpts set_drcpts]. rewrite in_app_iff. cbn [In]. split.
    + intros [[K|[<-|[]]]|(i & t' & m' & K & ->)]; [auto| |].
      * right. exists id, t, m. auto.
      * right. exists i, t', m'. auto.
    + intros [K|(i & t' & m' & [K|K] & ->)]; [auto| |].
      * injection K as <- <- <-. auto.
      * right. exists i, t', m'. auto.
Qed.

Theorem store_drcpts_reads p k client l p' : short 255 client -> short_receipts l -> p_store_drcpts k client l p = Some p' ->
  forall k' t c m, In (t, c, m) (p_list_drcpts k' p') <->
    (k' = k /\ c = client /\ In (t, m) (map snd l)) \/ (In (t, c, m) (p_list_drcpts k' p) /\ ~ (k' = k /\ c = client)).
Proof.
  intros Sc Sl H k' t c m. unfold p_store_drcpts in H. destruct (pcheck _ _) as [q|] eqn:E; [|discriminate].
  apply pcheck_some in E. destruct E as (-> & _ & _). rewrite !in_p_list_drcpts.
  pose proof (insert_drcpts_in k client l Sc Sl _ _ H) as I. cbn [p_drcpts set_drcpts] in I.
  assert (F : forall r, negb (N.eqb (pd_network r) k && beqb (pd_client r) client) = true <-> ~ (pd_network r = k /\ pd_client r = client)).
  { intros r. rewrite negb_true_iff, andb_false_iff, N.eqb_neq. split.
    - intros [K|K] [K1 K2]; [congruence|]. rewrite K2, beqb_refl in K. discriminate K.
    - intros K. destruct (N.eq_dec (pd_network r) k) as [E1|E1]; [|auto]. right. destruct (beqb_spec (pd_client r) client); [|reflexivity]. tauto. }
  split.
  - intros (r & Hr & <- & <- & <- & <-). apply I in Hr. destruct Hr as [Hr|(i & t' & m' & Hi & ->)].
    + right. apply filter_In in Hr. destruct Hr as [Hr K]. apply F in K. split; [exists r; auto|exact K].
    + left. cbn [pd_network pd_client pd_target pd_msgid]. split; [reflexivity|]. split; [reflexivity|].
      apply in_map_iff. exists (i, (t', m')). auto.
  - intros [(-> & -> & Hi)|[(r & Hr & <- & <- & <- & <-) K]].
    + apply in_map_iff in Hi. destruct Hi as ([i [t' m']] & E & Hi). cbn [snd] in E. injection E as -> ->.
      exists (PDrcpt i k t client m). split; [apply I; right; exists i, t, m; auto|]. auto.
    + exists r. split; [|auto]. apply I. left. apply filter_In. split; [exact Hr|]. apply F. exact K.
Qed.

(** ** Read receipts *)

Lemma uniqb_prrcpt l r1 r2 : uniqb prrcpt_key l = true -> In r1 l -> In r2 l ->
  pr_network r1 = pr_network r2 -> pr_target r1 = pr_target r2 -> r1 = r2.
Proof.
  induction l as [|z l IH]; [intros _ []|]. cbn [uniqb]. intros H H1 H2 E E'. apply andb_prop in H. destruct H as [K H].
  apply negb_true_iff in K.
  assert (C : forall w, In w l -> pr_network z = pr_network w -> pr_target z <> pr_target w).
  { intros w Hw Ez Ez'. assert (existsb (fun y => clash (prrcpt_key z) (prrcpt_key y)) l = true); [|congruence].
    apply existsb_exists. exists w. split; [exact Hw|]. unfold prrcpt_key. cbn [clash ceqb].
    rewrite Ez, Ez', N.eqb_refl, beqb_refl. reflexivity. }
  destruct H1 as [<-|H1], H2 as [<-|H2]; [reflexivity|destruct (C _ H2 E E')|destruct (C _ H1 (eq_sym E) (eq_sym E'))|exact (IH H H1 H2 E E')].
Qed.

Lemma get_rrcpt_found p r : pvalid p -> In r (p_rrcpts p) -> text_ok (pr_target r) = true ->
  p_get_rrcpt (pr_network r) (pr_target r) p = Some (Some (pr_id r, pr_time r)).
Proof.
  intros V Hr T. unfold p_get_rrcpt. rewrite T.
  set (f := fun x => N.eqb (pr_network x) (pr_network r) && beqb (pr_target x) (pr_target r)).
  destruct (filter f (p_rrcpts p)) as [|r' fl] eqn:F.
  - exfalso. assert (K : In r (filter f (p_rrcpts p)))
      by (apply filter_In; split; [exact Hr|unfold f; rewrite N.eqb_refl, beqb_refl; reflexivity]). rewrite F in K. destruct K.
  - assert (K : In r' (filter f (p_rrcpts p))) by (rewrite F; left; reflexivity).
    apply filter_In in K. destruct K as [K E]. unfold f in E. apply andb_prop in E. destruct E as [E1 E2].
    apply N.eqb_eq in E1. apply beqb_eq in E2. rewrite (uniqb_prrcpt _ r' r (pv_rrcpts_key p V) K Hr E1 E2). reflexivity.
Qed.

Lemma get_rrcpt_inv p k name i t : p_get_rrcpt k name p = Some (Some (i, t)) ->
  text_ok name = true /\ exists r, In r (p_rrcpts p) /\ pr_network r = k /\ pr_target r = name /\ i = pr_id r /\ t = pr_time r.
Proof.
  unfold p_get_rrcpt. destruct (text_ok name); [|discriminate]. destruct (filter _ _) as [|r fl] eqn:F; [discriminate|].
  intros H. injection H as <- <-. split; [reflexivity|]. exists r.
  assert (K : In r (filter (fun x => N.eqb (pr_network x) k && beqb (pr_target x) name) (p_rrcpts p))) by (rewrite F; left; reflexivity).
  apply filter_In in K. destruct K as [K E]. apply andb_prop in E. destruct E as [E1 E2]. apply N.eqb_eq in E1. apply beqb_eq in E2. auto.
Qed.

Lemma get_rrcpt_same p p' k name : pvalid p -> pvalid p' ->
  (forall r, pr_network r = k -> pr_target r = name -> (In r (p_rrcpts p') <-> In r (p_rrcpts p))) ->
  p_get_rrcpt k name p' = p_get_rrcpt k name p.
Proof.
  intros V V' K. destruct (text_ok name) eqn:T; [|unfold p_get_rrcpt; rewrite T; reflexivity].
  assert (N0 : forall q, exists o, p_get_rrcpt k name q = Some o) by (intros q; unfold p_get_rrcpt; rewrite T; destruct (filter _ _); eauto).
  destruct (N0 p) as [[[i t]|] E].
  - rewrite E. apply get_rrcpt_inv in E. destruct E as (_ & r & Hr & Ek & En & -> & ->). subst k name. apply get_rrcpt_found; [exact V'| |exact T].
    apply K; [reflexivity|reflexivity|exact Hr].
  - rewrite E. destruct (N0 p') as [[[i t]|] E']; [|exact E'].
    apply get_rrcpt_inv in E'. destruct E' as (_ & r & Hr & Ek & En & -> & ->). subst k name. apply K in Hr; [|reflexivity|reflexivity].
    rewrite (get_rrcpt_found p r V Hr T) in E. discriminate E.
Qed.

Theorem store_rrcpt_reads p fresh k i target t p' id : pvalid p -> short 255 target ->
  p_store_rrcpt fresh k i target t p = Some (p', id) ->
  (i <> 0 -> exists t0, p_get_rrcpt k target p = Some (Some (i, t0))) ->
  (i <> 0 -> id = i) /\
  (exists t', p_get_rrcpt k target p' = Some (Some (id, t')) /\ nearest t t') /\
  (forall k' name, (k', name) <> (k, target) -> p_get_rrcpt k' name p' = p_get_rrcpt k' name p).
Proof.
  intros V St H Hold. destruct (short_ok _ _ St) as (O & C & _). unfold p_store_rrcpt in H.
  destruct (N.eqb_spec i 0) as [E0|E0].
  - chk H. rewrite C in *. set (row := PRrcpt _ _ _ _) in *.
    assert (Hin : In row (p_rrcpts p ++ [row])) by (apply in_or_app; right; left; reflexivity).
    split; [congruence|]. split.
    + exists (pg_time t). split; [|apply pg_nearest].
      apply (get_rrcpt_found (set_rrcpts (p_rrcpts p ++ [row]) p) row H Hin). exact (vok_text _ _ O).
    + intros k' name Hn. apply get_rrcpt_same; [exact V|exact H|]. intros r Ek Er. cbn [p_rrcpts set_rrcpts]. rewrite in_app_iff. split; [|auto].
      intros [Hr|[<-|[]]]; [exact Hr|]. exfalso. apply Hn. cbn [row pr_network pr_target] in Ek, Er. congruence.
  - chk H. destruct (Hold E0) as (t0 & Ho). apply get_rrcpt_inv in Ho. destruct Ho as (T & r0 & Hr0 & Ek & En & Ei & _).
    set (g := fun r => PRrcpt _ _ _ _) in *.
    assert (Hin : In (g r0) (update pr_id i g (p_rrcpts p))) by (apply in_update'; left; exists r0; auto).
    split; [reflexivity|]. split.
    + exists (pg_time t). split; [|apply pg_nearest]. rewrite Ei in *. rewrite <- Ek, <- En.
      apply (get_rrcpt_found _ (g r0) H Hin). change (pr_target (g r0)) with (pr_target r0). rewrite En. exact T.
    + intros k' name Hn. apply get_rrcpt_same; [exact V|exact H|]. intros r Ek' Er. cbn [p_rrcpts set_rrcpts]. rewrite in_update'.
      assert (Q : forall r1, In r1 (p_rrcpts p) -> pr_id r1 = i -> r1 = r0)
        by (intros r1 Hr1 E1; apply (uniqb_pk pr_id _ r1 r0 (pv_rrcpts p V) Hr1 Hr0); congruence).
      split.
      * intros [(r1 & Hr1 & Ei1 & ->)|[Hr _]]; [|exact Hr]. exfalso. apply Hn. apply (Q r1 Hr1) in Ei1. subst r1.
        cbn [g pr_network pr_target] in Ek', Er. congruence.
      * intros Hr. right. split; [exact Hr|]. intros Ei1. apply Hn. apply (Q r Hr) in Ei1. subst r. congruence.
Qed.

(** ** Subscriptions *)

Lemma in_p_list_subs p u k x : In x (p_list_subs u k p) <-> exists r, In r (p_subs p) /\ ps_user r = u /\ ps_network r = null_id k /\
  x = GSub (ps_id r) (ps_endpoint r) (ps_auth r) (ps_p256dh r) (ps_vapid r).
Proof.
  unfold p_list_subs. rewrite in_map_iff. split.
  - intros (r & E & Hr). apply filter_In in Hr. destruct Hr as [Hr K]. apply andb_prop in K. destruct K as [K1 K2].
    apply N.eqb_eq in K1. apply id_is_eq in K2. exists r. auto.
  - intros (r & Hr & E1 & E2 & ->). exists r. split; [reflexivity|]. apply filter_In. split; [exact Hr|].
    apply andb_true_intro. split; [apply N.eqb_eq; exact E1|apply id_is_eq; exact E2].
Qed.

Theorem store_sub_reads p now fresh u k s p' id : pvalid p -> p_store_sub now fresh u k s p = Some (p', id) ->
  (gs_id s <> 0 -> exists old, In old (p_list_subs u k p) /\ gs_id old = gs_id s /\ gs_endpoint old = gs_endpoint s) ->
  (gs_id s <> 0 -> id = gs_id s) /\
  (forall u' k' x, In x (p_list_subs u' k' p') <->
    (u' = u /\ k' = k /\ x = GSub id (gs_endpoint s) (gs_auth s) (gs_p256dh s) (gs_vapid s)) \/
    (In x (p_list_subs u' k' p) /\ gs_id x <> id)).
Proof.
  intros V H Hold. unfold p_store_sub in H. destruct (N.eqb_spec (gs_id s) 0) as [E0|E0].
  - chk H. set (row := PSub _ _ _ _ _ _ _ _ _) in *. split; [congruence|].
    intros u' k' x. rewrite !in_p_list_subs. cbn [p_subs set_subs]. split.
    + intros (r & Hr & E1 & E2 & ->). apply in_app_or in Hr. destruct Hr as [Hr|[<-|[]]].
      * right. split; [exists r; auto|]. exact (snoc_fresh ps_id _ _ r (pv_subs _ H) Hr).
      * left. split; [symmetry; exact E1|]. split; [apply null_id_inj; symmetry; exact E2|reflexivity].
    + intros [(-> & -> & ->)|[(r & Hr & E1 & E2 & ->) _]].
      * exists row. split; [apply in_or_app; right; left; reflexivity|]. auto.
      * exists r. split; [apply in_or_app; left; exact Hr|]. auto.
  - chk H. split; [reflexivity|]. destruct (Hold E0) as (old & Ho & Ei & Ee). apply in_p_list_subs in Ho.
    destruct Ho as (r0 & Hr0 & Eu & Ek & ->). cbn [gs_id gs_endpoint] in Ei, Ee. set (g := fun r => PSub _ _ _ _ _ _ _ _ _) in *.
    assert (Q : forall r1, In r1 (p_subs p) -> ps_id r1 = gs_id s -> r1 = r0)
      by (intros r1 Hr1 E1; apply (uniqb_pk ps_id _ r1 r0 (pv_subs p V) Hr1 Hr0); congruence).
    assert (G : GSub (ps_id (g r0)) (ps_endpoint (g r0)) (ps_auth (g r0)) (ps_p256dh (g r0)) (ps_vapid (g r0))
                = GSub (gs_id s) (gs_endpoint s) (gs_auth s) (gs_p256dh s) (gs_vapid s))
      by (unfold g; cbn [ps_id ps_endpoint ps_auth ps_p256dh ps_vapid]; rewrite Ei, Ee; reflexivity).
    intros u' k' x. rewrite !in_p_list_subs. cbn [p_subs set_subs]. split.
    + intros (r & Hr & E1 & E2 & ->). apply in_update' in Hr. destruct Hr as [(r1 & Hr1 & Ei1 & ->)|[Hr Ne]].
      * left. apply (Q r1 Hr1) in Ei1. subst r1. rewrite G. cbn [g ps_user ps_network] in E1, E2.
        split; [congruence|]. split; [apply null_id_inj; congruence|reflexivity].
      * right. split; [exists r; auto|exact Ne].
    + intros [(-> & -> & ->)|[(r & Hr & E1 & E2 & ->) Ne]].
      * exists (g r0). split; [apply in_update'; left; exists r0; auto|]. split; [exact Eu|]. split; [exact Ek|]. symmetry. exact G.
      * exists r. split; [apply in_update'; right; auto|]. auto.
Qed.

(** ** Messages *)

Section Messages.
Variable raw_of : message -> bytes.

Lemma clash_target t fresh net name :
  clash (target_key t) (target_key (TargetRow fresh net name)) = true <-> tr_network t = net /\ tr_target t = name.
Proof.
  unfold target_key. cbn [clash ceqb tr_network tr_target]. rewrite andb_true_r, andb_true_iff, N.eqb_eq, beqb_eq. reflexivity.
Qed.

Lemma add_target_some fresh net name p p' : p_add_target fresh net name p = Some p' ->
  pvalid p' /\ p_msgs p' = p_msgs p /\
  (exists t, In t (p_targets p') /\ tr_network t = net /\ tr_target t = name) /\
  (forall t, In t (p_targets p) -> In t (p_targets p')) /\
  (forall t, In t (p_targets p') -> In t (p_targets p) \/ tr_network t = net /\ tr_target t = name).
Proof.
  unfold p_add_target. destruct (existsb _ _) eqn:X; intros H; apply pcheck_some in H; destruct H as (-> & _ & V); (split; [exact V|]).
  - split; [reflexivity|]. split; [|auto]. apply existsb_exists in X. destruct X as (t & Ht & C). apply clash_target in C. exists t. auto.
  - cbn [p_msgs p_targets set_targets]. split; [reflexivity|]. split; [|split].
    + exists (TargetRow fresh net name). split; [apply in_or_app; right; left; reflexivity|auto].
    + intros t Ht. apply in_or_app. auto.
    + intros t Ht. apply in_app_or in Ht. destruct Ht as [Ht|[<-|[]]]; [auto|]. right. auto.
Qed.

Lemma found_target net name p t : In t (p_targets p) -> tr_network t = net -> tr_target t = name -> pvalid p ->
  exists fl, filter (fun r => N.eqb (tr_network r) net && beqb (tr_target r) name) (p_targets p) = t :: fl.
Proof.
  intros Ht E1 E2 V. set (f := fun r => N.eqb (tr_network r) net && beqb (tr_target r) name).
  assert (Hf : forall x, f x = true <-> tr_network x = net /\ tr_target x = name)
    by (intros x; unfold f; rewrite andb_true_iff, N.eqb_eq, beqb_eq; reflexivity).
  pose proof (pv_targets_key p V) as U. revert Ht U. generalize (p_targets p). intros l.
  induction l as [|z l IH]; [intros []|]. intros [->|Ht] U; cbn [filter].
  - rewrite (proj2 (Hf t) (conj E1 E2)). eauto.
  - cbn [uniqb] in U. apply andb_prop in U. destruct U as [U1 U2]. destruct (f z) eqn:Fz; [|exact (IH Ht U2)].
    exfalso. apply Hf in Fz. destruct Fz as [F1 F2]. apply negb_true_iff in U1.
    assert (K : existsb (fun y => clash (target_key z) (target_key y)) l = true); [|congruence].
    apply existsb_exists. exists t. split; [exact Ht|]. unfold target_key. cbn [clash ceqb].
    rewrite F1, F2, E1, E2, N.eqb_refl, beqb_refl. reflexivity.
Qed.

Definition new_row (now : Z) (t : N) (id : N) (m : message) (r : pmsg) : Prop :=
  exists u, message_time now m = Some u /\ r = PMsg id t (raw_of m) (pg_time u) (message_sender m) (message_text m).

Lemma insert_msgs_rows net name now t l : tr_network t = net -> tr_target t = name ->
  forall p p', pvalid p -> In t (p_targets p) -> p_insert_msgs raw_of net name now l p = Some p' ->
  pvalid p' /\ p_targets p' = p_targets p /\
  exists rows, p_msgs p' = p_msgs p ++ rows /\ Forall2 (fun im r => new_row now (tr_id t) (fst im) (snd im) r) l rows.
Proof.
  intros E1 E2. induction l as [|[id m] l IH]; intros p p' V Ht H; cbn [p_insert_msgs] in H.
  - injection H as <-. split; [exact V|]. split; [reflexivity|]. exists []. rewrite app_nil_r. auto.
  - destruct (p_insert_msg _ _ _ _ _ _ _) as [q|] eqn:E; [|discriminate]. unfold p_insert_msg in E.
    destruct (message_time now m) as [u|] eqn:Et; [|discriminate].
    destruct (found_target net name p t Ht E1 E2 V) as [fl F]. rewrite F in E.
    apply pcheck_some in E. destruct E as (-> & _ & W). 
    destruct (IH _ _ W Ht H) as (V' & T' & rows & M & R). split; [exact V'|]. split; [exact T'|].
    exists (PMsg id (tr_id t) (raw_of m) (pg_time u) (message_sender m) (message_text m) :: rows). split.
    + rewrite M. cbn [p_msgs set_msgs]. rewrite <- app_assoc. reflexivity.
    + constructor; [|exact R]. exists u. auto.
Qed.

Lemma Forall2_in_r {A B} (R : A -> B -> Prop) l l' : Forall2 R l l' -> forall y, In y l' -> exists x, In x l /\ R x y.
Proof. induction 1 as [|x y l l' H F IH]; [intros z []|]. intros z [<-|Hz]; [exists x; cbn; auto|]. destruct (IH z Hz) as (w & Hw & K). exists w. cbn. auto. Qed.

Lemma Forall2_in_l {A B} (R : A -> B -> Prop) l l' : Forall2 R l l' -> forall x, In x l -> exists y, In y l' /\ R x y.
Proof. induction 1 as [|x y l l' H F IH]; [intros z []|]. intros z [<-|Hz]; [exists y; cbn; auto|]. destruct (IH z Hz) as (w & Hw & K). exists w. cbn. auto. Qed.

Theorem store_messages_reads p fresh net name now l p' ids : pvalid p ->
  p_store_messages raw_of fresh net name now l p = Some (p', ids) ->
  ids = map fst l /\ NoDup ids /\ (forall r, In r (p_msgs p) -> ~ In (pm_id r) ids) /\
  (forall k e r, p_stored_for p k e r -> p_stored_for p' k e r) /\
  (forall k e r, p_stored_for p' k e r -> p_stored_for p k e r \/
     (k = net /\ e = name /\ exists id m, In (id, m) l /\ p_row_of raw_of now id m r)) /\
  (forall id m, In (id, m) l -> exists r, p_stored_for p' net name r /\ p_row_of raw_of now id m r).
Proof.
  intros V H. unfold p_store_messages in H. destruct l as [|im l].
  { injection H as <- <-. cbn [map]. split; [reflexivity|]. split; [constructor|]. split; [auto|]. split; [auto|]. split; [auto|]. intros ? ? []. }
  destruct (p_add_target fresh net name p) as [q|] eqn:A; [|discriminate].
  destruct (p_insert_msgs raw_of net name now (im :: l) q) as [q'|] eqn:I; [|discriminate]. injection H as <- <-.
  set (L := im :: l) in *. change (fst im :: map fst l) with (map fst L). clearbody L. clear im l.
  destruct (add_target_some _ _ _ _ _ A) as (W & Mq & (t & Ht & E1 & E2) & Old & New).
  destruct (insert_msgs_rows net name now t L E1 E2 q q' W Ht I) as (V' & T' & rows & M & R).
  assert (Ids : map pm_id rows = map fst L).
  { clear -R. induction R as [|x y l l' (u & _ & ->) F IH]; [reflexivity|]. cbn [map pm_id]. f_equal. exact IH. }
  assert (Row : forall im r, new_row now (tr_id t) (fst im) (snd im) r -> p_row_of raw_of now (fst im) (snd im) r /\ pm_target r = tr_id t).
  { intros im r (u & Hu & ->). split; [|reflexivity]. unfold p_row_of. cbn [pm_id pm_raw pm_sender pm_text pm_time].
    repeat (split; [reflexivity|]). exists u. split; [exact Hu|apply pg_nearest]. }
  pose proof (uniqb_nodup _ _ (pv_msgs _ V')) as ND. rewrite M, map_app, Ids, Mq in ND.
  split; [reflexivity|]. split; [|split; [|split; [|split]]].
  - clear -ND. induction (map pm_id (p_msgs p)) as [|x xs IH]; [exact ND|]. cbn [app] in ND. inversion ND; subst. auto.
  - intros r Hr K. apply in_split in K. destruct K as (a & b & K). rewrite K, app_assoc in ND. apply NoDup_remove_2 in ND.
    apply ND. apply in_or_app. left. apply in_or_app. left. apply in_map. exact Hr.
  - intros k e r (Hr & t' & Ht' & Q). split; [rewrite M, Mq; apply in_or_app; auto|]. exists t'. split; [rewrite T'; apply Old; exact Ht'|exact Q].
  - intros k e r (Hr & t' & Ht' & Q1 & Q2 & Q3). rewrite M, Mq in Hr. rewrite T' in Ht'. apply in_app_or in Hr. destruct Hr as [Hr|Hr].
    + left. split; [exact Hr|]. pose proof (pv_msgs_fk p V) as FK. rewrite refsb_iff in FK. specialize (FK r _ Hr eq_refl).
      unfold ptarget_ids in FK. apply in_map_iff in FK. destruct FK as (t0 & Et0 & Ht0).
      assert (t0 = t') by (apply (uniqb_pk tr_id (p_targets q)); [exact (pv_targets q W)|apply Old; exact Ht0|exact Ht'|congruence]).
      subst t0. exists t'. auto.
    + right. destruct (Forall2_in_r _ _ _ R r Hr) as ([id m] & Him & Rr). apply Row in Rr. destruct Rr as [Rr Rt].
      assert (t' = t) by (apply (uniqb_pk tr_id (p_targets q)); [exact (pv_targets q W)|exact Ht'|exact Ht|congruence]).
      subst t'. split; [congruence|]. split; [congruence|]. exists id, m. auto.
  - intros id m Him. destruct (Forall2_in_l _ _ _ R _ Him) as (r & Hr & Rr). apply Row in Rr. destruct Rr as [Rr Rt].
    exists r. split; [|exact Rr]. split; [rewrite M; apply in_or_app; auto|]. exists t. rewrite T'. auto.
Qed.

(** ** Storing works *)

Lemma valid_target fresh net name p : pvalid p -> In net (pnet_ids p) -> ~ In fresh (ptarget_ids p) ->
  existsb (fun t => clash (target_key t) (target_key (TargetRow fresh net name))) (p_targets p) = false ->
  pvalid (set_targets (p_targets p ++ [TargetRow fresh net name]) p).
Proof.
  intros V Hn Hf X. destruct V. constructor; cbn [p_users p_nets p_chans p_drcpts p_rrcpts p_subs p_targets p_msgs set_targets puser_ids pnet_ids ptarget_ids]; try assumption.
  - apply uniqb_snoc; [assumption|]. intros y Hy. rewrite clash_refl_pk. apply N.eqb_neq. cbn [tr_id]. intros E. apply Hf. rewrite <- E.
    apply in_map. exact Hy.
  - apply uniqb_snoc; [assumption|]. intros y Hy. destruct (clash (target_key y) _) eqn:C; [|reflexivity].
    exfalso. assert (K : existsb (fun t => clash (target_key t) (target_key (TargetRow fresh net name))) (p_targets p) = true); [|congruence].
    apply existsb_exists. exists y. auto.
  - apply refsb_snoc; [assumption|]. intros k E. injection E as <-. exact Hn.
  - unfold ptarget_ids in *. rewrite refsb_iff in *. intros x k Hx E. cbn [p_targets set_targets]. rewrite map_app. apply in_or_app. left. eauto.
Qed.

Lemma valid_msg r p : pvalid p -> In (pm_target r) (ptarget_ids p) -> ~ In (pm_id r) (map pm_id (p_msgs p)) ->
  pvalid (set_msgs (p_msgs p ++ [r]) p).
Proof.
  intros V Ht Hf. destruct V. constructor; cbn [p_users p_nets p_chans p_drcpts p_rrcpts p_subs p_targets p_msgs set_msgs puser_ids pnet_ids ptarget_ids]; try assumption.
  - apply uniqb_snoc; [assumption|]. intros y Hy. rewrite clash_refl_pk. apply N.eqb_neq. intros E. apply Hf. rewrite <- E.
    apply in_map. exact Hy.
  - apply refsb_snoc; [assumption|]. intros k E. injection E as <-. exact Ht.
Qed.

Lemma insert_msgs_works net name now l : text name ->
  (forall id m, In (id, m) l -> text (raw_of m) /\ text (message_sender m) /\ text (string_of (message_text m)) /\ message_time now m <> None) ->
  NoDup (map fst l) -> forall p t, pvalid p -> In t (p_targets p) -> tr_network t = net -> tr_target t = name ->
  (forall r, In r (p_msgs p) -> ~ In (pm_id r) (map fst l)) ->
  exists p', p_insert_msgs raw_of net name now l p = Some p'.
Proof.
  intros Tn. induction l as [|[id m] l IH]; intros Hl ND p t V Ht E1 E2 Hf; cbn [p_insert_msgs]; [eauto|].
  destruct (Hl id m (or_introl eq_refl)) as (T1 & T2 & T3 & T4). unfold p_insert_msg.
  destruct (message_time now m) as [u|]; [|congruence]. destruct (found_target net name p t Ht E1 E2 V) as [fl ->].
  rewrite (text_text_ok _ T1), (text_text_ok _ T2), (text_text_ok _ T3), (text_text_ok _ Tn). cbn [andb map fst] in *.
  apply NoDup_cons_iff in ND. destruct ND as [N1 N2].
  set (row := PMsg id (tr_id t) (raw_of m) (pg_time u) (message_sender m) (message_text m)).
  assert (W : pvalid (set_msgs (p_msgs p ++ [row]) p)).
  { apply valid_msg; [exact V|exact (in_map tr_id _ _ Ht)|]. intros K. apply in_map_iff in K. destruct K as (r & Er & Hr).
    apply (Hf r Hr). left. symmetry. exact Er. }
  rewrite (pcheck_ok _ W). apply (IH (fun i x K => Hl i x (or_intror K)) N2 _ t W Ht E1 E2).
  intros r Hr. cbn [p_msgs set_msgs] in Hr. apply in_app_or in Hr. destruct Hr as [Hr|[<-|[]]]; [|exact N1].
  intros K. apply (Hf r Hr). right. exact K.
Qed.

Theorem store_messages_works p fresh net name now l : pvalid p -> In net (pnet_ids p) -> ~ In fresh (ptarget_ids p) ->
  text name ->
  (forall id m, In (id, m) l -> text (raw_of m) /\ text (message_sender m) /\ text (string_of (message_text m)) /\ message_time now m <> None) ->
  NoDup (map fst l) -> (forall r, In r (p_msgs p) -> ~ In (pm_id r) (map fst l)) ->
  exists p', p_store_messages raw_of fresh net name now l p = Some (p', map fst l).
Proof.
  intros V Hn Hf Tn Hl ND Hids. unfold p_store_messages. destruct l as [|im l]; [exists p; reflexivity|].
  assert (A : exists q, p_add_target fresh net name p = Some q).
  { unfold p_add_target. rewrite (text_text_ok _ Tn). destruct (existsb _ _) eqn:X; [exists p; apply pcheck_ok; exact V|].
    eexists. apply pcheck_ok. apply valid_target; assumption. }
  destruct A as [q A]. rewrite A. destruct (add_target_some _ _ _ _ _ A) as (W & Mq & (t & Ht & E1 & E2) & _).
  destruct (insert_msgs_works net name now (im :: l) Tn Hl ND q t W Ht E1 E2) as [q' I]; [intros r Hr; rewrite Mq in Hr; exact (Hids r Hr)|].
  rewrite I. exists q'. reflexivity.
Qed.
End Messages.

(** ** Queries *)

Lemma of_target_stored p net name r : pvalid p -> In r (p_msgs p) ->
  (p_of_target p net name r = true <-> p_stored_for p net name r).
Proof.
  intros V Hr. unfold p_of_target. destruct (filter _ _) as [|t fl] eqn:F.
  - split; [discriminate|]. intros (_ & t & Ht & _ & E1 & E2). destruct (found_target net name p t Ht E1 E2 V) as [fl K]. rewrite K in F. discriminate F.
  - assert (K : In t (filter (fun t => N.eqb (tr_network t) net && beqb (tr_target t) name) (p_targets p))) by (rewrite F; left; reflexivity).
    apply filter_In in K. destruct K as [Ht K]. apply andb_prop in K. destruct K as [K1 K2]. apply N.eqb_eq in K1. apply beqb_eq in K2.
    rewrite N.eqb_eq. split.
    + intros E. split; [exact Hr|]. exists t. auto.
    + intros (_ & t' & Ht' & Ei & E1 & E2). destruct (found_target net name p t' Ht' E1 E2 V) as [fl' K']. rewrite K' in F. injection F as -> _. congruence.
Qed.

Lemma z_or a b c : (Z.eqb a 0 || Z.ltb b c) = true <-> a = 0%Z \/ (b < c)%Z.
Proof. rewrite orb_true_iff, Z.eqb_eq, Z.ltb_lt. reflexivity. Qed.

Lemma selected_bounds search o r : (o_after o mod 1000 = 0)%Z -> (o_before o mod 1000 = 0)%Z ->
  (p_selected search o r = true <-> p_in_bounds search o r).
Proof.
  intros Ha Hb. unfold p_selected, p_in_bounds. rewrite (pg_time_whole _ Ha), (pg_time_whole _ Hb), !andb_true_iff, !z_or, !orb_true_iff, N.eqb_eq, N.ltb_lt, !beqb_eq.
  destruct (pm_text r); intuition congruence.
Qed.

Section Query.
Variables (up down : list pmsg -> list pmsg) (search : bytes -> option bytes -> bool).
Hypothesis asc : sorts p_not_later up.
Hypothesis desc : sorts (fun a b => p_not_later b a) down.

Lemma msgs_nodup p : pvalid p -> NoDup (p_msgs p).
Proof. intros V. eapply NoDup_map_inv. apply uniqb_nodup. exact (pv_msgs p V). Qed.

Theorem list_rows_answer p net name o out : pvalid p -> (o_after o mod 1000 = 0)%Z -> (o_before o mod 1000 = 0)%Z ->
  p_list_rows up down search net name o p = Some out -> p_answer search p net name o out.
Proof.
  intros V Ha Hb H. unfold p_list_rows in H. destruct (_ && _); [|discriminate]. injection H as <-. set (rows := filter _ (p_msgs p)).
  destruct (limited p_not_later (fun a b => p_not_later b a) up down (o_last o) (o_limit o) rows (fun x y H => H) asc desc) as (rest & P & S & L & K).
  exists rest. split; [|split; [|split; [|split]]].
  - eapply Permutation_NoDup; [symmetry; exact P|]. apply NoDup_filter. apply msgs_nodup. exact V.
  - intros r. split.
    + intros Hr. apply (Permutation_in _ P) in Hr. apply filter_In in Hr. destruct Hr as [Hr Q]. apply andb_prop in Q. destruct Q as [Q1 Q2].
      split; [apply (of_target_stored p net name r V Hr); exact Q1|]. apply (selected_bounds search o r Ha Hb). exact Q2.
    + intros (Q1 & Q2). apply (Permutation_in _ (Permutation_sym P)). pose proof Q1 as [Hr _]. apply filter_In. split; [exact Hr|].
      apply (of_target_stored p net name r V Hr) in Q1. apply (selected_bounds search o r Ha Hb) in Q2. rewrite Q1, Q2. reflexivity.
  - exact S.
  - rewrite L, (Permutation_length P). reflexivity.
  - exact K.
Qed.

(** The first of a list sorted downwards is the latest. *)
Lemma down_first l m fl : down l = m :: fl -> In m l /\ forall x, In x l -> (pm_time x <= pm_time m)%Z.
Proof.
  intros E. destruct (desc l) as [P S]. rewrite E in P, S. split; [apply (Permutation_in _ P); left; reflexivity|].
  intros x Hx. apply (Permutation_in _ (Permutation_sym P)) in Hx. destruct Hx as [<-|Hx]; [apply Z.le_refl|].
  inversion S as [|? ? _ F]; subst. rewrite Forall_forall in F. exact (F x Hx).
Qed.

Lemma down_empty l : down l = [] -> l = [].
Proof. intros E. destruct (desc l) as [P _]. rewrite E in P. apply Permutation_nil in P. exact P. Qed.

Theorem last_id_latest p net name i : pvalid p -> p_last_id down net name p = Some i ->
  ((forall r, ~ p_stored_for p net name r) /\ i = 0) \/
  exists r, p_stored_for p net name r /\ pm_id r = i /\ forall r', p_stored_for p net name r' -> (pm_time r' <= pm_time r)%Z.
Proof.
  intros V H. unfold p_last_id in H. destruct (text_ok name); [|discriminate]. destruct (down _) as [|m fl] eqn:E; injection H as <-.
  - left. split; [|reflexivity]. intros r Hr. pose proof Hr as [Hin _]. apply (of_target_stored p net name r V Hin) in Hr.
    apply down_empty in E. assert (K : In r (filter (p_of_target p net name) (p_msgs p))) by (apply filter_In; auto). rewrite E in K. destruct K.
  - right. apply down_first in E. destruct E as [Hm K]. apply filter_In in Hm. destruct Hm as [Hm Q].
    exists m. split; [apply (of_target_stored p net name m V Hm); exact Q|]. split; [reflexivity|].
    intros r Hr. apply K. pose proof Hr as [Hin _]. apply filter_In. split; [exact Hin|]. apply (of_target_stored p net name r V Hin). exact Hr.
Qed.

(** ** The latest of each target *)

Lemma counts_iff events m : (events || match pm_text m with None => false | Some _ => true end) = true <-> p_counts events m.
Proof. unfold p_counts. rewrite orb_true_iff. destruct (pm_text m); intuition congruence. Qed.

Lemma latest_iff p events t x : pvalid p -> In t (p_targets p) ->
  (In x (p_latest down p events t) <-> fst x = tr_target t /\ p_is_latest p (tr_network t) (tr_target t) events (snd x)).
Proof.
  intros V Ht. unfold p_latest.
  assert (St : forall m, In m (p_msgs p) -> (pm_target m = tr_id t <-> p_stored_for p (tr_network t) (tr_target t) m)).
  { intros m Hm. split.
    - intros E. split; [exact Hm|]. exists t. auto.
    - intros (_ & t' & Ht' & Ei & E1 & E2). destruct (found_target _ _ p t Ht eq_refl eq_refl V) as [f1 F1].
      destruct (found_target _ _ p t' Ht' E1 E2 V) as [f2 F2]. rewrite F1 in F2. injection F2 as -> _. symmetry. exact Ei. }
  set (f := fun m => N.eqb (pm_target m) (tr_id t) && (events || match pm_text m with None => false | Some _ => true end)).
  assert (Ff : forall m, In m (filter f (p_msgs p)) <-> p_stored_for p (tr_network t) (tr_target t) m /\ p_counts events m).
  { intros m. rewrite filter_In. unfold f. rewrite andb_true_iff, counts_iff, N.eqb_eq. split.
    - intros (Hm & E & C). split; [apply St; assumption|exact C].
    - intros (S & C). pose proof S as [Hm _]. split; [exact Hm|]. split; [apply St; assumption|exact C]. }
  destruct (down (filter f (p_msgs p))) as [|m fl] eqn:E.
  - split; [intros []|]. intros (_ & (m & S & C & _) & _). apply down_empty in E. assert (K : In m (filter f (p_msgs p))) by (apply Ff; auto).
    rewrite E in K. destruct K.
  - apply down_first in E. destruct E as [Hm K]. apply Ff in Hm. destruct Hm as [Sm Cm]. cbn [In]. split.
    + intros [<-|[]]. cbn [fst snd]. split; [reflexivity|]. split; [exists m; auto|]. intros m' S C. apply K. apply Ff. auto.
    + intros (E1 & (m' & S' & C' & E2) & M). left. destruct x as [n z]. cbn [fst snd] in *. subst n z. f_equal.
      apply Z.le_antisymm; [apply M; assumption|apply K; apply Ff; auto].
Qed.

Lemma target_names_nodup net l : uniqb target_key l = true -> (forall t, In t l -> tr_network t = net) -> NoDup (map tr_target l).
Proof.
  induction l as [|z l IH]; intros U H; [constructor|]. cbn [uniqb map] in *. apply andb_prop in U. destruct U as [U1 U2].
  constructor; [|apply IH; [exact U2|intros t Ht; apply H; right; exact Ht]]. intros K. apply in_map_iff in K. destruct K as (t & Et & Ht).
  apply negb_true_iff in U1. assert (K : existsb (fun y => clash (target_key z) (target_key y)) l = true); [|congruence].
  apply existsb_exists. exists t. split; [exact Ht|]. unfold target_key. cbn [clash ceqb].
  rewrite (H z (or_introl eq_refl)), (H t (or_intror Ht)), Et, N.eqb_refl, beqb_refl. reflexivity.
Qed.

Lemma latest_nodup p events l : NoDup (map tr_target l) -> NoDup (flat_map (p_latest down p events) l).
Proof.
  induction l as [|t l IH]; intros H; [constructor|]. cbn [flat_map map] in *. apply NoDup_cons_iff in H. destruct H as [H1 H2].
  assert (Nm : forall x ts, In x (flat_map (p_latest down p events) ts) -> In (fst x) (map tr_target ts)).
  { intros x ts Hx. apply in_flat_map in Hx. destruct Hx as (t' & Ht' & Hx). unfold p_latest in Hx.
    destruct (down _) as [|m fl]; [destruct Hx|]. destruct Hx as [<-|[]]. exact (in_map tr_target _ _ Ht'). }
  unfold p_latest at 1. destruct (down _) as [|m fl]; [apply IH; exact H2|]. cbn [app]. constructor; [|apply IH; exact H2].
  intros K. apply Nm in K. exact (H1 K).
Qed.

Variables (lup ldown : list (bytes * Z) -> list (bytes * Z)).
Hypothesis lasc : sorts l_not_later lup.
Hypothesis ldesc : sorts (fun a b => l_not_later b a) ldown.

Theorem list_latest_answer p net o : pvalid p -> (o_after o mod 1000 = 0)%Z -> (o_before o mod 1000 = 0)%Z ->
  best l_not_later (p_target_listed p net o) (o_limit o) (o_last o) (p_list_latest down lup ldown net o p).
Proof.
  intros V Ha Hb. unfold p_list_latest.
  set (ts := filter (fun t => N.eqb (tr_network t) net) (p_targets p)).
  set (rows := filter _ (flat_map _ _)).
  assert (Hts : forall t, In t ts <-> In t (p_targets p) /\ tr_network t = net) by (intros t; unfold ts; rewrite filter_In, N.eqb_eq; reflexivity).
  assert (R : forall x, In x rows <-> p_target_listed p net o x).
  { intros x. unfold rows, p_target_listed. rewrite filter_In, andb_true_iff, (pg_time_whole _ Ha), (pg_time_whole _ Hb), !z_or, in_flat_map. split.
    - intros ((t & Ht & Hx) & B1 & B2). apply Hts in Ht. destruct Ht as [Ht En]. apply (latest_iff p _ t x V Ht) in Hx. destruct Hx as [E L].
      rewrite En, <- E in L. auto.
    - intros (L & B1 & B2). split; [|auto]. pose proof L as ((m & (_ & t & Ht & _ & En & Et) & _) & _).
      exists t. split; [apply Hts; auto|]. apply (latest_iff p _ t x V Ht). rewrite En, Et. auto. }
  destruct (limited l_not_later (fun a b => l_not_later b a) lup ldown (o_last o) (o_limit o) rows (fun x y H => H) lasc ldesc) as (rest & P & S & L & K).
  exists rest. split; [|split; [|split; [|split]]].
  - eapply Permutation_NoDup; [symmetry; exact P|]. apply NoDup_filter. apply latest_nodup. apply (target_names_nodup net).
    + apply uniqb_filter. exact (pv_targets_key p V).
    + intros t Ht. apply Hts in Ht. apply Ht.
  - intros x. rewrite <- R. split; intros Hx; [exact (Permutation_in _ P Hx)|exact (Permutation_in _ (Permutation_sym P) Hx)].
  - exact S.
  - rewrite L, (Permutation_length P). reflexivity.
  - exact K.
Qed.
End Query.

(** ** Deletion of channels and subscriptions *)

Theorem delete_channel_reads p id : pvalid p -> exists p', p_delete_channel id p = Some p' /\
  forall k x, In x (p_list_channels k p') <-> In x (p_list_channels k p) /\ gc_id x <> id.
Proof.
  intros V. unfold p_delete_channel. eexists. split.
  - apply pcheck_ok. destruct V. constructor; cbn [p_users p_nets p_chans p_drcpts p_rrcpts p_subs p_targets p_msgs set_chans];
      try assumption; try (apply uniqb_filter; assumption). apply refsb_filter. assumption.
  - intros k x. rewrite !in_p_list_channels. cbn [p_chans set_chans]. split.
    + intros (r & Hr & Ek & ->). apply filter_In in Hr. destruct Hr as [Hr K]. apply negb_true_iff, N.eqb_neq in K.
      split; [exists r; auto|exact K].
    + intros [(r & Hr & Ek & ->) K]. exists r. split; [|auto]. apply filter_In. split; [exact Hr|]. apply negb_true_iff, N.eqb_neq. exact K.
Qed.

Theorem delete_sub_reads p id : pvalid p -> exists p', p_delete_sub id p = Some p' /\
  forall u k x, In x (p_list_subs u k p') <-> In x (p_list_subs u k p) /\ gs_id x <> id.
Proof.
  intros V. unfold p_delete_sub. eexists. split.
  - apply pcheck_ok. destruct V. constructor; cbn [p_users p_nets p_chans p_drcpts p_rrcpts p_subs p_targets p_msgs set_subs];
      try assumption; try (apply uniqb_filter; assumption); apply refsb_filter; assumption.
  - intros u k x. rewrite !in_p_list_subs. cbn [p_subs set_subs]. split.
    + intros (r & Hr & Eu & Ek & ->). apply filter_In in Hr. destruct Hr as [Hr K]. apply negb_true_iff, N.eqb_neq in K.
      split; [exists r; auto|exact K].
    + intros [(r & Hr & Eu & Ek & ->) K]. exists r. split; [|auto]. apply filter_In. split; [exact Hr|]. apply negb_true_iff, N.eqb_neq. exact K.
Qed.

(** ** An order by a number, for examples *)

Fixpoint kins {A} (key : A -> Z) (x : A) (l : list A) : list A :=
  match l with [] => [x] | y :: l' => if Z.leb (key x) (key y) then x :: l else y :: kins key x l' end.
Definition ksort {A} (key : A -> Z) (l : list A) : list A := fold_right (kins key) [] l.

Lemma kins_perm {A} (key : A -> Z) x l : Permutation (kins key x l) (x :: l).
Proof.
  induction l as [|y l IH]; cbn [kins]; [reflexivity|]. destruct (Z.leb _ _); [reflexivity|].
  eapply Permutation_trans; [apply perm_skip; exact IH|apply perm_swap].
Qed.

Lemma ksort_sorts {A} (key : A -> Z) : sorts (fun a b => (key a <= key b)%Z) (ksort key).
Proof.
  intros l. induction l as [|x l [P S]]; [split; constructor|]. cbn [ksort fold_right]. fold (ksort key l). split.
  - eapply Permutation_trans; [apply kins_perm|apply perm_skip; exact P].
  - clear P. revert S. generalize (ksort key l). intros m S. induction S as [|y m S IH F]; cbn [kins]; [constructor; constructor|].
    destruct (Z.leb_spec (key x) (key y)) as [L|L].
    + constructor; [constructor; assumption|]. constructor; [exact L|]. eapply Forall_impl; [|exact F]. cbn beta. intros z Hz. lia.
    + constructor; [exact IH|]. apply Forall_forall. intros z Hz. apply (Permutation_in _ (kins_perm key x m)) in Hz.
      rewrite Forall_forall in F. destruct Hz as [<-|Hz]; [lia|exact (F z Hz)].
Qed.
