From Verif.Base Require Import Bytes.
From Verif.Model Require Import MsgID MemStore.
From Verif.Spec Require Import MemStore.
From Verif.Proof Require Import MsgID.

Lemma updnth_length {A} n (x : A) l : length (updnth n x l) = length l.
Proof. revert n; induction l as [|y l IH]; intros [|n]; simpl; try reflexivity. rewrite IH. reflexivity. Qed.

Lemma nth_updnth {A} n (x : A) l k d :
  n < length l -> nth k (updnth n x l) d = if Nat.eqb k n then x else nth k l d.
Proof.
  revert n k; induction l as [|y l IH]; intros n k Hn; simpl in *; [lia|].
  destruct n as [|n], k as [|k]; simpl; try reflexivity. apply IH. lia.
Qed.

Section R.
  Context {A : Type}.
  Variable cap : nat.
  Hypothesis Hcap : 0 < cap.

  (** The ring holds the last [cap] messages of [l]; message number k (from 0)
      has sequence number k+1. *)
  Definition represents (r : ring A) (l : list A) : Prop :=
    length (r_buf r) = cap /\ r_cur r = S (length l) /\
    forall k m, length l < k + 1 + cap -> nth_error l k = Some m -> nth ((k + 1) mod cap) (r_buf r) None = Some m.

  Lemma new_represents : represents (ring_new cap) [].
  Proof.
    split; [apply repeat_length|]. split; [reflexivity|]. intros [|k] m _ H; discriminate.
  Qed.

  Lemma mod_distinct a b : a < b -> b < a + cap -> a mod cap <> b mod cap.
  Proof.
    intros H1 H2 E. pose proof (Nat.div_mod a cap ltac:(lia)). pose proof (Nat.div_mod b cap ltac:(lia)).
    rewrite E in H. assert (b - a = cap * (b / cap - a / cap)) by (rewrite Nat.mul_sub_distr_l; lia).
    destruct (b / cap - a / cap) as [|q]; [lia|]. nia.
  Qed.

  Lemma append_represents r l m :
    represents r l -> represents (fst (ring_append r m)) (l ++ [m]) /\ snd (ring_append r m) = S (length l).
  Proof.
    intros (H1 & H2 & H3). split; [|exact H2]. unfold ring_append, represents. cbn [fst r_buf r_cur].
    split; [rewrite updnth_length; exact H1|].
    split; [rewrite app_length, H2; simpl; lia|].
    intros k x Hk Hx. rewrite app_length in Hk. simpl in Hk.
    rewrite nth_updnth by (rewrite H1; apply Nat.mod_upper_bound; lia). rewrite H1, H2.
    destruct (Nat.eq_dec k (length l)) as [->|Hne].
    - rewrite nth_error_app2, Nat.sub_diag in Hx by lia. injection Hx as ->.
      replace (length l + 1) with (S (length l)) by lia. rewrite Nat.eqb_refl. reflexivity.
    - assert (k < length l).
      { assert (nth_error (l ++ [m]) k <> None) by congruence. apply nth_error_Some in H.
        rewrite app_length in H. simpl in H. lia. }
      rewrite nth_error_app1 in Hx by lia.
      destruct (Nat.eqb_spec ((k + 1) mod cap) (S (length l) mod cap)) as [E|_].
      + exfalso. eapply mod_distinct; [| |exact E]; lia.
      + apply H3; [lia|exact Hx].
  Qed.

  Lemma nth_error_last_of (l : list A) n i :
    n <= length l -> nth_error (last_of n l) i = nth_error l (length l - n + i).
  Proof.
    intros Hn. unfold last_of. generalize (length l - n) as k. intros k. revert l Hn.
    induction k as [|k IH]; intros l Hn; [reflexivity|]. destruct l as [|x l].
    - simpl. destruct i; reflexivity.
    - simpl skipn. simpl plus. change (nth_error (x :: l) (S (k + i))) with (nth_error l (k + i)).
      clear Hn IH. revert l. induction k as [|k IH]; intros l; [reflexivity|].
      destruct l as [|y l]; [destruct i; reflexivity|]. simpl. apply IH.
  Qed.

  Lemma last_of_all n (l : list A) : length l <= n -> last_of n l = l.
  Proof. intros H. unfold last_of. replace (length l - n) with 0 by lia. reflexivity. Qed.

  Lemma last_of_length n (l : list A) : length (last_of n l) = min n (length l).
  Proof. unfold last_of. rewrite skipn_length. lia. Qed.

  Lemma map_seq_nth {B} (f : nat -> B) n l :
    length l = n -> (forall i x, nth_error l i = Some x -> f i = x) -> map f (seq 0 n) = l.
  Proof.
    intros <- H. apply nth_ext with (d := f 0) (d' := f 0).
    - rewrite map_length, seq_length. reflexivity.
    - intros i Hi. rewrite map_length, seq_length in Hi.
      rewrite map_nth, seq_nth by exact Hi. simpl. apply H. apply nth_error_nth'. exact Hi.
  Qed.

  (** Loading after the message with sequence number [after], where [after] = 0
      means from the beginning. *)
  Lemma load_represents r l after limit :
    represents r l -> after <= length l ->
    ring_load r after limit = Some (map Some (last_of (min limit cap) (skipn after l))).
  Proof.
    intros (H1 & H2 & H3) Ha. unfold ring_load. rewrite H1, H2.
    destruct (Nat.ltb_spec (S (length l)) after); [lia|].
    destruct (Nat.eqb_spec after (S (length l))); [lia|].
    set (d0 := S (length l) - after - 1). assert (Hd0 : d0 = length (skipn after l)) by (rewrite skipn_length; lia).
    set (d1 := if Nat.ltb cap d0 then cap else d0).
    set (d := if Nat.ltb limit d1 then limit else d1).
    assert (Hd : d = min (min limit cap) (length (skipn after l))).
    { subst d d1. rewrite <- Hd0. destruct (Nat.ltb_spec cap d0); destruct (Nat.ltb_spec limit cap);
        try destruct (Nat.ltb_spec limit d0); lia. }
    f_equal. clearbody d. clear d1. apply map_seq_nth.
    - rewrite map_length, last_of_length. symmetry. exact Hd.
    - intros i x Hx. rewrite nth_error_map in Hx.
      destruct (nth_error (last_of (min limit cap) (skipn after l)) i) as [m|] eqn:E; [|discriminate].
      injection Hx as <-.
      assert (Hi : i < d).
      { rewrite Hd. rewrite <- last_of_length. apply nth_error_Some. congruence. }
      assert (Hlen : d <= length l) by (rewrite Hd, skipn_length; lia).
      replace (S (length l) - d + i) with (length l - d + i + 1) by lia.
      apply H3; [lia|].
      unfold last_of in E. rewrite skipn_length in E.
      set (a := length (skipn after l) - min limit cap).
      assert (Ea : skipn (length l - after - min limit cap) (skipn after l) = skipn (length l - d) l).
      { rewrite skipn_skipn. f_equal. rewrite Hd, skipn_length. lia. }
      rewrite Ea in E. clear a Ea. revert E. generalize (length l - d) as q. clear. intros q.
      revert l; induction q as [|q IH]; intros l E; [exact E|].
      destruct l as [|y l]; [destruct i; discriminate|]. simpl. apply IH. exact E.
  Qed.

  (** ** The store *)

  Lemma key_eqb_eq a b : key_eqb a b = true <-> a = b.
  Proof.
    unfold key_eqb. rewrite andb_true_iff, Z.eqb_eq, beqb_eq. destruct a, b; simpl.
    split; [intros [-> ->]; reflexivity|intros H; injection H; auto].
  Qed.

  Lemma key_eqb_refl a : key_eqb a a = true.
  Proof. apply key_eqb_eq. reflexivity. Qed.

  Lemma st_get_put (st : mem_store A) k r k' :
    st_get (st_put st k r) k' = if key_eqb k' k then Some r else st_get st k'.
  Proof.
    induction st as [|[k0 r0] st IH]; simpl.
    - destruct (key_eqb k' k); reflexivity.
    - destruct (key_eqb k k0) eqn:E; simpl.
      + apply key_eqb_eq in E. subst k0. destruct (key_eqb k' k); reflexivity.
      + destruct (key_eqb k' k0) eqn:E0.
        * destruct (key_eqb k' k) eqn:E1; [|reflexivity].
          apply key_eqb_eq in E0, E1. subst. rewrite key_eqb_refl in E. discriminate.
        * exact IH.
  Qed.

  Definition st_represents (st : mem_store A) (h : list (event A)) : Prop :=
    forall net entity,
      match st_get st (net, entity) with
      | None => target_log h net entity = []
      | Some r => represents r (target_log h net entity) /\ target_log h net entity <> []
      end.

  Lemma target_log_app (h : list (event A)) e net entity :
    target_log (h ++ [e]) net entity =
    target_log h net entity ++
      (if e_loggable e && Z.eqb (e_net e) net && beqb (e_entity e) entity then [e_msg e] else []).
  Proof.
    unfold target_log. rewrite filter_app, map_app. f_equal. simpl.
    destruct (e_loggable e && Z.eqb (e_net e) net && beqb (e_entity e) entity); reflexivity.
  Qed.

  Lemma mem_run_app (h : list (event A)) e :
    mem_run cap (h ++ [e]) =
    fst (mem_append cap (mem_run cap h) (e_net e) (e_entity e) (e_loggable e) (e_msg e)).
  Proof. unfold mem_run. rewrite fold_left_app. reflexivity. Qed.

  Lemma mem_append_represents st h e :
    st_represents st h ->
    st_represents (fst (mem_append cap st (e_net e) (e_entity e) (e_loggable e) (e_msg e))) (h ++ [e]) /\
    (e_loggable e = true ->
     snd (mem_append cap st (e_net e) (e_entity e) (e_loggable e) (e_msg e)) =
     format_msgid (e_net e) (e_entity e)
       (BodyMemory (N.of_nat (S (length (target_log h (e_net e) (e_entity e))))))).
  Proof.
    intros Hst. unfold mem_append. destruct (e_loggable e) eqn:El.
    - set (r := match st_get st (e_net e, e_entity e) with Some r => r | None => ring_new cap end).
      assert (Hr : represents r (target_log h (e_net e) (e_entity e))).
      { subst r. specialize (Hst (e_net e) (e_entity e)).
        destruct (st_get st (e_net e, e_entity e)); [apply Hst|]. rewrite Hst. apply new_represents. }
      pose proof (append_represents r _ (e_msg e) Hr) as [Ha Hs].
      destruct (ring_append r (e_msg e)) as [r' seq] eqn:Er. cbn [fst snd] in *. split.
      + intros net entity. rewrite st_get_put, target_log_app, El. cbn [andb].
        destruct (key_eqb (net, entity) (e_net e, e_entity e)) eqn:Ek.
        * apply key_eqb_eq in Ek. injection Ek as -> ->. rewrite Z.eqb_refl, beqb_refl.
          split; [exact Ha|]. destruct (target_log h (e_net e) (e_entity e)); discriminate.
        * replace (Z.eqb (e_net e) net && beqb (e_entity e) entity) with false.
          -- rewrite app_nil_r. apply Hst.
          -- symmetry. rewrite <- Ek. unfold key_eqb. simpl. rewrite Z.eqb_sym, beqb_sym. reflexivity.
      + intros _. rewrite Hs. reflexivity.
    - split; [|discriminate]. cbn [fst]. intros net entity. rewrite target_log_app, El. cbn [andb].
      rewrite app_nil_r. apply Hst.
  Qed.

  Lemma mem_run_represents h : st_represents (mem_run cap h) h.
  Proof.
    induction h as [|e h IH] using rev_ind.
    - intros net entity. reflexivity.
    - rewrite mem_run_app. apply mem_append_represents. exact IH.
  Qed.

  Lemma target_log_app2 (h1 h2 : list (event A)) net entity :
    target_log (h1 ++ h2) net entity = target_log h1 net entity ++ target_log h2 net entity.
  Proof. unfold target_log. rewrite filter_app, map_app. reflexivity. Qed.

  Lemma load_after_seq valid (h : list (event A)) net entity limit after :
    i64 net -> (N.of_nat (length entity) < two64)%N -> valid entity = true ->
    (N.of_nat after < two64)%N -> after <= length (target_log h net entity) ->
    mem_load_latest valid (mem_run cap h) (format_msgid net entity (BodyMemory (N.of_nat after))) net entity false limit
    = Some (map Some (last_of (min limit cap) (skipn after (target_log h net entity)))).
  Proof.
    intros H1 H2 H3 H4 H5. unfold mem_load_latest.
    change (Some TyMemory) with (Some (body_type (BodyMemory (N.of_nat after)))).
    rewrite (parse_format valid net entity (BodyMemory (N.of_nat after)));
      [|split; [exact H1|split; [exact H2|exact H4]]|exact H3].
    pose proof (mem_run_represents h net entity) as Hr.
    destruct (st_get (mem_run cap h) (net, entity)) as [r|].
    - rewrite Nat2N.id. apply load_represents; [apply Hr|exact H5].
    - rewrite Hr in H5 |- *. simpl in H5. replace after with 0 by lia. reflexivity.
  Qed.
End R.

Lemma target_log_length {A} (h : list (event A)) net entity : length (target_log h net entity) <= length h.
Proof.
  unfold target_log. rewrite map_length. induction h as [|x h IH]; simpl; [lia|].
  destruct (_ && _); simpl; lia.
Qed.

Lemma load_after_message A (cap : nat) valid (h1 h2 : list (event A)) e limit id :
    0 < cap -> e_loggable e = true ->
    i64 (e_net e) -> (N.of_nat (length (e_entity e)) < two64)%N -> valid (e_entity e) = true ->
    (N.of_nat (S (length h1)) < two64)%N ->
    snd (mem_append cap (mem_run cap h1) (e_net e) (e_entity e) (e_loggable e) (e_msg e)) = id ->
    mem_load_latest valid (mem_run cap (h1 ++ e :: h2)) id (e_net e) (e_entity e) false limit =
    Some (map Some (last_of (min limit cap) (target_log h2 (e_net e) (e_entity e)))).
Proof.
  intros Hc Hl H1 H2 H3 H4 <-.
  destruct (mem_append_represents cap Hc _ _ e (mem_run_represents cap Hc h1)) as [_ E].
  rewrite (E Hl).
  pose proof (target_log_length h1 (e_net e) (e_entity e)) as Hlen.
  assert (Hlog : target_log (h1 ++ e :: h2) (e_net e) (e_entity e) =
    target_log h1 (e_net e) (e_entity e) ++ e_msg e :: target_log h2 (e_net e) (e_entity e)).
  { rewrite target_log_app2. f_equal. unfold target_log. simpl.
    rewrite Hl, Z.eqb_refl, beqb_refl. reflexivity. }
  rewrite load_after_seq; try assumption; rewrite ?Hlog.
  - f_equal. f_equal. f_equal.
    change (e_msg e :: ?l) with ([e_msg e] ++ l). rewrite app_assoc.
    replace (S (length (target_log h1 (e_net e) (e_entity e))))
      with (length (target_log h1 (e_net e) (e_entity e) ++ [e_msg e])) by (rewrite app_length; simpl; lia).
    rewrite skipn_app, skipn_all, Nat.sub_diag. reflexivity.
  - lia.
  - rewrite app_length. simpl. lia.
Qed.

Lemma backlog_from_empty A (cap : nat) valid (h1 h2 : list (event A)) net entity limit :
    0 < cap -> i64 net -> (N.of_nat (length entity) < two64)%N -> valid entity = true ->
    target_log h1 net entity = [] ->
    mem_load_latest valid (mem_run cap (h1 ++ h2)) (mem_last_msgid (mem_run cap h1) net entity) net entity false limit
    = Some (map Some (last_of (min limit cap) (target_log h2 net entity))).
Proof.
  intros Hc H1 H2 H3 Hl. unfold mem_last_msgid.
  pose proof (mem_run_represents cap Hc h1 net entity) as Hrep.
  destruct (st_get (mem_run cap h1) (net, entity)) as [r|]; [destruct Hrep; contradiction|].
  rewrite (load_after_seq cap Hc valid (h1 ++ h2) net entity limit 0); try assumption.
  - rewrite target_log_app2, Hl. reflexivity.
  - unfold two64; simpl; lia.
  - lia.
Qed.

Lemma first_message_lost A (cap : nat) valid (h1 h2 : list (event A)) net entity limit m rest :
    0 < cap -> i64 net -> (N.of_nat (length entity) < two64)%N -> valid entity = true ->
    (N.of_nat (S (length h1)) < two64)%N ->
    target_log h1 net entity <> [] -> target_log h2 net entity = m :: rest ->
    mem_load_latest valid (mem_run cap (h1 ++ h2)) (mem_last_msgid (mem_run cap h1) net entity) net entity false limit
    = Some (map Some (last_of (min limit cap) rest)).
Proof.
  intros Hc H1 H2 H3 H4 Hne Hr. unfold mem_last_msgid.
  pose proof (mem_run_represents cap Hc h1 net entity) as Hrep.
  destruct (st_get (mem_run cap h1) (net, entity)) as [r|]; [|contradiction].
  destruct Hrep as ((_ & Hcur & _) & _). rewrite Hcur.
  pose proof (target_log_length h1 net entity) as Hlen.
  rewrite load_after_seq; try assumption; rewrite ?target_log_app2, ?Hr.
  - f_equal. f_equal. f_equal.
    change (m :: rest) with ([m] ++ rest). rewrite app_assoc.
    replace (S (length (target_log h1 net entity)))
      with (length (target_log h1 net entity ++ [m])) by (rewrite app_length; simpl; lia).
    rewrite skipn_app, skipn_all, Nat.sub_diag. reflexivity.
  - lia.
  - rewrite app_length. simpl. lia.
Qed.
