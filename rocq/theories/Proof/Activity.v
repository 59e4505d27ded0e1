(** Proofs about the use of an account. *)
From Verif.Base Require Import Bytes.
From Verif.Model Require Import Activity.
From Verif.Spec Require Import Activity.
From Coq Require Import ZArith Lia.
Local Open Scope Z_scope.

Definition keys (s : st) : list (Z * bool) := map (fun c => (c_id c, c_imp c)) (s_conns s).
Lemma serving_keys s : serving s <-> exists id, In (id, false) (keys s) /\ In id (s_clients s).
Proof.
  unfold serving, keys. split.
  - intros (c & A & B & C). exists (c_id c). split; [|exact C]. apply in_map_iff. exists c. rewrite B. auto.
  - intros (id & A & B). apply in_map_iff in A. destruct A as (c & E & A). injection E as E1 E2. exists c. rewrite E1. auto.
Qed.
Lemma map_keys f id s : (forall c, c_id (f c) = c_id c /\ c_imp (f c) = c_imp c) -> keys (map_conn f id s) = keys s.
Proof.
  intros H. unfold keys, map_conn. cbn [set_conns s_conns]. rewrite map_map. apply map_ext. intros c. destruct (c_id c =? id); [|reflexivity].
  destruct (H c) as [-> ->]. reflexivity.
Qed.
Lemma close_keys s : keys (close_all s) = keys s.
Proof. unfold keys, close_all. cbn [set_conns s_conns]. rewrite map_map. apply map_ext. intros c. destruct (zmem _ _); reflexivity. Qed.
Lemma stage_keys g id s : keys (map_conn (set_stage g) id s) = keys s.
Proof. apply map_keys. intros c. split; reflexivity. Qed.

Lemma find_some_key id s c : find_conn id s = Some c -> c_id c = id /\ In (id, c_imp c) (keys s).
Proof.
  unfold find_conn. intros H. apply find_some in H. destruct H as [H1 H2]. apply Z.eqb_eq in H2. split; [exact H2|].
  apply in_map_iff. exists c. rewrite H2. auto.
Qed.
Lemma find_none_key id s : find_conn id s = None -> ~ In id (map fst (keys s)).
Proof.
  unfold find_conn, keys. rewrite map_map. cbn [fst]. intros H X. apply in_map_iff in X. destruct X as (c & E & X).
  apply (find_none _ _ H) in X. rewrite E, Z.eqb_refl in X. discriminate.
Qed.

Lemma nodup_key (l : list (Z * bool)) id b b' : NoDup (map fst l) -> In (id, b) l -> In (id, b') l -> b = b'.
Proof.
  induction l as [|[x y] l IH]; [intros _ []|]. cbn [map fst]. intros N. inversion_clear N as [|? ? N1 N2]. intros [E|H] [E'|H'].
  - congruence.
  - injection E as -> ->. exfalso. apply N1. apply in_map_iff. exists (id, b'). auto.
  - injection E' as -> ->. exfalso. apply N1. apply in_map_iff. exists (id, b). auto.
  - exact (IH N2 H H').
Qed.
Lemma remove_in x y l : x <> y -> In y l -> In y (remove_one x l).
Proof.
  intros N. induction l as [|z l IH]; [intros []|]. cbn [remove_one]. intros [E|H]; destruct (Z.eqb_spec x z).
  - congruence.
  - left. exact E.
  - exact H.
  - right. exact (IH H).
Qed.

Lemma update_now f io s : s_now (update_user f io s) = s_now s.
Proof. unfold update_user. destruct io; [|reflexivity]. cbn [negb]. destruct (a_enabled (s_mem (set_both (f (s_mem s)) s))); reflexivity. Qed.

Section Activity.
  Variables (hash : N -> bytes -> bytes -> bytes) (verify : bytes -> bytes -> bool) (cost : bytes -> N).
  Variables (delay : Z) (on_auth : bool).
  Local Notation step := (step hash verify cost delay on_auth).
  Local Notation run := (run hash verify cost delay on_auth).

  Definition strong (h : bytes) : Prop := h = [] \/ (default_cost <= cost h)%N.
  Definition strong_event (e : event) : Prop := match e with EUpdate (Some h) _ _ => strong h | _ => True end.
  Definition settled (c : conn) : Prop := match c_stage c with Authing (Some _) => False | _ => True end.

  Record inv (s : st) : Prop := {
    i_keys : NoDup (map fst (keys s));
    i_db : strong (a_hash (s_db s)); i_mem : strong (a_hash (s_mem s));
    i_queue : Forall strong_event (s_queue s);
    i_conns : Forall settled (s_conns s);
    i_seen : a_seen (s_db s) = a_seen (s_mem s);
    i_past : last_seen s <= s_now s }.

  Hypothesis strong_hash : forall salt pw, (default_cost <= cost (hash default_cost salt pw))%N.

  Definition onward (s s' : st) : Prop :=
    s_now s <= s_now s' /\ last_seen s <= last_seen s' /\ (serving s -> serving s' \/ last_seen s' = s_now s').

  Lemma settled_map f l : Forall settled l -> (forall c, settled c -> settled (f c)) -> Forall settled (map f l).
  Proof. intros H F. induction H; constructor; auto. Qed.
  Lemma close_settled s : Forall settled (s_conns s) -> Forall settled (s_conns (close_all s)).
  Proof. intros H. unfold close_all. cbn [set_conns s_conns]. apply settled_map; [exact H|]. intros c Hc. destruct (zmem _ _); exact Hc. Qed.
  Lemma close_inv s : inv s -> inv (close_all s).
  Proof.
    intros [H1 H2 H3 H4 H5 H6 H7]. split; try assumption; [rewrite close_keys; exact H1|apply close_settled, H5].
  Qed.
  Lemma close_onward s : onward s (close_all s).
  Proof.
    split; [apply Z.le_refl|]. split; [apply Z.le_refl|]. intros H. left. rewrite serving_keys in *. rewrite close_keys. exact H.
  Qed.
  Lemma onward_trans a b c : (last_seen c <= s_now c) -> onward a b -> onward b c -> (last_seen b = s_now b -> s_now c = s_now b) -> onward a c.
  Proof.
    intros Hc (A1 & A2 & A3) (B1 & B2 & B3) E. split; [lia|]. split; [lia|]. intros H. destruct (A3 H) as [X|X]; [exact (B3 X)|].
    right. specialize (E X). lia.
  Qed.

  Lemma update_inv f s : inv s -> (forall r, strong (a_hash r) -> strong (a_hash (f r))) ->
    (forall r, a_seen (f r) = a_seen r \/ a_seen (f r) = Some (s_now s)) ->
    inv (update_user f true s) /\ onward s (update_user f true s) /\ s_now (update_user f true s) = s_now s /\
    s_clients (update_user f true s) = s_clients s /\ keys (update_user f true s) = keys s /\
    (a_seen (f (s_mem s)) = Some (s_now s) -> last_seen (update_user f true s) = s_now s).
  Proof.
    intros I Hs Hf. unfold update_user. cbn [negb].
    set (s1 := set_both (f (s_mem s)) s).
    assert (L : last_seen s <= last_seen s1 /\ last_seen s1 <= s_now s1).
    { destruct I as [_ _ _ _ _ H6 H7]. unfold last_seen, s1 in *. cbn [set_both s_db s_created s_now] in *. rewrite H6 in H7 |- *. destruct (Hf (s_mem s)) as [-> | ->]; [lia|].
      split; [exact H7|lia]. }
    assert (I1 : inv s1).
    { destruct I as [H1 H2 H3 H4 H5 H6 H7]. unfold s1. split; cbn [set_both s_db s_mem s_queue s_conns]; try assumption; [apply Hs; exact H3|apply Hs; exact H3|reflexivity|apply L]. }
    assert (O1 : onward s s1) by (split; [apply Z.le_refl|]; split; [apply L|]; intros H; left; exact H).
    assert (Sn : a_seen (f (s_mem s)) = Some (s_now s) -> last_seen s1 = s_now s) by (intros E; unfold last_seen, s1; cbn [set_both s_db]; rewrite E; reflexivity).
    destruct (a_enabled (s_mem s1)).
    - split; [exact I1|]. split; [exact O1|]. split; [reflexivity|]. split; [reflexivity|]. split; [reflexivity|exact Sn].
    - split; [apply close_inv, I1|]. split; [apply (onward_trans s s1); [apply L|exact O1|apply close_onward|reflexivity]|].
      split; [reflexivity|]. split; [reflexivity|]. split; [rewrite close_keys; reflexivity|exact Sn].
  Qed.
  Lemma bump_inv s : inv s -> inv (bump true s) /\ onward s (bump true s) /\ last_seen (bump true s) = s_now (bump true s).
  Proof.
    intros I. unfold bump. destruct (update_inv (set_seen (Some (s_now s))) s I) as (A & A' & B & _ & _ & C); [intros r H; exact H|intros r; right; reflexivity|].
    split; [exact A|]. split; [exact A'|]. rewrite B. apply C. reflexivity.
  Qed.

  Lemma clients_inv l s : inv s -> inv (set_clients l s).
  Proof. intros [H1 H2 H3 H4 H5 H6 H7]. split; assumption. Qed.
  Lemma queue_inv l s : inv s -> Forall strong_event l -> inv (set_queue l s).
  Proof. intros [H1 H2 H3 H4 H5 H6 H7] H. split; assumption. Qed.
  Lemma same_onward s s' : s_now s' = s_now s -> last_seen s' = last_seen s -> (serving s -> serving s') -> onward s s'.
  Proof. intros A B C. split; [lia|]. split; [lia|]. intros H. left. exact (C H). Qed.
  Lemma send_inv e s : inv s -> strong_event e -> inv (send e s) /\ onward s (send e s).
  Proof.
    intros I He. split; [apply queue_inv; [exact I|]; apply Forall_app; split; [apply I|constructor; [exact He|constructor]]|].
    apply same_onward; [reflexivity|reflexivity|]. intros H. exact H.
  Qed.
  Lemma stage_inv g id s : inv s -> settled (Conn 0 false [] g false) -> inv (map_conn (set_stage g) id s) /\ onward s (map_conn (set_stage g) id s).
  Proof.
    intros [H1 H2 H3 H4 H5 H6 H7] Hg. split.
    - split; try assumption; [rewrite stage_keys; exact H1|]. unfold map_conn. cbn [set_conns s_conns]. apply settled_map; [exact H5|].
      intros c Hc. destruct (c_id c =? id); [exact Hg|exact Hc].
    - apply same_onward; [reflexivity|reflexivity|]. intros H. rewrite serving_keys in *. rewrite stage_keys. exact H.
  Qed.
  Lemma add_inv c s : inv s -> find_conn (c_id c) s = None -> settled c -> inv (set_conns (c :: s_conns s) s) /\ onward s (set_conns (c :: s_conns s) s).
  Proof.
    intros [H1 H2 H3 H4 H5 H6 H7] Hn Hc. split.
    - split; try assumption.
      + unfold keys. cbn [set_conns s_conns map fst]. constructor; [exact (find_none_key _ _ Hn)|exact H1].
      + constructor; assumption.
    - apply same_onward; [reflexivity|reflexivity|]. intros (x & A & B & C). exists x. split; [right; exact A|]. auto.
  Qed.

  Lemma read_inv id pw salt s : inv s -> inv (auth_read hash verify cost id pw salt s) /\ onward s (auth_read hash verify cost id pw salt s).
  Proof.
    intros I. unfold auth_read. destruct (find_conn id s) eqn:Ef; [split; [exact I|apply same_onward; auto]|].
    destruct (check_password hash verify cost (s_db s) pw salt) as [store|] eqn:Ec; [|split; [exact I|apply same_onward; auto]].
    apply add_inv; [exact I|exact Ef|]. unfold check_password in Ec. destruct (beqb_spec (a_hash (s_db s)) []) as [E|E]; [discriminate|].
    destruct (verify _ _); [|discriminate]. destruct (N.ltb_spec (cost (a_hash (s_db s))) default_cost) as [L|L].
    - destruct (i_db s I) as [X|X]; [contradiction|lia].
    - injection Ec as <-. exact Logic.I.
  Qed.
  Lemma done_inv id s : inv s -> inv (auth_done id s) /\ onward s (auth_done id s).
  Proof.
    intros I. unfold auth_done. destruct (find_conn id s) as [[i m p g cl]|] eqn:Ef; [|split; [exact I|apply same_onward; auto]].
    destruct g as [store| | |]; try (split; [exact I|apply same_onward; auto; fail]).
    assert (Hs : settled (Conn i m p (Authing store) cl)).
    { unfold find_conn in Ef. apply find_some in Ef. pose proof (i_conns s I) as F. rewrite Forall_forall in F. exact (F _ (proj1 Ef)). }
    destruct store as [r|]; [destruct Hs|]. apply stage_inv; [exact I|exact Logic.I].
  Qed.

  Lemma handle_inv e ok s : inv s -> strong_event e -> inv (handle on_auth e true ok s) /\ onward s (handle on_auth e true ok s).
  Proof.
    intros I He. destruct e as [id|id|h a e]; cbn [handle].
    - unfold connected. destruct (find_conn id s) as [c|] eqn:Ef; [|split; [exact I|apply same_onward; auto]].
      set (s1 := if negb (a_enabled (s_mem s)) && on_auth then update_user (set_enabled true) true s else s).
      assert (X : inv s1 /\ onward s s1 /\ s_now s1 = s_now s).
      { unfold s1. destruct (negb (a_enabled (s_mem s)) && on_auth); [|split; [exact I|]; split; [apply same_onward; auto|reflexivity]].
        destruct (update_inv (set_enabled true) s I) as (A & B & C & _); [intros r H; exact H|intros r; left; reflexivity|]. auto. }
      destruct X as (I1 & O1 & N1). destruct (negb (a_enabled (s_mem s1))); [split; assumption|]. destruct ok; [cbn [negb]|split; assumption].
      assert (I2 : inv (set_clients (s_clients s1 ++ [id]) s1)) by (apply clients_inv, I1).
      assert (O2 : onward s (set_clients (s_clients s1 ++ [id]) s1)).
      { apply (onward_trans s s1); [apply I2|exact O1| |reflexivity]. apply same_onward; [reflexivity|reflexivity|].
        intros (x & A & B & C). exists x. split; [exact A|]. split; [exact B|]. cbn [set_clients s_clients]. apply in_app_iff. auto. }
      destruct (c_imp c); [split; assumption|]. destruct (bump_inv _ I2) as (I3 & O3 & E3). split; [exact I3|].
      apply (onward_trans s (set_clients (s_clients s1 ++ [id]) s1)); [apply I3|exact O2|exact O3|].
      intros _. apply update_now.
    - unfold disconnected. destruct (find_conn id s) as [c|] eqn:Ef; [|split; [exact I|apply same_onward; auto]].
      assert (I2 : inv (set_clients (remove_one id (s_clients s)) s)) by (apply clients_inv, I).
      destruct (find_some_key id s c Ef) as [_ Hk].
      destruct (c_imp c) eqn:Em.
      + split; [exact I2|]. apply same_onward; [reflexivity|reflexivity|]. rewrite !serving_keys. intros (i & A & B). exists i. split; [exact A|].
        cbn [set_clients s_clients]. apply remove_in; [|exact B]. intros ->. pose proof (nodup_key _ _ _ _ (i_keys s I) A Hk). discriminate.
      + destruct (bump_inv _ I2) as (I3 & (O3 & O3' & _) & E3). split; [exact I3|]. split; [exact O3|]. split; [exact O3'|]. intros _. right. exact E3.
    - unfold updated.
      destruct (update_inv (fun r => upd e set_enabled (upd a set_admin (upd h set_hash r))) s I) as (A & B & C & D & K & _).
      { intros r Hr. destruct e, a, h; cbn [upd set_enabled set_admin set_hash a_hash]; try exact Hr; exact He. }
      { intros r. left. destruct e, a, h; reflexivity. }
      destruct h as [h|]; [|split; [exact A|exact B]]. split; [apply close_inv, A|].
      apply (onward_trans s (update_user (fun r => upd e set_enabled (upd a set_admin (upd (Some h) set_hash r))) true s)); [apply (i_past _ (close_inv _ A))|exact B|apply close_onward|reflexivity].
  Qed.

  Lemma step_inv s o : inv s -> running o -> stored o -> inv (step s o) /\ onward s (step s o).
  Proof.
    intros I Hr Hs. destruct o; cbn [Activity.step]; cbn [running stored] in Hr, Hs.
    - destruct I as [H1 H2 H3 H4 H5 H6 H7]. split; [split; try assumption; cbn [s_now]; unfold last_seen in *; cbn [s_db s_created] in *; lia|].
      split; [cbn [s_now]; lia|]. split; [apply Z.le_refl|]. intros H. left. exact H.
    - apply read_inv, I.
    - apply done_inv, I.
    - destruct (find_conn id s); [split; [exact I|apply same_onward; auto]|].
      destruct (read_inv id pw salt s I) as [A B]. destruct (done_inv id _ A) as [C D]. split; [exact C|].
      apply (onward_trans s (auth_read hash verify cost id pw salt s)); [apply C|exact B|exact D|].
      intros _. unfold auth_done. destruct (find_conn id _) as [[? ? ? [[?|]| | |] ?]|]; reflexivity.
    - destruct (find_conn id s) eqn:Ef; [split; [exact I|apply same_onward; auto]|]. apply add_inv; [exact I|exact Ef|exact Logic.I].
    - destruct (find_conn id s) as [[? ? ? [?| | |] ?]|]; try (split; [exact I|apply same_onward; auto; fail]).
      destruct (stage_inv Arrived id s I Logic.I) as [A B]. destruct (send_inv (EConn id) _ A Logic.I) as [C D]. split; [exact C|].
      apply (onward_trans s (map_conn (set_stage Arrived) id s)); [apply C|exact B|exact D|reflexivity].
    - destruct (find_conn id s) as [[? ? ? [?| | |] ?]|]; try (split; [exact I|apply same_onward; auto; fail]).
      destruct (stage_inv Gone id s I Logic.I) as [A B]. destruct (send_inv (EDisc id) _ A Logic.I) as [C D]. split; [exact C|].
      apply (onward_trans s (map_conn (set_stage Gone) id s)); [apply C|exact B|exact D|reflexivity].
    - apply send_inv; [exact I|]. destruct pw; [right; apply strong_hash|exact Logic.I].
    - apply send_inv; [exact I|]. left. reflexivity.
    - subst io. destruct (update_inv (set_hash (match pw with Some pw => hash default_cost salt pw | None => [] end)) s I) as (A & B & _); [intros r _; destruct pw; [right; apply strong_hash|left; reflexivity]|intros r; left; reflexivity|]. auto.
    - subst io. destruct (s_queue s) as [|e q] eqn:Eq; [split; [exact I|apply same_onward; auto]|].
      pose proof (i_queue s I) as F. rewrite Eq in F. inversion_clear F as [|? ? F1 F2].
      assert (I1 : inv (set_queue q s)) by (apply queue_inv; assumption).
      exact (handle_inv e ok (set_queue q s) I1 F1).
    - destruct (delay =? 0); split; try exact I; try (apply same_onward; auto; fail). destruct I as [H1 H2 H3 H4 H5 H6 H7]. split; assumption.
    - destruct (s_sweep s), (s_clients s); (split; [destruct I as [H1 H2 H3 H4 H5 H6 H7]; split; assumption|apply same_onward; auto]).
    - destruct (s_sweep s); try (split; [exact I|apply same_onward; auto]; fail).
      assert (I1 : inv (set_sweep SNone s)) by (destruct I as [H1 H2 H3 H4 H5 H6 H7]; split; assumption).
      exact (send_inv (EUpdate None None (Some false)) _ I1 Logic.I).
    - split; [|apply same_onward; auto]. destruct I as [H1 H2 H3 H4 H5 H6 H7]. split; try assumption. right. apply strong_hash.
    - contradiction.
  Qed.

  Lemma inv_start t h admin : strong h -> inv (start t h admin).
  Proof. intros H. split; cbn; try assumption; try constructor. unfold last_seen. cbn. lia. Qed.

  Lemma run_snoc s os o : run s (os ++ [o]) = step (run s os) o.
  Proof. unfold Activity.run. rewrite fold_left_app. reflexivity. Qed.
  Lemma run_inv s os : inv s -> Forall running os -> Forall stored os -> inv (run s os).
  Proof.
    intros I. revert s I. induction os as [|o os IH]; intros s I F1 F2; [exact I|]. inversion_clear F1 as [|? ? A1 A2]. inversion_clear F2 as [|? ? B1 B2].
    exact (IH _ (proj1 (step_inv s o I A1 B1)) A2 B2).
  Qed.

  Lemma served s os : inv s -> Forall running os -> Forall stored os ->
    forall p q, os = p ++ q -> serving (run s p) -> serving (run s os) \/ s_now (run s p) <= last_seen (run s os).
  Proof.
    intros I. induction os as [|o os IH] using rev_ind; intros F1 F2 p q E H.
    - destruct p; [|discriminate]. left. exact H.
    - apply Forall_app in F1, F2. destruct F1 as [A1 A2], F2 as [B1 B2]. inversion_clear A2 as [|? ? A3 _]. inversion_clear B2 as [|? ? B3 _].
      destruct q as [|y q] using rev_ind; [rewrite app_nil_r in E; subst p; left; exact H|]. clear IHq.
      rewrite app_assoc in E. apply app_inj_tail in E. destruct E as [E ->].
      pose proof (run_inv s os I A1 B1) as I1. rewrite run_snoc.
      destruct (step_inv (run s os) y I1 A3 B3) as [_ (O1 & O2 & O3)].
      destruct (IH A1 B1 p q E H) as [X|X].
      + destruct (O3 X) as [Y|Y]; [left; exact Y|]. right. rewrite Y.
        assert (M : forall l s0, inv s0 -> Forall running l -> Forall stored l -> s_now s0 <= s_now (run s0 l)).
        { clear - strong_hash. intros l. induction l as [|o l IHl]; intros s0 I F1 F2; [apply Z.le_refl|]. inversion_clear F1 as [|? ? A1 A2]. inversion_clear F2 as [|? ? B1 B2].
          destruct (step_inv s0 o I A1 B1) as [I' (O & _)]. specialize (IHl _ I' A2 B2). cbn [Activity.run fold_left] in *. unfold Activity.run in *. cbn [fold_left]. lia. }
        subst os. apply Forall_app in A1, B1. unfold Activity.run in *. rewrite fold_left_app in *.
        assert (s_now (fold_left step p s) <= s_now (fold_left step q (fold_left step p s))).
        { apply M; [apply run_inv; [exact I|apply A1|apply B1]|apply A1|apply B1]. }
        lia.
      + right. lia.
  Qed.

  Lemma selected s os : inv s -> Forall running os -> Forall stored os -> s_sweep s = SNone ->
    s_sweep (run s (os ++ [SweepList; SweepFilter])) = SSelected ->
    delay <> 0 /\ last_seen (run s os) < s_now (run s os) - delay /\ s_clients (run s os) = [] /\ last_seen s < s_now (run s os) - delay /\
    forall p q, os = p ++ q -> serving (run s p) -> s_now (run s p) < s_now (run s os) - delay.
  Proof.
    intros I F1 F2 Hsw H. unfold Activity.run in H. rewrite fold_left_app in H. fold (run s os) in H. cbn [fold_left Activity.step] in H.
    destruct (Z.eqb_spec delay 0) as [E|E].
    - (* the account may have been listed before: the delay does not change *)
      exfalso. assert (X : forall l s0, s_sweep s0 = SNone -> s_sweep (run s0 l) = SNone).
      { clear - E. intros l. induction l as [|o l IHl]; intros s0 H0; [exact H0|]. cbn [Activity.run fold_left]. apply IHl. clear IHl l.
        assert (U : forall f io s1, s_sweep (update_user f io s1) = s_sweep s1) by (intros f io s1; unfold update_user; destruct io; [|reflexivity]; cbn [negb]; destruct (a_enabled _); reflexivity).
        destruct o; cbn [Activity.step]; try exact H0.
        - unfold auth_read. destruct (find_conn id s0); [exact H0|]. destruct (check_password _ _ _ _ _ _); exact H0.
        - unfold auth_done. destruct (find_conn id s0) as [[? ? ? [[?|]| | |] ?]|]; exact H0.
        - destruct (find_conn id s0); [exact H0|]. unfold auth_done.
          assert (Y : s_sweep (auth_read hash verify cost id pw salt s0) = SNone) by (unfold auth_read; destruct (find_conn id s0); [exact H0|]; destruct (check_password _ _ _ _ _ _); exact H0).
          destruct (find_conn id _) as [[? ? ? [[?|]| | |] ?]|]; exact Y.
        - destruct (find_conn id s0); exact H0.
        - destruct (find_conn id s0) as [[? ? ? [?| | |] ?]|]; exact H0.
        - destruct (find_conn id s0) as [[? ? ? [?| | |] ?]|]; exact H0.
        - rewrite U. exact H0.
        - destruct (s_queue s0) as [|e q]; [exact H0|]. destruct e as [id|id|h a e]; cbn [handle].
          + unfold connected. destruct (find_conn id _) as [c|]; [|exact H0].
            set (s1 := if negb (a_enabled (s_mem (set_queue q s0))) && on_auth then _ else _).
            assert (Y : s_sweep s1 = SNone) by (unfold s1; destruct (_ && _); [rewrite U|]; exact H0).
            destruct (negb (a_enabled (s_mem s1))); [exact Y|]. destruct ok; [|exact Y]. cbn [negb]. destruct (c_imp c); [exact Y|]. unfold bump. rewrite U. exact Y.
          + unfold disconnected. destruct (find_conn id _) as [c|]; [|exact H0]. destruct (c_imp c); [exact H0|]. unfold bump. rewrite U. exact H0.
          + unfold updated. destruct h; [unfold close_all; cbn [set_conns s_sweep]|]; rewrite U; exact H0.
        - subst delay. exact H0.
        - rewrite H0. reflexivity.
        - rewrite H0. exact H0.
        - reflexivity. }
      rewrite X in H by assumption. discriminate.
    - cbn [set_sweep s_sweep s_clients] in H. unfold inactive in H. 
      destruct (Z.ltb_spec (last_seen (run s os)) (s_now (run s os) - delay)) as [L|L]; [|destruct (s_clients (run s os)); discriminate].
      destruct (s_clients (run s os)) as [|x l] eqn:Ec; [|discriminate].
      split; [exact E|]. split; [exact L|]. split; [reflexivity|].
      assert (NS : ~ serving (run s os)) by (intros (c & _ & _ & X); rewrite Ec in X; exact X).
      split.
      + assert (Z1 : forall l s0, inv s0 -> Forall running l -> Forall stored l -> last_seen s0 <= last_seen (run s0 l)).
        { clear - strong_hash. intros l. induction l as [|o l IHl]; intros s0 I F1 F2; [apply Z.le_refl|]. inversion_clear F1 as [|? ? A1 A2]. inversion_clear F2 as [|? ? B1 B2].
          destruct (step_inv s0 o I A1 B1) as [I' (_ & O & _)]. specialize (IHl _ I' A2 B2). cbn [Activity.run fold_left] in *. unfold Activity.run in *. cbn [fold_left]. lia. }
        specialize (Z1 os s I F1 F2). lia.
      + intros p q Eo H'. destruct (served s os I F1 F2 p q Eo H') as [X|X]; [contradiction|lia].
  Qed.

  (** Disabling. *)
  Lemma disables s ok : delay <> 0 -> s_clients s = [] -> s_queue s = [] -> inactive delay s = true ->
    let s' := run s [SweepList; SweepFilter; SweepSend; Step true ok] in
    a_enabled (s_db s') = false /\ a_enabled (s_mem s') = false /\ s_queue s' = [].
  Proof.
    intros E Hc Hq Hi. unfold Activity.run. cbn [fold_left Activity.step].
    apply Z.eqb_neq in E. rewrite E, Hi. cbn [set_sweep s_sweep s_clients]. rewrite Hc. cbn [set_sweep s_sweep].
    unfold send. cbn [set_queue s_queue set_sweep]. rewrite Hq. cbn [app set_queue s_queue handle].
    unfold updated, update_user. cbn. auto.
  Qed.

  Lemma update_disabled f io s : disabled s -> (forall r, a_enabled r = false -> a_enabled (f r) = false) ->
    disabled (update_user f io s).
  Proof.
    intros (A & B & C & D) Hf. unfold update_user. destruct io; [|split; [exact A|split; [exact B|split; [exact C|exact D]]]]. cbn [negb].
    destruct (a_enabled (s_mem (set_both (f (s_mem s)) s))) eqn:E.
    - exfalso. cbn [set_both s_mem] in E. rewrite (Hf _ B) in E. discriminate.
    - split; [exact (Hf _ B)|]. split; [exact (Hf _ B)|]. split; [exact C|]. unfold close_all. cbn [set_conns set_both s_conns].
      intros c r H. apply in_map_iff in H. destruct H as (c' & <- & H). intros X. apply (D c' r H). destruct (zmem _ _); exact X.
  Qed.
  Lemma close_disabled s : disabled s -> disabled (close_all s).
  Proof.
    intros (A & B & C & D). split; [exact A|]. split; [exact B|]. split; [exact C|]. unfold close_all. cbn [set_conns s_conns].
    intros c r H. apply in_map_iff in H. destruct H as (c' & <- & H). intros X. apply (D c' r H). destruct (zmem _ _); exact X.
  Qed.
  Lemma update_clients f io s : s_clients (update_user f io s) = s_clients s.
  Proof. unfold update_user. destruct io; [|reflexivity]. cbn [negb]. destruct (a_enabled (s_mem (set_both (f (s_mem s)) s))); reflexivity. Qed.
  Lemma remove_incl x l : incl (remove_one x l) l.
  Proof. induction l as [|y l IH]; [intros z H; exact H|]. cbn [remove_one]. destruct (x =? y); [intros z H; right; exact H|]. intros z [H|H]; [left; exact H|right; exact (IH z H)]. Qed.

  Lemma stage_disabled g id s : disabled s -> (forall r, g <> Authing (Some r)) -> disabled (map_conn (set_stage g) id s).
  Proof.
    intros (A & B & C & D) Hg. split; [exact A|]. split; [exact B|]. split; [exact C|]. unfold map_conn. cbn [set_conns s_conns].
    intros c r H. apply in_map_iff in H. destruct H as (c' & <- & H). destruct (c_id c' =? id); [intros X; destruct (Hg r X)|exact (D c' r H)].
  Qed.
  Lemma send_disabled e s : disabled s -> (forall h a, e <> EUpdate h a (Some true)) -> disabled (send e s).
  Proof.
    intros (A & B & C & D) He. split; [exact A|]. split; [exact B|]. split; [|exact D]. intros h a H. unfold send in H. cbn [set_queue s_queue] in H.
    apply in_app_iff in H. destruct H as [H|[H|[]]]; [exact (C h a H)|exact (He h a H)].
  Qed.
  Lemma add_disabled c s : disabled s -> (forall r, c_stage c = Authing (Some r) -> a_enabled r = false) -> disabled (set_conns (c :: s_conns s) s).
  Proof.
    intros (A & B & C & D) Hc. split; [exact A|]. split; [exact B|]. split; [exact C|]. intros x r [<-|H]; [apply Hc|exact (D x r H)].
  Qed.
  Lemma read_disabled id pw salt s : disabled s -> disabled (auth_read hash verify cost id pw salt s).
  Proof.
    intros D. unfold auth_read. destruct (find_conn id s); [exact D|]. destruct (check_password hash verify cost (s_db s) pw salt) as [store|] eqn:Ec; [|exact D].
    apply add_disabled; [exact D|]. cbn [c_stage]. intros r X. injection X as ->. unfold check_password in Ec.
    destruct (beqb _ _); [discriminate|]. destruct (verify _ _); [|discriminate]. destruct (N.ltb _ _); [|discriminate]. injection Ec as <-. exact (proj1 D).
  Qed.
  Lemma done_disabled id s : disabled s -> disabled (auth_done id s).
  Proof.
    intros D. unfold auth_done. destruct (find_conn id s) as [[i m p g cl]|] eqn:Ef; [|exact D]. destruct g as [store| | |]; try exact D.
    apply stage_disabled; [|discriminate]. destruct store as [r|]; [|exact D]. destruct D as (A & B & C & D). split; [|split; [exact B|split; [exact C|exact D]]].
    apply (D (Conn i m p (Authing (Some r)) cl)); [|reflexivity]. unfold find_conn in Ef. apply find_some in Ef. apply Ef.
  Qed.
  Lemma read_clients id pw salt s : s_clients (auth_read hash verify cost id pw salt s) = s_clients s.
  Proof. unfold auth_read. destruct (find_conn id s); [reflexivity|]. destruct (check_password _ _ _ _ _ _); reflexivity. Qed.
  Lemma done_clients id s : s_clients (auth_done id s) = s_clients s.
  Proof. unfold auth_done. destruct (find_conn id s) as [[? ? ? [[?|]| | |] ?]|]; reflexivity. Qed.
  Lemma disabled_sweep w s : disabled s -> disabled (set_sweep w s).
  Proof. intros H. exact H. Qed.

  Lemma disabled_step s o : on_auth = false -> disabled s -> not_enabling o -> disabled (step s o) /\ incl (s_clients (step s o)) (s_clients s).
  Proof.
    intros Ho D Hn. destruct o; cbn [Activity.step]; cbn [not_enabling] in Hn.
    - split; [exact D|apply incl_refl].
    - rewrite read_clients. split; [apply read_disabled, D|apply incl_refl].
    - rewrite done_clients. split; [apply done_disabled, D|apply incl_refl].
    - destruct (find_conn id s); [split; [exact D|apply incl_refl]|]. rewrite done_clients, read_clients. split; [apply done_disabled, read_disabled, D|apply incl_refl].
    - destruct (find_conn id s); [split; [exact D|apply incl_refl]|]. split; [apply add_disabled; [exact D|discriminate]|apply incl_refl].
    - destruct (find_conn id s) as [[? ? ? [?| | |] ?]|]; (split; [|apply incl_refl]); try exact D. apply send_disabled; [|discriminate]. apply stage_disabled; [exact D|discriminate].
    - destruct (find_conn id s) as [[? ? ? [?| | |] ?]|]; (split; [|apply incl_refl]); try exact D. apply send_disabled; [|discriminate]. apply stage_disabled; [exact D|discriminate].
    - split; [|apply incl_refl]. apply send_disabled; [exact D|]. intros h a E. injection E as _ _ ->. exact Hn.
    - split; [|apply incl_refl]. apply send_disabled; [exact D|discriminate].
    - rewrite update_clients. split; [|apply incl_refl]. apply update_disabled; [exact D|]. intros r H. exact H.
    - destruct (s_queue s) as [|e q] eqn:Eq; [split; [exact D|apply incl_refl]|].
      assert (D1 : disabled (set_queue q s)).
      { destruct D as (A & B & C & D). split; [exact A|]. split; [exact B|]. split; [|exact D]. intros h a H. apply (C h a). rewrite Eq. right. exact H. }
      destruct e as [id|id|h a e]; cbn [handle].
      + unfold connected. destruct (find_conn id _) as [c|]; [|split; [exact D1|apply incl_refl]]. rewrite Ho, andb_false_r.
        assert (X : a_enabled (s_mem (set_queue q s)) = false) by apply D1. rewrite X. cbn [negb]. split; [exact D1|apply incl_refl].
      + unfold disconnected. destruct (find_conn id _) as [c|]; [|split; [exact D1|apply incl_refl]]. destruct (c_imp c).
        * split; [exact D1|]. cbn [set_clients s_clients set_queue]. apply remove_incl.
        * unfold bump. rewrite update_clients. split; [|apply remove_incl]. apply update_disabled; [exact D1|]. intros r H. exact H.
      + assert (D2 : disabled (update_user (fun r => upd e set_enabled (upd a set_admin (upd h set_hash r))) io (set_queue q s))).
        { apply update_disabled; [exact D1|]. intros r H. destruct e as [[]|]; [|reflexivity|destruct a, h; exact H].
          exfalso. destruct D as (_ & _ & C & _). apply (C h a). rewrite Eq. left. reflexivity. }
        unfold updated. destruct h; [split; [apply close_disabled, D2|]|split; [exact D2|]]; cbn [close_all set_conns s_clients]; rewrite update_clients; apply incl_refl.
    - destruct (delay =? 0); (split; [exact D|apply incl_refl]).
    - destruct (s_sweep s), (s_clients s) eqn:Ec; (split; [exact D|cbn [set_sweep s_clients]; rewrite ?Ec; apply incl_refl]).
    - destruct (s_sweep s); (split; [|apply incl_refl]); try exact D. apply send_disabled; [exact D|discriminate].
    - split; [exact D|apply incl_refl].
    - split; [|intros x []]. destruct D as (A & B & C & D). split; [exact A|]. split; [exact A|]. split; [intros h a []|intros c r []].
  Qed.
  Lemma disabled_run s os : on_auth = false -> disabled s -> Forall not_enabling os -> disabled (run s os) /\ incl (s_clients (run s os)) (s_clients s).
  Proof.
    intros Ho. revert s. induction os as [|o os IH]; intros s D F; [split; [exact D|apply incl_refl]|]. inversion_clear F as [|? ? A B].
    destruct (disabled_step s o Ho D A) as [D1 I1]. destruct (IH _ D1 B) as [D2 I2]. split; [exact D2|]. exact (incl_tran I2 I1).
  Qed.

  Lemma reenabled s id q c : on_auth = true -> s_queue s = EConn id :: q -> find_conn id s = Some c ->
    let s' := step s (Step true true) in a_enabled (s_db s') = true /\ a_enabled (s_mem s') = true \/ a_enabled (s_mem s) = true.
  Proof. intros Ho Hq Hc. destruct (a_enabled (s_mem s)) eqn:E; [right; reflexivity|left]. cbn [Activity.step]. rewrite Hq. cbn [handle]. unfold connected.
    change (find_conn id (set_queue q s)) with (find_conn id s). rewrite Hc, Ho. cbn [set_queue s_mem]. rewrite E. cbn [negb andb].
    unfold update_user. cbn. destruct (c_imp c); cbn; auto. Qed.
  Lemma welcomed s id q c : s_queue s = EConn id :: q -> find_conn id s = Some c -> a_enabled (s_mem s) = true \/ on_auth = true ->
    In id (s_clients (step s (Step true true))).
  Proof.
    intros Hq Hc Ho. cbn [Activity.step]. rewrite Hq. cbn [handle]. unfold connected.
    change (find_conn id (set_queue q s)) with (find_conn id s). rewrite Hc.
    set (s1 := if negb (a_enabled (s_mem (set_queue q s))) && on_auth then update_user (set_enabled true) true (set_queue q s) else set_queue q s).
    assert (X : a_enabled (s_mem s1) = true).
    { unfold s1. destruct (a_enabled (s_mem (set_queue q s))) eqn:E; [exact E|]. destruct Ho as [Ho|Ho]; [cbn [set_queue s_mem] in E; congruence|]. rewrite Ho. reflexivity. }
    rewrite X. cbn [negb]. destruct (c_imp c); [|unfold bump; rewrite update_clients]; cbn [set_clients s_clients]; apply in_app_iff; right; left; reflexivity.
  Qed.

  (** Passwords. *)
  Hypothesis hash_verify : forall n salt pw, verify (hash n salt pw) pw = true.
  Hypothesis hash_some : forall n salt pw, hash n salt pw <> [].
  Hypothesis unique : forall h pw pw', verify h pw = true -> verify h pw' = true -> pw = pw'.

  Definition opens (h : bytes) (p : option bytes) : Prop :=
    match p with None => h = [] | Some pw => h <> [] /\ verify h pw = true end.
  Definition opens_event (e : event) : list bytes := match e with EUpdate (Some h) _ _ => [h] | _ => [] end.
  Definition known (s : st) (t : track) : Prop :=
    opens (a_hash (s_db s)) (fst t) /\ opens (a_hash (s_mem s)) (fst t) /\
    Forall2 opens (flat_map opens_event (s_queue s)) (snd t) /\ Forall (fun c => forall r, c_stage c <> Authing r) (s_conns s).

  Lemma hash_opens n salt pw : opens (hash n salt pw) (Some pw).
  Proof. split; [apply hash_some|apply hash_verify]. Qed.
  Lemma unsettled f l : Forall (fun c => forall r, c_stage c <> Authing r) l -> (forall c, (forall r, c_stage c <> Authing r) -> forall r, c_stage (f c) <> Authing r) ->
    Forall (fun c => forall r, c_stage c <> Authing r) (map f l).
  Proof. intros H F. induction H; constructor; [apply F, H|exact IHForall]. Qed.
  Lemma update_known f io s t p : known s t -> (forall r, opens (a_hash r) (fst t) -> opens (a_hash (f r)) p) ->
    known (update_user f io s) (if io then p else fst t, snd t).
  Proof.
    intros (A & B & C & D) Hf. unfold update_user. destruct io; [|split; [exact A|split; [exact B|split; [exact C|exact D]]]]. cbn [negb].
    destruct (a_enabled (s_mem (set_both (f (s_mem s)) s))).
    - split; [exact (Hf _ B)|]. split; [exact (Hf _ B)|]. split; [exact C|exact D].
    - split; [exact (Hf _ B)|]. split; [exact (Hf _ B)|]. split; [exact C|]. unfold close_all. cbn [set_conns set_both s_conns s_clients]. apply unsettled; [exact D|].
      intros c Hc. destruct (zmem _ _); exact Hc.
  Qed.
  Lemma close_known s t : known s t -> known (close_all s) t.
  Proof.
    intros (A & B & C & D). split; [exact A|]. split; [exact B|]. split; [exact C|]. unfold close_all. cbn [set_conns s_conns]. apply unsettled; [exact D|].
    intros c Hc. destruct (zmem _ _); exact Hc.
  Qed.
  Lemma same_known f io s t : known s t -> (forall r, a_hash (f r) = a_hash r) -> known (update_user f io s) t.
  Proof.
    intros K Hf. pose proof (update_known f io s t (fst t) K) as X. destruct io, t; apply X; intros r; rewrite Hf; auto.
  Qed.
  Lemma send_known e s t l : known s t -> Forall2 opens (opens_event e) l -> known (send e s) (fst t, snd t ++ l).
  Proof.
    intros (A & B & C & D) H. split; [exact A|]. split; [exact B|]. split; [|exact D]. unfold send. cbn [set_queue s_queue snd]. rewrite flat_map_app.
    apply Forall2_app; [exact C|]. cbn [flat_map]. rewrite app_nil_r. exact H.
  Qed.
  Lemma send_known_nil e s t : known s t -> opens_event e = [] -> known (send e s) t.
  Proof. intros K E. pose proof (send_known e s t [] K) as X. rewrite app_nil_r in X. destruct t. apply X. rewrite E. constructor. Qed.
  Lemma stage_known g id s t : known s t -> (forall r, g <> Authing r) -> known (map_conn (set_stage g) id s) t.
  Proof.
    intros (A & B & C & D) Hg. split; [exact A|]. split; [exact B|]. split; [exact C|]. unfold map_conn. cbn [set_conns s_conns]. apply unsettled; [exact D|].
    intros c Hc. destruct (c_id c =? id); [exact Hg|exact Hc].
  Qed.

  Lemma auth_known id pw salt s t : known s t -> find_conn id s = None -> known (auth_done id (auth_read hash verify cost id pw salt s)) t.
  Proof.
    intros K Hn. unfold auth_read. rewrite Hn. destruct (check_password hash verify cost (s_db s) pw salt) as [store|] eqn:Ec.
    - set (s1 := set_conns _ s). unfold auth_done.
      assert (F : find_conn id s1 = Some (Conn id false pw (Authing store) false)) by (unfold find_conn, s1; cbn [set_conns s_conns find c_id]; rewrite Z.eqb_refl; reflexivity).
      rewrite F. destruct K as (A & B & C & D).
      assert (X : forall r, Forall (fun c => forall r, c_stage c <> Authing r) (s_conns (map_conn (set_stage Authed) id (match store with Some r => set_db r s1 | None => s1 end))) /\
        opens (a_hash (match store with Some r => r | None => r end)) (fst t) \/ store = None /\ Forall (fun c => forall r, c_stage c <> Authing r) (s_conns (map_conn (set_stage Authed) id s1))).
      { intros r0. assert (Y : Forall (fun c => forall r, c_stage c <> Authing r) (s_conns (map_conn (set_stage Authed) id s1))).
        { unfold map_conn, s1. cbn [set_conns s_conns map c_id]. rewrite Z.eqb_refl. constructor; [discriminate|]. apply unsettled; [exact D|]. intros c Hc. destruct (c_id c =? id); [discriminate|exact Hc]. }
        destruct store as [r|]; [left|right; auto]. split; [exact Y|]. unfold check_password in Ec.
        destruct (beqb_spec (a_hash (s_db s)) []) as [E|E]; [discriminate|]. destruct (verify (a_hash (s_db s)) pw) eqn:V; [|discriminate].
        destruct (N.ltb _ _); [|discriminate]. injection Ec as <-. cbn [set_hash a_hash]. destruct (fst t) as [p|]; [|contradiction].
        rewrite <- (unique _ _ _ V (proj2 A)). apply hash_opens. }
      destruct (X (s_db s)) as [[X1 X2]|[-> X1]].
      + destruct store as [r|]; (split; [|split; [exact B|split; [exact C|exact X1]]]); exact X2.
      + split; [exact A|]. split; [exact B|]. split; [exact C|exact X1].
    - unfold auth_done. rewrite Hn. exact K.
  Qed.

  Lemma known_step s o t : known s t -> whole o -> known (step s o) (track_step s o t).
  Proof.
    intros K W. destruct o; cbn [Activity.step track_step]; cbn [whole] in W; try contradiction.
    - exact K.
    - destruct (find_conn id s) eqn:E; [exact K|]. apply auth_known; assumption.
    - destruct (find_conn id s) eqn:E; [exact K|]. destruct K as (A & B & C & D). split; [exact A|]. split; [exact B|]. split; [exact C|]. constructor; [discriminate|exact D].
    - destruct (find_conn id s) as [[? ? ? [?| | |] ?]|]; try exact K. apply send_known_nil; [|reflexivity]. apply stage_known; [exact K|discriminate].
    - destruct (find_conn id s) as [[? ? ? [?| | |] ?]|]; try exact K. apply send_known_nil; [|reflexivity]. apply stage_known; [exact K|discriminate].
    - destruct pw as [pw|]; cbn [option_map].
      + apply send_known; [exact K|]. constructor; [apply hash_opens|constructor].
      + apply send_known_nil; [exact K|reflexivity].
    - apply send_known; [exact K|]. constructor; [reflexivity|constructor].
    - pose proof (update_known (set_hash (match pw with Some pw => hash default_cost salt pw | None => [] end)) io s t pw K) as X.
      destruct io; [|destruct t; apply X]; [apply X|]; intros r _; cbn [set_hash a_hash]; (destruct pw; [apply hash_opens|reflexivity]).
    - unfold at_change. destruct (s_queue s) as [|e q] eqn:Eq; [exact K|].
      destruct K as (A & B & C & D). rewrite Eq in C. cbn [flat_map] in C.
      destruct e as [id|id|h a e]; cbn [handle opens_event app] in *.
      + assert (K1 : known (set_queue q s) t) by (split; [exact A|split; [exact B|split; [exact C|exact D]]]).
        unfold connected. destruct (find_conn id _) as [c|]; [|exact K1].
        set (s1 := if negb (a_enabled (s_mem (set_queue q s))) && on_auth then update_user (set_enabled true) io (set_queue q s) else set_queue q s). assert (K2 : known s1 t) by (unfold s1; destruct (_ && _); [apply same_known; [exact K1|reflexivity]|exact K1]).
        destruct (negb (a_enabled (s_mem s1))); [exact K2|]. destruct ok; [|exact K2]. cbn [negb]. destruct (c_imp c); [exact K2|]. apply same_known; [exact K2|reflexivity].
      + assert (K1 : known (set_queue q s) t) by (split; [exact A|split; [exact B|split; [exact C|exact D]]]).
        unfold disconnected. destruct (find_conn id _) as [c|]; [|exact K1]. destruct (c_imp c); [exact K1|]. apply same_known; [exact K1|reflexivity].
      + destruct h as [h|].
        * cbn [app] in C. inversion C as [|? p ? l C1 C2 E1 E2]. 
          assert (K1 : known (set_queue q s) (fst t, l)) by (split; [exact A|split; [exact B|split; [exact C2|exact D]]]).
          unfold updated. apply close_known.
          pose proof (update_known (fun r => upd e set_enabled (upd a set_admin (upd (Some h) set_hash r))) io _ _ p K1) as X. apply X.
          intros r _. destruct e, a; exact C1.
        * assert (K1 : known (set_queue q s) t) by (split; [exact A|split; [exact B|split; [exact C|exact D]]]).
          unfold updated. apply same_known; [exact K1|]. intros r. destruct e, a; reflexivity.
    - destruct (delay =? 0); exact K.
    - destruct (s_sweep s), (s_clients s); exact K.
    - destruct (s_sweep s); try exact K. apply send_known_nil; [exact K|reflexivity].
    - destruct K as (A & B & C & D). split; [exact A|]. split; [exact A|]. split; constructor.
  Qed.

  Lemma known_run os : forall s t, known s t -> Forall whole os -> known (run s os) (tracked step s os t).
  Proof.
    induction os as [|o os IH]; intros s t K F; [exact K|]. inversion_clear F as [|? ? A B]. cbn [tracked]. apply (IH _ _ (known_step s o t K A) B).
  Qed.
  Lemma known_accepts s t pw : known s t -> (accepts verify s pw <-> fst t = Some pw).
  Proof.
    intros (A & _). unfold accepts. destruct (fst t) as [p|]; cbn [opens] in A.
    - split; [intros [_ H]; f_equal; exact (unique _ _ _ (proj2 A) H)|intros E; injection E as <-; exact A].
    - split; [intros [H _]; contradiction|discriminate].
  Qed.
  Lemma known_start t n salt pw admin : known (start t (hash n salt pw) admin) (Some pw, []).
  Proof. split; [apply hash_opens|]. split; [apply hash_opens|]. split; constructor. Qed.
  Lemma last_set t0 n salt p admin os pw : Forall whole os ->
    (accepts verify (run (start t0 (hash n salt p) admin) os) pw <-> fst (tracked step (start t0 (hash n salt p) admin) os (Some p, [])) = Some pw).
  Proof. intros F. apply known_accepts. apply known_run; [apply known_start|exact F]. Qed.

  Lemma login s id pw salt : find_conn id s = None ->
    (find_conn id (step s (Auth id pw salt)) <> None <-> accepts verify s pw).
  Proof.
    intros Hn. cbn [Activity.step]. rewrite Hn. unfold auth_read. rewrite Hn. unfold check_password, accepts.
    assert (Y : forall store, find_conn id (auth_done id (set_conns (Conn id false pw (Authing store) false :: s_conns s) s)) <> None).
    { intros store. unfold auth_done, find_conn. cbn [set_conns s_conns find c_id]. rewrite Z.eqb_refl.
      destruct store; cbn [map_conn set_conns s_conns set_db map find c_id]; rewrite Z.eqb_refl; cbn [set_stage find c_id]; rewrite Z.eqb_refl; discriminate. }
    destruct (beqb_spec (a_hash (s_db s)) []) as [E|E].
    - unfold auth_done. rewrite Hn. split; [intros H; destruct (H Hn)|intros [H _]; contradiction].
    - destruct (verify (a_hash (s_db s)) pw).
      + split; [auto|]. intros _. destruct (N.ltb _ _); apply Y.
      + unfold auth_done. rewrite Hn. split; [intros H; destruct (H Hn)|intros [_ H]; discriminate].
  Qed.

  Lemma closes s io ok h a e q : s_queue s = EUpdate (Some h) a e :: q ->
    forall c, In c (s_conns (step s (Step io ok))) -> In (c_id c) (s_clients s) -> c_closed c = true.
  Proof.
    intros Hq c. cbn [Activity.step]. rewrite Hq. cbn [handle]. unfold updated, close_all. cbn [set_conns s_conns]. rewrite update_clients. cbn [set_queue s_clients].
    intros H Hi. apply in_map_iff in H. destruct H as (c' & <- & H).
    assert (M : forall x, zmem x (s_clients s) = true <-> In x (s_clients s)).
    { intros x. unfold zmem. rewrite existsb_exists. split; [intros (y & A & B); apply Z.eqb_eq in B; subst; exact A|intros A; exists x; split; [exact A|apply Z.eqb_refl]]. }
    destruct (zmem (c_id c') (s_clients s)) eqn:Z1; [reflexivity|]. apply M in Hi. congruence.
  Qed.
End Activity.
