(** Proofs about the queries on messages. *)
From Verif.Base Require Import Bytes.
From Verif.Model Require Import Message TimeFmt Sql SqlQuery.
From Verif.Spec Require Import TimeFmt Sql SqlQuery.
From Verif.Proof Require TimeFmt.
From Verif.Proof Require Import Sql.
From Coq Require Import ZArith NArith Permutation Sorted.
Open Scope N_scope.

(** ** Texts and times *)

Lemma text_ltb_iff a : forall b, text_ltb a b = true <-> text_lt a b.
Proof.
  induction a as [|x a IH]; intros [|y b]; cbn [text_ltb].
  - split; [discriminate|intros H; inversion H].
  - split; [intros _; constructor|reflexivity].
  - split; [discriminate|intros H; inversion H].
  - destruct (aeqb_spec x y) as [->|Hne].
    + rewrite IH. split; intros H; [constructor; exact H|]. inversion H; subst; [lia|assumption].
    + rewrite N.ltb_lt. split; intros H; [apply lt_head; exact H|]. inversion H; subst; [assumption|congruence].
Qed.

Lemma text_ltb_false a b : text_ltb a b = false <-> ~ text_lt a b.
Proof. rewrite <- text_ltb_iff. destruct (text_ltb a b); split; congruence. Qed.

Lemma text_lt_trans a : forall b c, text_lt a b -> text_lt b c -> text_lt a c.
Proof.
  induction a as [|x a IH]; intros b c H1 H2.
  - inversion H1; subst. inversion H2; subst; constructor.
  - inversion H1; subst.
    + inversion H2; subst; [apply lt_head; lia|apply lt_head; assumption].
    + inversion H2; subst; [apply lt_head; assumption|]. apply lt_tail. eapply IH; eassumption.
Qed.

Lemma text_total a : forall b, text_lt a b \/ a = b \/ text_lt b a.
Proof.
  induction a as [|x a IH]; intros [|y b].
  - auto.
  - left. constructor.
  - right. right. constructor.
  - destruct (N.lt_trichotomy (code x) (code y)) as [H|[H|H]].
    + left. apply lt_head. exact H.
    + assert (x = y). { unfold code in H. rewrite <- (ascii_N_embedding x), <- (ascii_N_embedding y), H. reflexivity. }
      subst y. destruct (IH b) as [K|[->|K]]; [left; apply lt_tail; exact K|auto|right; right; apply lt_tail; exact K].
    + right. right. apply lt_head. exact H.
Qed.

Lemma text_order t u : in_years t -> in_years u ->
  (text_lt (format_time t) (format_time u) <-> (millis t < millis u)%Z).
Proof.
  intros Ht Hu. unfold millis.
  pose proof (Proof.TimeFmt.format_lt t u Ht Hu) as F1. pose proof (Proof.TimeFmt.format_lt u t Hu Ht) as F2.
  pose proof (Proof.TimeFmt.format_same t u) as F3.
  destruct (Z.lt_trichotomy (t / 1000000) (u / 1000000)) as [H|[H|H]].
  - specialize (F1 H). split; intros K; try lia. exact F1.
  - specialize (F3 H). rewrite F3. split; intros K; try lia. exfalso. exact (Proof.TimeFmt.text_lt_irrefl _ K).
  - specialize (F2 H). split; intros K; try lia. exfalso. exact (Proof.TimeFmt.text_lt_asym _ _ F2 K).
Qed.

Lemma not_later_iff r1 r2 t1 t2 : row_at r1 t1 -> row_at r2 t2 ->
  (not_later r1 r2 <-> ~ text_lt (mr_time r2) (mr_time r1)).
Proof.
  intros [Y1 E1] [Y2 E2]. split.
  - intros H K. rewrite E1, E2 in K. apply text_order in K; [|assumption|assumption].
    specialize (H t1 t2 (conj Y1 E1) (conj Y2 E2)). lia.
  - intros H u1 u2 [V1 F1] [V2 F2].
    destruct (Z.le_gt_cases (millis u1) (millis u2)) as [K|K]; [exact K|]. exfalso. apply H. rewrite F1, F2.
    apply text_order; [assumption|assumption|lia].
Qed.

(** A time that parses is between the years 0 and 9999. *)
Lemma num_range s : forall acc v, (0 <= acc)%Z -> num s acc = Some v -> (acc * 10 ^ Z.of_nat (length s) <= v < (acc + 1) * 10 ^ Z.of_nat (length s))%Z.
Proof.
  induction s as [|c s IH]; intros acc v Ha H.
  - cbn in H. injection H as <-. cbn [length]. change (10 ^ Z.of_nat 0)%Z with 1%Z. lia.
  - cbn [num] in H. unfold digit_value in H. destruct (is_digit c) eqn:Ed; [|discriminate].
    unfold is_digit in Ed. apply andb_prop in Ed. destruct Ed as [D1 D2]. apply N.leb_le in D1, D2.
    apply IH in H; [|lia]. cbn [length].
    rewrite Nat2Z.inj_succ, Z.pow_succ_r by lia. set (p := (10 ^ Z.of_nat (length s))%Z) in *.
    assert (0 < p)%Z by (apply Z.pow_pos_nonneg; lia).
    assert (0 <= Z.of_N (code c) - 48 <= 9)%Z by lia. nia.
Qed.

Lemma take_num_range w sep s v rest : take_num w sep s = Some (v, rest) -> (0 <= v < 10 ^ Z.of_nat w)%Z.
Proof.
  unfold take_num. destruct (skipn w s) as [|c r]; [discriminate|]. destruct (aeqb c sep); [|discriminate].
  destruct (num (firstn w s) 0) as [x|] eqn:E; [|discriminate]. intros H. injection H as <- <-.
  apply num_range in E; [|lia]. pose proof (firstn_le_length w s) as L.
  assert (10 ^ Z.of_nat (length (firstn w s)) <= 10 ^ Z.of_nat w)%Z by (apply Z.pow_le_mono_r; lia). lia.
Qed.

Lemma civil_range y m d : (0 <= y <= 9999)%Z -> (1 <= m <= 12)%Z -> (1 <= d <= days_in y m)%Z ->
  (-366 <= days_of_civil y m d < 3652059)%Z.
Proof.
  intros Hy Hm Hd. rewrite Proof.TimeFmt.days_of_civil_eq.
  assert (S0 : (0 <= Proof.TimeFmt.month_start y m)%Z).
  { destruct (Z.eq_dec m 1) as [->|Hne]; [unfold Proof.TimeFmt.month_start; cbn; destruct (is_leap y); cbn; lia|].
    pose proof (Proof.TimeFmt.month_start_mono y 1 m ltac:(lia) ltac:(lia) ltac:(lia)) as M.
    assert (Proof.TimeFmt.month_start y 1 = 0)%Z by (unfold Proof.TimeFmt.month_start; cbn; destruct (is_leap y); reflexivity).
    assert (0 <= days_in y 1)%Z by (cbv; discriminate). lia. }
  pose proof (Proof.TimeFmt.month_start_mono y m 13 ltac:(lia) ltac:(lia) ltac:(lia)) as M.
  assert (E13 : Proof.TimeFmt.month_start y 13 = (365 + (if is_leap y then 1 else 0))%Z)
    by (unfold Proof.TimeFmt.month_start; cbn; destruct (is_leap y); reflexivity).
  assert (Y0 : (-366 <= Proof.TimeFmt.year_start y)%Z).
  { destruct (Z.eq_dec y 0) as [->|Hne]; [vm_compute; discriminate|].
    pose proof (Proof.TimeFmt.year_start_mono 0 y ltac:(lia)) as K. change (Proof.TimeFmt.year_start 0) with (-366)%Z in K.
    destruct (is_leap 0); lia. }
  assert (Y1 : (Proof.TimeFmt.year_start y + 365 + (if is_leap y then 1 else 0) <= 3652059)%Z).
  { pose proof (Proof.TimeFmt.year_start_mono y 10000 ltac:(lia)) as K. change (Proof.TimeFmt.year_start 10000) with 3652059%Z in K. exact K. }
  lia.
Qed.

Lemma parse_in_years s t : parse_time s = Some t -> in_years t.
Proof.
  unfold parse_time.
  destruct (take_num 4 "-" s) as [[y s1]|] eqn:E1; [|discriminate].
  destruct (take_num 2 "-" s1) as [[m s2]|] eqn:E2; [|discriminate].
  destruct (take_num 2 "T" s2) as [[d s3]|] eqn:E3; [|discriminate].
  destruct (take_num 2 ":" s3) as [[hh s4]|] eqn:E4; [|discriminate].
  destruct (take_num 2 ":" s4) as [[mi s5]|] eqn:E5; [|discriminate].
  destruct (take_num 2 "." s5) as [[ss s6]|] eqn:E6; [|discriminate].
  destruct (take_num 3 "Z" s6) as [[ms s7]|] eqn:E7; [|discriminate].
  apply take_num_range in E1, E2, E3, E4, E5, E6, E7.
  change (10 ^ Z.of_nat 4)%Z with 10000%Z in *. change (10 ^ Z.of_nat 2)%Z with 100%Z in *. change (10 ^ Z.of_nat 3)%Z with 1000%Z in *.
  match goal with |- (if ?b then _ else _) = _ -> _ => destruct b eqn:C; [|discriminate] end.
  repeat (apply andb_prop in C as [C ?]). rewrite ?Z.leb_le, ?Z.ltb_lt in *.
  intros H'. injection H' as <-.
  pose proof (civil_range y m d ltac:(lia) ltac:(lia) ltac:(lia)) as R. unfold in_years, ns_per_day. lia.
Qed.

(** ** Rows and their times *)

Definition timed (d : db) : Prop := forall r, In r (d_msgs d) -> exists t, row_at r t.

Section Stores.
Variable raw_of : message -> bytes.

Lemma message_time_years now m t : in_years now -> message_time now m = Some t -> in_years t.
Proof.
  unfold message_time. intros Hn. destruct (find _ (m_tags m)) as [[k v]|].
  - apply parse_in_years.
  - intros H. injection H as <-. exact Hn.
Qed.

(** The rows a call stores. *)
Lemma insert_msg_rows net name now m d d' id : in_years now -> insert_msg raw_of net name now m d = Some (d', id) ->
  (exists r0, In r0 (d_targets d) /\ tr_network r0 = net /\ tr_target r0 = name) ->
  exists r, d_msgs d' = d_msgs d ++ [r] /\ d_targets d' = d_targets d /\ mr_id r = id /\ row_of raw_of now m r /\
    stored_for d' net name r /\ (forall r', In r' (d_msgs d) -> mr_id r' < id).
Proof.
  intros Hn H (r0 & Hr0 & En & Et). unfold insert_msg in H.
  destruct (message_time now m) as [t|] eqn:ET; [|discriminate].
  destruct (sqlite_value t) as [ts|] eqn:EV; [|discriminate].
  destruct (filter _ (d_targets d)) as [|r rs] eqn:EF.
  - exfalso. assert (K : In r0 (filter (fun r => N.eqb (tr_network r) net && beqb (tr_target r) name) (d_targets d)))
      by (apply filter_In; split; [exact Hr0|rewrite En, Et, N.eqb_refl, beqb_refl; reflexivity]). rewrite EF in K. destruct K.
  - destruct (check _) as [e|] eqn:E; [|discriminate]. injection H as <- <-. apply check_some in E. destruct E as [-> E].
    eexists. split; [reflexivity|]. split; [reflexivity|]. split; [reflexivity|].
    assert (K : In r (filter (fun r => N.eqb (tr_network r) net && beqb (tr_target r) name) (d_targets d))) by (rewrite EF; left; reflexivity).
    apply filter_In in K. destruct K as [K1 K2]. apply andb_prop in K2. destruct K2 as [K2 K3]. apply N.eqb_eq in K2. apply beqb_eq in K3.
    split; [|split].
    + split; [reflexivity|]. split; [reflexivity|]. split; [reflexivity|]. exists t. split; [exact ET|].
      split; [exact (message_time_years _ _ _ Hn ET)|]. cbn [mr_time]. unfold sqlite_value in EV.
      destruct (Z.eqb t 0); [discriminate|]. injection EV as <-. reflexivity.
    + exists r. auto.
    + intros r' Hr'. apply (in_map mr_id) in Hr'. apply fold_max_le in Hr'. unfold next_id. lia.
Qed.

Lemma add_target_in net name d : exists r, In r (d_targets (add_target net name d)) /\ tr_network r = net /\ tr_target r = name.
Proof.
  unfold add_target. destruct (existsb _ (d_targets d)) eqn:E.
  - apply existsb_exists in E. destruct E as (t & Ht & E). unfold target_key in E. cbn [clash ceqb tr_network tr_target] in E.
    apply andb_prop in E. destruct E as [E1 E2]. apply andb_prop in E2. destruct E2 as [E2 _]. apply N.eqb_eq in E1. apply beqb_eq in E2.
    exists t. auto.
  - cbn [d_targets with_targets]. eexists. split; [apply in_or_app; right; left; reflexivity|]. split; reflexivity.
Qed.

(** Nothing stored is lost. *)
Record extends (d d' : db) (rows : list msg_row) : Prop := {
  ex_msgs : d_msgs d' = d_msgs d ++ rows;
  ex_targets : exists ts, d_targets d' = d_targets d ++ ts /\ forall t, In t ts -> ~ In (tr_id t) (map tr_id (d_targets d));
  ex_ids : forall r r', In r (d_msgs d) -> In r' rows -> mr_id r < mr_id r' }.

Lemma insert_msgs_rows net name now l : in_years now -> forall d d' ids, insert_msgs raw_of net name now l d = Some (d', ids) ->
  (exists r0, In r0 (d_targets d) /\ tr_network r0 = net /\ tr_target r0 = name) ->
  exists rows, extends d d' rows /\ d_targets d' = d_targets d /\ map mr_id rows = ids /\ Forall2 (row_of raw_of now) l rows /\
    Forall (stored_for d' net name) rows /\ StronglySorted N.lt ids.
Proof.
  intros Hn. induction l as [|m l IH]; intros d d' ids H Hex; cbn [insert_msgs] in H.
  - injection H as <- <-. exists []. split; [constructor; [rewrite app_nil_r; reflexivity| |intros r r' _ []]|].
    + exists []. rewrite app_nil_r. split; [reflexivity|intros t []].
    + split; [reflexivity|]. split; [reflexivity|]. split; [constructor|]. split; constructor.
  - destruct (insert_msg raw_of net name now m d) as [[e id]|] eqn:E; [|discriminate].
    destruct (insert_msgs raw_of net name now l e) as [[e' ids']|] eqn:E'; [|discriminate]. injection H as <- <-.
    destruct (insert_msg_rows _ _ _ _ _ _ _ Hn E Hex) as (r & A1 & A2 & A3 & A4 & A5 & A6).
    rewrite <- A2 in Hex. destruct (IH _ _ _ E' Hex) as (rows & [B1 B2 B3] & B4 & B5 & B6 & B7 & B8).
    exists (r :: rows). split; [constructor|].
    + rewrite B1, A1, <- app_assoc. reflexivity.
    + exists []. rewrite app_nil_r, B4, A2. split; [reflexivity|intros t []].
    + intros x y Hx [<-|Hy]; [rewrite A3; apply A6; exact Hx|]. apply B3; [rewrite A1; apply in_or_app; left; exact Hx|exact Hy].
    + split; [congruence|]. split; [cbn [map]; congruence|]. split; [constructor; assumption|].
      split; [constructor; [|assumption]|].
      * destruct A5 as (t & Ht & K). exists t. rewrite B4. split; [exact Ht|exact K].
      * constructor; [exact B8|]. rewrite <- B5. apply Forall_forall. intros i Hi. apply in_map_iff in Hi. destruct Hi as (y & <- & Hy).
        rewrite <- A3. apply B3; [rewrite A1; apply in_or_app; right; left; reflexivity|exact Hy].
Qed.

Lemma store_messages_rows net name now l d d' ids : in_years now -> store_messages raw_of net name now l d = Some (d', ids) ->
  exists rows, extends d d' rows /\ map mr_id rows = ids /\ Forall2 (row_of raw_of now) l rows /\
    Forall (stored_for d' net name) rows /\ StronglySorted N.lt ids.
Proof.
  intros Hn H. unfold store_messages in H. destruct l as [|m l].
  - injection H as <- <-. exists []. split; [constructor; [rewrite app_nil_r; reflexivity| |intros r r' _ []]|].
    + exists []. rewrite app_nil_r. split; [reflexivity|intros t []].
    + split; [reflexivity|]. split; [constructor|]. split; constructor.
  - destruct (check (add_target net name d)) as [e|] eqn:E; [|discriminate]. apply check_some in E. destruct E as [-> E].
    destruct (insert_msgs_rows net name now (m :: l) Hn _ _ _ H (add_target_in net name d)) as (rows & [B1 B2 B3] & B4 & B5 & B6 & B7 & B8).
    exists rows. split; [|auto]. 
    assert (M : d_msgs (add_target net name d) = d_msgs d) by (unfold add_target; destruct (existsb _ _); reflexivity).
    constructor.
    + rewrite B1, M. reflexivity.
    + rewrite B4. unfold add_target. destruct (existsb _ _).
      * exists []. rewrite app_nil_r. split; [reflexivity|intros t []].
      * eexists. split; [reflexivity|]. intros t [<-|[]]. cbn [tr_id]. apply next_id_fresh.
    + rewrite <- M. exact B3.
Qed.

Lemma written_reachable d : written raw_of d -> reachable raw_of d.
Proof. induction 1; [apply reach_empty|apply reach_step; assumption]. Qed.

Lemma written_timed d : written raw_of d -> timed d.
Proof.
  induction 1 as [|d c W IH Own Clk].
  - intros r [].
  - destruct (reachable_ok _ _ (written_reachable d W)) as [V O]. unfold step_db. destruct (perform raw_of c d) as [d'|] eqn:H; [|exact IH].
    assert (same : (forall r, In r (d_msgs d') -> In r (d_msgs d)) -> timed d') by (intros K r Hr; exact (IH r (K r Hr))).
    destruct c; cbn [perform] in H.
    + apply same. apply fst_opt_some in H. destruct H as [i H]. unfold store_user in H. destruct (N.eqb (gu_id u) 0);
        (destruct (check _) as [e|] eqn:E; [|discriminate]); apply check_some in E; destruct E as [-> E]; injection H as <- <-; auto.
    + apply same. destruct (delete_user_erased d id V O) as (d2 & H2 & _ & Er). rewrite H in H2. injection H2 as <-.
      intros r Hr. apply (er_msgs _ _ _ _ Er) in Hr. tauto.
    + apply same. apply fst_opt_some in H. destruct H as [i H]. unfold store_network in H.
      destruct (sasl_columns n) as [[[[[? ?] ?] ?] ?]|]; [|discriminate]. destruct (N.eqb (gn_id n) 0);
        (destruct (check _) as [e|] eqn:E; [|discriminate]); apply check_some in E; destruct E as [-> E]; injection H as <- <-; auto.
    + apply same. destruct (delete_network_erased d id V) as (d2 & H2 & _ & Er). rewrite H in H2. injection H2 as <-.
      intros r Hr. apply (er_msgs _ _ _ _ Er) in Hr. tauto.
    + apply same. apply fst_opt_some in H. destruct H as [i H]. unfold store_channel in H. destruct (N.eqb (gc_id c) 0);
        (destruct (check _) as [e|] eqn:E; [|discriminate]); apply check_some in E; destruct E as [-> E]; injection H as <- <-; auto.
    + apply same. apply check_some in H. destruct H as [-> H]. auto.
    + apply same. unfold store_drcpts in H. intros r Hr.
      assert (K : d_msgs d' = d_msgs d).
      { refine (exec_inv (fun e => d_msgs e = d_msgs d) _ _ _ _ _ H); [|reflexivity].
        intros st e [<-|Hst] E; [exact E|]. apply in_map_iff in Hst. destruct Hst as (x & <- & _). exact E. }
      rewrite K in Hr. exact Hr.
    + apply same. apply fst_opt_some in H. destruct H as [i H]. unfold store_rrcpt in H. destruct (N.eqb id 0);
        (destruct (check _) as [e|] eqn:E; [|discriminate]); apply check_some in E; destruct E as [-> E]; injection H as <- <-; auto.
    + apply same. apply fst_opt_some in H. destruct H as [i H]. unfold store_sub in H. destruct (N.eqb (gs_id s) 0);
        (destruct (check _) as [e|] eqn:E; [|discriminate]); apply check_some in E; destruct E as [-> E]; injection H as <- <-; auto.
    + apply same. apply check_some in H. destruct H as [-> H]. auto.
    + apply fst_opt_some in H. destruct H as [i H]. cbn [clock_call] in Clk.
      destruct (store_messages_rows _ _ _ _ _ _ _ Clk H) as (rows & [B1 _ _] & _ & B6 & _).
      intros r Hr. rewrite B1 in Hr. apply in_app_or in Hr. destruct Hr as [Hr|Hr]; [exact (IH r Hr)|].
      clear -B6 Hr. induction B6 as [|m r' l rows K _ IH]; [destruct Hr|]. destruct Hr as [<-|Hr]; [|exact (IH Hr)].
      destruct K as (_ & _ & _ & t & _ & K). exists t. exact K.
Qed.
End Stores.

(** ** Selecting rows *)

Lemma of_target_iff d net name m : of_target d net name m = true <-> stored_for d net name m.
Proof.
  unfold of_target, stored_for. rewrite existsb_exists. split; intros (t & Ht & K); exists t.
  - apply andb_prop in K. destruct K as [K K3]. apply andb_prop in K. destruct K as [K1 K2].
    apply N.eqb_eq in K1, K2. apply beqb_eq in K3. auto.
  - destruct K as (K1 & K2 & K3). split; [exact Ht|]. rewrite K1, K2, K3, !N.eqb_refl, beqb_refl. reflexivity.
Qed.

Lemma format_lt_iff a b : in_years a -> in_years b -> (text_lt (format_time a) (format_time b) <-> (millis a < millis b)%Z).
Proof.
  intros Ha Hb. unfold millis. split.
  - intros H. destruct (Z.lt_trichotomy (a / 1000000) (b / 1000000)) as [K|[K|K]]; [lia| |].
    + rewrite (Proof.TimeFmt.format_same a b K) in H. destruct (Proof.TimeFmt.text_lt_irrefl _ H).
    + destruct (Proof.TimeFmt.text_lt_asym _ _ H (Proof.TimeFmt.format_lt b a Hb Ha K)).
  - intros H. apply Proof.TimeFmt.format_lt; [exact Ha|exact Hb|lia].
Qed.

Lemma row_after r t lo : row_at r t -> in_years lo ->
  (text_lt (format_time lo) (mr_time r) <-> forall u, row_at r u -> (millis lo < millis u)%Z).
Proof.
  intros [Ht E] Hlo. split.
  - intros H u [Hu Eu]. rewrite Eu in H. apply format_lt_iff in H; assumption.
  - intros H. rewrite E. apply format_lt_iff; [exact Hlo|exact Ht|]. apply H. split; assumption.
Qed.

Lemma row_before r t hi : row_at r t -> in_years hi ->
  (text_lt (mr_time r) (format_time hi) <-> forall u, row_at r u -> (millis u < millis hi)%Z).
Proof.
  intros [Ht E] Hhi. split.
  - intros H u [Hu Eu]. rewrite Eu in H. apply format_lt_iff in H; assumption.
  - intros H. rewrite E. apply format_lt_iff; [exact Ht|exact Hhi|]. apply H. split; assumption.
Qed.

Lemma selected_iff fts o r t : row_at r t -> in_years (o_after o) -> in_years (o_before o) ->
  (selected fts o r = true <-> in_bounds fts o r).
Proof.
  intros Hr Ha Hb. unfold selected, in_bounds.
  rewrite !andb_true_iff, !orb_true_iff, N.eqb_eq, N.ltb_lt, !Z.eqb_eq, !text_ltb_iff, !beqb_eq.
  rewrite (row_after r t _ Hr Ha), (row_before r t _ Hr Hb).
  assert (E : (match mr_text r with None => false | Some _ => true end = true) <-> mr_text r <> None)
    by (destruct (mr_text r); split; congruence).
  rewrite E. tauto.
Qed.

Lemma not_later_of a b : time_asc a b -> not_later a b.
Proof.
  intros H t1 t2 [H1 E1] [H2 E2]. unfold time_asc in H. rewrite E1, E2 in H.
  destruct (Z.le_gt_cases (millis t1) (millis t2)) as [K|K]; [exact K|]. exfalso. apply H. apply format_lt_iff; assumption.
Qed.

Lemma sorted_app {A} (R : A -> A -> Prop) l1 l2 : StronglySorted R (l1 ++ l2) ->
  StronglySorted R l1 /\ forall x y, In x l1 -> In y l2 -> R x y.
Proof.
  induction l1 as [|a l1 IH]; cbn [app]; intros H; [split; [constructor|intros x y []]|].
  inversion H as [|? ? H1 H2]; subst. destruct (IH H1) as [K1 K2]. rewrite Forall_forall in H2. split.
  - constructor; [exact K1|]. apply Forall_forall. intros x Hx. apply H2. apply in_or_app. auto.
  - intros x y [<-|Hx] Hy; [apply H2; apply in_or_app; auto|exact (K2 x y Hx Hy)].
Qed.

Lemma sorted_rev {A} (R : A -> A -> Prop) l : StronglySorted R l -> StronglySorted (fun x y => R y x) (rev l).
Proof.
  induction 1 as [|a l H IH K]; [constructor|]. cbn [rev]. rewrite Forall_forall in K.
  assert (G : forall l1, StronglySorted (fun x y => R y x) l1 -> (forall x, In x l1 -> R a x) -> StronglySorted (fun x y => R y x) (l1 ++ [a])).
  { intros l1 H1. induction H1 as [|b l1 H1 IH1 K1]; cbn [app]; intros H2; [constructor; constructor|].
    constructor; [apply IH1; intros x Hx; apply H2; right; exact Hx|]. apply Forall_app. split; [exact K1|].
    constructor; [apply H2; left; reflexivity|constructor]. }
  apply G; [exact IH|]. intros x Hx. apply K. apply in_rev in Hx. exact Hx.
Qed.

Lemma sorted_weaken {A} (R S : A -> A -> Prop) l : (forall x y, R x y -> S x y) -> StronglySorted R l -> StronglySorted S l.
Proof. intros K. induction 1 as [|a l H IH F]; constructor; [exact IH|]. eapply Forall_impl; [|exact F]. intros x. apply K. Qed.

(** The general shape of a limited, sorted listing. *)
Lemma limited {A} (asc desc : A -> A -> Prop) (up down : list A -> list A) (last : bool) (n : nat) (l : list A) :
  (forall x y, desc x y -> asc y x) -> sorts asc up -> sorts desc down ->
  let out := if last then rev (firstn n (down l)) else firstn n (up l) in
  exists rest, Permutation (out ++ rest) l /\ StronglySorted asc out /\ length out = Nat.min n (length l) /\
    (forall x y, In x out -> In y rest -> if last then asc y x else asc x y).
Proof.
  intros Hd Hup Hdown out. destruct last; subst out; cbn match.
  - destruct (Hdown l) as [P S]. exists (skipn n (down l)). rewrite <- (firstn_skipn n (down l)) in S.
    destruct (sorted_app _ _ _ S) as [S1 S2]. split; [|split; [|split]].
    + eapply Permutation_trans; [|exact P]. eapply Permutation_trans; [apply Permutation_app_tail; symmetry; apply Permutation_rev|].
      rewrite firstn_skipn. reflexivity.
    + eapply sorted_weaken; [|apply sorted_rev; exact S1]. intros x y K. exact (Hd y x K).
    + rewrite rev_length, firstn_length, (Permutation_length P). reflexivity.
    + intros x y Hx Hy. apply Hd. apply S2; [|exact Hy]. apply in_rev. exact Hx.
  - destruct (Hup l) as [P S]. exists (skipn n (up l)). rewrite <- (firstn_skipn n (up l)) in S.
    destruct (sorted_app _ _ _ S) as [S1 S2]. split; [|split; [|split]].
    + rewrite firstn_skipn. exact P.
    + exact S1.
    + rewrite firstn_length, (Permutation_length P). reflexivity.
    + exact S2.
Qed.

Section Lists.
Variable raw_of : message -> bytes.
Variables (by_time by_time_desc : list msg_row -> list msg_row) (fts : bytes -> option bytes -> bool).
Hypothesis asc : sorts time_asc by_time.
Hypothesis desc : sorts time_desc by_time_desc.

Lemma ids_nodup d : written raw_of d -> NoDup (map mr_id (d_msgs d)).
Proof.
  intros W. destruct (reachable_ok _ _ (written_reachable _ d W)) as [V _]. apply v_msgs in V. revert V. generalize (d_msgs d). intros l.
  induction l as [|x l IH]; cbn [uniqb map]; [constructor|]. intros H. apply andb_prop in H. destruct H as [H1 H2].
  constructor; [|exact (IH H2)]. intros H. apply in_map_iff in H. destruct H as (y & E & Hy). apply negb_true_iff in H1.
  assert (K : existsb (fun y => clash (pk mr_id x) (pk mr_id y)) l = true)
    by (apply existsb_exists; exists y; split; [exact Hy|]; unfold pk; cbn [clash ceqb]; rewrite E, N.eqb_refl; reflexivity).
  congruence.
Qed.

Theorem list_answer d net name o : written raw_of d -> in_years (o_after o) -> in_years (o_before o) ->
  answer fts d net name o (list_rows by_time by_time_desc fts net name o d).
Proof.
  intros W Ha Hb. unfold list_rows. set (rows := filter _ (d_msgs d)).
  destruct (limited time_asc time_desc by_time by_time_desc (o_last o) (o_limit o) rows (fun x y H => H) asc desc) as (rest & P & S & L & K).
  exists rest. split; [|split; [|split; [|split]]].
  - eapply Permutation_NoDup; [symmetry; exact P|]. apply NoDup_filter. eapply NoDup_map_inv. apply (ids_nodup d W).
  - intros r. split.
    + intros Hr. apply (Permutation_in _ P) in Hr. apply filter_In in Hr. destruct Hr as [Hr Q]. apply andb_prop in Q. destruct Q as [Q1 Q2].
      split; [exact Hr|]. split; [apply of_target_iff; exact Q1|]. destruct (written_timed _ d W r Hr) as [t Ht].
      apply (selected_iff fts o r t Ht Ha Hb). exact Q2.
    + intros (Hr & Q1 & Q2). apply (Permutation_in _ (Permutation_sym P)). apply filter_In. split; [exact Hr|].
      destruct (written_timed _ d W r Hr) as [t Ht]. apply of_target_iff in Q1. apply (selected_iff fts o r t Ht Ha Hb) in Q2.
      rewrite Q1, Q2. reflexivity.
  - eapply sorted_weaken; [apply not_later_of|exact S].
  - rewrite L, (Permutation_length P). reflexivity.
  - intros x y Hx Hy. specialize (K x y Hx Hy). destruct (o_last o); apply not_later_of; exact K.
Qed.
End Lists.

(** ** Later databases *)

Section Later.
Variable raw_of : message -> bytes.

Lemma extends_stored d d' rows net name r : valid d -> extends d d' rows -> In r (d_msgs d) ->
  (stored_for d' net name r <-> stored_for d net name r).
Proof.
  intros V [E1 (ts & E2 & E3) E4] Hr. split; intros (t & Ht & K1 & K2 & K3); exists t.
  - rewrite E2 in Ht. apply in_app_or in Ht. destruct Ht as [Ht|Ht]; [auto|]. exfalso. apply (E3 t Ht). rewrite K1.
    exact (in_msgs _ (valid_intact _ V) r Hr).
  - split; [rewrite E2; apply in_or_app; left; exact Ht|auto].
Qed.

Record follows (net : N) (name : bytes) (d d' : db) : Prop := {
  fo_keep : forall r, In r (d_msgs d) -> stored_for d net name r -> In r (d_msgs d') /\ stored_for d' net name r;
  fo_new : forall r, In r (d_msgs d') -> stored_for d' net name r ->
    (In r (d_msgs d) /\ stored_for d net name r) \/
    (forall r0, In r0 (d_msgs d) -> stored_for d net name r0 -> mr_id r0 < mr_id r) }.

Lemma follows_same net name d d' : d_msgs d' = d_msgs d -> d_targets d' = d_targets d -> follows net name d d'.
Proof. intros E1 E2. constructor; unfold stored_for; intros r; rewrite E1, E2; auto. Qed.

Lemma follows_erased net name d d' U (K : N -> Prop) : valid d -> erased d d' U K -> ~ K net -> follows net name d d'.
Proof.
  intros V Er Hk. constructor; intros r Hr (t & Ht & K1 & K2 & K3).
  - split.
    + apply (er_msgs _ _ _ _ Er). split; [exact Hr|]. intros (k & (t' & Ht' & J1 & J2) & Kk).
      assert (t' = t) by (eapply (uniqb_pk tr_id); [exact (v_targets _ V)|exact Ht'|exact Ht|congruence]). subst t'. congruence.
    + exists t. split; [|auto]. apply (er_targets _ _ _ _ Er). split; [exact Ht|]. rewrite K2. exact Hk.
  - left. apply (er_msgs _ _ _ _ Er) in Hr. split; [tauto|]. exists t. apply (er_targets _ _ _ _ Er) in Ht. tauto.
Qed.

Lemma follows_step net name d c : reachable raw_of d -> own_call d c -> clock_call c -> stays net d c ->
  follows net name d (step_db raw_of d c).
Proof.
  intros R Own Clk St. destruct (reachable_ok _ _ R) as [V O]. unfold step_db.
  destruct (perform raw_of c d) as [d'|] eqn:H; [|apply follows_same; reflexivity].
  destruct c; cbn [perform] in H.
  + apply fst_opt_some in H. destruct H as [i H]. unfold store_user in H. destruct (N.eqb (gu_id u) 0);
      (destruct (check _) as [e|] eqn:E; [|discriminate]); apply check_some in E; destruct E as [-> E]; injection H as <- <-; apply follows_same; reflexivity.
  + destruct (delete_user_erased d id V O) as (d2 & H2 & _ & Er). rewrite H in H2. injection H2 as <-.
    exact (follows_erased net name _ _ _ _ V Er St).
  + apply fst_opt_some in H. destruct H as [i H]. unfold store_network in H.
    destruct (sasl_columns n) as [[[[[? ?] ?] ?] ?]|]; [|discriminate]. destruct (N.eqb (gn_id n) 0);
      (destruct (check _) as [e|] eqn:E; [|discriminate]); apply check_some in E; destruct E as [-> E]; injection H as <- <-; apply follows_same; reflexivity.
  + destruct (delete_network_erased d id V) as (d2 & H2 & _ & Er). rewrite H in H2. injection H2 as <-.
    exact (follows_erased net name _ _ _ _ V Er St).
  + apply fst_opt_some in H. destruct H as [i H]. unfold store_channel in H. destruct (N.eqb (gc_id c) 0);
      (destruct (check _) as [e|] eqn:E; [|discriminate]); apply check_some in E; destruct E as [-> E]; injection H as <- <-; apply follows_same; reflexivity.
  + apply check_some in H. destruct H as [-> H]. apply follows_same; reflexivity.
  + unfold store_drcpts in H.
    assert (K : d_msgs d' = d_msgs d /\ d_targets d' = d_targets d).
    { refine (exec_inv (fun e => d_msgs e = d_msgs d /\ d_targets e = d_targets d) _ _ _ _ _ H); [|split; reflexivity].
      intros st e [<-|Hst] E; [exact E|]. apply in_map_iff in Hst. destruct Hst as (x & <- & _). exact E. }
    destruct K. apply follows_same; assumption.
  + apply fst_opt_some in H. destruct H as [i H]. unfold store_rrcpt in H. destruct (N.eqb id 0);
      (destruct (check _) as [e|] eqn:E; [|discriminate]); apply check_some in E; destruct E as [-> E]; injection H as <- <-; apply follows_same; reflexivity.
  + apply fst_opt_some in H. destruct H as [i H]. unfold store_sub in H. destruct (N.eqb (gs_id s) 0);
      (destruct (check _) as [e|] eqn:E; [|discriminate]); apply check_some in E; destruct E as [-> E]; injection H as <- <-; apply follows_same; reflexivity.
  + apply check_some in H. destruct H as [-> H]. apply follows_same; reflexivity.
  + apply fst_opt_some in H. destruct H as [i H]. cbn [clock_call] in Clk.
    destruct (store_messages_rows _ _ _ _ _ _ _ _ Clk H) as (rows & Ex & _). constructor.
    * intros r Hr Hs. split; [rewrite (ex_msgs _ _ _ Ex); apply in_or_app; left; exact Hr|]. apply (extends_stored _ _ _ _ _ _ V Ex Hr). exact Hs.
    * intros r Hr Hs. rewrite (ex_msgs _ _ _ Ex) in Hr. apply in_app_or in Hr. destruct Hr as [Hr|Hr].
      -- left. split; [exact Hr|]. apply (extends_stored _ _ _ _ _ _ V Ex Hr). exact Hs.
      -- right. intros r0 Hr0 _. exact (ex_ids _ _ _ Ex r0 r Hr0 Hr).
Qed.

Lemma follows_trans net name a b c : follows net name a b -> follows net name b c -> follows net name a c.
Proof.
  intros [K1 N1] [K2 N2]. constructor.
  - intros r Hr Hs. destruct (K1 r Hr Hs). apply K2; assumption.
  - intros r Hr Hs. destruct (N2 r Hr Hs) as [[H1 H2]|H]; [exact (N1 r H1 H2)|]. right. intros r0 H0 S0. destruct (K1 r0 H0 S0). apply H; assumption.
Qed.

Lemma later_follows net name d d' : written raw_of d -> later raw_of net d d' -> written raw_of d' /\ follows net name d d'.
Proof.
  intros W. induction 1 as [|d' c L [W' F] Own Clk St].
  - split; [exact W|]. apply follows_same; reflexivity.
  - split; [apply written_step; assumption|]. eapply follows_trans; [exact F|]. apply follows_step; try assumption. exact (written_reachable _ _ W').
Qed.

Variables (by_time by_time_desc : list msg_row -> list msg_row) (fts : bytes -> option bytes -> bool).
Hypothesis asc : sorts time_asc by_time.
Hypothesis desc : sorts time_desc by_time_desc.

Lemma best_ext {A} (le : A -> A -> Prop) (P Q : A -> Prop) n last out : (forall x, P x <-> Q x) -> best le P n last out -> best le Q n last out.
Proof. intros E (rest & H1 & H2 & H). exists rest. split; [exact H1|]. split; [intros x; rewrite H2; apply E|exact H]. Qed.

(** The pointed message is the last one stored. *)
Definition points_last (d : db) (net : N) (name : bytes) : Prop :=
  forall r, In r (d_msgs d) -> stored_for d net name r ->
    db_last_msg_id by_time_desc net name d <> 0 /\ mr_id r <= db_last_msg_id by_time_desc net name d.

Lemma last_in d net name : (forall r, In r (d_msgs d) -> stored_for d net name r -> False) \/
  exists r, In r (d_msgs d) /\ stored_for d net name r /\ db_last_msg_id by_time_desc net name d = mr_id r /\
    forall r', In r' (d_msgs d) -> stored_for d net name r' -> r' = r \/ time_desc r r'.
Proof.
  unfold db_last_msg_id, last_id. destruct (desc (filter (of_target d net name) (d_msgs d))) as [P S].
  assert (In' : forall r, In r (by_time_desc (filter (of_target d net name) (d_msgs d))) <-> In r (d_msgs d) /\ stored_for d net name r).
  { intros r. rewrite <- of_target_iff, <- filter_In. split; intros H; [exact (Permutation_in _ P H)|exact (Permutation_in _ (Permutation_sym P) H)]. }
  destruct (by_time_desc _) as [|r l].
  - left. intros r H1 H2. exact (proj2 (In' r) (conj H1 H2)).
  - right. exists r. destruct (proj1 (In' r) (or_introl eq_refl)) as [H1 H2]. split; [exact H1|]. split; [exact H2|]. split; [reflexivity|].
    intros r' H1' H2'. destruct (proj2 (In' r') (conj H1' H2')) as [E|H]; [auto|right]. inversion S; subst. rewrite Forall_forall in H5. exact (H5 r' H).
Qed.

Lemma ids_pos d : written raw_of d -> forall r, In r (d_msgs d) -> mr_id r <> 0.
Proof.
  induction 1 as [|d c W IH Own Clk]; [intros r []|].
  destruct (reachable_ok _ _ (written_reachable _ d W)) as [V O]. intros r Hr.
  unfold step_db in Hr. destruct (perform raw_of c d) as [d'|] eqn:H; [|exact (IH r Hr)].
  destruct c; cbn [perform] in H; try (apply IH;
    first [ apply fst_opt_some in H; destruct H as [i H]; unfold store_user, store_channel, store_rrcpt, store_sub in H;
            match type of H with context [if ?b then _ else _] => destruct b end;
            (destruct (check _) as [e|] eqn:E; [|discriminate]); apply check_some in E; destruct E as [-> E]; injection H as <- <-; exact Hr
          | apply check_some in H; destruct H as [-> H]; exact Hr ]).
  - destruct (delete_user_erased d id V O) as (d2 & H2 & _ & Er). rewrite H in H2. injection H2 as <-. apply IH. apply (er_msgs _ _ _ _ Er) in Hr. tauto.
  - apply IH. apply fst_opt_some in H. destruct H as [i H]. unfold store_network in H.
    destruct (sasl_columns n) as [[[[[? ?] ?] ?] ?]|]; [|discriminate]. destruct (N.eqb (gn_id n) 0);
      (destruct (check _) as [e|] eqn:E; [|discriminate]); apply check_some in E; destruct E as [-> E]; injection H as <- <-; exact Hr.
  - destruct (delete_network_erased d id V) as (d2 & H2 & _ & Er). rewrite H in H2. injection H2 as <-. apply IH. apply (er_msgs _ _ _ _ Er) in Hr. tauto.
  - apply IH. unfold store_drcpts in H.
    assert (K : d_msgs d' = d_msgs d).
    { refine (exec_inv (fun e => d_msgs e = d_msgs d) _ _ _ _ _ H); [|reflexivity].
      intros st e [<-|Hst] E; [exact E|]. apply in_map_iff in Hst. destruct Hst as (x & <- & _). exact E. }
    rewrite K in Hr. exact Hr.
  - apply fst_opt_some in H. destruct H as [i H]. cbn [clock_call] in Clk. revert Hr.
    unfold store_messages in H. destruct l as [|m l]; [injection H as <- <-; apply IH|].
    destruct (check (add_target net name d)) as [e|] eqn:E; [|discriminate]. apply check_some in E. destruct E as [-> E].
    assert (M : d_msgs (add_target net name d) = d_msgs d) by (unfold add_target; destruct (existsb _ _); reflexivity).
    assert (IH' : forall r, In r (d_msgs (add_target net name d)) -> mr_id r <> 0) by (rewrite M; exact IH). clear IH M E.
    revert r. revert H IH'. generalize (add_target net name d) i (m :: l). clear. intros d i l. revert d i.
    induction l as [|m l IHl]; intros d i H IH; cbn [insert_msgs] in H; [injection H as <- <-; exact IH|].
    destruct (insert_msg raw_of net name now m d) as [[e id]|] eqn:E; [|discriminate].
    destruct (insert_msgs raw_of net name now l e) as [[e' ids']|] eqn:E'; [|discriminate]. injection H as <- <-.
    apply (IHl _ _ E'). unfold insert_msg in E. destruct (message_time now m); [|discriminate]. destruct (sqlite_value z); [|discriminate].
    destruct (filter _ (d_targets d)); [injection E as <- <-; exact IH|]. destruct (check _) as [x|] eqn:C; [|discriminate].
    apply check_some in C. destruct C as [-> _]. injection E as <- <-. intros r Hr. cbn [d_msgs with_msgs] in Hr. apply in_app_or in Hr.
    destruct Hr as [Hr|[<-|[]]]; [exact (IH r Hr)|]. cbn [mr_id]. apply next_id_pos.
Qed.

Lemma points_exact d d' net name limit : written raw_of d -> later raw_of net d d' -> points_last d net name ->
  best not_later (fun r => stored_since d d' net name r /\ mr_text r <> None) limit true
    (db_load_latest by_time by_time_desc fts net name (db_last_msg_id by_time_desc net name d) limit d').
Proof.
  intros W L Pt. destruct (later_follows net name d d' W L) as [W' F]. unfold db_load_latest.
  set (o := Options _ 0 0 limit false [] [] true).
  assert (Y0 : in_years 0) by (unfold in_years; lia).
  pose proof (list_answer raw_of by_time by_time_desc fts asc desc d' net name o W' Y0 Y0) as A. unfold answer in A.
  eapply best_ext; [|exact A]. intros r. unfold stored_since, in_bounds, o. cbn [o_after_id o_after o_before o_sender o_text o_events].
  split.
  - intros (H1 & H2 & (B1 & _ & _ & _ & _ & B6)). split; [split; [exact H1|split; [exact H2|]]|destruct B6; [discriminate|assumption]].
    intros [H3 H4]. destruct (Pt r H3 H4) as [P1 P2]. destruct B1 as [B1|B1]; [congruence|lia].
  - intros ((H1 & H2 & H3) & H4). split; [exact H1|]. split; [exact H2|]. split; [|split; [|split; [|split; [|split]]]]; auto.
    destruct (fo_new _ _ _ _ F r H1 H2) as [K|K]; [contradiction|].
    destruct (last_in d net name) as [E|(r0 & R1 & R2 & R3 & _)].
    + left. unfold db_last_msg_id, last_id. destruct (by_time_desc _) as [|x l] eqn:Ex; [reflexivity|]. exfalso.
      destruct (desc (filter (of_target d net name) (d_msgs d))) as [P _]. rewrite Ex in P.
      pose proof (Permutation_in _ P (or_introl eq_refl)) as Hx. apply filter_In in Hx. destruct Hx as [Hx1 Hx2]. apply of_target_iff in Hx2. exact (E x Hx1 Hx2).
    + right. rewrite R3. exact (K r0 R1 R2).
Qed.

Lemma order_points d net name : written raw_of d -> in_time_order d net name -> points_last d net name.
Proof.
  intros W Ord r Hr Hs. destruct (last_in d net name) as [E|(r0 & R1 & R2 & R3 & R4)]; [destruct (E r Hr Hs)|]. rewrite R3.
  split; [exact (ids_pos d W r0 R1)|]. destruct (N.le_gt_cases (mr_id r) (mr_id r0)) as [K|K]; [exact K|]. exfalso.
  destruct (R4 r Hr Hs) as [->|D]; [lia|]. destruct (written_timed _ d W r Hr) as [t Ht]. destruct (written_timed _ d W r0 R1) as [t0 Ht0].
  pose proof (Ord r0 r t0 t R1 Hr R2 Hs K Ht0 Ht) as Lt. apply D. destruct Ht as [Y E]. destruct Ht0 as [Y0 E0]. rewrite E, E0.
  apply format_lt_iff; assumption.
Qed.

Lemma weak_points d net name : written raw_of d -> in_weak_time_order d net name -> sorts time_id_desc by_time_desc -> points_last d net name.
Proof.
  intros W Ord Ds r Hr Hs. destruct (last_in d net name) as [E|(r0 & R1 & R2 & R3 & R4)]; [destruct (E r Hr Hs)|]. rewrite R3.
  split; [exact (ids_pos d W r0 R1)|]. destruct (N.le_gt_cases (mr_id r) (mr_id r0)) as [K|K]; [exact K|]. exfalso.
  destruct (Ds (filter (of_target d net name) (d_msgs d))) as [P S].
  unfold db_last_msg_id, last_id in R3.
  assert (Hin : In r (by_time_desc (filter (of_target d net name) (d_msgs d)))).
  { apply (Permutation_in _ (Permutation_sym P)). apply filter_In. split; [exact Hr|]. apply of_target_iff. exact Hs. }
  destruct (by_time_desc _) as [|x l] eqn:Ex; [destruct Hin|].
  assert (Hx : In x (d_msgs d)).
  { pose proof (Permutation_in _ P (or_introl eq_refl)) as Hx. apply filter_In in Hx. tauto. }
  assert (x = r0).
  { destruct (reachable_ok _ _ (written_reachable _ d W)) as [V _]. exact (uniqb_pk mr_id _ _ _ (v_msgs _ V) Hx R1 R3). }
  subst x. destruct Hin as [->|Hin]; [lia|]. inversion S as [|? ? _ F]; subst. rewrite Forall_forall in F. specialize (F r Hin).
  destruct F as [F|[_ F]]; [|lia]. pose proof (Ord r0 r R1 Hr R2 Hs K) as NL.
  destruct (written_timed _ d W r Hr) as [t Ht]. destruct (written_timed _ d W r0 R1) as [t0 Ht0].
  pose proof (NL t0 t Ht0 Ht) as Le. destruct Ht as [Y E]. destruct Ht0 as [Y0 E0]. rewrite E, E0 in F. apply format_lt_iff in F; [lia|assumption|assumption].
Qed.
End Later.

(** ** Targets *)

Section Targets.
Variable raw_of : message -> bytes.
Variables (by_latest by_latest_desc : list (bytes * option bytes) -> list (bytes * option bytes)).
Hypothesis asc : sorts latest_asc by_latest.
Hypothesis desc : sorts latest_desc by_latest_desc.

Definition countsb (events : bool) (t : N) (m : msg_row) : bool :=
  N.eqb (mr_target m) t && (events || match mr_text m with None => false | Some _ => true end).

Lemma countsb_iff events t m : countsb events t m = true <-> mr_target m = t /\ counts events m.
Proof.
  unfold countsb, counts. rewrite andb_true_iff, N.eqb_eq, orb_true_iff.
  assert (E : (match mr_text m with None => false | Some _ => true end = true) <-> mr_text m <> None) by (destruct (mr_text m); split; congruence).
  rewrite E. reflexivity.
Qed.

Lemma fold_latest events t l : forall a v,
  fold_left (fun a m => if countsb events t m then text_max a (mr_time m) else a) l a = Some v ->
  (a = Some v \/ exists m, In m l /\ countsb events t m = true /\ mr_time m = v) /\
  (forall x, a = Some x -> ~ text_lt v x) /\ (forall m, In m l -> countsb events t m = true -> ~ text_lt v (mr_time m)).
Proof.
  induction l as [|m l IH]; intros a v H; cbn [fold_left] in H.
  - split; [auto|]. split; [intros x E; rewrite H in E; injection E as <-; apply Proof.TimeFmt.text_lt_irrefl|intros m []].
  - destruct (countsb events t m) eqn:C.
    + destruct (IH _ _ H) as (A & B1 & B2). 
      assert (Tm : ~ text_lt v (mr_time m)).
      { destruct a as [x|]; cbn [text_max] in B1; [|apply B1; reflexivity]. destruct (text_ltb x (mr_time m)) eqn:E; [apply B1; reflexivity|].
        apply text_ltb_false in E. intros K. specialize (B1 x eq_refl).
        destruct (text_total x (mr_time m)) as [T|[T|T]]; [contradiction| |]; [subst x; contradiction|]. apply B1. eapply text_lt_trans; eassumption. }
      split; [|split].
      * destruct A as [A|(m' & A1 & A2 & A3)]; [|right; exists m'; split; [right; exact A1|auto]].
        destruct a as [x|]; cbn [text_max] in A.
        -- destruct (text_ltb x (mr_time m)); injection A as A; [right; exists m; split; [left; reflexivity|auto]|left; congruence].
        -- injection A as A. right. exists m. split; [left; reflexivity|auto].
      * intros x E. subst a. cbn [text_max] in B1. destruct (text_ltb x (mr_time m)) eqn:E; [|apply B1; reflexivity].
        apply text_ltb_iff in E. intros K. apply Tm. eapply text_lt_trans; eassumption.
      * intros m' [<-|Hm'] Hc; [exact Tm|exact (B2 m' Hm' Hc)].
    + destruct (IH _ _ H) as (A & B1 & B2). split; [|split; [exact B1|]].
      * destruct A as [A|(m' & A1 & A2)]; [auto|right; exists m'; split; [right; exact A1|exact A2]].
      * intros m' [<-|Hm'] Hc; [congruence|exact (B2 m' Hm' Hc)].
Qed.

Lemma fold_latest_none events t l : forall a,
  fold_left (fun a m => if countsb events t m then text_max a (mr_time m) else a) l a = None ->
  forall m, In m l -> countsb events t m = true -> False.
Proof.
  assert (G : forall l x, exists y, fold_left (fun a m => if countsb events t m then text_max a (mr_time m) else a) l (Some x) = Some y).
  { intros k. induction k as [|m k IH]; intros x; cbn [fold_left]; [eexists; reflexivity|].
    destruct (countsb events t m); [|apply IH]. cbn [text_max]. destruct (text_ltb x (mr_time m)); apply IH. }
  induction l as [|m l IH]; intros a H m'; [intros []|]. cbn [fold_left] in H. intros [<-|Hm] C.
  - rewrite C in H. assert (E : exists y, text_max a (mr_time m) = Some y) by (destruct a; cbn [text_max]; [destruct (text_ltb _ _)|]; eexists; reflexivity).
    destruct E as [y E]. rewrite E in H. destruct (G l y) as [z Ez]. congruence.
  - exact (IH _ H m' Hm C).
Qed.

Lemma latest_some d events t v : timed d -> latest d events t = Some v ->
  exists u, in_years u /\ v = format_time u /\ is_latest d events t u.
Proof.
  intros Td H. destruct (fold_latest events t (d_msgs d) None v H) as (A & _ & B).
  destruct A as [A|(m & Hm & C & E)]; [discriminate|]. destruct (Td m Hm) as [u [Hu Eu]]. exists u. split; [exact Hu|]. split; [congruence|].
  apply countsb_iff in C. split.
  - exists m. split; [exact Hm|]. split; [tauto|]. split; [tauto|]. split; assumption.
  - intros m' v' Hm' Ht' Hc' [Y' E']. specialize (B m' Hm' (proj2 (countsb_iff events t m') (conj Ht' Hc'))).
    destruct (Z.le_gt_cases (millis v') (millis u)) as [K|K]; [exact K|]. exfalso. apply B. rewrite E', <- E, Eu. apply format_lt_iff; assumption.
Qed.

Lemma is_latest_same d events t u u' : timed d -> is_latest d events t u -> is_latest d events t u' -> format_time u = format_time u'.
Proof.
  intros Td [(m & H1 & H2 & H3 & H4) M] [(m' & H1' & H2' & H3' & H4') M'].
  pose proof (M m' u' H1' H2' H3' H4'). pose proof (M' m u H1 H2 H3 H4). apply Proof.TimeFmt.format_same. unfold millis in *. lia.
Qed.

Lemma latest_iff d events t u : timed d -> is_latest d events t u -> latest d events t = Some (format_time u).
Proof.
  intros Td L. destruct (latest d events t) as [v|] eqn:E.
  - destruct (latest_some d events t v Td E) as (u' & _ & -> & L'). f_equal. exact (is_latest_same d events t u' u Td L' L).
  - exfalso. destruct L as [(m & H1 & H2 & H3 & _) _]. refine (fold_latest_none events t (d_msgs d) None E m H1 _). apply countsb_iff. auto.
Qed.

Lemma target_names d net : valid d -> NoDup (map tr_target (filter (fun t => N.eqb (tr_network t) net) (d_targets d))).
Proof.
  intros V. apply v_targets_key in V. revert V. generalize (d_targets d). intros l.
  induction l as [|x l IH]; cbn [uniqb filter]; [constructor|]. intros H. apply andb_prop in H. destruct H as [H1 H2].
  destruct (N.eqb (tr_network x) net) eqn:En; [|exact (IH H2)]. cbn [map]. constructor; [|exact (IH H2)].
  intros H. apply in_map_iff in H. destruct H as (y & E & Hy). apply filter_In in Hy. destruct Hy as [Hy Hn].
  apply N.eqb_eq in En, Hn. apply negb_true_iff in H1.
  assert (K : existsb (fun y => clash (target_key x) (target_key y)) l = true).
  { apply existsb_exists. exists y. split; [exact Hy|]. unfold target_key. cbn [clash ceqb]. rewrite En, Hn, E, N.eqb_refl, beqb_refl. reflexivity. }
  congruence.
Qed.

Lemma target_not_later_of a b : latest_asc a b -> target_not_later a b.
Proof.
  intros H u v Hu Hv Eu Ev. unfold latest_asc in H. rewrite Eu, Ev in H. cbn [opt_lt] in H.
  destruct (Z.le_gt_cases (millis u) (millis v)) as [K|K]; [exact K|]. exfalso. apply H. apply format_lt_iff; assumption.
Qed.

Lemma null_ltb_some a b : null_ltb a b = true -> exists x y, a = Some x /\ b = Some y /\ text_lt x y.
Proof. destruct a, b; cbn [null_ltb]; try discriminate. intros H. apply text_ltb_iff in H. eauto. Qed.

Theorem targets_answer d net lo hi limit events (last : bool) : written raw_of d -> in_years lo -> in_years hi -> lo <> 0%Z -> hi <> 0%Z -> (lo < hi)%Z ->
  best target_not_later (target_between d net events lo hi) limit last
    (db_list_targets by_latest by_latest_desc net (if last then hi else lo) (if last then lo else hi) limit events d).
Proof.
  intros W Hlo Hhi Nlo Nhi Lt. pose proof (written_timed _ d W) as Td. destruct (reachable_ok _ _ (written_reachable _ d W)) as [V _].
  unfold db_list_targets.
  assert (E : (if Z.ltb (if last then hi else lo) (if last then lo else hi) then Options 0 (if last then hi else lo) (if last then lo else hi) limit events [] [] false
               else Options 0 (if last then lo else hi) (if last then hi else lo) limit events [] [] true) = Options 0 lo hi limit events [] [] last).
  { destruct last; [destruct (Z.ltb_spec hi lo); [lia|reflexivity]|destruct (Z.ltb_spec lo hi); [reflexivity|lia]]. }
  rewrite E. unfold list_latest. cbn [o_after o_before o_events o_limit o_last].
  rewrite (proj2 (Z.eqb_neq lo 0) Nlo), (proj2 (Z.eqb_neq hi 0) Nhi). cbn [orb].
  set (rows := map _ (filter _ (d_targets d))). set (kept := filter _ rows).
  destruct (limited latest_asc latest_desc by_latest by_latest_desc last limit kept (fun x y H => H) asc desc) as (rest & P & S & L & K).
  exists rest. split; [|split; [|split; [|split]]].
  - eapply Permutation_NoDup; [symmetry; exact P|]. apply NoDup_filter. apply NoDup_map_inv with (f := fst). unfold rows. rewrite map_map. cbn [fst].
    apply target_names. exact V.
  - intros x. assert (I : In x kept <-> target_between d net events lo hi x).
    { unfold kept, rows. rewrite filter_In, in_map_iff. split.
      - intros [(t & <- & Ht) Q]. apply filter_In in Ht. destruct Ht as [Ht Hn]. apply N.eqb_eq in Hn. cbn [snd] in Q.
        apply andb_prop in Q. destruct Q as [Q1 Q2]. apply null_ltb_some in Q1, Q2.
        destruct Q1 as (a & v & Ea & Ev & L1). destruct Q2 as (v' & b & Ev' & Eb & L2). injection Ea as <-. injection Eb as <-.
        rewrite Ev in Ev'. injection Ev' as <-. destruct (latest_some d events (tr_id t) v Td Ev) as (u & Hu & -> & Lu).
        exists t, u. split; [exact Ht|]. split; [exact Hn|]. split; [rewrite Ev; reflexivity|]. split; [exact Lu|].
        apply format_lt_iff in L1; [|assumption|assumption]. apply format_lt_iff in L2; [|assumption|assumption]. split; assumption.
      - intros (t & u & Ht & Hn & -> & Lu & B1 & B2). pose proof (latest_iff d events (tr_id t) u Td Lu) as El.
        assert (Hu : in_years u) by (destruct Lu as [(m & _ & _ & _ & Y & _) _]; exact Y).
        split.
        + exists t. split; [rewrite El; reflexivity|]. apply filter_In. split; [exact Ht|]. apply N.eqb_eq. exact Hn.
        + cbn [snd null_ltb]. apply andb_true_iff. split; apply text_ltb_iff; apply format_lt_iff; assumption. }
    rewrite <- I. split; intros H; [exact (Permutation_in _ P H)|exact (Permutation_in _ (Permutation_sym P) H)].
  - eapply sorted_weaken; [apply target_not_later_of|exact S].
  - rewrite L, (Permutation_length P). reflexivity.
  - intros x y Hx Hy. specialize (K x y Hx Hy). destruct last; apply target_not_later_of; exact K.
Qed.
End Targets.

(** ** Storing works *)

From Verif.Proof Require Import SqlStore.

Section Works.
Variable raw_of : message -> bytes.

Lemma insert_msg_works net name now m d t : valid d -> message_time now m = Some t -> t <> 0%Z ->
  exists d' id, insert_msg raw_of net name now m d = Some (d', id).
Proof.
  intros V Et Nt. unfold insert_msg. rewrite Et. unfold sqlite_value. rewrite (proj2 (Z.eqb_neq t 0) Nt).
  destruct (filter _ (d_targets d)) as [|r rs] eqn:EF; [eexists; eexists; reflexivity|].
  assert (K : In r (d_targets d)) by (assert (K : In r (r :: rs)) by (left; reflexivity); rewrite <- EF in K; apply filter_In in K; tauto).
  rewrite check_valid; [eexists; eexists; reflexivity|].
  destruct V. constructor; cbn [with_msgs d_users d_nets d_chans d_drcpts d_rrcpts d_subs d_targets d_msgs]; try assumption.
  - apply uniqb_snoc; [assumption|]. intros y Hy. rewrite clash_refl_pk. apply N.eqb_neq. cbn [mr_id]. intros E.
    apply (next_id_fresh (map mr_id (d_msgs d))). rewrite <- E. apply in_map. exact Hy.
  - apply refsb_snoc; [assumption|]. intros k E. injection E as <-. unfold target_ids. apply in_map. exact K.
Qed.

Lemma insert_msgs_works net name now l : (forall m, In m l -> exists t, message_time now m = Some t /\ t <> 0%Z) -> forall d, valid d ->
  exists d' ids, insert_msgs raw_of net name now l d = Some (d', ids).
Proof.
  induction l as [|m l IH]; intros H d V; cbn [insert_msgs]; [eexists; eexists; reflexivity|].
  destruct (H m (or_introl eq_refl)) as (t & Et & Nt). destruct (insert_msg_works net name now m d t V Et Nt) as (e & id & E). rewrite E.
  apply insert_msg_some in E; [|exact V]. destruct (IH (fun m' Hm => H m' (or_intror Hm)) e (proj1 E)) as (e' & ids & ->).
  eexists. eexists. reflexivity.
Qed.

Lemma add_target_valid net name d : valid d -> In net (map nr_id (d_nets d)) -> valid (add_target net name d).
Proof.
  intros V Hn. unfold add_target. destruct (existsb _ (d_targets d)) eqn:E; [exact V|].
  destruct V. constructor; cbn [with_targets d_users d_nets d_chans d_drcpts d_rrcpts d_subs d_targets d_msgs]; try assumption.
  - apply uniqb_snoc; [assumption|]. intros y Hy. rewrite clash_refl_pk. apply N.eqb_neq. cbn [tr_id]. intros E'.
    apply (next_id_fresh (target_ids d)). rewrite <- E'. apply in_map. exact Hy.
  - apply uniqb_snoc; [assumption|]. intros y Hy. match goal with |- ?c = false => destruct c eqn:C; [|reflexivity] end.
    rewrite <- E. symmetry. apply existsb_exists. exists y. auto.
  - apply refsb_snoc; [assumption|]. intros k Ek. injection Ek as <-. exact Hn.
  - match goal with K : refsb _ _ (d_msgs d) = true |- _ => revert K end. rewrite !refsb_iff. intros F x k Hx Ex. unfold target_ids. cbn [with_targets d_targets]. rewrite map_app. apply in_or_app. left. exact (F x k Hx Ex).
Qed.

Theorem store_works d net name now l : written raw_of d -> In net (map nr_id (d_nets d)) -> in_years now ->
  (forall m, In m l -> exists t, message_time now m = Some t /\ t <> 0%Z) ->
  exists d' ids rows, store_messages raw_of net name now l d = Some (d', ids) /\
    d_msgs d' = d_msgs d ++ rows /\ Forall2 (row_of raw_of now) l rows /\ map mr_id rows = ids /\ StronglySorted N.lt ids /\
    (forall r, In r rows -> stored_for d' net name r /\ forall r0, In r0 (d_msgs d) -> mr_id r0 < mr_id r) /\
    (forall r k nm, In r (d_msgs d) -> (stored_for d' k nm r <-> stored_for d k nm r)).
Proof.
  intros W Hn Hy Hl. destruct (reachable_ok _ _ (written_reachable _ d W)) as [V _].
  assert (S : exists d' ids, store_messages raw_of net name now l d = Some (d', ids)).
  { unfold store_messages. destruct l as [|m l]; [eexists; eexists; reflexivity|].
    pose proof (add_target_valid net name d V Hn) as V'. rewrite (check_valid _ V'). apply insert_msgs_works; assumption. }
  destruct S as (d' & ids & S). destruct (store_messages_rows _ _ _ _ _ _ _ _ Hy S) as (rows & Ex & E1 & E2 & E3 & E4).
  exists d', ids, rows. split; [exact S|]. split; [exact (ex_msgs _ _ _ Ex)|]. split; [exact E2|]. split; [exact E1|]. split; [exact E4|].
  split.
  - intros r Hr. rewrite Forall_forall in E3. split; [exact (E3 r Hr)|]. intros r0 Hr0. exact (ex_ids _ _ _ Ex r0 r Hr0 Hr).
  - intros r k nm Hr. exact (extends_stored d d' rows k nm r V Ex Hr).
Qed.

Lemma parse_all_ok parse l : (forall r, In r l -> exists m, mr_raw r = raw_of m /\ parse (raw_of m) = Some m) ->
  exists ms, parse_all parse l = Some ms /\ Forall2 (fun r m => mr_raw r = raw_of m) l ms.
Proof.
  induction l as [|r l IH]; intros H; cbn [parse_all]; [exists []; split; constructor|].
  destruct (H r (or_introl eq_refl)) as (m & E & P). rewrite E, P. destruct (IH (fun r' Hr => H r' (or_intror Hr))) as (ms & -> & F).
  exists (m :: ms). split; [reflexivity|]. constructor; assumption.
Qed.
End Works.

(** ** No message is lost *)

Theorem none_lost raw_of by_time by_time_desc fts d d' net name limit r :
  sorts time_asc by_time -> sorts time_desc by_time_desc -> written raw_of d -> later raw_of net d d' ->
  stored_since d d' net name r -> mr_text r <> None -> (length (d_msgs d') <= limit)%nat ->
  In r (db_load_latest by_time by_time_desc fts net name (db_last_msg_id by_time_desc net name d) limit d').
Proof.
  intros A D W L (H1 & H2 & H3) H4 Lim. destruct (later_follows raw_of net name d d' W L) as [W' F]. unfold db_load_latest.
  set (o := Options _ 0 0 limit false [] [] true). assert (Y0 : in_years 0) by (unfold in_years; lia).
  destruct (list_answer raw_of by_time by_time_desc fts A D d' net name o W' Y0 Y0) as (rest & N1 & N2 & _ & N4 & _).
  assert (Hin : In r (list_rows by_time by_time_desc fts net name o d' ++ rest)).
  { apply N2. split; [exact H1|]. split; [exact H2|]. unfold in_bounds, o. cbn [o_after_id o_after o_before o_sender o_text o_events].
    split; [|split; [|split; [|split; [|split]]]]; auto.
    destruct (fo_new _ _ _ _ F r H1 H2) as [K|K]; [contradiction|].
    destruct (last_in by_time_desc D d net name) as [E|(r0 & R1 & R2 & R3 & _)].
    + left. unfold db_last_msg_id, last_id. destruct (by_time_desc _) as [|x l] eqn:Ex; [reflexivity|]. exfalso.
      destruct (D (filter (of_target d net name) (d_msgs d))) as [P _]. rewrite Ex in P.
      pose proof (Permutation_in _ P (or_introl eq_refl)) as Hx. apply filter_In in Hx. destruct Hx as [Hx1 Hx2]. apply of_target_iff in Hx2. exact (E x Hx1 Hx2).
    + right. rewrite R3. exact (K r0 R1 R2). }
  apply in_app_or in Hin. destruct Hin as [Hin|Hin]; [exact Hin|]. exfalso.
  assert (Hlen : (length (list_rows by_time by_time_desc fts net name o d' ++ rest) <= length (d_msgs d'))%nat).
  { apply NoDup_incl_length; [exact N1|]. intros x Hx. apply N2 in Hx. tauto. }
  unfold o in N4 at 2. cbn [o_limit] in N4. rewrite Nat.min_r in N4 by lia. rewrite app_length in N4. destruct rest; [destruct Hin|cbn [length] in N4; lia].
Qed.

(** ** A way of sorting, and runs, for examples *)

Section Sorting.
Context {A : Type}.
Variable leb : A -> A -> bool.
Hypothesis total : forall x y, leb x y = false -> leb y x = true.
Hypothesis trans : forall x y z, leb x y = true -> leb y z = true -> leb x z = true.

Fixpoint insert_by (x : A) (l : list A) : list A :=
  match l with [] => [x] | y :: l' => if leb x y then x :: l else y :: insert_by x l' end.
Definition sort_by (l : list A) : list A := fold_right insert_by [] l.

Lemma insert_by_perm x l : Permutation (insert_by x l) (x :: l).
Proof.
  induction l as [|y l IH]; cbn [insert_by]; [reflexivity|]. destruct (leb x y); [reflexivity|].
  eapply Permutation_trans; [apply perm_skip; exact IH|apply perm_swap].
Qed.

Lemma insert_by_sorted x l : StronglySorted (fun a b => leb a b = true) l -> StronglySorted (fun a b => leb a b = true) (insert_by x l).
Proof.
  induction 1 as [|y l H IH K]; cbn [insert_by]; [constructor; constructor|]. destruct (leb x y) eqn:E.
  - constructor; [constructor; assumption|]. constructor; [exact E|]. eapply Forall_impl; [|exact K]. intros z. apply trans. exact E.
  - constructor; [exact IH|]. apply Forall_forall. intros z Hz. apply (Permutation_in _ (insert_by_perm x l)) in Hz.
    destruct Hz as [<-|Hz]; [apply total; exact E|]. rewrite Forall_forall in K. exact (K z Hz).
Qed.

Lemma sort_by_sorts : sorts (fun a b => leb a b = true) sort_by.
Proof.
  intros l. induction l as [|x l [P S]]; [split; constructor|]. split.
  - eapply Permutation_trans; [apply insert_by_perm|apply perm_skip; exact P].
  - apply insert_by_sorted. exact S.
Qed.
End Sorting.

Lemma sorts_weaken {A} (R S : A -> A -> Prop) f : (forall x y, R x y -> S x y) -> sorts R f -> sorts S f.
Proof. intros H K l. destruct (K l) as [P T]. split; [exact P|]. eapply sorted_weaken; eassumption. Qed.

Lemma text_not_trans a b c : ~ text_lt a b -> ~ text_lt b c -> ~ text_lt a c.
Proof.
  intros H1 H2 H. destruct (text_total a b) as [K|[->|K]]; [contradiction|contradiction|].
  destruct (text_total b c) as [J|[->|J]]; [contradiction|contradiction|]. exact (Proof.TimeFmt.text_lt_irrefl _ (text_lt_trans _ _ _ H (text_lt_trans _ _ _ J K))).
Qed.

(** SQLite's index on (target, time), read upwards and downwards. *)
Definition up_leb (a b : msg_row) : bool := negb (text_ltb (mr_time b) (mr_time a)).
Definition down_leb (a b : msg_row) : bool := text_ltb (mr_time b) (mr_time a) || (beqb (mr_time a) (mr_time b) && N.leb (mr_id b) (mr_id a)).
Definition sqlite_up : list msg_row -> list msg_row := sort_by up_leb.
Definition sqlite_down : list msg_row -> list msg_row := sort_by down_leb.

Lemma up_sorts : sorts time_asc sqlite_up.
Proof.
  eapply sorts_weaken; [|apply sort_by_sorts].
  - intros x y H. unfold up_leb in H. apply negb_true_iff in H. apply text_ltb_false in H. exact H.
  - intros x y H. unfold up_leb in *. apply negb_false_iff in H. apply text_ltb_iff in H. apply negb_true_iff. apply text_ltb_false.
    intros K. exact (Proof.TimeFmt.text_lt_asym _ _ H K).
  - intros x y z H1 H2. unfold up_leb in *. apply negb_true_iff in H1, H2. apply text_ltb_false in H1, H2. apply negb_true_iff. apply text_ltb_false.
    exact (text_not_trans _ _ _ H2 H1).
Qed.

Lemma down_leb_iff a b : down_leb a b = true <-> time_id_desc a b.
Proof. unfold down_leb, time_id_desc. rewrite orb_true_iff, andb_true_iff, text_ltb_iff, beqb_eq, N.leb_le. reflexivity. Qed.

Lemma down_sorts_id : sorts time_id_desc sqlite_down.
Proof.
  eapply sorts_weaken; [|apply sort_by_sorts].
  - intros x y H. apply down_leb_iff. exact H.
  - intros x y H. apply down_leb_iff. unfold time_id_desc.
    assert (K : ~ time_id_desc x y) by (rewrite <- down_leb_iff; congruence). unfold time_id_desc in K.
    destruct (text_total (mr_time x) (mr_time y)) as [T|[T|T]]; [auto| |tauto]. right. split; [auto|].
    destruct (N.le_gt_cases (mr_id x) (mr_id y)) as [L|L]; [exact L|]. exfalso. apply K. right. split; [exact T|lia].
  - intros x y z H1 H2. apply down_leb_iff in H1, H2. apply down_leb_iff. destruct H1 as [H1|[E1 H1]], H2 as [H2|[E2 H2]].
    + left. eapply text_lt_trans; eassumption.
    + left. rewrite <- E2. exact H1.
    + left. rewrite E1. exact H2.
    + right. split; [congruence|lia].
Qed.

Lemma down_sorts : sorts time_desc sqlite_down.
Proof.
  eapply sorts_weaken; [|exact down_sorts_id]. intros x y [H|[H _]] K.
  - exact (Proof.TimeFmt.text_lt_asym _ _ H K).
  - rewrite H in K. exact (Proof.TimeFmt.text_lt_irrefl _ K).
Qed.

Definition opt_ltb (a b : option bytes) : bool :=
  match a, b with None, Some _ => true | Some x, Some y => text_ltb x y | _, _ => false end.
Lemma opt_ltb_iff a b : opt_ltb a b = true <-> opt_lt a b.
Proof. destruct a, b; cbn [opt_ltb opt_lt]; [apply text_ltb_iff|split; [discriminate|intros []]|split; reflexivity|split; [discriminate|intros []]]. Qed.

Definition latest_up : list (bytes * option bytes) -> list (bytes * option bytes) := sort_by (fun a b => negb (opt_ltb (snd b) (snd a))).
Definition latest_down : list (bytes * option bytes) -> list (bytes * option bytes) := sort_by (fun a b => negb (opt_ltb (snd a) (snd b))).

Lemma opt_lt_asym a b : opt_lt a b -> ~ opt_lt b a.
Proof. destruct a, b; cbn [opt_lt]; auto. apply Proof.TimeFmt.text_lt_asym. Qed.
Lemma opt_not_trans a b c : ~ opt_lt a b -> ~ opt_lt b c -> ~ opt_lt a c.
Proof. destruct a, b, c; cbn [opt_lt]; auto. apply text_not_trans. Qed.

Lemma latest_up_sorts : sorts latest_asc latest_up.
Proof.
  eapply sorts_weaken; [|apply sort_by_sorts].
  - intros x y H. apply negb_true_iff in H. unfold latest_asc. rewrite <- opt_ltb_iff. congruence.
  - intros x y H. apply negb_false_iff in H. apply opt_ltb_iff in H. apply negb_true_iff. apply opt_lt_asym in H. rewrite <- opt_ltb_iff in H.
    destruct (opt_ltb (snd x) (snd y)); congruence.
  - intros x y z H1 H2. apply negb_true_iff in H1, H2. apply negb_true_iff.
    assert (K1 : ~ opt_lt (snd y) (snd x)) by (rewrite <- opt_ltb_iff; congruence). assert (K2 : ~ opt_lt (snd z) (snd y)) by (rewrite <- opt_ltb_iff; congruence).
    pose proof (opt_not_trans _ _ _ K2 K1) as K. rewrite <- opt_ltb_iff in K. destruct (opt_ltb (snd z) (snd x)); congruence.
Qed.

Lemma latest_down_sorts : sorts latest_desc latest_down.
Proof.
  eapply sorts_weaken; [|apply sort_by_sorts].
  - intros x y H. apply negb_true_iff in H. unfold latest_desc. rewrite <- opt_ltb_iff. congruence.
  - intros x y H. apply negb_false_iff in H. apply opt_ltb_iff in H. apply negb_true_iff. apply opt_lt_asym in H. rewrite <- opt_ltb_iff in H.
    destruct (opt_ltb (snd y) (snd x)); congruence.
  - intros x y z H1 H2. apply negb_true_iff in H1, H2. apply negb_true_iff.
    assert (K1 : ~ opt_lt (snd x) (snd y)) by (rewrite <- opt_ltb_iff; congruence). assert (K2 : ~ opt_lt (snd y) (snd z)) by (rewrite <- opt_ltb_iff; congruence).
    pose proof (opt_not_trans _ _ _ K1 K2) as K. rewrite <- opt_ltb_iff in K. destruct (opt_ltb (snd x) (snd z)); congruence.
Qed.

Definition years_b (t : Z) : bool := (Z.leb (-366 * 86400 * 1000000000) t && Z.ltb t (3652059 * 86400 * 1000000000))%Z.
Definition clock_callb (c : call) : bool := match c with StoreMessages _ _ now _ => years_b now | _ => true end.

Fixpoint run_ok (raw_of : message -> bytes) (d : db) (cs : list call) : bool :=
  match cs with [] => true | c :: cs => own_callb d c && clock_callb c && run_ok raw_of (step_db raw_of d c) cs end.

Lemma clock_callb_ok c : clock_callb c = true -> clock_call c.
Proof.
  destruct c; cbn [clock_callb clock_call]; auto. unfold years_b, in_years. intros H. apply andb_prop in H. destruct H as [H1 H2].
  apply Z.leb_le in H1. apply Z.ltb_lt in H2. split; assumption.
Qed.

Lemma written_run raw_of cs : forall d, written raw_of d -> run_ok raw_of d cs = true -> written raw_of (fold_left (step_db raw_of) cs d).
Proof.
  induction cs as [|c cs IH]; intros d R H; [exact R|]. cbn [run_ok] in H. apply andb_prop in H. destruct H as [H H2]. apply andb_prop in H. destruct H as [H0 H1].
  cbn [fold_left]. apply IH; [|exact H2]. apply written_step; [exact R|apply own_callb_ok; exact H0|apply clock_callb_ok; exact H1].
Qed.

(** ** The two directions *)

Theorem before_answer raw_of by_time by_time_desc fts d net name start stop limit events :
  sorts time_asc by_time -> sorts time_desc by_time_desc -> written raw_of d -> in_years start -> in_years stop -> start <> 0%Z -> stop <> 0%Z ->
  best not_later (fun r => In r (d_msgs d) /\ stored_for d net name r /\ counts events r /\
                           forall t, row_at r t -> (millis stop < millis t < millis start)%Z) limit true
    (db_load_before by_time by_time_desc fts net name start stop limit events d).
Proof.
  intros A D W Y1 Y2 N1 N2. unfold db_load_before.
  pose proof (list_answer raw_of by_time by_time_desc fts A D d net name (Options 0 stop start limit events [] [] true) W Y2 Y1) as H.
  unfold answer in H. eapply best_ext; [|exact H]. intros r. unfold in_bounds, counts. cbn [o_after_id o_after o_before o_sender o_text o_events].
  split.
  - intros (H1 & H2 & _ & [B2|B2] & [B3|B3] & _ & _ & B6); try contradiction. split; [exact H1|]. split; [exact H2|]. split; [exact B6|].
    intros t Ht. split; [exact (B2 t Ht)|exact (B3 t Ht)].
  - intros (H1 & H2 & B6 & B). split; [exact H1|]. split; [exact H2|]. split; [auto|].
    split; [right; intros t Ht; exact (proj1 (B t Ht))|]. split; [right; intros t Ht; exact (proj2 (B t Ht))|]. auto.
Qed.

Theorem after_answer raw_of by_time by_time_desc fts d net name start stop limit events :
  sorts time_asc by_time -> sorts time_desc by_time_desc -> written raw_of d -> in_years start -> in_years stop -> start <> 0%Z -> stop <> 0%Z ->
  best not_later (fun r => In r (d_msgs d) /\ stored_for d net name r /\ counts events r /\
                           forall t, row_at r t -> (millis start < millis t < millis stop)%Z) limit false
    (db_load_after by_time by_time_desc fts net name start stop limit events d).
Proof.
  intros A D W Y1 Y2 N1 N2. unfold db_load_after.
  pose proof (list_answer raw_of by_time by_time_desc fts A D d net name (Options 0 start stop limit events [] [] false) W Y1 Y2) as H.
  unfold answer in H. eapply best_ext; [|exact H]. intros r. unfold in_bounds, counts. cbn [o_after_id o_after o_before o_sender o_text o_events].
  split.
  - intros (H1 & H2 & _ & [B2|B2] & [B3|B3] & _ & _ & B6); try contradiction. split; [exact H1|]. split; [exact H2|]. split; [exact B6|].
    intros t Ht. split; [exact (B2 t Ht)|exact (B3 t Ht)].
  - intros (H1 & H2 & B6 & B). split; [exact H1|]. split; [exact H2|]. split; [auto|].
    split; [right; intros t Ht; exact (proj1 (B t Ht))|]. split; [right; intros t Ht; exact (proj2 (B t Ht))|]. auto.
Qed.

(** A check of the order of times, for examples. *)
Definition time_orderb (d : db) (net : N) (name : bytes) : bool :=
  let rows := filter (of_target d net name) (d_msgs d) in
  forallb (fun r => forallb (fun r' => negb (N.ltb (mr_id r) (mr_id r')) || text_ltb (mr_time r) (mr_time r')) rows) rows.

Lemma time_orderb_ok d net name : time_orderb d net name = true -> in_time_order d net name.
Proof.
  intros C r1 r2 t1 t2 H1 H2 S1 S2 Lt [Y1 E1] [Y2 E2]. unfold time_orderb in C. rewrite forallb_forall in C.
  apply of_target_iff in S1, S2. specialize (C r1 (proj2 (filter_In _ _ _) (conj H1 S1))). rewrite forallb_forall in C.
  specialize (C r2 (proj2 (filter_In _ _ _) (conj H2 S2))). apply N.ltb_lt in Lt. rewrite Lt in C. cbn [negb orb] in C.
  apply text_ltb_iff in C. rewrite E1, E2 in C. apply format_lt_iff in C; assumption.
Qed.
