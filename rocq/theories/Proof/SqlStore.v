(** What is read back from the tables. *)
From Verif.Base Require Import Bytes.
From Verif.Model Require Import Message TimeFmt Sql.
From Verif.Spec Require Import TimeFmt Sql.
From Verif.Proof Require TimeFmt.
From Verif.Proof Require Import Sql.
From Coq Require Import ZArith NArith.
Open Scope N_scope.

Lemma string_null s : string_of (null_string s) = s.
Proof. destruct s; reflexivity. Qed.

Lemma null_string_inj s t : null_string s = null_string t -> s = t.
Proof. intros H. rewrite <- (string_null s), <- (string_null t), H. reflexivity. Qed.

(** ** Lists of commands *)

Lemma split_crlf_nonempty s : split_crlf s <> [].
Proof.
  assert (K : forall n s, (length s <= n)%nat -> split_crlf s <> []).
  { clear s. induction n as [|n IH]; intros s Hs.
    - destruct s; [discriminate|cbn in Hs; lia].
    - destruct s as [|c [|l s]]; [discriminate|discriminate|].
      change (split_crlf (c :: l :: s)) with (if aeqb c "013" && aeqb l "010" then [] :: split_crlf s
        else match split_crlf (l :: s) with [] => [] | w :: ws => (c :: w) :: ws end).
      destruct (aeqb c "013" && aeqb l "010"); [discriminate|].
      specialize (IH (l :: s)). destruct (split_crlf (l :: s)); [|discriminate]. exfalso. apply IH; [cbn in Hs |- *; lia|reflexivity]. }
  exact (K (length s) s (le_n _)).
Qed.

Definition has_crlf (c : bytes) : Prop := exists a b, c = a ++ cmd_sep ++ b.

Lemma has_crlf_cons x c : has_crlf c -> has_crlf (x :: c).
Proof. intros (a & b & ->). exists (x :: a), b. reflexivity. Qed.

Lemma split_crlf_cons c l s : split_crlf (c :: l :: s) =
  if aeqb c "013" && aeqb l "010" then [] :: split_crlf s
  else match split_crlf (l :: s) with [] => [] | w :: ws => (c :: w) :: ws end.
Proof. reflexivity. Qed.

Lemma split_crlf_word w s : ~ has_crlf w -> split_crlf (w ++ cmd_sep ++ s) = w :: split_crlf s.
Proof.
  induction w as [|c w IH]; intros H.
  - reflexivity.
  - assert (H' : ~ has_crlf w) by (intros K; apply H, has_crlf_cons, K). specialize (IH H').
    destruct w as [|l w].
    + change (([c] ++ cmd_sep ++ s)) with (c :: "013"%char :: "010"%char :: s). rewrite split_crlf_cons.
      change (aeqb "013" "010") with false. rewrite andb_false_r.
      change ("013"%char :: "010"%char :: s) with ([] ++ cmd_sep ++ s). rewrite IH. reflexivity.
    + change ((c :: l :: w) ++ cmd_sep ++ s) with (c :: l :: (w ++ cmd_sep ++ s)). rewrite split_crlf_cons.
      destruct (aeqb c "013" && aeqb l "010") eqn:E.
      * exfalso. apply andb_prop in E. destruct E as [E1 E2]. apply aeqb_eq in E1, E2. subst c l. apply H. exists [], w. reflexivity.
      * change (l :: (w ++ cmd_sep ++ s)) with ((l :: w) ++ cmd_sep ++ s). rewrite IH. reflexivity.
Qed.

Lemma split_crlf_last w : ~ has_crlf w -> split_crlf w = [w].
Proof.
  induction w as [|c w IH]; intros H; [reflexivity|].
  assert (H' : ~ has_crlf w) by (intros K; apply H, has_crlf_cons, K). specialize (IH H').
  destruct w as [|l w]; [reflexivity|]. rewrite split_crlf_cons, IH.
  destruct (aeqb c "013" && aeqb l "010") eqn:E; [|reflexivity].
  exfalso. apply andb_prop in E. destruct E as [E1 E2]. apply aeqb_eq in E1, E2. subst c l. apply H. exists [], w. reflexivity.
Qed.

Lemma split_join_crlf l : l <> [] -> (forall c, In c l -> ~ has_crlf c) -> split_crlf (join cmd_sep l) = l.
Proof.
  induction l as [|w l IH]; intros Hne H; [congruence|].
  destruct l as [|w' l].
  - cbn [join]. apply split_crlf_last. apply H. left. reflexivity.
  - change (join cmd_sep (w :: w' :: l)) with (w ++ cmd_sep ++ join cmd_sep (w' :: l)).
    rewrite split_crlf_word by (apply H; left; reflexivity).
    rewrite IH; [reflexivity|discriminate|]. intros c Hc. apply H. right. exact Hc.
Qed.

Lemma cmds_roundtrip l : storable_cmds l ->
  match null_string (join cmd_sep l) with None => [] | Some s => split_crlf s end = l.
Proof.
  intros [Hne H]. destruct l as [|w l]; [reflexivity|].
  assert (K : forall c, In c (w :: l) -> ~ has_crlf c).
  { intros c Hc (a & b & E). exact (H c a b Hc E). }
  assert (J : join cmd_sep (w :: l) <> []).
  { destruct l as [|w' l].
    - cbn [join]. intros ->. apply Hne. reflexivity.
    - change (join cmd_sep (w :: w' :: l)) with (w ++ cmd_sep ++ join cmd_sep (w' :: l)). intros E.
      apply app_eq_nil in E. destruct E as [_ E]. discriminate E. }
  replace (null_string (join cmd_sep (w :: l))) with (Some (join cmd_sep (w :: l)))
    by (destruct (join cmd_sep (w :: l)); [congruence|reflexivity]).
  apply split_join_crlf; [discriminate|exact K].
Qed.

(** ** Updates *)

Lemma in_update {A} (id : A -> N) i g (l : list A) y :
  In y (map (fun r => if N.eqb (id r) i then g r else r) l) <->
  (exists r, In r l /\ id r = i /\ y = g r) \/ (In y l /\ id y <> i).
Proof.
  rewrite in_map_iff. split.
  - intros (r & E & Hr). destruct (N.eqb_spec (id r) i) as [Ei|Ei].
    + left. exists r. auto.
    + right. subst y. auto.
  - intros [(r & Hr & Ei & ->)|[Hy Ei]].
    + exists r. rewrite Ei, N.eqb_refl. auto.
    + exists y. apply N.eqb_neq in Ei. rewrite Ei. auto.
Qed.

Ltac chk H := match type of H with context [check ?x] => let E := fresh "E" in
  destruct (check x) as [?|] eqn:E; [|discriminate]; apply check_some in E; destruct E as [-> E] end.

(** ** Networks *)

Lemma in_list_networks d u x : In x (list_networks u d) <-> exists r, In r (d_nets d) /\ nr_user r = u /\ x = load_network r.
Proof.
  unfold list_networks. rewrite in_map_iff. split.
  - intros (r & E & Hr). apply filter_In in Hr. destruct Hr as [Hr Eu]. apply N.eqb_eq in Eu. exists r. auto.
  - intros (r & Hr & Eu & ->). exists r. split; [reflexivity|]. apply filter_In. split; [exact Hr|]. apply N.eqb_eq. exact Eu.
Qed.

Lemma store_network_read d u n d' id : valid d -> storable_cmds (gn_cmds n) -> store_network u n d = Some (d', id) ->
  (gn_id n <> 0 -> owns d u (gn_id n)) ->
  (gn_id n <> 0 -> id = gn_id n) /\
  forall u' x, In x (list_networks u' d') <->
    (u' = u /\ x = saved_network id n) \/ (In x (list_networks u' d) /\ gn_id x <> id).
Proof.
  intros V Hc H Hown. unfold store_network in H.
  destruct (sasl_columns n) as [[[[[mech puser] ppass] cert] key]|] eqn:ES; [|discriminate].
  set (row := fun id owner => NetRow id (null_string (gn_name n)) owner (gn_addr n) (null_string (gn_nick n))
    (null_string (gn_username n)) (null_string (gn_realname n)) (null_string (gn_certfp n)) (null_string (gn_pass n))
    (null_string (join cmd_sep (gn_cmds n))) mech puser ppass cert key (gn_away n) (gn_enabled n)) in H.
  assert (L : forall i o, load_network (row i o) = saved_network i n).
  { intros i o. unfold load_network, row, saved_network. cbn [nr_id nr_name nr_addr nr_nick nr_username nr_realname nr_pass nr_cmds
      nr_certfp nr_mech nr_puser nr_ppass nr_cert nr_key nr_away nr_enabled]. rewrite !string_null, (cmds_roundtrip _ Hc).
    unfold sasl_columns in ES. destruct (beqb_spec (gn_mech n) []) as [Em|Em].
    - injection ES as <- <- <- <- <-. rewrite Em. reflexivity.
    - destruct (beqb_spec (gn_mech n) (B "PLAIN")) as [Ep|Ep].
      + injection ES as <- <- <- <- <-. rewrite !string_null. reflexivity.
      + destruct (beqb (gn_mech n) (B "EXTERNAL")); [|discriminate]. injection ES as <- <- <- <- <-. rewrite string_null. reflexivity. }
  destruct (N.eqb_spec (gn_id n) 0) as [E0|E0].
  - chk H. injection H as <- <-. split; [congruence|]. intros u' x. rewrite !in_list_networks. cbn [d_nets with_nets].
    split.
    + intros (r & Hr & Eu & ->). apply in_app_or in Hr. destruct Hr as [Hr|[<-|[]]].
      * right. split; [exists r; auto|]. intros K. apply (next_id_fresh (net_ids d)). rewrite <- K.
        change (gn_id (load_network r)) with (nr_id r). apply in_map. exact Hr.
      * left. split; [symmetry; exact Eu|apply L].
    + intros [[-> ->]|[(r & Hr & Eu & ->) _]].
      * exists (row (next_id (net_ids d)) u). split; [apply in_or_app; right; left; reflexivity|]. split; [reflexivity|]. symmetry. apply L.
      * exists r. split; [apply in_or_app; left; exact Hr|]. auto.
  - chk H. injection H as <- <-. split; [reflexivity|]. intros u' x. rewrite !in_list_networks. cbn [d_nets with_nets].
    destruct (Hown E0) as (r0 & Hr0 & Ei0 & Eu0).
    split.
    + intros (r & Hr & Eu & ->). apply in_update in Hr. destruct Hr as [(r1 & Hr1 & Ei1 & ->)|[Hr Ei]].
      * left. assert (r1 = r0) by (eapply (uniqb_pk nr_id); try exact (v_nets d V); try assumption; congruence). subst r1.
        split; [|rewrite <- Ei0; apply L]. cbn [row nr_user] in Eu. congruence.
      * right. split; [exists r; auto|exact Ei].
    + intros [[-> ->]|[(r & Hr & Eu & ->) Hne]].
      * exists (row (nr_id r0) (nr_user r0)). split; [apply in_update; left; exists r0; auto|]. split; [exact Eu0|].
        rewrite <- Ei0. symmetry. apply L.
      * exists r. split; [|auto]. apply in_update. right. split; [exact Hr|exact Hne].
Qed.

(** ** Users *)

Lemma uniqb_name l r1 r2 : uniqb user_name_key l = true -> In r1 l -> In r2 l -> ur_username r1 = ur_username r2 -> r1 = r2.
Proof.
  induction l as [|z l IH]; [intros _ []|]. cbn [uniqb]. intros H H1 H2 E. apply andb_prop in H. destruct H as [K1 K2].
  apply negb_true_iff in K1.
  assert (K : forall w, In w l -> ur_username z <> ur_username w).
  { intros w Hw Ez. assert (existsb (fun y => clash (user_name_key z) (user_name_key y)) l = true); [|congruence].
    apply existsb_exists. exists w. split; [exact Hw|]. unfold user_name_key. cbn [clash ceqb]. rewrite Ez, beqb_refl. reflexivity. }
  destruct H1 as [<-|H1], H2 as [<-|H2].
  - reflexivity.
  - exfalso. exact (K _ H2 E).
  - exfalso. exact (K _ H1 (eq_sym E)).
  - exact (IH K2 H1 H2 E).
Qed.

Lemma get_user_in d r : valid d -> In r (d_users d) -> get_user (ur_username r) d = load_user r.
Proof.
  intros V Hr. unfold get_user.
  destruct (filter (fun x => beqb (ur_username x) (ur_username r)) (d_users d)) as [|y ys] eqn:E.
  - exfalso. assert (In r (filter (fun x => beqb (ur_username x) (ur_username r)) (d_users d)))
      by (apply filter_In; split; [exact Hr|apply beqb_refl]). rewrite E in H. destruct H.
  - assert (Hy : In y (filter (fun x => beqb (ur_username x) (ur_username r)) (d_users d))) by (rewrite E; left; reflexivity).
    apply filter_In in Hy. destruct Hy as [Hy Ey]. apply beqb_eq in Ey.
    rewrite (uniqb_name _ _ _ (v_users_name d V) Hy Hr Ey). reflexivity.
Qed.

Lemma get_user_none d name : (forall r, In r (d_users d) -> ur_username r <> name) -> get_user name d = None.
Proof.
  intros H. unfold get_user. destruct (filter _ (d_users d)) as [|y ys] eqn:E; [reflexivity|].
  assert (Hy : In y (filter (fun x => beqb (ur_username x) name) (d_users d))) by (rewrite E; left; reflexivity).
  apply filter_In in Hy. destruct Hy as [Hy Ey]. apply beqb_eq in Ey. destruct (H y Hy Ey).
Qed.

Lemma filter_map_other (f : user_row -> user_row) name name' l : name' <> name ->
  (forall r, ur_username (f r) = ur_username r) ->
  filter (fun r => beqb (ur_username r) name') (map (fun r => if beqb (ur_username r) name then f r else r) l) =
  filter (fun r => beqb (ur_username r) name') l.
Proof.
  intros Hne Hf. induction l as [|r l IH]; [reflexivity|]. cbn [map filter].
  destruct (beqb_spec (ur_username r) name) as [E|E].
  - rewrite Hf, E. apply not_eq_sym, beqb_neq in Hne. rewrite Hne. exact IH.
  - rewrite IH. reflexivity.
Qed.

Lemma scan_value t : in_years t -> sqlite_scan (sqlite_value t) = Some (t / 1000000 * 1000000)%Z.
Proof.
  intros Ht. unfold sqlite_value. destruct (Z.eqb_spec t 0) as [->|Hne]; [reflexivity|].
  exact (Proof.TimeFmt.parse_format t Ht).
Qed.

Lemma store_user_read now d u d' id : valid d -> in_years (gu_interacted u) -> store_user now u d = Some (d', id) ->
  (gu_id u <> 0 -> exists r, In r (d_users d) /\ ur_username r = gu_username u /\ ur_id r = gu_id u) ->
  get_user (gu_username u) d' = Some (saved_user id u) /\
  forall name, name <> gu_username u -> get_user name d' = get_user name d.
Proof.
  intros V Ht H Hex. unfold store_user in H. destruct (N.eqb_spec (gu_id u) 0) as [E0|E0].
  - chk H. injection H as <- <-.
    match type of E with valid (with_users (_ ++ [?x]) _) => set (row := x) in * end. split.
    + change (gu_username u) with (ur_username row). rewrite get_user_in; [|exact E|cbn [d_users with_users]; apply in_or_app; right; left; reflexivity].
      unfold load_user, row. cbn [ur_interacted ur_id ur_username ur_password ur_nick ur_realname ur_admin ur_enabled ur_max].
      rewrite (scan_value _ Ht), !string_null. reflexivity.
    + intros name Hn. unfold get_user. cbn [d_users with_users]. rewrite filter_app. cbn [filter].
      change (ur_username row) with (gu_username u). apply not_eq_sym, beqb_neq in Hn. rewrite Hn, app_nil_r. reflexivity.
  - chk H. injection H as <- <-. destruct (Hex E0) as (r & Hr & En & Ei). split.
    + assert (K : In (set_user u r) (map (fun r => if beqb (ur_username r) (gu_username u) then set_user u r else r) (d_users d))).
      { apply in_map_iff. exists r. rewrite En, beqb_refl. auto. }
      change (gu_username u) with (gu_username u). rewrite <- En at 1. change (ur_username r) with (ur_username (set_user u r)).
      rewrite get_user_in; [|exact E|exact K]. unfold load_user, set_user.
      cbn [ur_interacted ur_id ur_username ur_password ur_nick ur_realname ur_admin ur_enabled ur_max].
      rewrite (scan_value _ Ht), !string_null, En, Ei. reflexivity.
    + intros name Hn. unfold get_user. cbn [d_users with_users]. rewrite filter_map_other; [reflexivity|exact Hn|reflexivity].
Qed.

(** ** Channels *)

Lemma in_list_channels d k x : In x (list_channels k d) <-> exists r, In r (d_chans d) /\ cr_network r = k /\ x = load_channel r.
Proof.
  unfold list_channels. rewrite in_map_iff. split.
  - intros (r & E & Hr). apply filter_In in Hr. destruct Hr as [Hr Eu]. apply N.eqb_eq in Eu. exists r. auto.
  - intros (r & Hr & Eu & ->). exists r. split; [reflexivity|]. apply filter_In. split; [exact Hr|]. apply N.eqb_eq. exact Eu.
Qed.

Lemma ceil_rounded t : rounded_up t (ceil_seconds t * 1000000000).
Proof.
  exists (ceil_seconds t). split; [reflexivity|]. unfold ceil_seconds.
  pose proof (Z.div_mod (- t) 1000000000 ltac:(discriminate)) as E.
  pose proof (Z.mod_pos_bound (- t) 1000000000 ltac:(reflexivity)) as B. lia.
Qed.

Lemma store_channel_read d k c d' id : valid d -> store_channel k c d = Some (d', id) ->
  (gc_id c <> 0 -> exists r, In r (d_chans d) /\ cr_id r = gc_id c) ->
  exists c', saved_channel id c c' /\
  forall k' x, In x (list_channels k' d') <->
    (k' = k /\ x = c') \/ (In x (list_channels k' d) /\ gc_id x <> id).
Proof.
  intros V H Hex. unfold store_channel in H.
  set (row := fun id => ChanRow id k (gc_name c) (null_string (gc_key c)) (gc_detached c) (null_string (gc_dmsgid c))
                (gc_relay c) (gc_reattach c) (ceil_seconds (gc_after c)) (gc_on c)) in H.
  assert (L : forall i, saved_channel i c (load_channel (row i))).
  { intros i. unfold saved_channel, load_channel, row.
    cbn [gc_id gc_name gc_key gc_detached gc_dmsgid gc_relay gc_reattach gc_after gc_on cr_id cr_name cr_key cr_detached cr_dmsgid cr_relay
      cr_reattach cr_after cr_on]. rewrite !string_null. split; [reflexivity|]. split; [reflexivity|]. split; [reflexivity|].
    split; [reflexivity|]. split; [reflexivity|]. split; [reflexivity|]. split; [reflexivity|]. split; [apply ceil_rounded|reflexivity]. }
  destruct (N.eqb_spec (gc_id c) 0) as [E0|E0].
  - chk H. injection H as <- <-. exists (load_channel (row (next_id (map cr_id (d_chans d))))). split; [apply L|].
    intros k' x. rewrite !in_list_channels. cbn [d_chans with_chans]. split.
    + intros (r & Hr & Eu & ->). apply in_app_or in Hr. destruct Hr as [Hr|[<-|[]]].
      * right. split; [exists r; auto|]. intros K. apply (next_id_fresh (map cr_id (d_chans d))). rewrite <- K.
        change (gc_id (load_channel r)) with (cr_id r). apply in_map. exact Hr.
      * left. split; [symmetry; exact Eu|reflexivity].
    + intros [[-> ->]|[(r & Hr & Eu & ->) _]].
      * eexists. split; [apply in_or_app; right; left; reflexivity|]. split; reflexivity.
      * exists r. split; [apply in_or_app; left; exact Hr|]. auto.
  - chk H. injection H as <- <-. destruct (Hex E0) as (r0 & Hr0 & Ei0).
    exists (load_channel (row (gc_id c))). split; [apply L|].
    intros k' x. rewrite !in_list_channels. cbn [d_chans with_chans]. split.
    + intros (r & Hr & Eu & ->). apply in_update in Hr. destruct Hr as [(r1 & Hr1 & Ei1 & ->)|[Hr Ei]].
      * left. rewrite Ei1. split; [symmetry; exact Eu|reflexivity].
      * right. split; [exists r; auto|exact Ei].
    + intros [[-> ->]|[(r & Hr & Eu & ->) Hne]].
      * exists (row (cr_id r0)). split; [apply in_update; left; exists r0; auto|]. split; [reflexivity|]. rewrite Ei0. reflexivity.
      * exists r. split; [|auto]. apply in_update. right. split; [exact Hr|exact Hne].
Qed.

(** ** Delivery receipts *)

Lemma uniqb_snoc {A} key (l : list A) x : uniqb key l = true -> (forall y, In y l -> clash (key y) (key x) = false) ->
  uniqb key (l ++ [x]) = true.
Proof.
  induction l as [|z l IH]; intros U H.
  - reflexivity.
  - cbn [uniqb app] in *. apply andb_prop in U. destruct U as [U1 U2]. rewrite IH; [|exact U2|intros y Hy; apply H; right; exact Hy].
    rewrite andb_true_r. apply negb_true_iff. apply negb_true_iff in U1. rewrite existsb_app, U1. cbn [existsb orb].
    rewrite (H z (or_introl eq_refl)). reflexivity.
Qed.

Lemma refsb_snoc {A} ids (col : A -> option N) l x : refsb ids col l = true ->
  (forall k, col x = Some k -> In k ids) -> refsb ids col (l ++ [x]) = true.
Proof.
  rewrite !refsb_iff. intros H Hx y k Hy E. apply in_app_or in Hy. destruct Hy as [Hy|[<-|[]]]; [exact (H y k Hy E)|exact (Hx k E)].
Qed.

Definition clients_ok (d : db) : Prop := forall r, In r (d_drcpts d) -> dr_client r <> Some [].

Lemma null_string_some s : null_string s <> Some [].
Proof. destruct s; discriminate. Qed.

Record only_drcpts (d d' : db) : Prop := {
  od_users : d_users d' = d_users d; od_nets : d_nets d' = d_nets d; od_chans : d_chans d' = d_chans d;
  od_rrcpts : d_rrcpts d' = d_rrcpts d; od_subs : d_subs d' = d_subs d; od_targets : d_targets d' = d_targets d;
  od_msgs : d_msgs d' = d_msgs d }.

Lemma exec_inserts net client l : forall d d', exec (map (insert_drcpt net client) l) d = Some d' ->
  exists rows, d_drcpts d' = d_drcpts d ++ rows /\ map (fun r => (dr_target r, dr_msgid r)) rows = l /\
    (forall r, In r rows -> dr_network r = net /\ dr_client r = null_string client).
Proof.
  induction l as [|[t m] l IH]; intros d d' H.
  - injection H as <-. exists []. rewrite app_nil_r. split; [reflexivity|]. split; [reflexivity|]. intros r [].
  - cbn [map] in H. rewrite exec_cons in H. destruct (check _) as [e|] eqn:E; [|discriminate]. apply check_some in E.
    destruct E as [-> E]. apply IH in H. destruct H as (rows & H1 & H2 & H3).
    exists (DrcptRow (next_id (map dr_id (d_drcpts d))) net t (null_string client) m :: rows). split; [|split].
    + rewrite H1. cbn [insert_drcpt d_drcpts with_drcpts]. rewrite <- app_assoc. reflexivity.
    + cbn [map dr_target dr_msgid]. rewrite H2. reflexivity.
    + intros r [<-|Hr]; [split; reflexivity|exact (H3 r Hr)].
Qed.

Lemma in_list_drcpts d k t c m : In (t, c, m) (list_drcpts k d) <->
  exists r, In r (d_drcpts d) /\ dr_network r = k /\ dr_target r = t /\ string_of (dr_client r) = c /\ dr_msgid r = m.
Proof.
  unfold list_drcpts. rewrite in_map_iff. split.
  - intros (r & E & Hr). apply filter_In in Hr. destruct Hr as [Hr Eu]. apply N.eqb_eq in Eu. injection E as E1 E2 E3. exists r. auto.
  - intros (r & Hr & Eu & E1 & E2 & E3). exists r. split; [congruence|]. apply filter_In. split; [exact Hr|]. apply N.eqb_eq. exact Eu.
Qed.

Lemma null_eqb_eq a b : null_eqb a b = true <-> a = b.
Proof.
  destruct a as [a|], b as [b|]; cbn [null_eqb]; try (split; [discriminate|congruence]); try tauto.
  rewrite beqb_eq. split; [intros ->; reflexivity|intros H; injection H as ->; reflexivity].
Qed.

Lemma store_drcpts_read d k client l d' : clients_ok d -> store_drcpts k client l d = Some d' ->
  forall k' t c m, In (t, c, m) (list_drcpts k' d') <->
    (k' = k /\ c = client /\ In (t, m) l) \/ (In (t, c, m) (list_drcpts k' d) /\ ~ (k' = k /\ c = client)).
Proof.
  intros C H k' t c m. unfold store_drcpts in H. rewrite exec_cons in H.
  destruct (check _) as [e|] eqn:E; [|discriminate]. apply check_some in E. destruct E as [-> E].
  apply exec_inserts in H. destruct H as (rows & H1 & H2 & H3). cbn [d_drcpts with_drcpts] in H1.
  rewrite !in_list_drcpts, H1. split.
  - intros (r & Hr & Ek & Et & Ec & Em). apply in_app_or in Hr. destruct Hr as [Hr|Hr].
    + apply filter_In in Hr. destruct Hr as [Hr Hf]. right. split; [exists r; auto|]. intros [-> ->].
      apply negb_true_iff in Hf. rewrite Ek, N.eqb_refl in Hf. cbn [andb] in Hf.
      assert (dr_client r = null_string client); [|rewrite (proj2 (null_eqb_eq _ _) H) in Hf; discriminate].
      subst client. specialize (C r Hr). destruct (dr_client r) as [[|x s]|]; [congruence|reflexivity|reflexivity].
    + left. destruct (H3 r Hr) as [K1 K2]. split; [congruence|]. split; [rewrite <- Ec, K2, string_null; reflexivity|].
      rewrite <- H2. apply in_map_iff. exists r. split; [congruence|exact Hr].
  - intros [(-> & -> & Hl)|[(r & Hr & Ek & Et & Ec & Em) Hn]].
    + rewrite <- H2 in Hl. apply in_map_iff in Hl. destruct Hl as (r & Er & Hr). injection Er as E1 E2.
      exists r. destruct (H3 r Hr) as [K1 K2]. split; [apply in_or_app; right; exact Hr|]. rewrite K2, string_null. auto.
    + exists r. split; [|auto]. apply in_or_app. left. apply filter_In. split; [exact Hr|]. apply negb_true_iff.
      destruct (N.eqb_spec (dr_network r) k) as [Ek'|Ek']; [|reflexivity]. cbn [andb].
      destruct (null_eqb (dr_client r) (null_string client)) eqn:En; [|reflexivity]. exfalso. apply Hn.
      apply null_eqb_eq in En. split; [congruence|]. rewrite <- Ec, En, string_null. reflexivity.
Qed.

Lemma ceqb_eq a b : ceqb a b = true <-> a = b.
Proof.
  destruct a as [m|s], b as [n|t]; cbn [ceqb]; try (split; discriminate).
  - rewrite N.eqb_eq. split; [intros ->; reflexivity|intros H; injection H as ->; reflexivity].
  - rewrite beqb_eq. split; [intros ->; reflexivity|intros H; injection H as ->; reflexivity].
Qed.

Lemma insert_drcpt_valid net client t m d : valid d -> In net (map nr_id (d_nets d)) ->
  (forall r, In r (d_drcpts d) -> dr_network r = net -> dr_client r = null_string client -> dr_target r <> t) ->
  valid (insert_drcpt net client (t, m) d).
Proof.
  intros V Hn Hf. destruct V. constructor; try assumption; unfold insert_drcpt; cbn [d_drcpts with_drcpts fst snd].
  - apply uniqb_snoc; [assumption|]. intros y Hy. rewrite clash_refl_pk. apply N.eqb_neq. cbn [dr_id]. intros K.
    apply (next_id_fresh (map dr_id (d_drcpts d))). rewrite <- K. apply in_map. exact Hy.
  - apply uniqb_snoc; [assumption|]. intros y Hy. unfold drcpt_key. cbn [dr_network dr_target dr_client clash ceqb].
    destruct (N.eqb_spec (dr_network y) net) as [E1|]; [|reflexivity]. destruct (beqb_spec (dr_target y) t) as [E2|]; [|reflexivity].
    cbn [andb]. destruct (dr_client y) as [s|] eqn:E3; [|reflexivity]. destruct client as [|x w]; [reflexivity|].
    cbn [text_cell null_string ceqb andb]. rewrite andb_true_r. apply beqb_neq. intros ->. exact (Hf y Hy E1 E3 E2).
  - change (net_ids (with_drcpts _ d)) with (net_ids d). apply refsb_snoc; [assumption|]. cbn [dr_network]. intros k E. injection E as <-. exact Hn.
Qed.

Lemma store_drcpts_works d k client l : valid d -> In k (map nr_id (d_nets d)) -> NoDup (map fst l) ->
  exists d', store_drcpts k client l d = Some d'.
Proof.
  intros V Hk ND. unfold store_drcpts. rewrite exec_step by (apply valid_drcpts; exact V).
  set (e := with_drcpts _ d). assert (Ve : valid e) by (apply valid_drcpts; exact V).
  assert (He : In k (map nr_id (d_nets e))) by exact Hk.
  assert (F : forall t m, In (t, m) l -> forall r, In r (d_drcpts e) -> dr_network r = k -> dr_client r = null_string client -> dr_target r <> t).
  { intros t m _ r Hr E1 E2 _. unfold e in Hr. cbn [d_drcpts with_drcpts] in Hr. apply filter_In in Hr. destruct Hr as [_ Hr].
    apply negb_true_iff in Hr. rewrite E1, E2, N.eqb_refl in Hr. cbn [andb] in Hr.
    rewrite (proj2 (null_eqb_eq _ _) eq_refl) in Hr. discriminate. }
  clearbody e. clear V Hk d. revert e Ve He F. induction l as [|[t m] l IH]; intros e Ve He F.
  - exists e. reflexivity.
  - cbn [map fst] in ND. inversion_clear ND as [|? ? N1 N2]. cbn [map].
    assert (V1 : valid (insert_drcpt k client (t, m) e)) by (apply insert_drcpt_valid; [exact Ve|exact He|exact (F t m (or_introl eq_refl))]).
    rewrite exec_step by exact V1. apply IH; [exact N2|exact V1|exact He|].
    intros t' m' Hin r Hr E1 E2. unfold insert_drcpt in Hr. cbn [d_drcpts with_drcpts] in Hr. apply in_app_or in Hr.
    destruct Hr as [Hr|[<-|[]]]; [exact (F t' m' (or_intror Hin) r Hr E1 E2)|]. cbn [dr_target fst]. intros ->.
    apply N1. apply in_map_iff. exists (t', m'). auto.
Qed.

(** ** Read receipts *)

Lemma uniqb_rrcpt l r1 r2 : uniqb rrcpt_key l = true -> In r1 l -> In r2 l ->
  rr_network r1 = rr_network r2 -> rr_target r1 = rr_target r2 -> r1 = r2.
Proof.
  induction l as [|z l IH]; [intros _ []|]. cbn [uniqb]. intros H H1 H2 E E'. apply andb_prop in H. destruct H as [K1 K2].
  apply negb_true_iff in K1.
  assert (K : forall w, In w l -> rr_network z = rr_network w -> rr_target z <> rr_target w).
  { intros w Hw Ez Ez'. assert (existsb (fun y => clash (rrcpt_key z) (rrcpt_key y)) l = true); [|congruence].
    apply existsb_exists. exists w. split; [exact Hw|]. unfold rrcpt_key. cbn [clash ceqb].
    rewrite Ez, Ez', N.eqb_refl, beqb_refl. reflexivity. }
  destruct H1 as [<-|H1], H2 as [<-|H2].
  - reflexivity.
  - exfalso. exact (K _ H2 E E').
  - exfalso. exact (K _ H1 (eq_sym E) (eq_sym E')).
  - exact (IH K2 H1 H2 E E').
Qed.

Definition load_rrcpt (r : rrcpt_row) : option (option (N * Z)) :=
  match sqlite_scan (rr_time r) with None => None | Some t => Some (Some (rr_id r, t)) end.

Lemma get_rrcpt_in d r : valid d -> In r (d_rrcpts d) -> get_rrcpt (rr_network r) (rr_target r) d = load_rrcpt r.
Proof.
  intros V Hr. unfold get_rrcpt.
  destruct (filter _ (d_rrcpts d)) as [|y ys] eqn:E.
  - exfalso. assert (K : In r (filter (fun x => N.eqb (rr_network x) (rr_network r) && beqb (rr_target x) (rr_target r)) (d_rrcpts d)))
      by (apply filter_In; split; [exact Hr|rewrite N.eqb_refl, beqb_refl; reflexivity]). rewrite E in K. destruct K.
  - assert (Hy : In y (filter (fun x => N.eqb (rr_network x) (rr_network r) && beqb (rr_target x) (rr_target r)) (d_rrcpts d)))
      by (rewrite E; left; reflexivity).
    apply filter_In in Hy. destruct Hy as [Hy Ey]. apply andb_prop in Ey. destruct Ey as [E1 E2].
    apply N.eqb_eq in E1. apply beqb_eq in E2.
    rewrite (uniqb_rrcpt _ _ _ (v_rrcpts_key d V) Hy Hr E1 E2). reflexivity.
Qed.

Lemma get_rrcpt_some d k t i v : get_rrcpt k t d = Some (Some (i, v)) ->
  exists r, In r (d_rrcpts d) /\ rr_network r = k /\ rr_target r = t /\ rr_id r = i.
Proof.
  unfold get_rrcpt. destruct (filter _ (d_rrcpts d)) as [|y ys] eqn:E; [discriminate|].
  assert (Hy : In y (filter (fun x => N.eqb (rr_network x) k && beqb (rr_target x) t) (d_rrcpts d))) by (rewrite E; left; reflexivity).
  apply filter_In in Hy. destruct Hy as [Hy Ey]. apply andb_prop in Ey. destruct Ey as [E1 E2].
  apply N.eqb_eq in E1. apply beqb_eq in E2. destruct (sqlite_scan (rr_time y)); [|discriminate]. intros H. injection H as <- <-.
  exists y. auto.
Qed.

Lemma store_rrcpt_read d k i target t d' id : valid d -> in_years t -> store_rrcpt k i target t d = Some (d', id) ->
  (i <> 0 -> exists v, get_rrcpt k target d = Some (Some (i, v))) ->
  get_rrcpt k target d' = Some (Some (id, (t / 1000000 * 1000000)%Z)) /\
  (i <> 0 -> id = i) /\
  forall k' target', (k', target') <> (k, target) -> get_rrcpt k' target' d' = get_rrcpt k' target' d.
Proof.
  intros V Ht H Hex. unfold store_rrcpt in H. destruct (N.eqb_spec i 0) as [E0|E0].
  - chk H. injection H as <- <-. match type of E with valid (with_rrcpts (_ ++ [?x]) _) => set (row := x) in * end. split; [|split; [congruence|]].
    + change k with (rr_network row) at 1. change target with (rr_target row) at 1. rewrite get_rrcpt_in;
        [|exact E|cbn [d_rrcpts with_rrcpts]; apply in_or_app; right; left; reflexivity].
      unfold load_rrcpt, row. cbn [rr_time rr_id]. rewrite (scan_value _ Ht). reflexivity.
    + intros k' target' Hne. unfold get_rrcpt. cbn [d_rrcpts with_rrcpts]. rewrite filter_app. cbn [filter].
      change (rr_network row) with k. change (rr_target row) with target.
      destruct (N.eqb_spec k k') as [->|]; cbn [andb]; [|rewrite app_nil_r; reflexivity].
      destruct (beqb_spec target target') as [->|]; [congruence|rewrite app_nil_r; reflexivity].
  - chk H. injection H as <- <-. destruct (Hex E0) as [v Hv]. apply get_rrcpt_some in Hv. destruct Hv as (r & Hr & Ek & Et & Ei).
    split; [|split; [reflexivity|]].
    + set (r' := RrcptRow (rr_id r) (rr_network r) (rr_target r) (sqlite_value t)).
      assert (K : In r' (d_rrcpts (with_rrcpts (map (fun r => if N.eqb (rr_id r) i
         then RrcptRow (rr_id r) (rr_network r) (rr_target r) (sqlite_value t) else r) (d_rrcpts d)) d))).
      { cbn [d_rrcpts with_rrcpts]. apply in_map_iff. exists r. rewrite Ei, N.eqb_refl. split; [unfold r'; rewrite Ei; reflexivity|exact Hr]. }
      pose proof (get_rrcpt_in _ r' E K) as G. unfold r' in G at 1 2. cbn [rr_network rr_target] in G. rewrite Ek, Et in G.
      rewrite G. unfold load_rrcpt, r'. cbn [rr_time rr_id]. rewrite (scan_value _ Ht), Ei. reflexivity.
    + intros k' target' Hne. unfold get_rrcpt. cbn [d_rrcpts with_rrcpts].
      assert (F : filter (fun x => N.eqb (rr_network x) k' && beqb (rr_target x) target')
         (map (fun r => if N.eqb (rr_id r) i then RrcptRow (rr_id r) (rr_network r) (rr_target r) (sqlite_value t) else r) (d_rrcpts d)) =
         filter (fun x => N.eqb (rr_network x) k' && beqb (rr_target x) target') (d_rrcpts d)); [|rewrite F; reflexivity].
      assert (U : forall x, In x (d_rrcpts d) -> rr_id x = i -> x = r).
      { intros x Hx Ex. eapply (uniqb_pk rr_id); try exact (v_rrcpts d V); try assumption. congruence. }
      clear Hr E. induction (d_rrcpts d) as [|x l IHl]; [reflexivity|]. cbn [map filter].
      rewrite IHl by (intros y Hy; apply U; right; exact Hy).
      destruct (N.eqb_spec (rr_id x) i) as [Ex|Ex]; [|reflexivity].
      assert (x = r) by (apply U; [left; reflexivity|exact Ex]). subst x. cbn [rr_network rr_target]. rewrite Ek, Et.
      destruct (N.eqb_spec k k') as [->|]; cbn [andb]; [|reflexivity].
      destruct (beqb_spec target target') as [->|]; [congruence|reflexivity].
Qed.

(** ** Subscriptions *)

Lemma null_id_inj a b : null_id a = null_id b -> a = b.
Proof. unfold null_id. destruct (N.eqb_spec a 0), (N.eqb_spec b 0); congruence. Qed.

Lemma id_is_eq a b : id_is a b = true <-> a = b.
Proof.
  destruct a as [a|], b as [b|]; cbn [id_is]; try (split; [discriminate|congruence]); try tauto.
  rewrite N.eqb_eq. split; [intros ->; reflexivity|intros H; injection H as ->; reflexivity].
Qed.

Definition load_sub (r : sub_row) : gsub := GSub (sr_id r) (sr_endpoint r) (sr_auth r) (sr_p256dh r) (sr_vapid r).

Lemma in_list_subs d u k x : In x (list_subs u k d) <->
  exists r, In r (d_subs d) /\ sr_user r = u /\ sr_network r = null_id k /\ x = load_sub r.
Proof.
  unfold list_subs. rewrite in_map_iff. split.
  - intros (r & E & Hr). apply filter_In in Hr. destruct Hr as [Hr Eu]. apply andb_prop in Eu. destruct Eu as [E1 E2].
    apply N.eqb_eq in E1. apply id_is_eq in E2. exists r. auto.
  - intros (r & Hr & Eu & Ek & ->). exists r. split; [reflexivity|]. apply filter_In. split; [exact Hr|].
    rewrite (proj2 (N.eqb_eq _ _) Eu), (proj2 (id_is_eq _ _) Ek). reflexivity.
Qed.

Lemma store_sub_read now d u k s d' id : valid d -> store_sub now u k s d = Some (d', id) ->
  (gs_id s <> 0 -> exists s0, In s0 (list_subs u k d) /\ gs_id s0 = gs_id s /\ gs_endpoint s0 = gs_endpoint s) ->
  (gs_id s <> 0 -> id = gs_id s) /\
  forall u' k' x, In x (list_subs u' k' d') <->
    (u' = u /\ k' = k /\ x = GSub id (gs_endpoint s) (gs_auth s) (gs_p256dh s) (gs_vapid s)) \/
    (In x (list_subs u' k' d) /\ gs_id x <> id).
Proof.
  intros V H Hex. unfold store_sub in H. destruct (N.eqb_spec (gs_id s) 0) as [E0|E0].
  - chk H. injection H as <- <-. split; [congruence|]. intros u' k' x. rewrite !in_list_subs. cbn [d_subs with_subs]. split.
    + intros (r & Hr & Eu & Ek & ->). apply in_app_or in Hr. destruct Hr as [Hr|[<-|[]]].
      * right. split; [exists r; auto|]. intros K. apply (next_id_fresh (map sr_id (d_subs d))). rewrite <- K.
        change (gs_id (load_sub r)) with (sr_id r). apply in_map. exact Hr.
      * left. cbn [sr_user] in Eu. cbn [sr_network] in Ek. split; [symmetry; exact Eu|]. split; [symmetry; apply null_id_inj, Ek|reflexivity].
    + intros [(-> & -> & ->)|[(r & Hr & Eu & Ek & ->) _]].
      * eexists. split; [apply in_or_app; right; left; reflexivity|]. repeat split.
      * exists r. split; [apply in_or_app; left; exact Hr|]. auto.
  - chk H. injection H as <- <-. split; [reflexivity|]. destruct (Hex E0) as (s0 & Hs0 & Ei & Ee).
    apply in_list_subs in Hs0. destruct Hs0 as (r0 & Hr0 & Eu0 & Ek0 & ->). cbn [load_sub gs_id gs_endpoint] in Ei, Ee.
    intros u' k' x. rewrite !in_list_subs. cbn [d_subs with_subs]. split.
    + intros (r & Hr & Eu & Ek & ->). apply in_update in Hr. destruct Hr as [(r1 & Hr1 & Ei1 & ->)|[Hr Ei1]].
      * left. assert (r1 = r0) by (eapply (uniqb_pk sr_id); try exact (v_subs d V); try assumption; congruence). subst r1.
        cbn [sr_user] in Eu. cbn [sr_network] in Ek. split; [congruence|]. split; [apply null_id_inj; congruence|].
        unfold load_sub. cbn [sr_id sr_endpoint sr_auth sr_p256dh sr_vapid]. rewrite Ei, Ee. reflexivity.
      * right. split; [exists r; auto|exact Ei1].
    + intros [(-> & -> & ->)|[(r & Hr & Eu & Ek & ->) Hne]].
      * eexists. split; [apply in_update; left; exists r0; auto|]. cbn [sr_user sr_network]. split; [exact Eu0|]. split; [exact Ek0|].
        unfold load_sub. cbn [sr_id sr_endpoint sr_auth sr_p256dh sr_vapid]. rewrite Ei, Ee. reflexivity.
      * exists r. split; [|auto]. apply in_update. right. split; [exact Hr|exact Hne].
Qed.

(** ** Clients without name *)

Section Calls.
Variable raw_of : message -> bytes.

Lemma perform_clients d c d' : valid d -> subs_owned d -> clients_ok d -> perform raw_of c d = Some d' -> clients_ok d'.
Proof.
  intros V O C H.
  assert (same : d_drcpts d' = d_drcpts d -> clients_ok d') by (intros E r Hr; rewrite E in Hr; exact (C r Hr)).
  destruct c; cbn [perform] in H.
  - apply same. apply fst_opt_some in H. destruct H as [i H]. unfold store_user in H. destruct (N.eqb (gu_id u) 0); chk H; injection H as <- <-; reflexivity.
  - destruct (delete_user_erased d id V O) as (d2 & H2 & _ & Er). rewrite H in H2. injection H2 as <-.
    intros r Hr. apply (er_drcpts _ _ _ _ Er) in Hr. exact (C r (proj1 Hr)).
  - apply same. apply fst_opt_some in H. destruct H as [i H]. unfold store_network in H.
    destruct (sasl_columns n) as [[[[[? ?] ?] ?] ?]|]; [|discriminate].
    destruct (N.eqb (gn_id n) 0); chk H; injection H as <- <-; reflexivity.
  - destruct (delete_network_erased d id V) as (d2 & H2 & _ & Er). rewrite H in H2. injection H2 as <-.
    intros r Hr. apply (er_drcpts _ _ _ _ Er) in Hr. exact (C r (proj1 Hr)).
  - apply same. apply fst_opt_some in H. destruct H as [i H]. unfold store_channel in H. destruct (N.eqb (gc_id c) 0); chk H; injection H as <- <-; reflexivity.
  - apply same. apply check_some in H. destruct H as [-> H]. reflexivity.
  - unfold store_drcpts in H. rewrite exec_cons in H. destruct (check _) as [e|] eqn:E; [|discriminate]. apply check_some in E. destruct E as [-> E].
    apply exec_inserts in H. destruct H as (rows & H1 & _ & H3). intros r Hr. rewrite H1 in Hr. apply in_app_or in Hr. destruct Hr as [Hr|Hr].
    + cbn [d_drcpts with_drcpts] in Hr. apply filter_In in Hr. exact (C r (proj1 Hr)).
    + rewrite (proj2 (H3 r Hr)). apply null_string_some.
  - apply same. apply fst_opt_some in H. destruct H as [i H]. unfold store_rrcpt in H. destruct (N.eqb id 0); chk H; injection H as <- <-; reflexivity.
  - apply same. apply fst_opt_some in H. destruct H as [i H]. unfold store_sub in H. destruct (N.eqb (gs_id s) 0); chk H; injection H as <- <-; reflexivity.
  - apply same. apply check_some in H. destruct H as [-> H]. reflexivity.
  - apply same. apply fst_opt_some in H. destruct H as [i H]. unfold store_messages in H. destruct l as [|m l].
    + injection H as <- <-. reflexivity.
    + destruct (check (add_target net name d)) as [e|] eqn:E; [|discriminate]. apply check_some in E. destruct E as [-> E].
      apply insert_msgs_some in H; [|exact E]. destruct H as (_ & _ & _ & _ & _ & H & _). rewrite H.
      unfold add_target. destruct (existsb _ _); reflexivity.
Qed.

Lemma reachable_clients d : reachable raw_of d -> clients_ok d.
Proof.
  induction 1 as [|d c R IH Own].
  - intros r [].
  - destruct (reachable_ok _ _ R) as [V O]. unfold step_db. destruct (perform raw_of c d) as [d'|] eqn:E; [|exact IH].
    exact (perform_clients _ _ _ V O IH E).
Qed.
End Calls.
