(** The copy of a database to PostgreSQL gets to its end. *)
From Verif.Base Require Import Bytes.
From Verif.Model Require Import Message Sql SqlQuery Postgres MigrateDb.
From Verif.Proof Require Import Sql SqlStore SqlQuery Postgres PgWorks MigrateDb.
From Verif.Spec Require Import Sql SqlQuery Postgres MigrateDb.
From Coq Require Import ZArith NArith Lia.
Open Scope N_scope.

(** The sequences are ahead of the tables. *)
Record ahead (d : dest) : Prop := {
  ah_user : forall r, In r (p_users (t_pg d)) -> pu_id r <= t_user d;
  ah_net : forall r, In r (p_nets (t_pg d)) -> nr_id r <= t_net d;
  ah_chan : forall r, In r (p_chans (t_pg d)) -> cr_id r <= t_chan d;
  ah_drcpt : forall r, In r (p_drcpts (t_pg d)) -> pd_id r <= t_drcpt d;
  ah_sub : forall r, In r (p_subs (t_pg d)) -> ps_id r <= t_sub d }.

Ltac snoc := intros r Hr; cbn [t_pg t_user t_net t_chan t_drcpt t_sub p_users p_nets p_chans p_drcpts p_subs set_users set_nets set_chans set_drcpts set_subs] in *;
  try (apply in_app_or in Hr as [Hr|[<-|[]]]); auto;
  try match goal with H : forall r, In r _ -> _ <= _ |- _ => specialize (H r Hr); lia end; cbn; try lia.

Lemma ahead_chan k c d d' : ahead d -> copy_chan k c d = (d', true) -> ahead d'.
Proof.
  intros [A1 A2 A3 A4 A5] H. unfold copy_chan in H. destruct (p_store_channel _ _ _ _) as [[p i]|] eqn:E; [|discriminate]. injection H as <-.
  unfold p_store_channel in E. cbn [unnumbered_chan gc_id] in E. change (0 =? 0) with true in E. cbv iota in E. chk E. clear E.
  constructor; [snoc|snoc| |snoc|snoc]. clear A1 A2 A4 A5. snoc.
Qed.

Lemma ahead_sub now u k s d d' : ahead d -> copy_sub now u k s d = (d', true) -> ahead d'.
Proof.
  intros [A1 A2 A3 A4 A5] H. unfold copy_sub in H. destruct (p_store_sub _ _ _ _ _ _) as [[p i]|] eqn:E; [|discriminate]. injection H as <-.
  unfold p_store_sub in E. cbn [unnumbered_sub gs_id] in E. change (0 =? 0) with true in E. cbv iota in E. chk E. clear E.
  constructor; [snoc|snoc|snoc|snoc|]. clear A1 A2 A3 A4. snoc.
Qed.

Lemma chans_work k l : forall d, pvalid (t_pg d) -> ahead d -> In k (pnet_ids (t_pg d)) -> NoDup (map gc_name l) ->
  (forall c, In c l -> short_channel c /\ int32 (gc_relay c) /\ int32 (gc_reattach c) /\ int32 (gc_on c) /\ int32 (ceil_seconds (gc_after c))) ->
  (forall c x, In c l -> In x (p_list_channels k (t_pg d)) -> gc_name x <> gc_name c) ->
  exists d', loop (copy_chan k) l d = (d', true) /\ ahead d'.
Proof.
  induction l as [|c l IH]; intros d V A K ND S F; cbn [loop]; [exists d; auto|]. cbn [map] in ND. apply NoDup_cons_iff in ND as [N1 N2].
  destruct (S c (or_introl eq_refl)) as (S1 & S2 & S3 & S4 & S5).
  destruct (create_channel (t_pg d) (t_chan d + 1) k (unnumbered_chan c)) as [p' E]; try assumption; [reflexivity| | | |].
  { apply in_map_iff in K as (r & <- & Hr). exists (nr_user r), (load_network r). split; [|reflexivity]. apply in_p_list_networks. exists r. auto. }
  { intros k' x Hx. apply in_p_list_channels in Hx as (r & Hr & _ & ->). pose proof (ah_chan d A r Hr). change (gc_id (load_channel r)) with (cr_id r). lia. }
  { intros x Hx. exact (F c x (or_introl eq_refl) Hx). }
  assert (C : copy_chan k c d = (Dest p' (t_user d) (t_net d) (t_chan d + 1) (t_drcpt d) (t_sub d) (t_configs d), true)) by (unfold copy_chan; rewrite E; reflexivity).
  destruct (copy_chan_spec k c d _ V S1 C) as (V1 & K1 & _ & _ & x & Sx & R). pose proof (ahead_chan k c d _ A C) as A1. rewrite C.
  apply (IH _ V1 A1); [|exact N2|intros c' Hc'; exact (S c' (or_intror Hc'))|].
  - unfold pnet_ids in *. destruct K1 as (_ & -> & _). exact K.
  - intros c' y Hc' Hy. apply R in Hy as [[_ ->]|Hy]; [|exact (F c' y (or_intror Hc') Hy)]. intros EN. apply N1. apply in_map_iff. exists c'. split; [|exact Hc'].
    destruct Sx as (_ & Sx & _). congruence.
Qed.

Lemma create_sub p now fresh u k s : pvalid p -> gs_id s = 0 -> text (gs_endpoint s) -> text (gs_auth s) -> text (gs_p256dh s) -> text (gs_vapid s) -> k <> 0 ->
  In u (puser_ids p) -> In k (pnet_ids p) -> (forall r, In r (p_subs p) -> ps_id r <> fresh) ->
  (forall r, In r (p_subs p) -> ps_network r = Some k -> ps_endpoint r <> gs_endpoint s) ->
  exists p', p_store_sub now fresh u k s p = Some (p', fresh).
Proof.
  intros V Z T1 T2 T3 T4 K0 Hu Hk F U. unfold p_store_sub. rewrite Z, !text_text_ok by assumption. cbn [andb N.eqb]. set (row := PSub _ _ _ _ _ _ _ _ _).
  assert (NK : null_id k = Some k) by (unfold null_id; destruct (N.eqb_spec k 0); [contradiction|reflexivity]).
  rewrite pcheck_ok; [eexists; reflexivity|]. destruct V. constructor; tables; try assumption.
  - apply pk_snoc; [assumption|]. intros I. apply in_map_iff in I as (r & E & Hr). exact (F r Hr E).
  - apply uniqb_snoc; [assumption|]. intros y Hy. apply not_true_is_false. unfold psub_key. cbn [clash ps_network ps_endpoint row]. rewrite NK. intros C.
    destruct (ps_network y) as [j|] eqn:Ej; [|discriminate C]. cbn in C. rewrite andb_true_r in C. apply andb_prop in C as [C1 C2]. apply N.eqb_eq in C1. apply beqb_eq in C2.
    subst j. exact (U y Hy Ej C2).
  - apply refsb_snoc; [assumption|]. intros j E. injection E as <-. exact Hu.
  - apply refsb_snoc; [assumption|]. intros j E. cbn [ps_network row] in E. rewrite NK in E. injection E as <-. exact Hk.
Qed.

Lemma subs_work now u k l : k <> 0 -> forall d, pvalid (t_pg d) -> ahead d -> In u (puser_ids (t_pg d)) -> In k (pnet_ids (t_pg d)) -> NoDup (map gs_endpoint l) ->
  (forall s, In s l -> text (gs_endpoint s) /\ text (gs_auth s) /\ text (gs_p256dh s) /\ text (gs_vapid s)) ->
  (forall s r, In s l -> In r (p_subs (t_pg d)) -> ps_network r = Some k -> ps_endpoint r <> gs_endpoint s) ->
  exists d', loop (copy_sub now u k) l d = (d', true) /\ ahead d'.
Proof.
  intros K0. induction l as [|s l IH]; intros d V A Hu Hk ND S F; cbn [loop]; [exists d; auto|]. cbn [map] in ND. apply NoDup_cons_iff in ND as [N1 N2].
  destruct (S s (or_introl eq_refl)) as (S1 & S2 & S3 & S4).
  destruct (create_sub (t_pg d) now (t_sub d + 1) u k (unnumbered_sub s)) as [p' E]; try assumption; [reflexivity| | |].
  { intros r Hr. pose proof (ah_sub d A r Hr). lia. }
  { intros r Hr. exact (F s r (or_introl eq_refl) Hr). }
  assert (C : copy_sub now u k s d = (Dest p' (t_user d) (t_net d) (t_chan d) (t_drcpt d) (t_sub d + 1) (t_configs d), true)) by (unfold copy_sub; rewrite E; reflexivity).
  destruct (copy_sub_spec now u k s d _ V C) as (V1 & K1 & _). pose proof (ahead_sub now u k s d _ A C) as A1. rewrite C.
  unfold p_store_sub in E. cbn [unnumbered_sub gs_id] in E. change (0 =? 0) with true in E. cbv iota in E. apply with_id_some in E as [E _]. apply pcheck_some in E as (-> & _).
  apply (IH _ V1 A1); [| |exact N2|intros c' Hc'; exact (S c' (or_intror Hc'))|].
  - exact Hu.
  - exact Hk.
  - intros s' r Hs' Hr. cbn [t_pg set_subs p_subs] in Hr. apply in_app_or in Hr as [Hr|[<-|[]]]; [exact (F s' r (or_intror Hs') Hr)|]. intros _ EN. apply N1. apply in_map_iff.
    exists s'. split; [symmetry; exact EN|exact Hs'].
Qed.

(** ** Receipts *)
Lemma insert_works net client l : short 255 client -> forall p b, pvalid p -> In net (pnet_ids p) -> (forall r, In r (p_drcpts p) -> pd_id r <= b) ->
  NoDup (map fst l) -> (forall t m, In (t, m) l -> short 255 t /\ short 255 m) ->
  (forall r t, In r (p_drcpts p) -> In t (map fst l) -> pd_network r = net -> pd_client r = client -> pd_target r <> t) ->
  exists p', p_insert_drcpts net client (serial b l) p = Some p' /\ (forall r, In r (p_drcpts p') -> pd_id r <= b + N.of_nat (length l)).
Proof.
  intros Sc. induction l as [|[t m] l IH]; intros p b V K A ND S F; cbn [serial p_insert_drcpts].
  - exists p. split; [reflexivity|]. intros r Hr. specialize (A r Hr). cbn. lia.
  - destruct (S t m (or_introl eq_refl)) as [S1 S2]. destruct (short_ok _ _ Sc) as (-> & -> & _). destruct (short_ok _ _ S1) as (-> & -> & _). destruct (short_ok _ _ S2) as (-> & -> & _).
    cbn [andb map fst] in *. apply NoDup_cons_iff in ND as [N1 N2]. set (row := PDrcpt _ _ _ _ _).
    assert (W : pvalid (set_drcpts (p_drcpts p ++ [row]) p)).
    { destruct V. constructor; tables; try assumption.
      - apply pk_snoc; [assumption|]. intros I. apply in_map_iff in I as (r & E & Hr). specialize (A r Hr). cbn [pd_id row] in E. lia.
      - apply uniqb_snoc; [assumption|]. intros y Hy. apply not_true_is_false. unfold pdrcpt_key. cbn [clash ceqb pd_network pd_target pd_client row]. intros C.
        apply andb_prop in C as [C1 C]. apply andb_prop in C as [C2 C3]. rewrite andb_true_r in C3. apply N.eqb_eq in C1. apply beqb_eq in C2, C3.
        exact (F y t Hy (or_introl eq_refl) C1 C3 C2).
      - apply refsb_snoc; [assumption|]. intros j E. injection E as <-. exact K. }
    rewrite (pcheck_ok _ W). destruct (IH _ (b + 1) W K) as (p' & E & B).
    + intros r Hr. cbn [p_drcpts set_drcpts] in Hr. apply in_app_or in Hr as [Hr|[<-|[]]]; [specialize (A r Hr); lia|cbn; lia].
    + exact N2.
    + intros t' m' H'. exact (S t' m' (or_intror H')).
    + intros r t' Hr Ht' E1 E2. cbn [p_drcpts set_drcpts] in Hr. apply in_app_or in Hr as [Hr|[<-|[]]]; [exact (F r t' Hr (or_intror Ht') E1 E2)|]. cbn [pd_target row]. intros ->. exact (N1 Ht').
    + exists p'. split; [exact E|]. intros r Hr. specialize (B r Hr). cbn [length]. lia.
Qed.

Lemma drcpts_work k g : forall d, pvalid (t_pg d) -> ahead d -> In k (pnet_ids (t_pg d)) ->
  (forall c l, In (c, l) g -> short 255 c /\ NoDup (map fst l) /\ forall t m, In (t, m) l -> short 255 t /\ short 255 m) ->
  exists d', loop (copy_drcpts k) g d = (d', true) /\ ahead d'.
Proof.
  induction g as [|[c l] g IH]; intros d V A K S; cbn [loop]; [exists d; auto|]. destruct (S c l (or_introl eq_refl)) as (S1 & S2 & S3).
  set (q := set_drcpts (filter (fun r => negb (N.eqb (pd_network r) k && beqb (pd_client r) c)) (p_drcpts (t_pg d))) (t_pg d)).
  assert (W : pvalid q). { destruct V. constructor; unfold q; tables; try assumption; [apply uniqb_filter|apply uniqb_filter|apply refsb_filter]; assumption. }
  destruct (insert_works k c l S1 q (t_drcpt d) W K) as (p' & E & B); [|exact S2|exact S3| |].
  { intros r Hr. unfold q in Hr. cbn [p_drcpts set_drcpts] in Hr. apply filter_In in Hr as [Hr _]. exact (ah_drcpt d A r Hr). }
  { intros r t Hr _ E1 E2. unfold q in Hr. cbn [p_drcpts set_drcpts] in Hr. apply filter_In in Hr as [_ Hr]. rewrite E1, E2, N.eqb_refl, beqb_refl in Hr. discriminate Hr. }
  assert (C : copy_drcpts k (c, l) d = (Dest p' (t_user d) (t_net d) (t_chan d) (t_drcpt d + N.of_nat (length l)) (t_sub d) (t_configs d), true)).
  { unfold copy_drcpts, p_store_drcpts. cbn [fst snd]. rewrite (vok_text 255 c (proj1 (short_ok _ _ S1))). fold q. rewrite (pcheck_ok _ W), E. reflexivity. }
  destruct (copy_drcpts_spec k (c, l) d _ V S1 S3 C) as (V1 & K1 & _). rewrite C. pose proof (insert_drcpts_rest _ _ _ _ _ E) as R.
  apply (IH _ V1); [| |intros c' l' H'; exact (S c' l' (or_intror H'))].
  - destruct A as [A1 A2 A3 A4 A5]. rewrite R. constructor; cbn [t_pg t_user t_net t_chan t_drcpt t_sub p_users p_nets p_chans p_drcpts p_subs set_drcpts q]; assumption.
  - unfold pnet_ids in *. destruct K1 as (_ & -> & _). exact K.
Qed.

Lemma by_client_nodup L : NoDup (map fst L) -> forall c l, In (c, l) (by_client L) -> NoDup (map fst l).
Proof.
  unfold by_client.
  assert (AC : forall c x g c' l', In (c', l') (add_client c x g) -> In (c', l') g \/ (c' = c /\ (l' = [x] \/ exists l0, In (c, l0) g /\ l' = l0 ++ [x]))).
  { intros c x g. induction g as [|[c0 l0] g IH]; intros c' l' H; cbn [add_client] in H.
    - destruct H as [H|[]]. injection H as <- <-. right. auto.
    - destruct (beqb_spec c0 c) as [->|N].
      + destruct H as [H|H]; [|left; right; exact H]. injection H as <- <-. right. split; [reflexivity|]. right. exists l0. split; [left; reflexivity|reflexivity].
      + destruct H as [H|H]; [left; left; exact H|]. destruct (IH c' l' H) as [K|(-> & [K|(l1 & K1 & K2)])]; [left; right; exact K|right; auto|right]. split; [reflexivity|]. right.
        exists l1. split; [right; exact K1|exact K2]. }
  assert (G : forall g, (forall c l, In (c, l) g -> NoDup (map fst l)) -> (forall c l t m, In (c, l) g -> In (t, c, m) L -> ~ In t (map fst l)) -> NoDup (map fst L) ->
    forall c l, In (c, l) (fold_left (fun g r => let '(t, c, m) := r in add_client c (t, m) g) L g) -> NoDup (map fst l)).
  { induction L as [|[[t c] m] L IH]; intros g G1 G2 ND; cbn [fold_left]; [exact G1|]. cbn [map fst] in ND. apply NoDup_cons_iff in ND as [N1 N2]. apply IH; [| |exact N2].
    - intros c' l' H. destruct (AC _ _ _ _ _ H) as [K|(-> & [->|(l0 & K & ->)])]; [exact (G1 c' l' K)|constructor; [intros []|constructor]|].
      rewrite map_app. cbn [map fst].
      pose proof (G1 c l0 K) as D. pose proof (G2 c l0 t m K (or_introl eq_refl)) as D2. revert D D2. generalize (map fst l0). intros ks D D2.
      apply NoDup_rev in D. rewrite <- (rev_involutive (ks ++ [t])). apply NoDup_rev. rewrite rev_app_distr. cbn [rev app]. constructor; [rewrite <- in_rev; exact D2|exact D].
    - intros c' l' t' m' H Ht. destruct (AC _ _ _ _ _ H) as [K|(-> & K)]; [exact (G2 c' l' t' m' K (or_intror Ht))|].
      assert (NE : t' <> t). { intros ->. apply N1. apply in_map_iff. exists (t, c, m'). auto. }
      destruct K as [->|(l0 & K & ->)]; [intros [E|[]]; cbn in E; congruence|]. rewrite map_app. intros I. apply in_app_or in I as [I|[I|[]]]; [|cbn in I; congruence].
      exact (G2 c l0 t' m' K (or_intror Ht) I). }
  intros ND c l. apply G; [intros ? ? []|intros ? ? ? ? []|exact ND].
Qed.

(** ** Networks *)
Section Works.
Variable src : source.
Variable now : Z.
Hypothesis H : holdable src.

Lemma net_works u n d : pvalid (t_pg d) -> ahead d -> In u (puser_ids (t_pg d)) -> In n (s_nets src u) ->
  (forall x, In x (p_list_networks u (t_pg d)) -> nets_apart x n) ->
  exists d', copy_net src now u n d = (d', true) /\ ahead d'.
Proof.
  intros V A Hu Hn AP. destruct H as [FIT _ _ HM _ HC HI HD HS HT _ _]. destruct FIT as (_ & F2 & F3 & F4). destruct (F2 u n Hn) as [Sn Cn].
  destruct (create_network (t_pg d) (t_net d + 1) u (unnumbered_net n) V eq_refl Sn (HM u n Hn)) as [p E].
  { apply in_map_iff in Hu as (r & <- & Hr). exists (p_load_user r). split; [apply in_map; exact Hr|reflexivity]. }
  { intros v x Hx. apply in_p_list_networks in Hx as (r & Hr & _ & ->). pose proof (ah_net d A r Hr). change (gn_id (load_network r)) with (nr_id r). lia. }
  { intros x Hx. exact (proj1 (AP x Hx)). }
  { intros x Hx. exact (proj2 (AP x Hx)). }
  unfold copy_net. rewrite E. set (k := t_net d + 1) in *. set (d0 := Dest p _ _ _ _ _ _).
  assert (NF : forall r, In r (p_nets (t_pg d)) -> nr_id r <> k) by (intros r Hr; pose proof (ah_net d A r Hr); unfold k; lia).
  assert (K0 : k <> 0) by (unfold k; lia).
  assert (P : pvalid p /\ p_users p = p_users (t_pg d) /\ p_chans p = p_chans (t_pg d) /\ p_drcpts p = p_drcpts (t_pg d) /\ p_subs p = p_subs (t_pg d) /\
    exists row, p_nets p = p_nets (t_pg d) ++ [row] /\ nr_id row = k).
  { unfold p_store_network in E. destruct (sasl_columns _) as [[[[[mech pusr] ppass] cert] key]|]; [|discriminate E].
    cbn [unnumbered_net gn_id] in E. change (0 =? 0) with true in E. cbv iota in E. apply with_id_some in E as [E _]. apply pcheck_some in E as (-> & _ & V').
    split; [exact V'|]. do 4 (split; [reflexivity|]). eexists. split; [reflexivity|reflexivity]. }
  destruct P as (V0 & Pu & Pc & Pd & Ps & row & Pn & Pk).
  assert (A0 : ahead d0).
  { destruct A as [A1 A2 A3 A4 A5]. unfold d0. constructor; cbn [t_pg t_user t_net t_chan t_drcpt t_sub]; rewrite ?Pu, ?Pc, ?Pd, ?Ps, ?Pn; try assumption.
    intros r Hr. apply in_app_or in Hr as [Hr|[<-|[]]]; [specialize (A2 r Hr); unfold k; lia|rewrite Pk; lia]. }
  assert (K : In k (pnet_ids p)). { unfold pnet_ids. rewrite Pn, map_app. apply in_or_app. right. left. exact Pk. }
  destruct (chans_work k (s_chans src (gn_id n)) d0 V0 A0 K (HC _)) as (d1 & E1 & A1).
  { intros c Hc. split; [exact (F3 _ c Hc)|exact (HI _ c Hc)]. }
  { intros c x _ Hx. exfalso. apply in_p_list_channels in Hx as (r & Hr & Er & ->). cbn [d0 t_pg] in Hr. rewrite Pc in Hr. apply (no_channels (t_pg d) k V NF (load_channel r)).
    apply in_p_list_channels. exists r. auto. }
  destruct (copy_chans_spec k _ d0 d1 V0 (fun c Hc => F3 _ c Hc) E1) as (V1 & K1 & D1 & S1 & _). rewrite E1. cbn [negb].
  destruct (by_client_spec (s_drcpts src (gn_id n))) as (B1 & B2 & B3).
  assert (Kd1 : In k (pnet_ids (t_pg d1))) by (unfold pnet_ids in *; destruct K1 as (_ & -> & _); exact K).
  destruct (drcpts_work k (by_client (s_drcpts src (gn_id n))) d1 V1 A1 Kd1) as (d2 & E2 & A2).
  { intros c l Hl. split; [|split].
    - destruct (B3 c) as (t & m & I); [apply in_map_iff; exists (c, l); auto|]. exact (proj1 (proj2 (F4 _ _ _ _ I))).
    - exact (by_client_nodup _ (HD _) c l Hl).
    - intros t m I. assert (J : In (t, c, m) (s_drcpts src (gn_id n))) by (apply B2; exists l; auto). destruct (F4 _ _ _ _ J) as (J1 & _ & J3). auto. }
  rewrite E2. cbn [negb].
  destruct (copy_all_drcpts_spec k _ d1 d2 V1 B1) with (4 := E2) as (V2 & K2 & S2 & C2 & _).
  { intros c l t m Hl I. assert (J : In (t, c, m) (s_drcpts src (gn_id n))) by (apply B2; exists l; auto). destruct (F4 _ _ _ _ J) as (J1 & _ & J3). auto. }
  { intros c l Hl. destruct (B3 c) as (t & m & I); [apply in_map_iff; exists (c, l); auto|]. exact (proj1 (proj2 (F4 _ _ _ _ I))). }
  { intros t c m _ I. apply in_p_list_drcpts in I as (r & Hr & Er & I). rewrite D1 in Hr. cbn [d0 t_pg] in Hr. rewrite Pd in Hr. apply (no_drcpts (t_pg d) k V NF t c m).
    apply in_p_list_drcpts. exists r. auto. }
  apply (subs_work now u k _ K0 d2 V2 A2); [| |exact (HS u n Hn)|exact (HT u _)|].
  - unfold puser_ids in *. destruct K2 as (-> & _). destruct K1 as (-> & _). cbn [d0 t_pg]. rewrite Pu. exact Hu.
  - unfold pnet_ids in *. destruct K2 as (_ & -> & _). exact Kd1.
  - intros s r _ Hr Er. exfalso. rewrite S2, S1 in Hr. cbn [d0 t_pg] in Hr. rewrite Ps in Hr.
    pose proof (pv_subs_net _ V) as Q. rewrite refsb_iff in Q. specialize (Q r k Hr Er). unfold pnet_ids in Q. apply in_map_iff in Q as (x & Ex & Hx). exact (NF x Hx Ex).
Qed.

Lemma nets_work u l : forall d, pvalid (t_pg d) -> ahead d -> In u (puser_ids (t_pg d)) -> (forall n, In n l -> In n (s_nets src u)) ->
  ForallOrdPairs nets_apart l -> (forall x n, In n l -> In x (p_list_networks u (t_pg d)) -> nets_apart x n) ->
  exists d', loop (copy_net src now u) l d = (d', true) /\ ahead d'.
Proof.
  induction l as [|n l IH]; intros d V A Hu S O AP; cbn [loop]; [exists d; auto|]. inversion O as [|? ? O1 O2]; subst.
  destruct (net_works u n d V A Hu (S n (or_introl eq_refl)) (fun x Hx => AP x n (or_introl eq_refl) Hx)) as (d1 & E & A1). rewrite E.
  destruct (copy_net_spec src now (h_fits _ H) u u n d d1 V (S n (or_introl eq_refl)) E) as (V1 & AS & k & _ & R & _).
  apply (IH d1 V1 A1); [|intros m Hm; exact (S m (or_intror Hm))|exact O2|].
  - unfold puser_ids in *. destruct AS as (-> & _). exact Hu.
  - intros x m Hm Hx. apply R in Hx as [[_ ->]|Hx]; [|exact (AP x m (or_intror Hm) Hx)]. rewrite Forall_forall in O1. exact (O1 m Hm).
Qed.

Lemma user_works x d : pvalid (t_pg d) -> ahead d -> In x (s_users src) -> (forall y, In y (p_list_users (t_pg d)) -> gu_username y <> gu_username x) ->
  exists d', copy_user src now x d = (d', true) /\ ahead d'.
Proof.
  intros V A Hx F. destruct (create_user (t_pg d) now (t_user d + 1) (unnumbered_user x) V eq_refl (proj1 (h_fits _ H) x Hx) (h_max _ H x Hx)) as [p E].
  { intros y Hy. split; [|exact (F y Hy)]. apply in_map_iff in Hy as (r & <- & Hr). pose proof (ah_user d A r Hr). change (gu_id (p_load_user r)) with (pu_id r). lia. }
  unfold copy_user. rewrite E. set (u := t_user d + 1) in *.
  assert (P : pvalid p /\ p_nets p = p_nets (t_pg d) /\ p_chans p = p_chans (t_pg d) /\ p_drcpts p = p_drcpts (t_pg d) /\ p_subs p = p_subs (t_pg d) /\
    exists row, p_users p = p_users (t_pg d) ++ [row] /\ pu_id row = u).
  { unfold p_store_user in E. cbn [unnumbered_user gu_id] in E. change (0 =? 0) with true in E. cbv iota in E. apply with_id_some in E as [E _]. apply pcheck_some in E as (-> & _ & V').
    split; [exact V'|]. do 4 (split; [reflexivity|]). eexists. split; [reflexivity|reflexivity]. }
  destruct P as (V0 & Pn & Pc & Pd & Ps & row & Pu & Pk). apply nets_work; cbn [t_pg].
  - exact V0.
  - destruct A as [A1 A2 A3 A4 A5]. constructor; cbn [t_pg t_user t_net t_chan t_drcpt t_sub]; rewrite ?Pu, ?Pc, ?Pd, ?Ps, ?Pn; try assumption.
    intros r Hr. apply in_app_or in Hr as [Hr|[<-|[]]]; [specialize (A1 r Hr); unfold u; lia|rewrite Pk; lia].
  - unfold puser_ids. rewrite Pu, map_app. apply in_or_app. right. left. exact Pk.
  - auto.
  - apply (h_nets _ H).
  - intros y n _ Hy. exfalso. apply in_p_list_networks in Hy as (r & Hr & Er & _). rewrite Pn in Hr.
    pose proof (pv_nets_fk _ V) as Q. rewrite refsb_iff in Q. specialize (Q r (nr_user r) Hr eq_refl). unfold puser_ids in Q. apply in_map_iff in Q as (z & Ez & Hz).
    pose proof (ah_user d A z Hz). unfold u in Er. lia.
Qed.

Lemma users_work l : forall d, pvalid (t_pg d) -> ahead d -> (forall x, In x l -> In x (s_users src)) -> NoDup (map gu_username l) ->
  (forall x y, In x l -> In y (p_list_users (t_pg d)) -> gu_username y <> gu_username x) ->
  exists d', loop (copy_user src now) l d = (d', true).
Proof.
  induction l as [|x l IH]; intros d V A S ND F; cbn [loop]; [exists d; auto|]. cbn [map] in ND. apply NoDup_cons_iff in ND as [N1 N2].
  destruct (user_works x d V A (S x (or_introl eq_refl)) (fun y => F x y (or_introl eq_refl))) as (d1 & E & A1). rewrite E.
  destruct (copy_user_spec src now (h_fits _ H) x d d1 V (proj1 (h_fits _ H) x (S x (or_introl eq_refl))) E) as (V1 & _ & _ & _ & _ & (x' & L & SU) & _).
  apply (IH d1 V1 A1); [intros y Hy; exact (S y (or_intror Hy))|exact N2|]. intros z y Hz Hy. rewrite L in Hy. apply in_app_or in Hy as [Hy|[<-|[]]]; [exact (F z y (or_intror Hz) Hy)|].
  intros EN. apply N1. apply in_map_iff. exists z. split; [|exact Hz]. rewrite <- EN. destruct SU as (_ & SU & _). exact SU.
Qed.

Lemma configs_work l : forall d, NoDup (map fst l) -> (forall c, In c l -> text (fst c) /\ text (snd c)) -> (forall c c', In c l -> In c' (t_configs d) -> fst c' <> fst c) ->
  exists d', loop copy_config l d = (d', true).
Proof.
  induction l as [|c l IH]; intros d ND T F; cbn [loop]; [exists d; auto|]. cbn [map] in ND. apply NoDup_cons_iff in ND as [N1 N2]. destruct (T c (or_introl eq_refl)) as [T1 T2].
  unfold copy_config at 1. rewrite (text_text_ok _ T1), (text_text_ok _ T2). cbn [andb].
  assert (X : existsb (fun c' => beqb (fst c') (fst c)) (t_configs d) = false).
  { apply not_true_is_false. intros X. apply existsb_exists in X as (c' & Hc' & X). apply beqb_eq in X. exact (F c c' (or_introl eq_refl) Hc' X). }
  rewrite X. cbn [negb]. apply IH; [exact N2|intros c' H'; exact (T c' (or_intror H'))|]. cbn [t_configs]. intros e e' He He'. apply in_app_or in He' as [He'|[<-|[]]]; [exact (F e e' (or_intror He) He')|].
  intros EN. apply N1. rewrite EN. exact (in_map fst _ _ He).
Qed.

Theorem works : exists d, migrate src now = (d, true).
Proof.
  unfold migrate. destruct (users_work (s_users src) empty_dest) as [d E].
  - exact (proj1 (pvalid_iff empty_pg) eq_refl).
  - constructor; intros r [].
  - auto.
  - exact (h_names _ H).
  - intros x y _ [].
  - rewrite E. apply configs_work; [exact (h_configs _ H)|exact (h_config_texts _ H)|].
    destruct (copy_users_spec src now (h_fits _ H) _ empty_dest d (proj1 (pvalid_iff empty_pg) eq_refl) (proj1 (h_fits _ H)) E) as (C & _). rewrite C. intros c c' _ [].
Qed.
End Works.
