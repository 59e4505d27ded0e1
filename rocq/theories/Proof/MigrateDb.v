(** Proofs about the copy of a database. *)
From Verif.Base Require Import Bytes.
From Verif.Model Require Import Sql Postgres MigrateDb.
From Verif.Proof Require Import Sql SqlStore Postgres.
From Verif.Spec Require Import Sql Postgres MigrateDb.
From Coq Require Import ZArith NArith Lia.
Open Scope N_scope.

(** ** What a step leaves alone *)

Record same_net (p p' : pg) (k : N) : Prop := {
  sn_chans : forall x, In x (p_list_channels k p') <-> In x (p_list_channels k p);
  sn_drcpts : forall t c m, In (t, c, m) (p_list_drcpts k p') <-> In (t, c, m) (p_list_drcpts k p);
  sn_subs : forall u x, In x (p_list_subs u k p') <-> In x (p_list_subs u k p) }.

Lemma same_net_refl p k : same_net p p k.
Proof. constructor; reflexivity. Qed.

Lemma same_net_trans p q r k : same_net p q k -> same_net q r k -> same_net p r k.
Proof.
  intros [A1 A2 A3] [B1 B2 B3]. constructor; intros; [rewrite B1; apply A1|rewrite B2; apply A2|rewrite B3; apply A3].
Qed.

Lemma copied_net_same src v n p p' w k : copied_net src v n p w k -> same_net p p' k ->
  In (saved_network k n) (p_list_networks w p') -> copied_net src v n p' w k.
Proof.
  intros [C1 C2 C3 C4 C5 C6] [S1 S2 S3] H. constructor; [exact H| | | | |].
  - intros c Hc. destruct (C2 c Hc) as (x & Hx & E). exists x. split; [apply S1; exact Hx|exact E].
  - intros x Hx. apply C3. apply S1. exact Hx.
  - intros t c m. rewrite S2. apply C4.
  - intros s Hs. destruct (C5 s Hs) as (x & Hx & E). exists x. split; [apply S3; exact Hx|exact E].
  - intros x Hx. apply C6. apply S3. exact Hx.
Qed.

(** The tables of users and networks, and the sequences for them, are the same. *)
Definition kept (d d' : dest) : Prop :=
  p_users (t_pg d') = p_users (t_pg d) /\ p_nets (t_pg d') = p_nets (t_pg d) /\
  t_user d' = t_user d /\ t_net d' = t_net d /\ t_configs d' = t_configs d /\
  p_rrcpts (t_pg d') = p_rrcpts (t_pg d) /\ p_msgs (t_pg d') = p_msgs (t_pg d).

Lemma kept_refl d : kept d d.
Proof. unfold kept. auto 10. Qed.

Lemma kept_trans a b c : kept a b -> kept b c -> kept a c.
Proof.
  intros (A1 & A2 & A3 & A4 & A5 & A6 & A7) (B1 & B2 & B3 & B4 & B5 & B6 & B7). unfold kept.
  rewrite B1, B2, B3, B4, B5, B6, B7. auto 10.
Qed.

(** ** Channels *)

Lemma copy_chan_spec k c d d' : pvalid (t_pg d) -> short_channel c -> copy_chan k c d = (d', true) ->
  pvalid (t_pg d') /\ kept d d' /\ p_drcpts (t_pg d') = p_drcpts (t_pg d) /\ p_subs (t_pg d') = p_subs (t_pg d) /\
  exists x, saved_channel (gc_id x) c x /\
  forall k' y, In y (p_list_channels k' (t_pg d')) <-> (k' = k /\ y = x) \/ In y (p_list_channels k' (t_pg d)).
Proof.
  intros V Sc H. unfold copy_chan in H. destruct (p_store_channel _ _ _ _) as [[p i]|] eqn:E; [|discriminate]. injection H as <-.
  pose proof (store_channel_reads _ _ _ (unnumbered_chan c) _ _ V Sc E ltac:(intros K; exfalso; apply K; reflexivity)) as (_ & F & x & Sx & R).
  unfold p_store_channel in E. cbn [unnumbered_chan gc_id] in E. change (0 =? 0) with true in E. cbv iota in E. chk E. cbn [t_pg].
  split; [exact E|]. split; [unfold kept; cbn; auto 10|]. split; [reflexivity|]. split; [reflexivity|].
  exists x. split; [destruct Sx as [Ei Sx]; split; [reflexivity|exact Sx]|]. intros k' y. rewrite R. split.
  - intros [K|[K _]]; auto.
  - intros [K|K]; [auto|]. right. split; [exact K|]. exact (F eq_refl k' y K).
Qed.

Lemma copy_chans_spec k l : forall d d', pvalid (t_pg d) -> (forall c, In c l -> short_channel c) -> loop (copy_chan k) l d = (d', true) ->
  pvalid (t_pg d') /\ kept d d' /\ p_drcpts (t_pg d') = p_drcpts (t_pg d) /\ p_subs (t_pg d') = p_subs (t_pg d) /\
  (forall k' y, In y (p_list_channels k' (t_pg d)) -> In y (p_list_channels k' (t_pg d'))) /\
  (forall k' y, In y (p_list_channels k' (t_pg d')) -> In y (p_list_channels k' (t_pg d)) \/
     (k' = k /\ exists c, In c l /\ saved_channel (gc_id y) c y)) /\
  (forall c, In c l -> exists x, In x (p_list_channels k (t_pg d')) /\ saved_channel (gc_id x) c x).
Proof.
  induction l as [|c l IH]; intros d d' V S H; cbn [loop] in H.
  - injection H as <-. split; [exact V|]. split; [apply kept_refl|]. do 2 (split; [reflexivity|]). split; [auto|]. split; [auto|]. intros c [].
  - destruct (copy_chan k c d) as [d1 ok] eqn:E. destruct ok; [|discriminate].
    destruct (copy_chan_spec k c d d1 V (S c (or_introl eq_refl)) E) as (V1 & K1 & D1 & U1 & x & Sx & R).
    destruct (IH d1 d' V1 (fun y Hy => S y (or_intror Hy)) H) as (V2 & K2 & D2 & U2 & A & B & C).
    split; [exact V2|]. split; [eapply kept_trans; eassumption|]. split; [congruence|]. split; [congruence|]. split; [|split].
    + intros k' y Hy. apply A. apply R. right. exact Hy.
    + intros k' y Hy. destruct (B k' y Hy) as [Hy1|(Ek & c' & Hc' & Sc')].
      * apply R in Hy1. destruct Hy1 as [[-> ->]|Hy1]; [|left; exact Hy1]. right. split; [reflexivity|]. exists c. split; [left; reflexivity|exact Sx].
      * right. split; [exact Ek|]. exists c'. split; [right; exact Hc'|exact Sc'].
    + intros c' [<-|Hc']; [|exact (C c' Hc')]. exists x. split; [|exact Sx]. apply A. apply R. left. auto.
Qed.

(** ** Subscriptions *)

Lemma copy_sub_spec now u k s d d' : pvalid (t_pg d) -> copy_sub now u k s d = (d', true) ->
  pvalid (t_pg d') /\ kept d d' /\ p_drcpts (t_pg d') = p_drcpts (t_pg d) /\ p_chans (t_pg d') = p_chans (t_pg d) /\
  exists x, same_sub s x /\
  forall u' k' y, In y (p_list_subs u' k' (t_pg d')) <-> (u' = u /\ k' = k /\ y = x) \/ In y (p_list_subs u' k' (t_pg d)).
Proof.
  intros V H. unfold copy_sub in H. destruct (p_store_sub _ _ _ _ _ _) as [[p i]|] eqn:E; [|discriminate]. injection H as <-.
  pose proof (store_sub_reads _ _ _ _ _ _ _ _ V E ltac:(intros K; exfalso; apply K; reflexivity)) as (_ & R).
  unfold p_store_sub in E. cbn [unnumbered_sub gs_id] in E. change (0 =? 0) with true in E. cbv iota in E. chk E. cbn [t_pg].
  split; [exact E|]. split; [unfold kept; cbn; auto 10|]. split; [reflexivity|]. split; [reflexivity|].
  eexists. split; [|intros u' k' y; rewrite R; split].
  2: intros [K|[K _]]; [left; exact K|auto].
  2: intros [K|K]; [left; exact K|]; right; split; [exact K|]; apply in_p_list_subs in K; destruct K as (r & Hr & _ & _ & ->);
     exact (snoc_fresh ps_id _ _ r (pv_subs _ E) Hr).
  unfold same_sub. cbn. auto.
Qed.

Lemma copy_subs_spec now u k l : forall d d', pvalid (t_pg d) -> loop (copy_sub now u k) l d = (d', true) ->
  pvalid (t_pg d') /\ kept d d' /\ p_drcpts (t_pg d') = p_drcpts (t_pg d) /\ p_chans (t_pg d') = p_chans (t_pg d) /\
  (forall u' k' y, In y (p_list_subs u' k' (t_pg d)) -> In y (p_list_subs u' k' (t_pg d'))) /\
  (forall u' k' y, In y (p_list_subs u' k' (t_pg d')) -> In y (p_list_subs u' k' (t_pg d)) \/
     (u' = u /\ k' = k /\ exists s, In s l /\ same_sub s y)) /\
  (forall s, In s l -> exists x, In x (p_list_subs u k (t_pg d')) /\ same_sub s x).
Proof.
  induction l as [|c l IH]; intros d d' V H; cbn [loop] in H.
  - injection H as <-. split; [exact V|]. split; [apply kept_refl|]. do 2 (split; [reflexivity|]). split; [auto|]. split; [auto|]. intros c [].
  - destruct (copy_sub now u k c d) as [d1 ok] eqn:E. destruct ok; [|discriminate].
    destruct (copy_sub_spec now u k c d d1 V E) as (V1 & K1 & D1 & U1 & x & Sx & R).
    destruct (IH d1 d' V1 H) as (V2 & K2 & D2 & U2 & A & B & C).
    split; [exact V2|]. split; [eapply kept_trans; eassumption|]. split; [congruence|]. split; [congruence|]. split; [|split].
    + intros u' k' y Hy. apply A. apply R. right. exact Hy.
    + intros u' k' y Hy. destruct (B u' k' y Hy) as [Hy1|(Eu & Ek & c' & Hc' & Sc')].
      * apply R in Hy1. destruct Hy1 as [(-> & -> & ->)|Hy1]; [|left; exact Hy1]. right. split; [reflexivity|]. split; [reflexivity|].
        exists c. split; [left; reflexivity|exact Sx].
      * right. split; [exact Eu|]. split; [exact Ek|]. exists c'. split; [right; exact Hc'|exact Sc'].
    + intros c' [<-|Hc']; [|exact (C c' Hc')]. exists x. split; [|exact Sx]. apply A. apply R. left. auto.
Qed.

(** ** Receipts *)

Lemma insert_drcpts_rest net client l : forall p p', p_insert_drcpts net client l p = Some p' ->
  p' = set_drcpts (p_drcpts p') p.
Proof.
  induction l as [|[i [t m]] l IH]; intros p p' H; cbn [p_insert_drcpts] in H; [injection H as <-; destruct p; reflexivity|].
  destruct (pcheck _ _) as [q|] eqn:E; [|discriminate]. apply pcheck_some in E. destruct E as (-> & _ & _). exact (IH _ _ H).
Qed.

Lemma snd_serial {A} (l : list A) : forall i, map snd (serial i l) = l.
Proof. induction l as [|a l IH]; intros i; [reflexivity|]. cbn [serial map snd]. rewrite IH. reflexivity. Qed.

Lemma copy_drcpts_spec k x d d' : pvalid (t_pg d) -> short 255 (fst x) -> (forall t m, In (t, m) (snd x) -> short 255 t /\ short 255 m) ->
  copy_drcpts k x d = (d', true) ->
  pvalid (t_pg d') /\ kept d d' /\ p_subs (t_pg d') = p_subs (t_pg d) /\ p_chans (t_pg d') = p_chans (t_pg d) /\
  forall k' t c m, In (t, c, m) (p_list_drcpts k' (t_pg d')) <->
    (k' = k /\ c = fst x /\ In (t, m) (snd x)) \/ (In (t, c, m) (p_list_drcpts k' (t_pg d)) /\ ~ (k' = k /\ c = fst x)).
Proof.
  intros V Sc Sl H. unfold copy_drcpts in H. destruct (p_store_drcpts _ _ _ _) as [p|] eqn:E; [|discriminate]. injection H as <-.
  assert (Sr : short_receipts (serial (t_drcpt d) (snd x))).
  { intros i t m Hi. apply Sl. rewrite <- (snd_serial (snd x) (t_drcpt d)). apply in_map_iff. exists (i, (t, m)). auto. }
  pose proof (store_drcpts_reads _ _ _ _ _ Sc Sr E) as R. rewrite snd_serial in R. cbn [t_pg].
  unfold p_store_drcpts in E. destruct (pcheck _ _) as [q|] eqn:F; [|discriminate]. apply pcheck_some in F. destruct F as (-> & _ & W).
  pose proof (insert_drcpts_valid _ _ _ _ _ W E) as V'. apply insert_drcpts_rest in E.
  split; [exact V'|]. split; [unfold kept; cbn [t_pg t_user t_net t_configs]; rewrite E; cbn; auto 10|].
  split; [rewrite E; reflexivity|]. split; [rewrite E; reflexivity|]. exact R.
Qed.

Lemma copy_all_drcpts_spec k g : forall d d', pvalid (t_pg d) -> NoDup (map fst g) ->
  (forall c l t m, In (c, l) g -> In (t, m) l -> short 255 t /\ short 255 m) -> (forall c l, In (c, l) g -> short 255 c) ->
  (forall t c m, In c (map fst g) -> ~ In (t, c, m) (p_list_drcpts k (t_pg d))) ->
  loop (copy_drcpts k) g d = (d', true) ->
  pvalid (t_pg d') /\ kept d d' /\ p_subs (t_pg d') = p_subs (t_pg d) /\ p_chans (t_pg d') = p_chans (t_pg d) /\
  forall k' t c m, In (t, c, m) (p_list_drcpts k' (t_pg d')) <->
    (k' = k /\ exists l, In (c, l) g /\ In (t, m) l) \/ In (t, c, m) (p_list_drcpts k' (t_pg d)).
Proof.
  induction g as [|[c0 l0] g IH]; intros d d' V N S Sc Z H; cbn [loop] in H.
  - injection H as <-. split; [exact V|]. split; [apply kept_refl|]. do 2 (split; [reflexivity|]). intros k' t c m. split; [auto|].
    intros [(_ & l & [] & _)|K]. exact K.
  - destruct (copy_drcpts k (c0, l0) d) as [d1 ok] eqn:E. destruct ok; [|discriminate]. cbn [map fst] in N, Z. inversion N as [|? ? N0 N1]; subst.
    destruct (copy_drcpts_spec k (c0, l0) d d1 V (Sc c0 l0 (or_introl eq_refl)) (fun t m K => S c0 l0 t m (or_introl eq_refl) K) E)
      as (V1 & K1 & D1 & U1 & R). cbn [fst snd] in R.
    assert (Z1 : forall t c m, In c (map fst g) -> ~ In (t, c, m) (p_list_drcpts k (t_pg d1))).
    { intros t c m Hc K. apply R in K. destruct K as [(_ & -> & _)|[K _]]; [exact (N0 Hc)|]. exact (Z t c m (or_intror Hc) K). }
    destruct (IH d1 d' V1 N1 (fun c l t m K => S c l t m (or_intror K)) (fun c l K => Sc c l (or_intror K)) Z1 H) as (V2 & K2 & D2 & U2 & R2).
    split; [exact V2|]. split; [eapply kept_trans; eassumption|]. split; [congruence|]. split; [congruence|].
    intros k' t c m. rewrite R2, R. split.
    + intros [(-> & l & Hl & Ht)|[(-> & -> & Ht)|[K _]]].
      * left. split; [reflexivity|]. exists l. split; [right; exact Hl|exact Ht].
      * left. split; [reflexivity|]. exists l0. split; [left; reflexivity|exact Ht].
      * right. exact K.
    + intros [(-> & l & [Hl|Hl] & Ht)|K].
      * injection Hl as <- <-. right. left. auto.
      * left. split; [reflexivity|]. exists l. auto.
      * right. right. split; [exact K|]. intros [-> ->]. exact (Z t c0 m (or_introl eq_refl) K).
Qed.

Lemma add_client_fst c x g : forall c', In c' (map fst (add_client c x g)) <-> c' = c \/ In c' (map fst g).
Proof.
  induction g as [|[c0 l0] g IH]; intros c'; cbn [add_client].
  - cbn. intuition congruence.
  - destruct (beqb_spec c0 c) as [->|E]; cbn [map fst In]; [intuition congruence|]. rewrite IH. intuition congruence.
Qed.

Lemma add_client_nodup c x g : NoDup (map fst g) -> NoDup (map fst (add_client c x g)).
Proof.
  induction g as [|[c0 l0] g IH]; intros H; cbn [add_client].
  - cbn. constructor; [intros []|constructor].
  - destruct (beqb_spec c0 c) as [->|E]; cbn [map fst] in *; [exact H|]. inversion H as [|? ? H0 H1]; subst.
    constructor; [|apply IH; exact H1]. rewrite add_client_fst. intros [K|K]; [exact (E K)|exact (H0 K)].
Qed.

Lemma add_client_in c x g : forall c' y, (exists l, In (c', l) (add_client c x g) /\ In y l) <->
  (c' = c /\ y = x) \/ exists l, In (c', l) g /\ In y l.
Proof.
  induction g as [|[c0 l0] g IH]; intros c' y; cbn [add_client].
  - split.
    + intros (l & [E|[]] & Hy). injection E as <- <-. destruct Hy as [<-|[]]. left. auto.
    + intros [[-> ->]|(l & [] & _)]. exists [x]. split; left; reflexivity.
  - destruct (beqb_spec c0 c) as [->|E].
    + split.
      * intros (l & [K|K] & Hy); [injection K as <- <-; apply in_app_or in Hy; destruct Hy as [Hy|[<-|[]]]|].
        -- right. exists l0. split; [left; reflexivity|exact Hy].
        -- left. auto.
        -- right. exists l. split; [right; exact K|exact Hy].
      * intros [[-> ->]|(l & [K|K] & Hy)].
        -- exists (l0 ++ [x]). split; [left; reflexivity|apply in_or_app; right; left; reflexivity].
        -- injection K as <- <-. exists (l0 ++ [x]). split; [left; reflexivity|apply in_or_app; left; exact Hy].
        -- exists l. split; [right; exact K|exact Hy].
    + split.
      * intros (l & [K|K] & Hy).
        -- right. exists l. split; [left; exact K|exact Hy].
        -- destruct (proj1 (IH c' y) (ex_intro _ l (conj K Hy))) as [F|(l' & F & Hy')]; [left; exact F|].
           right. exists l'. split; [right; exact F|exact Hy'].
      * intros [F|(l & [K|K] & Hy)].
        -- destruct (proj2 (IH c' y) (or_introl F)) as (l & K & Hy). exists l. split; [right; exact K|exact Hy].
        -- exists l. split; [left; exact K|exact Hy].
        -- destruct (proj2 (IH c' y) (or_intror (ex_intro _ l (conj K Hy)))) as (l' & K' & Hy'). exists l'. split; [right; exact K'|exact Hy'].
Qed.

Lemma by_client_spec L : NoDup (map fst (by_client L)) /\
  (forall t c m, (exists l, In (c, l) (by_client L) /\ In (t, m) l) <-> In (t, c, m) L) /\
  (forall c, In c (map fst (by_client L)) -> exists t m, In (t, c, m) L).
Proof.
  unfold by_client. assert (G : forall g, NoDup (map fst g) -> let r := fold_left (fun g r => let '(t, c, m) := r in add_client c (t, m) g) L g in
    NoDup (map fst r) /\ (forall t c m, (exists l, In (c, l) r /\ In (t, m) l) <-> In (t, c, m) L \/ exists l, In (c, l) g /\ In (t, m) l) /\
    (forall c, In c (map fst r) -> (exists t m, In (t, c, m) L) \/ In c (map fst g))).
  { induction L as [|[[t0 c0] m0] L IH]; intros g N; cbn [fold_left].
    - split; [exact N|]. split; [|auto]. intros t c m. split; [auto|]. intros [[]|K]. exact K.
    - destruct (IH (add_client c0 (t0, m0) g) (add_client_nodup _ _ _ N)) as (N1 & I & F). split; [exact N1|]. split.
      + intros t c m. rewrite I, add_client_in. cbn [In]. split.
        * intros [K|[[-> E]|K]]; [auto| |auto]. injection E as -> ->. auto.
        * intros [[E|K]|K]; [injection E as -> -> ->; auto|auto|auto].
      + intros c Hc. destruct (F c Hc) as [(t & m & K)|K]; [left; exists t, m; right; exact K|].
        apply add_client_fst in K. destruct K as [->|K]; [left; exists t0, m0; left; reflexivity|right; exact K]. }
  destruct (G [] (NoDup_nil _)) as (N & I & F). split; [exact N|]. split.
  - intros t c m. rewrite I. split; [|auto]. intros [K|(l & [] & _)]. exact K.
  - intros c Hc. destruct (F c Hc) as [K|[]]. exact K.
Qed.

(** ** Networks *)

(** No rows belong to a network that does not exist. *)
Lemma no_channels p k : pvalid p -> (forall r, In r (p_nets p) -> nr_id r <> k) -> forall x, ~ In x (p_list_channels k p).
Proof.
  intros V F x Hx. apply in_p_list_channels in Hx. destruct Hx as (r & Hr & E & _).
  pose proof (pv_chans_fk p V) as K. rewrite refsb_iff in K. specialize (K r (cr_network r) Hr eq_refl).
  unfold pnet_ids in K. apply in_map_iff in K. destruct K as (n & En & Hn). apply (F n Hn). congruence.
Qed.

Lemma no_drcpts p k : pvalid p -> (forall r, In r (p_nets p) -> nr_id r <> k) -> forall t c m, ~ In (t, c, m) (p_list_drcpts k p).
Proof.
  intros V F t c m Hx. apply in_p_list_drcpts in Hx. destruct Hx as (r & Hr & E & _).
  pose proof (pv_drcpts_fk p V) as K. rewrite refsb_iff in K. specialize (K r (pd_network r) Hr eq_refl).
  unfold pnet_ids in K. apply in_map_iff in K. destruct K as (n & En & Hn). apply (F n Hn). congruence.
Qed.

Lemma no_subs p k : pvalid p -> k <> 0 -> (forall r, In r (p_nets p) -> nr_id r <> k) -> forall u x, ~ In x (p_list_subs u k p).
Proof.
  intros V Hk F u x Hx. apply in_p_list_subs in Hx. destruct Hx as (r & Hr & _ & E & _).
  pose proof (pv_subs_net p V) as K. rewrite refsb_iff in K. 
  assert (E' : ps_network r = Some k) by (rewrite E; unfold null_id; destruct (N.eqb_spec k 0); [contradiction|reflexivity]).
  specialize (K r k Hr E').
  unfold pnet_ids in K. apply in_map_iff in K. destruct K as (n & En & Hn). exact (F n Hn En).
Qed.

Section Src.
Variable src : source.
Variable now : Z.
Hypothesis FIT : fits src.

(** The parts outside the networks. *)
Definition aside (d d' : dest) : Prop :=
  p_users (t_pg d') = p_users (t_pg d) /\ t_user d' = t_user d /\ t_configs d' = t_configs d /\
  p_rrcpts (t_pg d') = p_rrcpts (t_pg d) /\ p_msgs (t_pg d') = p_msgs (t_pg d).

Lemma aside_refl d : aside d d.
Proof. unfold aside. auto. Qed.
Lemma aside_trans a b c : aside a b -> aside b c -> aside a c.
Proof. intros (A1 & A2 & A3 & A4 & A5) (B1 & B2 & B3 & B4 & B5). unfold aside. rewrite B1, B2, B3, B4, B5. auto. Qed.
Lemma kept_aside d d' : kept d d' -> aside d d'.
Proof. intros (A1 & A2 & A3 & A4 & A5 & A6 & A7). unfold aside. auto. Qed.

Lemma copy_net_spec u v0 n d d' : pvalid (t_pg d) -> In n (s_nets src v0) -> copy_net src now u n d = (d', true) ->
  pvalid (t_pg d') /\ aside d d' /\ exists k,
  (forall u' x, In x (p_list_networks u' (t_pg d)) -> gn_id x <> k) /\
  (forall u' x, In x (p_list_networks u' (t_pg d')) <-> (u' = u /\ x = saved_network k n) \/ In x (p_list_networks u' (t_pg d))) /\
  (forall k', k' <> k -> same_net (t_pg d) (t_pg d') k') /\
  copied_net src u n (t_pg d') u k.
Proof.
  intros V Hn H. destruct FIT as (_ & F2 & F3 & F4). destruct (F2 v0 n Hn) as [Sn Cn].
  unfold copy_net in H. set (k := t_net d + 1) in *. destruct (p_store_network _ _ _ _) as [[p i]|] eqn:E; [|discriminate].
  pose proof (store_network_reads _ _ _ (unnumbered_net n) _ _ V Sn Cn E ltac:(intros K; exfalso; apply K; reflexivity)) as (_ & Fr & R).
  specialize (Fr eq_refl).
  assert (W : pvalid p /\ i = k /\ p_users p = p_users (t_pg d) /\ p_chans p = p_chans (t_pg d) /\ p_drcpts p = p_drcpts (t_pg d) /\
    p_subs p = p_subs (t_pg d) /\ p_rrcpts p = p_rrcpts (t_pg d) /\ p_msgs p = p_msgs (t_pg d)).
  { unfold p_store_network in E. destruct (sasl_columns _) as [[[[[? ?] ?] ?] ?]|]; [|discriminate].
    cbn [unnumbered_net gn_id] in E. change (0 =? 0) with true in E. cbv iota in E. chk E. cbn. auto 10. }
  destruct W as (Vp & -> & W1 & W2 & W3 & W4 & W5 & W6). clear E.
  change (saved_network k (unnumbered_net n)) with (saved_network k n) in R.
  assert (Fk : forall r, In r (p_nets (t_pg d)) -> nr_id r <> k).
  { intros r Hr. exact (Fr (nr_user r) (load_network r) (proj2 (in_p_list_networks _ _ _) (ex_intro _ r (conj Hr (conj eq_refl eq_refl))))). }
  set (d0 := Dest p (t_user d) k (t_chan d) (t_drcpt d) (t_sub d) (t_configs d)) in *.
  destruct (loop (copy_chan k) _ d0) as [d1 ok] eqn:E1. destruct ok; [|discriminate]. cbn [negb] in H.
  destruct (loop (copy_drcpts k) _ d1) as [d2 ok] eqn:E2. destruct ok; [|discriminate]. cbn [negb] in H.
  destruct (copy_chans_spec k _ d0 d1 Vp (fun c Hc => F3 _ c Hc) E1) as (V1 & K1 & D1 & U1 & A1 & B1 & C1).
  destruct (by_client_spec (s_drcpts src (gn_id n))) as (N & I & J).
  assert (Z : forall t c m, ~ In (t, c, m) (p_list_drcpts k (t_pg d1))).
  { intros t c m. unfold p_list_drcpts. rewrite D1. cbn [d0 t_pg]. rewrite W3. exact (no_drcpts _ k V Fk t c m). }
  assert (G1 : forall c l t m, In (c, l) (by_client (s_drcpts src (gn_id n))) -> In (t, m) l -> short 255 t /\ short 255 m).
  { intros c l t m Hl Ht. destruct (F4 _ t c m (proj1 (I t c m) (ex_intro _ l (conj Hl Ht)))) as (S1 & _ & S3). auto. }
  assert (G2 : forall c l, In (c, l) (by_client (s_drcpts src (gn_id n))) -> short 255 c).
  { intros c l Hl. destruct (J c) as (t & m & K); [apply in_map_iff; exists (c, l); auto|]. destruct (F4 _ t c m K) as (_ & S2 & _). exact S2. }
  destruct (copy_all_drcpts_spec k _ d1 d2 V1 N G1 G2 (fun t c m _ => Z t c m) E2) as (V2 & K2 & U2 & X2 & R2).
  destruct (copy_subs_spec now u k _ d2 d' V2 H) as (V3 & K3 & D3 & X3 & A3 & B3 & C3).
  assert (K : kept d0 d') by (eapply kept_trans; [exact K1|eapply kept_trans; [exact K2|exact K3]]).
  destruct K as (Q1 & Q2 & Q3 & Q4 & Q5 & Q6 & Q7). cbn [d0 t_pg t_user t_net t_configs] in *.
  split; [exact V3|]. split; [unfold aside; rewrite Q1, Q3, Q5, Q6, Q7; auto|]. exists k. split; [exact Fr|].
  assert (R' : forall u' x, In x (p_list_networks u' (t_pg d')) <-> (u' = u /\ x = saved_network k n) \/ In x (p_list_networks u' (t_pg d))).
  { intros u' x. unfold p_list_networks at 1. rewrite Q2. fold (p_list_networks u' p). rewrite R. split.
    - intros [L|[L _]]; auto.
    - intros [L|L]; [auto|]. right. split; [exact L|exact (Fr u' x L)]. }
  assert (Ch : forall k', p_list_channels k' (t_pg d') = p_list_channels k' (t_pg d1))
    by (intros k'; unfold p_list_channels; rewrite X3, X2; reflexivity).
  assert (Dr : forall k', p_list_drcpts k' (t_pg d') = p_list_drcpts k' (t_pg d2))
    by (intros k'; unfold p_list_drcpts; rewrite D3; reflexivity).
  assert (Sb : forall u' k', p_list_subs u' k' (t_pg d2) = p_list_subs u' k' (t_pg d))
    by (intros u' k'; unfold p_list_subs; rewrite U2, U1, W4; reflexivity).
  assert (Ch0 : forall k', p_list_channels k' p = p_list_channels k' (t_pg d)) by (intros k'; unfold p_list_channels; rewrite W2; reflexivity).
  assert (Dr0 : forall k', p_list_drcpts k' (t_pg d1) = p_list_drcpts k' (t_pg d))
    by (intros k'; unfold p_list_drcpts; rewrite D1, W3; reflexivity).
  split; [exact R'|]. split.
  - intros k' Hk. constructor.
    + intros x. rewrite Ch, <- Ch0. split; [|apply A1]. intros Hx. destruct (B1 k' x Hx) as [Hx'|[E _]]; [exact Hx'|contradiction].
    + intros t c m. rewrite Dr, R2, Dr0. split; [|auto]. intros [[E _]|Hx]; [contradiction|exact Hx].
    + intros u' x. rewrite <- Sb. split; [|apply A3]. intros Hx. destruct (B3 u' k' x Hx) as [Hx'|(_ & E & _)]; [exact Hx'|contradiction].
  - constructor.
    + apply R'. left. auto.
    + intros c Hc. rewrite Ch. exact (C1 c Hc).
    + intros x Hx. rewrite Ch in Hx. destruct (B1 k x Hx) as [Hx'|[_ Hc]]; [|exact Hc]. exfalso. rewrite Ch0 in Hx'.
      exact (no_channels _ k V Fk x Hx').
    + intros t c m. rewrite Dr, R2. rewrite I. split; [|auto]. intros [[_ Hx]|Hx]; [exact Hx|]. exfalso. exact (Z t c m Hx).
    + exact C3.
    + intros x Hx. destruct (B3 u k x Hx) as [Hx'|(_ & _ & Hs)]; [|exact Hs]. exfalso. rewrite Sb in Hx'.
      refine (no_subs _ k V _ Fk u x Hx'). unfold k. lia.
Qed.

Lemma copy_nets_spec u v0 l : forall d d', pvalid (t_pg d) -> (forall n, In n l -> In n (s_nets src v0)) ->
  loop (copy_net src now u) l d = (d', true) ->
  pvalid (t_pg d') /\ aside d d' /\
  (forall u' x, u' <> u -> In x (p_list_networks u' (t_pg d')) <-> In x (p_list_networks u' (t_pg d))) /\
  (forall u' x, In x (p_list_networks u' (t_pg d)) -> In x (p_list_networks u' (t_pg d')) /\ same_net (t_pg d) (t_pg d') (gn_id x)) /\
  (forall n, In n l -> exists k, copied_net src u n (t_pg d') u k) /\
  (forall x, In x (p_list_networks u (t_pg d')) -> In x (p_list_networks u (t_pg d)) \/
     exists n, In n l /\ x = saved_network (gn_id x) n /\ copied_net src u n (t_pg d') u (gn_id x)).
Proof.
  induction l as [|n l IH]; intros d d' V S H; cbn [loop] in H.
  - injection H as <-. split; [exact V|]. split; [apply aside_refl|]. split; [reflexivity|]. split; [intros u' x Hx; split; [exact Hx|apply same_net_refl]|].
    split; [intros n []|auto].
  - destruct (copy_net src now u n d) as [d1 ok] eqn:E. destruct ok; [|discriminate].
    destruct (copy_net_spec u v0 n d d1 V (S n (or_introl eq_refl)) E) as (V1 & A1 & k & Fr & R & SN & CN).
    destruct (IH d1 d' V1 (fun x Hx => S x (or_intror Hx)) H) as (V2 & A2 & O2 & P2 & N2 & X2).
    assert (CN' : copied_net src u n (t_pg d') u k).
    { destruct (P2 u (saved_network k n) (cn_net _ _ _ _ _ _ CN)) as [I SM]. exact (copied_net_same _ _ _ _ _ _ _ CN SM I). }
    split; [exact V2|]. split; [eapply aside_trans; eassumption|]. split; [|split; [|split]].
    + intros u' x Hu. rewrite (O2 u' x Hu), R. split; [|auto]. intros [[E1 _]|K]; [contradiction|exact K].
    + intros u' x Hx. destruct (P2 u' x (proj2 (R u' x) (or_intror Hx))) as [I SM]. split; [exact I|].
      eapply same_net_trans; [apply SN; exact (Fr u' x Hx)|exact SM].
    + intros n' [<-|Hn']; [exists k; exact CN'|exact (N2 n' Hn')].
    + intros x Hx. destruct (X2 x Hx) as [Hx1|(n' & Hn' & Ex & C')].
      * apply R in Hx1. destruct Hx1 as [[_ ->]|Hx1]; [|left; exact Hx1]. right. exists n. split; [left; reflexivity|]. split; [reflexivity|exact CN'].
      * right. exists n'. split; [right; exact Hn'|]. auto.
Qed.

(** ** Users *)

Lemma copy_user_spec x d d' : pvalid (t_pg d) -> short_user x -> copy_user src now x d = (d', true) ->
  pvalid (t_pg d') /\ t_user d' = t_user d + 1 /\ t_configs d' = t_configs d /\
  p_rrcpts (t_pg d') = p_rrcpts (t_pg d) /\ p_msgs (t_pg d') = p_msgs (t_pg d) /\
  (exists x', p_list_users (t_pg d') = p_list_users (t_pg d) ++ [x'] /\ psaved_user (t_user d + 1) x x') /\
  (forall u' y, u' <> t_user d + 1 -> In y (p_list_networks u' (t_pg d')) <-> In y (p_list_networks u' (t_pg d))) /\
  (forall u' y, In y (p_list_networks u' (t_pg d)) -> same_net (t_pg d) (t_pg d') (gn_id y)) /\
  copied src (t_user d + 1) (t_pg d') (t_user d + 1).
Proof.
  intros V (S1 & S2 & S3 & S4) H. unfold copy_user in H. set (u := t_user d + 1) in *.
  destruct (p_store_user _ _ _ _) as [[p i]|] eqn:E; [|discriminate]. set (d0 := Dest p u _ _ _ _ _) in *.
  unfold p_store_user in E. cbn [unnumbered_user gu_id] in E. change (0 =? 0) with true in E. cbv iota in E. chk E.
  set (row := PUser _ _ _ _ _ _ _ _ _ _) in *.
  destruct (copy_nets_spec u u (s_nets src u) d0 d' E (fun n Hn => Hn) H) as (V1 & (A1 & A2 & A3 & A4 & A5) & O & P & N1 & X).
  cbn [d0 t_pg t_user t_configs set_users p_users p_rrcpts p_msgs] in *.
  assert (Nt : forall u', p_list_networks u' (set_users (p_users (t_pg d) ++ [row]) (t_pg d)) = p_list_networks u' (t_pg d)) by reflexivity.
  assert (Z : forall y, ~ In y (p_list_networks u (t_pg d))).
  { intros y Hy. apply in_p_list_networks in Hy. destruct Hy as (r & Hr & Eu & _).
    pose proof (pv_nets_fk _ V) as K. rewrite refsb_iff in K. specialize (K r (nr_user r) Hr eq_refl).
    unfold puser_ids in K. apply in_map_iff in K. destruct K as (b & Eb & Hb).
    apply (snoc_fresh pu_id _ _ b (pv_users _ E) Hb). cbn [row pu_id]. congruence. }
  split; [exact V1|]. split; [exact A2|]. split; [exact A3|]. split; [exact A4|]. split; [exact A5|]. split; [|split; [|split]].
  - exists (p_load_user row). split; [unfold p_list_users; rewrite A1, map_app; reflexivity|].
    unfold psaved_user, p_load_user, row. cbn [gu_id gu_username gu_password gu_nick gu_realname gu_admin gu_enabled gu_interacted gu_max
          pu_id pu_username pu_password pu_nick pu_realname pu_admin pu_enabled pu_interacted pu_max unnumbered_user].
    rewrite !string_nvc by assumption. destruct (short_ok _ _ S1) as (_ & C1 & _).
    repeat (split; [first [reflexivity|exact C1|apply null_nearest]|]). reflexivity.
  - intros u' y Hu. rewrite (O u' y Hu), Nt. reflexivity.
  - intros u' y Hy. destruct (P u' y) as [_ [B1 B2 B3]]; [rewrite Nt; exact Hy|]. constructor; [exact B1|exact B2|exact B3].
  - split; [exact N1|]. intros y Hy. destruct (X y Hy) as [K|K]; [exfalso; rewrite Nt in K; exact (Z y K)|exact K].
Qed.

Lemma copied_same v w p p' : (forall y, In y (p_list_networks w p') <-> In y (p_list_networks w p)) ->
  (forall y, In y (p_list_networks w p) -> same_net p p' (gn_id y)) -> copied src v p w -> copied src v p' w.
Proof.
  intros I S [C1 C2]. split.
  - intros n Hn. destruct (C1 n Hn) as (k & C). exists k. pose proof (cn_net _ _ _ _ _ _ C) as K.
    exact (copied_net_same _ _ _ _ _ _ _ C (S _ K) (proj2 (I _) K)).
  - intros x Hx. apply I in Hx. destruct (C2 x Hx) as (n & Hn & E & C). exists n. split; [exact Hn|]. split; [exact E|].
    eapply copied_net_same; [exact C|exact (S x Hx)|]. rewrite <- E. apply I. exact Hx.
Qed.

Lemma copy_users_spec l : forall d d', pvalid (t_pg d) -> (forall x, In x l -> short_user x) -> loop (copy_user src now) l d = (d', true) ->
  t_configs d' = t_configs d /\ p_rrcpts (t_pg d') = p_rrcpts (t_pg d) /\ p_msgs (t_pg d') = p_msgs (t_pg d) /\
  (forall u' y, u' <= t_user d -> In y (p_list_networks u' (t_pg d')) <-> In y (p_list_networks u' (t_pg d))) /\
  (forall u' y, u' <= t_user d -> In y (p_list_networks u' (t_pg d)) -> same_net (t_pg d) (t_pg d') (gn_id y)) /\
  exists us, p_list_users (t_pg d') = p_list_users (t_pg d) ++ us /\ length us = length l /\
  forall i x, nth_error l i = Some x -> exists x', nth_error us i = Some x' /\ psaved_user (t_user d + N.of_nat (S i)) x x' /\
    copied src (t_user d + N.of_nat (S i)) (t_pg d') (t_user d + N.of_nat (S i)).
Proof.
  induction l as [|x l IH]; intros d d' V S H; cbn [loop] in H.
  - injection H as <-. do 3 (split; [reflexivity|]). split; [reflexivity|]. split; [intros; apply same_net_refl|]. exists [].
    split; [rewrite app_nil_r; reflexivity|]. split; [reflexivity|]. intros [|i] y E; discriminate E.
  - destruct (copy_user src now x d) as [d1 ok] eqn:E. destruct ok; [|discriminate].
    destruct (copy_user_spec x d d1 V (S x (or_introl eq_refl)) E) as (V1 & T1 & C1 & R1 & M1 & (x' & L1 & P1) & O1 & Q1 & Y1).
    destruct (IH d1 d' V1 (fun y Hy => S y (or_intror Hy)) H) as (C2 & R2 & M2 & O2 & Q2 & us & L2 & Len & Y2). rewrite T1 in *.
    split; [congruence|]. split; [congruence|]. split; [congruence|]. split; [|split].
    + intros u' y Hu. rewrite (O2 u' y) by lia. apply O1. lia.
    + intros u' y Hu Hy. eapply same_net_trans; [exact (Q1 u' y Hy)|]. apply (Q2 u' y); [lia|]. apply O1; [lia|exact Hy].
    + exists (x' :: us). split; [rewrite L2, L1, <- app_assoc; reflexivity|]. split; [cbn [length]; congruence|].
      intros [|i] y Hy; cbn [nth_error] in *.
      * injection Hy as <-. exists x'. split; [reflexivity|]. change (N.of_nat 1) with 1. split; [exact P1|].
        apply (copied_same _ _ (t_pg d1)); [intros y; apply O2; lia|intros y Hy; apply (Q2 (t_user d + 1)); [lia|exact Hy]|exact Y1].
      * destruct (Y2 i y Hy) as (y' & Hy' & P' & C'). exists y'. split; [exact Hy'|].
        replace (t_user d + N.of_nat (Datatypes.S (Datatypes.S i))) with (t_user d + 1 + N.of_nat (Datatypes.S i)) by lia. auto.
Qed.

Lemma copy_configs_spec l : forall d d', loop copy_config l d = (d', true) -> t_pg d' = t_pg d /\ t_configs d' = t_configs d ++ l.
Proof.
  induction l as [|c l IH]; intros d d' H; cbn [loop] in H; [injection H as <-; rewrite app_nil_r; auto|].
  destruct (copy_config c d) as [d1 ok] eqn:E. destruct ok; [|discriminate]. unfold copy_config in E. destruct (_ && _); [|discriminate].
  injection E as <-. destruct (IH _ _ H) as [E1 E2]. cbn [t_pg t_configs] in *. split; [exact E1|]. rewrite E2, <- app_assoc. reflexivity.
Qed.

Theorem migrate_spec d : migrate src now = (d, true) ->
  length (p_list_users (t_pg d)) = length (s_users src) /\
  (forall i x, nth_error (s_users src) i = Some x -> exists x', nth_error (p_list_users (t_pg d)) i = Some x' /\
     psaved_user (N.of_nat (S i)) x x' /\ copied src (N.of_nat (S i)) (t_pg d) (N.of_nat (S i))) /\
  t_configs d = s_configs src /\ p_rrcpts (t_pg d) = [] /\ p_msgs (t_pg d) = [].
Proof.
  intros H. unfold migrate in H. destruct (loop (copy_user src now) _ _) as [d1 ok] eqn:E. destruct ok; [|discriminate].
  destruct (copy_users_spec _ empty_dest _ (proj1 (pvalid_iff empty_pg) eq_refl) (proj1 FIT) E) as (C & R & M & _ & _ & us & L & Len & Y).
  destruct (copy_configs_spec _ _ _ H) as [E1 E2]. rewrite E1, E2, C. cbn [empty_dest t_pg t_configs app p_list_users p_users map empty_pg] in *.
  change (p_list_users empty_pg) with (@nil guser) in L. cbn [app] in L. rewrite L.
  split; [exact Len|]. split; [|split; [reflexivity|]; split; [exact R|exact M]].
  intros i x Hx. destruct (Y i x Hx) as (x' & Hx' & P & K). cbn [t_user N.add] in P, K. exists x'. auto.
Qed.

Corollary migrate_numbered d : numbered (s_users src) -> migrate src now = (d, true) ->
  forall i x, nth_error (s_users src) i = Some x -> exists x', nth_error (p_list_users (t_pg d)) i = Some x' /\
     psaved_user (gu_id x) x x' /\ copied src (gu_id x) (t_pg d) (gu_id x').
Proof.
  intros Nb H i x Hx. destruct (migrate_spec d H) as (_ & Y & _). destruct (Y i x Hx) as (x' & Hx' & P & K).
  exists x'. split; [exact Hx'|]. rewrite (Nb i x Hx). split; [exact P|]. destruct P as [-> _]. exact K.
Qed.
End Src.
