(** Proofs about the import of ZNC configuration files. *)
From Verif.Base Require Import Bytes.
From Verif.Model Require Import Message TimeFmt Sql ZncImport.
From Verif.Proof Require Import ZncServer Sql SqlStore.
From Verif.Spec Require Import TimeFmt Sql ZncImport.
From Coq Require Import ZArith NArith Lia.
Open Scope nat_scope.

(** ** Rows *)

Record rows_ok (d : db) : Prop := {
  ro_users : forall r, In r (d_users d) -> ur_id r <> 0%N;
  ro_nets : forall r, In r (d_nets d) -> nr_id r <> 0%N /\ nr_cmds r <> Some [] /\ saved_network (nr_id r) (load_network r) = load_network r;
  ro_chans : forall r, In r (d_chans d) -> cr_id r <> 0%N }.

Lemma rows_sub d d' : (forall r, In r (d_users d') -> In r (d_users d)) -> (forall r, In r (d_nets d') -> In r (d_nets d)) ->
  (forall r, In r (d_chans d') -> In r (d_chans d)) -> rows_ok d -> rows_ok d'.
Proof.
  intros H1 H2 H3 [A1 A2 A3]. constructor; intros r Hr; [apply A1, H1, Hr|apply A2, H2, Hr|apply A3, H3, Hr].
Qed.

Lemma null_not s : null_string s <> Some [].
Proof. destruct s; discriminate. Qed.

Ltac chk H := match type of H with context [check ?x] => let E := fresh "E" in
  destruct (check x) as [?|] eqn:E; [|discriminate]; apply check_some in E; destruct E as [-> E] end.

Lemma store_user_rows now u d d' id : rows_ok d -> store_user now u d = Some (d', id) -> rows_ok d'.
Proof.
  intros [A1 A2 A3] H. unfold store_user in H. destruct (N.eqb (gu_id u) 0); chk H; injection H as <- <-.
  - constructor; [|exact A2|exact A3]. intros r Hr. apply in_app_or in Hr. destruct Hr as [Hr|[<-|[]]]; [exact (A1 r Hr)|]. apply next_id_pos.
  - constructor; [|exact A2|exact A3]. intros r Hr. apply in_map_iff in Hr. destruct Hr as (r0 & <- & Hr).
    destruct (beqb _ _); exact (A1 r0 Hr).
Qed.

Lemma store_network_rows u n d d' id : rows_ok d -> store_network u n d = Some (d', id) -> rows_ok d'.
Proof.
  intros [A1 A2 A3] H. unfold store_network in H.
  destruct (sasl_columns n) as [[[[[mech puser] ppass] cert] key]|] eqn:ES; [|discriminate].
  set (row := fun id owner => NetRow id (null_string (gn_name n)) owner (gn_addr n) (null_string (gn_nick n))
    (null_string (gn_username n)) (null_string (gn_realname n)) (null_string (gn_certfp n)) (null_string (gn_pass n))
    (null_string (join cmd_sep (gn_cmds n))) mech puser ppass cert key (gn_away n) (gn_enabled n)) in H.
  assert (L : forall i o, saved_network (nr_id (row i o)) (load_network (row i o)) = load_network (row i o)).
  { intros i o. unfold saved_network, load_network, row.
    cbn [nr_id nr_name nr_addr nr_nick nr_username nr_realname nr_pass nr_cmds nr_certfp nr_mech nr_puser nr_ppass nr_cert nr_key
      nr_away nr_enabled gn_id gn_name gn_addr gn_nick gn_username gn_realname gn_pass gn_cmds gn_certfp gn_mech gn_puser gn_ppass gn_cert
      gn_key gn_away gn_enabled].
    unfold sasl_columns in ES. destruct (beqb_spec (gn_mech n) []) as [Em|Em].
    - injection ES as <- <- <- <- <-. reflexivity.
    - destruct (beqb_spec (gn_mech n) (B "PLAIN")) as [Ep|Ep].
      + injection ES as <- <- <- <- <-. rewrite !string_null, Ep, beqb_refl. reflexivity.
      + destruct (beqb_spec (gn_mech n) (B "EXTERNAL")) as [Ee|Ee]; [|discriminate]. injection ES as <- <- <- <- <-.
        rewrite !string_null. apply beqb_neq in Ep. rewrite Ep. reflexivity. }
  destruct (N.eqb (gn_id n) 0); chk H; injection H as <- <-; (constructor; [exact A1| |exact A3]); intros r Hr.
  - apply in_app_or in Hr. destruct Hr as [Hr|[<-|[]]]; [exact (A2 r Hr)|].
    split; [apply next_id_pos|]. split; [apply null_not|apply L].
  - apply in_map_iff in Hr. destruct Hr as (r0 & <- & Hr). destruct (N.eqb _ _); [|exact (A2 r0 Hr)].
    split; [exact (proj1 (A2 r0 Hr))|]. split; [apply null_not|apply L].
Qed.

Lemma store_channel_rows k c d d' id : rows_ok d -> store_channel k c d = Some (d', id) -> rows_ok d'.
Proof.
  intros [A1 A2 A3] H. unfold store_channel in H. destruct (N.eqb (gc_id c) 0); chk H; injection H as <- <-; (constructor; [exact A1|exact A2|]); intros r Hr.
  - apply in_app_or in Hr. destruct Hr as [Hr|[<-|[]]]; [exact (A3 r Hr)|]. apply next_id_pos.
  - apply in_map_iff in Hr. destruct Hr as (r0 & <- & Hr). destruct (N.eqb _ _); exact (A3 r0 Hr).
Qed.

Ltac subset := intros st e Hst Q; repeat (destruct Hst as [<-|Hst]; [
  apply (rows_sub e); [..|exact Q]; intros r Hr; try exact Hr; exact (proj1 (proj1 (filter_In _ _ _) Hr))|]); destruct Hst.

Section Reach.
Variable raw_of : message -> bytes.

Lemma perform_rows d c d' : valid d -> rows_ok d -> perform raw_of c d = Some d' -> rows_ok d'.
Proof.
  intros V P H. destruct c; cbn [perform] in H.
  - apply fst_opt_some in H. destruct H as [i H]. exact (store_user_rows _ _ _ _ _ P H).
  - refine (exec_inv rows_ok _ _ _ _ P H). subset.
  - apply fst_opt_some in H. destruct H as [i H]. exact (store_network_rows _ _ _ _ _ P H).
  - refine (exec_inv rows_ok _ _ _ _ P H). subset.
  - apply fst_opt_some in H. destruct H as [i H]. exact (store_channel_rows _ _ _ _ _ P H).
  - apply check_some in H. destruct H as [-> H]. apply (rows_sub d); [..|exact P]; intros r Hr; try exact Hr. exact (proj1 (proj1 (filter_In _ _ _) Hr)).
  - refine (exec_inv rows_ok _ _ _ _ P H). intros st e [<-|Hst] Q.
    + apply (rows_sub e); [..|exact Q]; intros r Hr; exact Hr.
    + apply in_map_iff in Hst. destruct Hst as (r0 & <- & _). apply (rows_sub e); [..|exact Q]; intros r Hr; exact Hr.
  - apply fst_opt_some in H. destruct H as [i H]. unfold store_rrcpt in H. destruct (N.eqb id 0); chk H; injection H as <- <-;
      (apply (rows_sub d); [..|exact P]; intros r Hr; exact Hr).
  - apply fst_opt_some in H. destruct H as [i H]. unfold store_sub in H. destruct (N.eqb (gs_id s) 0); chk H; injection H as <- <-;
      (apply (rows_sub d); [..|exact P]; intros r Hr; exact Hr).
  - apply check_some in H. destruct H as [-> H]. apply (rows_sub d); [..|exact P]; intros r Hr; exact Hr.
  - apply fst_opt_some in H. destruct H as [i H]. unfold store_messages in H. destruct l as [|m l].
    + injection H as <- <-. exact P.
    + destruct (check (add_target net name d)) as [e|] eqn:E; [|discriminate]. apply check_some in E. destruct E as [-> E].
      apply insert_msgs_some in H; [|exact E]. destruct H as (_ & [H1 H2] & H3 & H4 & _).
      assert (K : d_users (add_target net name d) = d_users d /\ d_nets (add_target net name d) = d_nets d /\ d_chans (add_target net name d) = d_chans d).
      { unfold add_target. destruct (existsb _ _); repeat split. }
      destruct K as (K1 & K2 & K3). apply (rows_sub d); [..|exact P]; intros r Hr; congruence.
Qed.

Lemma reachable_rows d : reachable raw_of d -> rows_ok d.
Proof.
  induction 1 as [|d c R IH Own]; [constructor; intros r []|]. unfold step_db.
  destruct (perform raw_of c d) as [d'|] eqn:E; [|exact IH]. exact (perform_rows d c d' (proj1 (reachable_ok raw_of d R)) IH E).
Qed.
End Reach.

(** ** Connect commands *)

Lemma split_pieces n : forall s, length s <= n -> forall c, In c (split_crlf s) -> ~ has_crlf c.
Proof.
  induction n as [|n IH]; intros s Hs c Hc.
  - destruct s; [|cbn in Hs; lia]. destruct Hc as [<-|[]]. intros (a & b & E). destruct a; discriminate.
  - destruct s as [|x [|y s]].
    + destruct Hc as [<-|[]]. intros (a & b & E). destruct a; discriminate.
    + destruct Hc as [<-|[]]. intros (a & b & E). destruct a as [|? [|? ?]]; discriminate.
    + rewrite split_crlf_cons in Hc. destruct (aeqb x "013" && aeqb y "010") eqn:Exy.
      * destruct Hc as [<-|Hc]; [intros (a & b & E); destruct a; discriminate|]. apply (IH s); [cbn in Hs; lia|exact Hc].
      * pose proof (IH (y :: s)) as J. destruct (split_crlf (y :: s)) as [|w ws] eqn:Es; [destruct Hc|].
        assert (Ly : length (y :: s) <= n) by (cbn in Hs |- *; lia). destruct Hc as [<-|Hc]; [|apply (J Ly); right; exact Hc].
        intros (a & b & E). destruct a as [|a0 a].
        -- cbn in E. injection E as -> E. destruct w as [|w0 w]; [discriminate|]. injection E as -> E.
           (* y is the first byte of the first piece *)
           assert (y = "010"%char) as ->.
           { clear -Es. destruct s as [|z s]; [cbn in Es; injection Es as ->; reflexivity|].
             rewrite split_crlf_cons in Es. destruct (aeqb y "013" && aeqb z "010"); [discriminate|].
             destruct (split_crlf (z :: s)); [discriminate|]. injection Es as -> _ _. reflexivity. }
           discriminate Exy.
        -- injection E as -> E. apply (J Ly w (or_introl eq_refl)). exists a, b. exact E.
Qed.

Lemma split_single s : split_crlf s = [[]] -> s = [].
Proof.
  destruct s as [|x [|y s]]; [reflexivity|discriminate|]. rewrite split_crlf_cons.
  destruct (aeqb x "013" && aeqb y "010").
  - intros E. injection E as E. exfalso. exact (split_crlf_nonempty s E).
  - destruct (split_crlf (y :: s)); discriminate.
Qed.

Lemma loaded_cmds d n u : rows_ok d -> In n (list_networks u d) -> storable_cmds (gn_cmds n).
Proof.
  intros P Hn. apply in_list_networks in Hn. destruct Hn as (r & Hr & _ & ->). destruct (ro_nets d P r Hr) as (_ & Hc & _).
  cbn [load_network gn_cmds]. destruct (nr_cmds r) as [s|]; [|split; [discriminate|intros c a b []]]. split.
  - intros E. apply Hc. f_equal. exact (split_single s E).
  - intros c a b Hi E. apply (split_pieces (length s) s (le_n _) c Hi). exists a, b. exact E.
Qed.

(** ** Lists *)

Lemma filter_filter {A} (f g : A -> bool) l : filter f (filter g l) = filter (fun x => g x && f x) l.
Proof. induction l as [|x l IH]; [reflexivity|]. cbn. destruct (g x); cbn; [destruct (f x)|]; rewrite IH; reflexivity. Qed.

Lemma each_filter f (keep : znc -> bool) l : (forall s d, keep s = false -> f s d = (d, true)) ->
  forall d, each f l d = each f (filter keep l) d.
Proof.
  intros H. induction l as [|s l IH]; intros d; [reflexivity|]. cbn [each filter]. destruct (keep s) eqn:E.
  - cbn [each]. destruct (f s d) as [d' ok]. destruct ok; [apply IH|reflexivity].
  - rewrite (H s d E). apply IH.
Qed.

Lemma get_setting s k : get (z_values s) k = setting s k.
Proof.
  unfold setting. induction (z_values s) as [|[k' v] l IH]; [reflexivity|]. cbn [get find fst]. destruct (beqb k' k); [reflexivity|exact IH].
Qed.

Lemma bmem_chosen names name : wanted names name = chosen names name.
Proof.
  unfold wanted, chosen. destruct names as [|x l]; [reflexivity|]. generalize (x :: l) as m. intros m.
  induction m as [|y m IH]; [reflexivity|]. unfold bmem in *. cbn [existsb]. f_equal; try exact IH.
Qed.

Lemma lookup_some {A} (name : A -> bytes) l k x : lookup name l k = Some x -> In x l /\ name x = k.
Proof. unfold lookup. intros E. apply find_some in E. destruct E as [E1 E2]. apply in_rev in E1. apply beqb_eq in E2. auto. Qed.
Lemma lookup_none {A} (name : A -> bytes) l k : lookup name l k = None -> forall x, In x l -> name x <> k.
Proof.
  unfold lookup. intros E x Hx K. apply in_rev in Hx. pose proof (find_none _ _ E x Hx) as F. cbn in F. rewrite K, beqb_refl in F. discriminate.
Qed.

Lemma net_name_either n : net_name n = either (gn_name n) (gn_addr n).
Proof. reflexivity. Qed.

(** ** Channels *)

Definition same_l := @same_list.
Lemma same_refl {A} (l : list A) : same_list l l.
Proof. intros x. reflexivity. Qed.
Lemma same_trans {A} (a b c : list A) : same_list a b -> same_list b c -> same_list a c.
Proof. intros H K x. rewrite (K x). apply H. Qed.

Definition chans_only (d d' : db) : Prop := d_users d' = d_users d /\ d_nets d' = d_nets d /\ rest_same d d'.

Lemma rest_refl d : rest_same d d.
Proof. unfold rest_same. tauto. Qed.
Lemma rest_trans a b c : rest_same a b -> rest_same b c -> rest_same a c.
Proof. unfold rest_same. intuition congruence. Qed.

Lemma chan_uniq d k k' x y : valid d -> In x (list_channels k d) -> In y (list_channels k' d) -> gc_id x = gc_id y -> k = k' /\ x = y.
Proof.
  intros V Hx Hy E. apply in_list_channels in Hx, Hy. destruct Hx as (r & Hr & <- & ->), Hy as (r' & Hr' & <- & ->).
  assert (r = r') by (eapply (uniqb_pk cr_id); [exact (v_chans d V)|exact Hr|exact Hr'|exact E]). subst r'. auto.
Qed.

Lemma uniqb_map_same {A} key (f : A -> A) l : (forall x, In x l -> key (f x) = key x) -> uniqb key l = true -> uniqb key (map f l) = true.
Proof.
  intros H. induction l as [|x l IH]; [reflexivity|]. cbn [map uniqb]. rewrite !andb_true_iff. intros [U1 U2]. split.
  - apply negb_true_iff in U1. apply negb_true_iff, not_true_is_false. intros K. apply existsb_exists in K.
    destruct K as (y & Hy & Cy). apply in_map_iff in Hy. destruct Hy as (z & <- & Hz).
    rewrite (H x (or_introl eq_refl)), (H z (or_intror Hz)) in Cy.
    assert (existsb (fun y => clash (key x) (key y)) l = true) by (apply existsb_exists; exists z; auto). congruence.
  - apply IH; [|exact U2]. intros z Hz. apply H. right. exact Hz.
Qed.

Lemma valid_with_chans l d : valid d -> uniqb (pk cr_id) l = true -> uniqb chan_key l = true ->
  refsb (net_ids d) (fun c => Some (cr_network c)) l = true -> valid (with_chans l d).
Proof. intros V H1 H2 H3. destruct V. constructor; assumption. Qed.

Lemma store_channel_only k c d d' id : store_channel k c d = Some (d', id) -> valid d' /\ chans_only d d'.
Proof.
  intros H. unfold store_channel in H. destruct (N.eqb (gc_id c) 0); chk H; injection H as <- <-;
    (split; [assumption|]); unfold chans_only, rest_same; cbn; tauto.
Qed.

Lemma store_channel_new k c d : valid d -> In k (net_ids d) -> gc_id c = 0%N ->
  (forall x, In x (list_channels k d) -> gc_name x <> gc_name c) -> exists d' id, store_channel k c d = Some (d', id) /\
  forall k' x, In x (list_channels k' d) -> gc_id x <> id.
Proof.
  intros V Hk H0 Hn. unfold store_channel. rewrite H0. cbn [N.eqb].
  set (id := next_id (map cr_id (d_chans d))).
  assert (W : valid (with_chans (d_chans d ++ [ChanRow id k (gc_name c) (null_string (gc_key c)) (gc_detached c)
    (null_string (gc_dmsgid c)) (gc_relay c) (gc_reattach c) (ceil_seconds (gc_after c)) (gc_on c)]) d)).
  { apply valid_with_chans; [exact V| | |].
    - apply uniqb_snoc; [exact (v_chans d V)|]. intros y Hy. rewrite clash_refl_pk. apply N.eqb_neq. intros E.
      apply (next_id_fresh (map cr_id (d_chans d))). fold id. cbn [cr_id] in E. rewrite <- E. apply in_map. exact Hy.
    - apply uniqb_snoc; [exact (v_chans_key d V)|]. intros y Hy. unfold chan_key. cbn [clash cr_network cr_name ceqb].
      destruct (N.eqb_spec (cr_network y) k) as [Ek|Ek]; [|reflexivity]. cbn [andb].
      destruct (beqb_spec (cr_name y) (gc_name c)) as [En|En]; [|reflexivity]. exfalso.
      apply (Hn (load_channel y)); [|exact En]. apply in_list_channels. exists y. auto.
    - apply refsb_snoc; [exact (v_chans_fk d V)|]. intros j E. injection E as <-. exact Hk. }
  rewrite (check_valid _ W). eexists. exists id. split; [reflexivity|].
  intros k' x Hx E. apply in_list_channels in Hx. destruct Hx as (r & Hr & _ & ->).
  apply (next_id_fresh (map cr_id (d_chans d))). fold id. rewrite <- E. exact (in_map cr_id _ _ Hr).
Qed.

Lemma store_channel_old k c d c0 : valid d -> gc_id c <> 0%N -> In c0 (list_channels k d) -> gc_id c0 = gc_id c -> gc_name c0 = gc_name c ->
  exists d', store_channel k c d = Some (d', gc_id c).
Proof.
  intros V H0 Hc Ei En. unfold store_channel. apply N.eqb_neq in H0. rewrite H0.
  apply in_list_channels in Hc. destruct Hc as (r0 & Hr0 & Ek & ->). cbn [load_channel gc_id gc_name] in Ei, En.
  assert (U : forall r, In r (d_chans d) -> cr_id r = gc_id c -> r = r0).
  { intros r Hr E. eapply (uniqb_pk cr_id); [exact (v_chans d V)|exact Hr|exact Hr0|congruence]. }
  rewrite check_valid; [eexists; reflexivity|]. apply valid_with_chans; [exact V| | |].
  - apply uniqb_map_same; [|exact (v_chans d V)]. intros r Hr. destruct (N.eqb (cr_id r) (gc_id c)); reflexivity.
  - apply uniqb_map_same; [|exact (v_chans_key d V)]. intros r Hr. destruct (N.eqb_spec (cr_id r) (gc_id c)) as [E|E]; [|reflexivity].
    rewrite (U r Hr E). unfold chan_key. cbn [cr_network cr_name]. rewrite Ek, En. reflexivity.
  - apply refsb_iff. intros r j Hr Ej. apply in_map_iff in Hr. destruct Hr as (r1 & <- & Hr1).
    destruct (N.eqb (cr_id r1) (gc_id c)).
    + cbn [cr_network] in Ej. injection Ej as <-. rewrite <- Ek. exact (proj1 (refsb_iff _ _ _) (v_chans_fk d V) r0 _ Hr0 eq_refl).
    + exact (proj1 (refsb_iff _ _ _) (v_chans_fk d V) r1 _ Hr1 Ej).
Qed.

Definition chan_res (l : list gchan) (s : znc) (c' : gchan) : Prop :=
  (gc_name c' = z_name s /\ gc_key c' = setting s (B "Key") /\ gc_detached c' = beqb (setting s (B "Detached")) (B "true")) /\
  match lookup gc_name l (z_name s) with
  | Some c => gc_id c' = gc_id c /\ gc_dmsgid c' = gc_dmsgid c /\ gc_relay c' = gc_relay c /\
      gc_reattach c' = gc_reattach c /\ gc_after c' = gc_after c /\ gc_on c' = gc_on c
  | None => gc_dmsgid c' = [] /\ gc_relay c' = 0%Z /\ gc_reattach c' = 0%Z /\ gc_after c' = 0%Z /\ gc_on c' = 0%Z
  end.

Lemma rounded_exact s t : rounded_up (s * 1000000000) t -> t = (s * 1000000000)%Z.
Proof. intros (q & -> & H). lia. Qed.

Lemma loaded_after d k c : In c (list_channels k d) -> exists s, gc_after c = (s * 1000000000)%Z.
Proof. intros H. apply in_list_channels in H. destruct H as (r & _ & _ & ->). exists (cr_after r). reflexivity. Qed.

Lemma loaded_id d k c : rows_ok d -> In c (list_channels k d) -> gc_id c <> 0%N.
Proof. intros P H. apply in_list_channels in H. destruct H as (r & Hr & _ & ->). exact (ro_chans d P r Hr). Qed.

Lemma chan_step l k s d : valid d -> rows_ok d -> In k (net_ids d) -> is_true s (B "Disabled") = false ->
  (forall c, lookup gc_name l (z_name s) = Some c -> In c (list_channels k d)) ->
  (lookup gc_name l (z_name s) = None -> forall c, In c (list_channels k d) -> gc_name c <> z_name s) ->
  exists d' c', import_chan l k s d = (d', true) /\ valid d' /\ rows_ok d' /\ chans_only d d' /\ chan_res l s c' /\
    (lookup gc_name l (z_name s) = None -> forall k' x, In x (list_channels k' d) -> gc_id x <> gc_id c') /\
    forall k' x, In x (list_channels k' d') <-> (k' = k /\ x = c') \/ (In x (list_channels k' d) /\ gc_id x <> gc_id c').
Proof.
  intros V P Hk Dis H1 H2. unfold import_chan. rewrite Dis. cbv zeta. unfold is_true. rewrite !get_setting.
  destruct (lookup gc_name l (z_name s)) as [c|] eqn:EL.
  - specialize (H1 c eq_refl). destruct (lookup_some _ _ _ _ EL) as [_ En].
    set (n := GChan (gc_id c) (gc_name c) _ _ _ _ _ _ _).
    destruct (store_channel_old k n d c V (loaded_id d k c P H1) H1 eq_refl eq_refl) as [d' E]. rewrite E.
    destruct (store_channel_only _ _ _ _ _ E) as [V' O].
    destruct (store_channel_read d k n d' (gc_id n) V E) as (c' & Sv & R).
    { intros _. apply in_list_channels in H1. destruct H1 as (r & Hr & _ & ->). exists r. auto. }
    destruct Sv as (S1 & S2 & S3 & S4 & S5 & S6 & S7 & S8 & S9). exists d', c'.
    split; [reflexivity|]. split; [exact V'|]. split; [exact (store_channel_rows _ _ _ _ _ P E)|]. split; [exact O|]. split.
    { unfold chan_res. rewrite EL. destruct (loaded_after _ _ _ H1) as [q Eq].
      assert (A : gc_after c' = gc_after c) by (rewrite Eq; apply rounded_exact; rewrite <- Eq; exact S8).
      rewrite S1, S2, S3, S4, S5, S6, S7, S9, A, <- En. repeat (split; try reflexivity). }
    split; [discriminate|]. intros k' x. rewrite S1. exact (R k' x).
  - specialize (H2 eq_refl). set (n := GChan _ _ _ _ _ _ _ _ _).
    destruct (store_channel_new k n d V Hk eq_refl H2) as (d' & id & E & Fr). rewrite E.
    destruct (store_channel_only _ _ _ _ _ E) as [V' O].
    destruct (store_channel_read d k n d' id V E) as (c' & Sv & R); [intros K; exfalso; apply K; reflexivity|].
    destruct Sv as (S1 & S2 & S3 & S4 & S5 & S6 & S7 & S8 & S9). exists d', c'.
    split; [reflexivity|]. split; [exact V'|]. split; [exact (store_channel_rows _ _ _ _ _ P E)|]. split; [exact O|]. split.
    { unfold chan_res. rewrite EL. assert (A : gc_after c' = 0%Z) by (exact (rounded_exact 0 _ S8)).
      rewrite S2, S3, S4, S5, S6, S7, S9, A. repeat (split; try reflexivity). }
    rewrite S1. split; [intros _; exact Fr|]. exact R.
Qed.

Lemma chans_phase l k cs : NoDup (map z_name cs) -> (forall s, In s cs -> is_true s (B "Disabled") = false) ->
  forall d, valid d -> rows_ok d -> In k (net_ids d) ->
  (forall s c, In s cs -> lookup gc_name l (z_name s) = Some c -> In c (list_channels k d)) ->
  (forall s, In s cs -> lookup gc_name l (z_name s) = None -> forall c, In c (list_channels k d) -> gc_name c <> z_name s) ->
  exists d', each (import_chan l k) cs d = (d', true) /\ valid d' /\ rows_ok d' /\ chans_only d d' /\
  (forall k', k' <> k -> same_list (list_channels k' d) (list_channels k' d')) /\
  (forall s, In s cs -> exists c', In c' (list_channels k d') /\ chan_res l s c' /\
     (lookup gc_name l (z_name s) = None -> forall x, In x (list_channels k d) -> gc_id x <> gc_id c')) /\
  (forall x, In x (list_channels k d) -> (forall s, In s cs -> z_name s <> gc_name x) -> In x (list_channels k d')) /\
  (forall x, In x (list_channels k d') -> In x (list_channels k d) \/ exists s, In s cs /\ chan_res l s x /\
     (lookup gc_name l (z_name s) = None -> forall y, In y (list_channels k d) -> gc_id y <> gc_id x)).
Proof.
  induction cs as [|s cs IH]; intros Nd Dis d V P Hk H1 H2.
  - exists d. split; [reflexivity|]. split; [exact V|]. split; [exact P|]. split; [unfold chans_only, rest_same; tauto|].
    split; [intros k' _; apply same_refl|]. split; [intros s []|]. split; [auto|auto].
  - cbn [map] in Nd. rewrite NoDup_cons_iff in Nd. destruct Nd as [Nn Nd].
    destruct (chan_step l k s d V P Hk (Dis s (or_introl eq_refl)) (fun c => H1 s c (or_introl eq_refl)) (H2 s (or_introl eq_refl)))
      as (d1 & c1 & E & V1 & P1 & O1 & R1 & F1 & M1).
    assert (En1 : gc_name c1 = z_name s) by apply R1.
    assert (T : forall x, In x (list_channels k d) -> gc_name x <> z_name s -> gc_id x <> gc_id c1).
    { intros x Hx Hn Ei. destruct (lookup gc_name l (z_name s)) as [c0|] eqn:EL.
      - pose proof (H1 s c0 (or_introl eq_refl) EL) as Hc0. destruct R1 as [_ R1]. rewrite EL in R1. destruct R1 as [R1 _].
        destruct (chan_uniq d k k x c0 V Hx Hc0 ltac:(congruence)) as [_ ->]. apply Hn. exact (proj2 (lookup_some _ _ _ _ EL)).
      - exact (F1 eq_refl k x Hx Ei). }
    assert (Nm : forall s', In s' cs -> z_name s' <> z_name s).
    { intros s' Hs' K. apply Nn. rewrite <- K. apply in_map. exact Hs'. }
    assert (Hk1 : In k (net_ids d1)) by (unfold net_ids in *; destruct O1 as (_ & -> & _); exact Hk).
    destruct (IH Nd (fun s' Hs' => Dis s' (or_intror Hs')) d1 V1 P1 Hk1) as (d' & E' & V' & P' & O' & F' & R' & K' & N').
    { intros s' c Hs' EL. apply M1. right. pose proof (H1 s' c (or_intror Hs') EL) as Hc. split; [exact Hc|].
      apply T; [exact Hc|]. rewrite (proj2 (lookup_some _ _ _ _ EL)). exact (Nm s' Hs'). }
    { intros s' Hs' EL c Hc. apply M1 in Hc. destruct Hc as [[_ ->]|[Hc _]]; [rewrite En1; apply not_eq_sym, (Nm s' Hs')|exact (H2 s' (or_intror Hs') EL c Hc)]. }
    assert (Id : forall x, In x (list_channels k d) -> exists y, In y (list_channels k d1) /\ gc_id y = gc_id x).
    { intros x Hx. destruct (N.eq_dec (gc_id x) (gc_id c1)) as [Ex|Ex].
      - exists c1. split; [apply M1; left; auto|congruence].
      - exists x. split; [apply M1; right; auto|reflexivity]. }
    exists d'. split; [cbn [each]; rewrite E; exact E'|]. split; [exact V'|]. split; [exact P'|]. split.
    { destruct O1 as (A1 & A2 & A3), O' as (B1 & B2 & B3). split; [congruence|]. split; [congruence|]. exact (rest_trans _ _ _ A3 B3). }
    split; [|split; [|split]].
    + intros k' Hne. apply (same_trans _ (list_channels k' d1)); [|exact (F' k' Hne)]. intros x. rewrite M1. split.
      * intros [[K _]|[Hx _]]; [congruence|exact Hx].
      * intros Hx. right. split; [exact Hx|]. intros Ei.
        assert (Hc1 : In c1 (list_channels k d1)) by (apply M1; left; auto).
        destruct (lookup gc_name l (z_name s)) as [c0|] eqn:EL; [|exact (F1 eq_refl k' x Hx Ei)].
        destruct R1 as [_ R1]. rewrite EL in R1. destruct R1 as [R1 _].
        destruct (chan_uniq d k' k x c0 V Hx (H1 s c0 (or_introl eq_refl) EL) ltac:(congruence)) as [Ke _]. exact (Hne Ke).
    + intros s' [<-|Hs'].
      * exists c1. split; [apply K'; [apply M1; left; auto|intros s' Hs'; rewrite En1; exact (Nm s' Hs')]|]. split; [exact R1|].
        intros EL x Hx. exact (F1 EL k x Hx).
      * destruct (R' s' Hs') as (c' & Hc' & Rc & Fc). exists c'. split; [exact Hc'|]. split; [exact Rc|]. intros EL x Hx.
        destruct (Id x Hx) as (y & Hy & Ey). rewrite <- Ey. exact (Fc EL y Hy).
    + intros x Hx Hn. apply K'; [|intros s' Hs'; apply Hn; right; exact Hs']. apply M1. right. split; [exact Hx|].
      apply T; [exact Hx|]. intros K. apply (Hn s (or_introl eq_refl)). symmetry. exact K.
    + intros x Hx. destruct (N' x Hx) as [Hx1|(s' & Hs' & Rs & Fs)].
      * apply M1 in Hx1. destruct Hx1 as [[_ ->]|[Hx1 _]]; [|left; exact Hx1]. right. exists s. split; [left; reflexivity|]. split; [exact R1|].
        intros EL y Hy. exact (F1 EL k y Hy).
      * right. exists s'. split; [right; exact Hs'|]. split; [exact Rs|]. intros EL y Hy. destruct (Id y Hy) as (z & Hz & Ez). rewrite <- Ez. exact (Fs EL z Hz).
Qed.

Lemma res_imported l s c' : chan_res l s c' -> (lookup gc_name l (z_name s) = None -> forall x, In x l -> gc_id x <> gc_id c') -> chan_imported l s c'.
Proof.
  intros [R1 R2] F. split; [exact R1|]. destruct (lookup gc_name l (z_name s)) as [c|] eqn:EL.
  - left. destruct (lookup_some _ _ _ _ EL) as [Hc En]. exists c. tauto.
  - right. split; [|exact R2]. intros c Hc. split; [exact (lookup_none _ _ _ EL c Hc)|exact (F eq_refl c Hc)].
Qed.

Lemma chan_sections_eq s : chan_sections s = filter (fun c => negb (is_true c (B "Disabled"))) (of_type (B "Chan") s).
Proof.
  unfold of_type, chan_sections. rewrite filter_filter. apply filter_ext. intros c. unfold is_true. rewrite get_setting. reflexivity.
Qed.

Lemma lookup_in {A} (name : A -> bytes) l k x : lookup name l k = Some x -> In x l.
Proof. intros E. exact (proj1 (lookup_some _ _ _ _ E)). Qed.

(** All channels of a network. *)
Lemma chans_all k s d : valid d -> rows_ok d -> In k (net_ids d) -> NoDup (map z_name (chan_sections s)) ->
  exists d', each (import_chan (list_channels k d) k) (of_type (B "Chan") s) d = (d', true) /\ valid d' /\ rows_ok d' /\ chans_only d d' /\
  (forall k', k' <> k -> same_list (list_channels k' d) (list_channels k' d')) /\
  channels_after (list_channels k d) s (list_channels k d').
Proof.
  intros V P Hk Nd. rewrite chan_sections_eq in Nd.
  rewrite (each_filter _ (fun c => negb (is_true c (B "Disabled")))).
  2:{ intros c e H. unfold import_chan. apply negb_false_iff in H. rewrite H. reflexivity. }
  destruct (chans_phase (list_channels k d) k _ Nd) with (d := d) as (d' & E & V' & P' & O & F & R & K & N); try assumption.
  - intros c Hc. apply filter_In in Hc. apply negb_true_iff. exact (proj2 Hc).
  - intros c x _ EL. exact (lookup_in _ _ _ _ EL).
  - intros c _ EL. exact (lookup_none _ _ _ EL).
  - exists d'. split; [exact E|]. split; [exact V'|]. split; [exact P'|]. split; [exact O|]. split; [exact F|].
    unfold channels_after. rewrite chan_sections_eq. split; [|split].
    + intros c Hc. destruct (R c Hc) as (c' & Hc' & Rc & Fc). exists c'. split; [exact Hc'|]. exact (res_imported _ _ _ Rc Fc).
    + exact K.
    + intros c' Hc'. destruct (N c' Hc') as [Hx|(c & Hc & Rc & Fc)]; [left; exact Hx|]. right. exists c. split; [exact Hc|]. exact (res_imported _ _ _ Rc Fc).
Qed.

(** ** Networks *)

Lemma net_uniq d u u' x y : valid d -> In x (list_networks u d) -> In y (list_networks u' d) -> gn_id x = gn_id y -> u = u' /\ x = y.
Proof.
  intros V Hx Hy E. apply in_list_networks in Hx, Hy. destruct Hx as (r & Hr & <- & ->), Hy as (r' & Hr' & <- & ->).
  assert (r = r') by (eapply (uniqb_pk nr_id); [exact (v_nets d V)|exact Hr|exact Hr'|exact E]). subst r'. auto.
Qed.

Lemma store_network_only u n d d' id : store_network u n d = Some (d', id) ->
  valid d' /\ d_users d' = d_users d /\ d_chans d' = d_chans d /\ rest_same d d'.
Proof.
  intros H. unfold store_network in H. destruct (sasl_columns n) as [[[[[? ?] ?] ?] ?]|]; [|discriminate].
  destruct (N.eqb (gn_id n) 0); chk H; injection H as <- <-; (split; [assumption|]); unfold rest_same; cbn; tauto.
Qed.

Lemma store_network_id u n d d' id : gn_id n = 0%N -> store_network u n d = Some (d', id) -> id = next_id (net_ids d).
Proof.
  intros H0 H. unfold store_network in H. destruct (sasl_columns n) as [[[[[? ?] ?] ?] ?]|]; [|discriminate].
  rewrite H0 in H. cbn [N.eqb] in H. chk H. injection H as _ <-. reflexivity.
Qed.

Lemma in_net_ids d u x : In x (list_networks u d) -> In (gn_id x) (net_ids d).
Proof. intros H. apply in_list_networks in H. destruct H as (r & Hr & _ & ->). exact (in_map nr_id _ _ Hr). Qed.

Lemma chan_same_nets d d' k : d_chans d' = d_chans d -> list_channels k d' = list_channels k d.
Proof. intros E. unfold list_channels. rewrite E. reflexivity. Qed.
Lemma net_same_nets d d' k : d_nets d' = d_nets d -> list_networks k d' = list_networks k d.
Proof. intros E. unfold list_networks. rewrite E. reflexivity. Qed.

Definition net_res (l : list gnet) (u s : znc) (n' : gnet) : Prop :=
  (server_says (setting s (B "Server")) (gn_addr n') (gn_pass n') /\
   gn_nick n' = either (setting s (B "Nick")) (setting u (B "Nick")) /\
   gn_username n' = either (setting s (B "Ident")) (setting u (B "Ident")) /\
   gn_realname n' = either (setting s (B "RealName")) (setting u (B "RealName")) /\
   gn_enabled n' = negb (beqb (setting s (B "IRCConnectEnabled")) (B "false"))) /\
  match lookup net_name l (z_name s) with
  | Some n => gn_id n' = gn_id n /\ gn_name n' = gn_name n /\
      gn_cmds n' = gn_cmds n /\ gn_certfp n' = gn_certfp n /\ gn_mech n' = gn_mech n /\ gn_puser n' = gn_puser n /\
      gn_ppass n' = gn_ppass n /\ gn_cert n' = gn_cert n /\ gn_key n' = gn_key n /\ gn_away n' = gn_away n
  | None => gn_name n' = z_name s /\
      gn_cmds n' = [] /\ gn_certfp n' = [] /\ gn_mech n' = [] /\ gn_puser n' = [] /\ gn_ppass n' = [] /\ gn_cert n' = None /\
      gn_key n' = None /\ gn_away n' = true
  end.

Lemma own_either s u k : own s u k = either (setting s k) (setting u k).
Proof. unfold own, either. rewrite !get_setting. destruct (setting s k); reflexivity. Qed.

Lemma saved_loaded d u n : rows_ok d -> In n (list_networks u d) -> saved_network (gn_id n) n = n.
Proof. intros P H. apply in_list_networks in H. destruct H as (r & Hr & _ & ->). exact (proj2 (proj2 (ro_nets d P r Hr))). Qed.

Section Names.
Variables users networks : list bytes.
Variable now : bytes -> Z.

Lemma net_step l uid u s d d' ok : valid d -> rows_ok d -> NoDup (map z_name (chan_sections s)) -> wanted networks (z_name s) = true ->
  (forall n, lookup net_name l (z_name s) = Some n -> In n (list_networks uid d)) ->
  import_net networks l uid u s d = (d', ok) ->
  (d' = d /\ ok = false) \/
  (ok = true /\ valid d' /\ rows_ok d' /\ d_users d' = d_users d /\ rest_same d d' /\
   exists n', net_res l u s n' /\
     (lookup net_name l (z_name s) = None -> forall u' x, In x (list_networks u' d) -> gn_id x <> gn_id n') /\
     (forall u' x, In x (list_networks u' d') <-> (u' = uid /\ x = n') \/ (In x (list_networks u' d) /\ gn_id x <> gn_id n')) /\
     (forall k, k <> gn_id n' -> same_list (list_channels k d) (list_channels k d')) /\
     channels_after (list_channels (gn_id n') d) s (list_channels (gn_id n') d')).
Proof.
  intros V P Nd W H1 H. unfold import_net in H. rewrite W in H. cbn [negb] in H. rewrite !get_setting, !own_either in H. cbv zeta in H.
  destruct (import_server (setting s (B "Server"))) as [[addr pass]|] eqn:ES; [|injection H as <- <-; left; auto].
  set (n0 := match lookup net_name l (z_name s) with Some n => n | None => _ end) in H.
  set (n := GNet _ _ _ _ _ _ _ _ _ _ _ _ _ _ _ _) in H.
  destruct (store_network uid n d) as [[d1 id]|] eqn:E; [|injection H as <- <-; left; auto]. right.
  destruct (store_network_only _ _ _ _ _ E) as (V1 & U1 & C1 & S1). pose proof (store_network_rows _ _ _ _ _ P E) as P1.
  assert (A : storable_cmds (gn_cmds n) /\ (gn_id n <> 0%N -> owns d uid (gn_id n)) /\ saved_network (gn_id n0) n0 = n0).
  { unfold n. cbn [gn_cmds gn_id]. unfold n0. destruct (lookup net_name l (z_name s)) as [m|].
    - specialize (H1 m eq_refl). split; [exact (loaded_cmds d m uid P H1)|]. split; [|exact (saved_loaded _ _ _ P H1)]. intros _.
      apply in_list_networks in H1. destruct H1 as (r & Hr & Eu & ->). exists r. auto.
    - split; [split; [discriminate|intros c a b []]|]. split; [intros K; exfalso; apply K; reflexivity|reflexivity]. }
  destruct A as (A1 & A2 & A3). destruct (store_network_read d uid n d1 id V A1 E A2) as [Ri R].
  assert (Hin : In (saved_network id n) (list_networks uid d1)) by (apply R; left; auto).
  assert (Hk : In id (net_ids d1)) by exact (in_net_ids _ _ _ Hin).
  destruct (chans_all id s d1 V1 P1 Hk Nd) as (d2 & E2 & V2 & P2 & O2 & F2 & C2). rewrite E2 in H. injection H as <- <-.
  destruct O2 as (B1 & B2 & B3).
  split; [reflexivity|]. split; [exact V2|]. split; [exact P2|]. split; [congruence|]. split; [exact (rest_trans _ _ _ S1 B3)|].
  exists (saved_network id n). cbn [saved_network gn_id]. split; [|split; [|split; [|split]]].
  - unfold net_res, saved_network, n. cbv zeta. cbn [gn_id gn_name gn_addr gn_nick gn_username gn_realname gn_pass gn_enabled gn_cmds gn_certfp
      gn_mech gn_puser gn_ppass gn_cert gn_key gn_away]. split; [split; [exact (server_ok _ _ _ ES)|repeat (split; try reflexivity)]|].
    assert (X : forall m, saved_network (gn_id m) m = m -> (if beqb (gn_mech m) (B "PLAIN") then gn_puser m else []) = gn_puser m /\
      (if beqb (gn_mech m) (B "PLAIN") then gn_ppass m else []) = gn_ppass m /\
      (if beqb (gn_mech m) (B "PLAIN") then None else gn_cert m) = gn_cert m /\ (if beqb (gn_mech m) (B "PLAIN") then None else gn_key m) = gn_key m).
    { intros m Em. split; [exact (f_equal gn_puser Em)|]. split; [exact (f_equal gn_ppass Em)|]. split; [exact (f_equal gn_cert Em)|exact (f_equal gn_key Em)]. }
    destruct (X n0 A3) as (X1 & X2 & X3 & X4). rewrite X1, X2, X3, X4. unfold n0 in *.
    destruct (lookup net_name l (z_name s)) as [m|] eqn:EL.
    + split; [|repeat (split; try reflexivity)]. apply Ri. unfold n. cbn [gn_id].
      specialize (H1 m eq_refl). apply in_list_networks in H1. destruct H1 as (r & Hr & _ & ->). exact (proj1 (ro_nets d P r Hr)).
    + repeat (split; try reflexivity).
  - intros EL u' x Hx K. rewrite (store_network_id uid n d d1 id) in K; [|unfold n, n0; rewrite EL; reflexivity|exact E].
    apply (next_id_fresh (net_ids d)). rewrite <- K. exact (in_net_ids _ _ _ Hx).
  - intros u' x. rewrite (net_same_nets d1 d2 u' B2). exact (R u' x).
  - intros k Hne. rewrite <- (chan_same_nets d d1 k C1). exact (F2 k Hne).
  - rewrite <- (chan_same_nets d d1 id C1). exact C2.
Qed.

Lemma imported_ext old old' c c' : same_list old old' -> chan_imported old c c' -> chan_imported old' c c'.
Proof.
  intros S [R1 R2]. split; [exact R1|]. destruct R2 as [(x & Hx & R)|[R2 R3]].
  - left. exists x. split; [apply S; exact Hx|exact R].
  - right. split; [|exact R3]. intros x Hx. apply R2, S. exact Hx.
Qed.

Lemma channels_ext old old' s new new' : same_list old old' -> same_list new new' -> channels_after old s new -> channels_after old' s new'.
Proof.
  intros So Sn (A & B' & C). split; [|split].
  - intros c Hc. destruct (A c Hc) as (c' & Hc' & R). exists c'. split; [apply Sn; exact Hc'|exact (imported_ext _ _ _ _ So R)].
  - intros c Hc Hn. apply Sn, B'; [apply So; exact Hc|exact Hn].
  - intros c' Hc'. apply Sn in Hc'. destruct (C c' Hc') as [Hx|(c & Hc & R)]; [left; apply So; exact Hx|]. right. exists c. split; [exact Hc|exact (imported_ext _ _ _ _ So R)].
Qed.

Lemma same_sym {A} (a b : list A) : same_list a b -> same_list b a.
Proof. intros H x. symmetry. apply H. Qed.

Definition ids_kept (d d' : db) : Prop := forall u x, In x (list_networks u d) -> exists y, In y (list_networks u d') /\ gn_id y = gn_id x.

Lemma nets_phase l uid u ss : NoDup (map z_name ss) -> (forall s, In s ss -> NoDup (map z_name (chan_sections s)) /\ wanted networks (z_name s) = true) ->
  forall d d' ok, valid d -> rows_ok d ->
  (forall s n, In s ss -> lookup net_name l (z_name s) = Some n -> In n (list_networks uid d)) ->
  each (import_net networks l uid u) ss d = (d', ok) ->
  valid d' /\ rows_ok d' /\ d_users d' = d_users d /\ rest_same d d' /\ ids_kept d d' /\
  (forall u', u' <> uid -> same_list (list_networks u' d) (list_networks u' d')) /\
  (forall k, (forall n, In n (list_networks uid d') -> gn_id n <> k) -> same_list (list_channels k d) (list_channels k d')) /\
  (forall n, In n (list_networks uid d) -> (forall s n0, In s ss -> lookup net_name l (z_name s) = Some n0 -> gn_id n0 <> gn_id n) ->
     In n (list_networks uid d') /\ same_list (list_channels (gn_id n) d) (list_channels (gn_id n) d')) /\
  (forall x, In x (list_networks uid d') -> In x (list_networks uid d) \/ exists s, In s ss /\ net_res l u s x /\
     (lookup net_name l (z_name s) = None -> forall y, In y (list_networks uid d) -> gn_id y <> gn_id x)) /\
  (ok = true -> forall s, In s ss -> exists n', In n' (list_networks uid d') /\ net_res l u s n' /\
     (lookup net_name l (z_name s) = None -> forall y, In y (list_networks uid d) -> gn_id y <> gn_id n') /\
     channels_after (list_channels (gn_id n') d) s (list_channels (gn_id n') d')).
Proof.
  induction ss as [|s ss IH]; intros Nd Good d d' ok V P H1 H.
  - cbn [each] in H. injection H as <- <-. split; [exact V|]. split; [exact P|]. split; [reflexivity|]. split; [apply rest_refl|].
    split; [intros u' x Hx; exists x; auto|]. split; [intros u' _; apply same_refl|]. split; [intros k _; apply same_refl|].
    split; [intros n Hn _; split; [exact Hn|apply same_refl]|]. split; [auto|]. intros _ s [].
  - cbn [map] in Nd. rewrite NoDup_cons_iff in Nd. destruct Nd as [Nn Nd]. cbn [each] in H.
    destruct (import_net networks l uid u s d) as [d1 ok1] eqn:E. destruct (Good s (or_introl eq_refl)) as [Gs Gw].
    destruct (net_step l uid u s d d1 ok1 V P Gs Gw (fun n => H1 s n (or_introl eq_refl)) E)
      as [[-> ->]|(-> & V1 & P1 & U1 & S1 & n1 & R1 & F1 & M1 & C1 & Ch1)].
    { injection H as <- <-. split; [exact V|]. split; [exact P|]. split; [reflexivity|]. split; [apply rest_refl|].
      split; [intros u' x Hx; exists x; auto|]. split; [intros u' _; apply same_refl|]. split; [intros k _; apply same_refl|].
      split; [intros n Hn _; split; [exact Hn|apply same_refl]|]. split; [auto|]. discriminate. }
    assert (Nm : forall s', In s' ss -> z_name s' <> z_name s).
    { intros s' Hs' K. apply Nn. rewrite <- K. apply in_map. exact Hs'. }
    assert (Hn1 : In n1 (list_networks uid d1)) by (apply M1; left; auto).
    assert (Id : ids_kept d d1).
    { intros u' x Hx. destruct (N.eq_dec (gn_id x) (gn_id n1)) as [Ex|Ex].
      - exists n1. split; [|congruence]. apply M1. left. split; [|reflexivity].
        destruct (lookup net_name l (z_name s)) as [n0|] eqn:EL; [|exfalso; exact (F1 eq_refl u' x Hx Ex)].
        destruct R1 as [_ R1]. rewrite EL in R1. destruct R1 as [R1 _].
        exact (proj1 (net_uniq d u' uid x n0 V Hx (H1 s n0 (or_introl eq_refl) EL) ltac:(congruence))).
      - exists x. split; [apply M1; right; auto|reflexivity]. }
    (* what other sections find is another network *)
    assert (T : forall s' n0, In s' ss -> lookup net_name l (z_name s') = Some n0 -> gn_id n0 <> gn_id n1).
    { intros s' n0 Hs' EL Ei. pose proof (H1 s' n0 (or_intror Hs') EL) as Hn0.
      destruct (lookup net_name l (z_name s)) as [m|] eqn:ELs; [|exact (F1 eq_refl uid n0 Hn0 Ei)].
      destruct R1 as [_ R1]. rewrite ELs in R1. destruct R1 as [R1 _].
      destruct (net_uniq d uid uid n0 m V Hn0 (H1 s m (or_introl eq_refl) ELs) ltac:(congruence)) as [_ ->].
      apply (Nm s' Hs'). rewrite <- (proj2 (lookup_some _ _ _ _ EL)). exact (proj2 (lookup_some _ _ _ _ ELs)). }
    destruct (IH Nd (fun s' Hs' => Good s' (or_intror Hs')) d1 d' ok V1 P1) as (V' & P' & U' & S' & I' & F' & C' & K' & N' & R').
    { intros s' n0 Hs' EL. apply M1. right. split; [exact (H1 s' n0 (or_intror Hs') EL)|exact (T s' n0 Hs' EL)]. }
    { exact H. }
    split; [exact V'|]. split; [exact P'|]. split; [congruence|]. split; [exact (rest_trans _ _ _ S1 S')|]. split; [|split; [|split; [|split; [|split]]]].
    + intros u' x Hx. destruct (Id u' x Hx) as (y & Hy & Ey). destruct (I' u' y Hy) as (z & Hz & Ez). exists z. split; [exact Hz|congruence].
    + intros u' Hne. apply (same_trans _ (list_networks u' d1)); [|exact (F' u' Hne)]. intros x. rewrite M1. split.
      * intros [[K _]|[Hx _]]; [congruence|exact Hx].
      * intros Hx. right. split; [exact Hx|]. intros Ei.
        destruct (lookup net_name l (z_name s)) as [m|] eqn:ELs; [|exact (F1 eq_refl u' x Hx Ei)].
        destruct R1 as [_ R1]. rewrite ELs in R1. destruct R1 as [R1 _].
        exact (Hne (proj1 (net_uniq d u' uid x m V Hx (H1 s m (or_introl eq_refl) ELs) ltac:(congruence)))).
    + intros k Hk. apply (same_trans _ (list_channels k d1)); [|exact (C' k Hk)]. apply C1.
      destruct (I' uid n1 Hn1) as (y & Hy & Ey). intros ->. exact (Hk y Hy Ey).
    + intros n Hn Hu. assert (Hne : gn_id n <> gn_id n1).
      { intros Ei. destruct (lookup net_name l (z_name s)) as [m|] eqn:ELs; [|exact (F1 eq_refl uid n Hn Ei)].
        destruct R1 as [_ R1]. rewrite ELs in R1. destruct R1 as [R1 _]. apply (Hu s m (or_introl eq_refl) ELs). congruence. }
      destruct (K' n) as [K1 K2]; [apply M1; right; auto|intros s' n0 Hs'; exact (Hu s' n0 (or_intror Hs'))|].
      split; [exact K1|]. exact (same_trans _ _ _ (C1 _ Hne) K2).
    + intros x Hx. destruct (N' x Hx) as [Hx1|(s' & Hs' & Rs & Fs)].
      * apply M1 in Hx1. destruct Hx1 as [[_ ->]|[Hx1 _]]; [|left; exact Hx1]. right. exists s. split; [left; reflexivity|]. split; [exact R1|].
        intros EL y Hy. exact (F1 EL uid y Hy).
      * right. exists s'. split; [right; exact Hs'|]. split; [exact Rs|]. intros EL y Hy. destruct (Id uid y Hy) as (z & Hz & Ez). rewrite <- Ez. exact (Fs EL z Hz).
    + intros Ok s' [<-|Hs'].
      * destruct (K' n1 Hn1 T) as [K1 K2]. exists n1. split; [exact K1|]. split; [exact R1|].
        split; [intros EL y Hy; exact (F1 EL uid y Hy)|]. exact (channels_ext _ _ _ _ _ (same_refl _) K2 Ch1).
      * destruct (R' Ok s' Hs') as (n' & Hn' & Rn & Fn & Cn). exists n'. split; [exact Hn'|]. split; [exact Rn|]. split.
        { intros EL y Hy. destruct (Id uid y Hy) as (z & Hz & Ez). rewrite <- Ez. exact (Fn EL z Hz). }
        refine (channels_ext _ _ _ _ _ _ (same_refl _) Cn). apply same_sym, C1. intros Ei.
        destruct (lookup net_name l (z_name s')) as [m|] eqn:EL.
        -- destruct Rn as [_ Rn]. rewrite EL in Rn. destruct Rn as [Rn _]. apply (T s' m Hs' EL). congruence.
        -- exact (Fn eq_refl n1 Hn1 (eq_sym Ei)).
Qed.

Lemma net_sections_eq s : net_sections networks s = filter (fun c => wanted networks (z_name c)) (of_type (B "Network") s).
Proof.
  unfold of_type, net_sections. rewrite filter_filter. apply filter_ext. intros c. reflexivity.
Qed.

Lemma net_res_imported l u s n' : net_res l u s n' -> (lookup net_name l (z_name s) = None -> forall x, In x l -> gn_id x <> gn_id n') ->
  net_imported l u s n'.
Proof.
  intros [R1 R2] F. split; [exact R1|]. destruct (lookup net_name l (z_name s)) as [c|] eqn:EL.
  - left. destruct (lookup_some _ _ _ _ EL) as [Hc En]. exists c. rewrite net_name_either in En. tauto.
  - right. split; [|exact R2]. intros c Hc. split; [exact (lookup_none _ _ _ EL c Hc)|exact (F eq_refl c Hc)].
Qed.

(** All networks of a user. *)
Lemma nets_all uid u d d' ok : valid d -> rows_ok d -> NoDup (map z_name (net_sections networks u)) ->
  (forall n, In n (net_sections networks u) -> NoDup (map z_name (chan_sections n))) ->
  each (import_net networks (list_networks uid d) uid u) (of_type (B "Network") u) d = (d', ok) ->
  valid d' /\ rows_ok d' /\ d_users d' = d_users d /\ rest_same d d' /\ ids_kept d d' /\
  (forall u', u' <> uid -> same_list (list_networks u' d) (list_networks u' d')) /\
  (forall k, (forall n, In n (list_networks uid d') -> gn_id n <> k) -> same_list (list_channels k d) (list_channels k d')) /\
  (ok = true -> networks_after networks d d' uid u).
Proof.
  intros V P Nd Nc H. rewrite net_sections_eq in Nd, Nc.
  rewrite (each_filter _ (fun c => wanted networks (z_name c))) in H.
  2:{ intros c e Hc. unfold import_net. rewrite Hc. reflexivity. }
  destruct (nets_phase (list_networks uid d) uid u _ Nd) with (d := d) (d' := d') (ok := ok) as (V' & P' & U' & S' & I' & F' & C' & K' & N' & R'); try assumption.
  - intros s Hs. split; [exact (Nc s Hs)|]. exact (proj2 (proj1 (filter_In _ _ _) Hs)).
  - intros s n _ EL. exact (lookup_in _ _ _ _ EL).
  - split; [exact V'|]. split; [exact P'|]. split; [exact U'|]. split; [exact S'|]. split; [exact I'|]. split; [exact F'|]. split; [exact C'|].
    intros Ok. unfold networks_after. rewrite net_sections_eq. split; [|split].
    + intros s Hs. destruct (R' Ok s Hs) as (n' & Hn' & Rn & Fn & Cn). exists n'. split; [exact Hn'|]. split; [exact (net_res_imported _ _ _ _ Rn Fn)|exact Cn].
    + intros n Hn Hu. apply K'; [exact Hn|]. intros s n0 Hs EL Ei. destruct (lookup_some _ _ _ _ EL) as [Hn0 En0].
      destruct (net_uniq d uid uid n0 n V Hn0 Hn Ei) as [_ ->]. apply (Hu s Hs). rewrite <- net_name_either. symmetry. exact En0.
    + intros n' Hn'. destruct (N' n' Hn') as [Hx|(s & Hs & Rs & Fs)]; [left; exact Hx|]. right. exists s. split; [exact Hs|exact (net_res_imported _ _ _ _ Rs Fs)].
Qed.
End Names.

(** ** Users *)

Lemma get_user_row d name u : get_user name d = Some u -> exists r, In r (d_users d) /\ ur_username r = name /\ load_user r = Some u.
Proof.
  unfold get_user. destruct (filter _ (d_users d)) as [|r l] eqn:E; [discriminate|]. intros H. exists r.
  assert (Hr : In r (filter (fun r => beqb (ur_username r) name) (d_users d))) by (rewrite E; left; reflexivity).
  apply filter_In in Hr. destruct Hr as [Hr En]. apply beqb_eq in En. auto.
Qed.

Lemma load_fields r u : load_user r = Some u -> gu_id u = ur_id r /\ gu_username u = ur_username r.
Proof. unfold load_user. destruct (sqlite_scan _); [|discriminate]. intros E. injection E as <-. auto. Qed.

Lemma get_user_uniq d a b u v : valid d -> get_user a d = Some u -> get_user b d = Some v -> gu_id u = gu_id v -> a = b.
Proof.
  intros V Hu Hv E. apply get_user_row in Hu, Hv. destruct Hu as (r & Hr & <- & Lr), Hv as (q & Hq & <- & Lq).
  destruct (load_fields _ _ Lr) as [E1 _], (load_fields _ _ Lq) as [E2 _].
  assert (r = q) by (eapply (uniqb_pk ur_id); [exact (v_users d V)|exact Hr|exact Hq|congruence]). congruence.
Qed.

Lemma store_user_only now u d d' id : store_user now u d = Some (d', id) ->
  valid d' /\ d_nets d' = d_nets d /\ d_chans d' = d_chans d /\ rest_same d d'.
Proof.
  intros H. unfold store_user in H. destruct (N.eqb (gu_id u) 0); chk H; injection H as <- <-; (split; [assumption|]); unfold rest_same; cbn; tauto.
Qed.

Lemma load_users_spec l us : load_users l = Some us -> forall u, In u us <-> exists r, In r l /\ load_user r = Some u.
Proof.
  revert us. induction l as [|r l IH]; intros us E u; cbn [load_users] in E.
  - injection E as <-. split; [intros []|intros (r & [] & _)].
  - destruct (load_user r) as [v|] eqn:Er; [|discriminate]. destruct (load_users l) as [vs|]; [|discriminate]. injection E as <-.
    specialize (IH vs eq_refl u). cbn [In]. rewrite IH. split.
    + intros [<-|(q & Hq & Lq)]; [exists r; auto|exists q; auto].
    + intros (q & [<-|Hq] & Lq); [left; congruence|right; exists q; auto].
Qed.

Lemma load_users_all l us r : load_users l = Some us -> In r l -> exists u, load_user r = Some u.
Proof.
  revert us. induction l as [|q l IH]; intros us E Hr; [destruct Hr|]. cbn [load_users] in E.
  destruct (load_user q) as [v|] eqn:Eq; [|discriminate]. destruct (load_users l) as [vs|]; [|discriminate].
  destruct Hr as [<-|Hr]; [exists v; exact Eq|exact (IH vs eq_refl Hr)].
Qed.

Lemma lookup_user d us name : valid d -> load_users (d_users d) = Some us -> lookup gu_username us name = get_user name d.
Proof.
  intros V E. destruct (lookup gu_username us name) as [u|] eqn:EL.
  - destruct (lookup_some _ _ _ _ EL) as [Hu En]. apply (load_users_spec _ _ E) in Hu. destruct Hu as (r & Hr & Lr).
    destruct (load_fields _ _ Lr) as [_ E2]. rewrite <- En, E2, (get_user_in d r V Hr). symmetry. exact Lr.
  - symmetry. apply get_user_none. intros r Hr En. destruct (load_users_all _ _ _ E Hr) as [u Lu].
    assert (Hu : In u us) by (apply (load_users_spec _ _ E); exists r; auto).
    apply (lookup_none _ _ _ EL u Hu). rewrite (proj2 (load_fields _ _ Lu)). exact En.
Qed.

Lemma in_years_0 : in_years 0.
Proof. unfold in_years. vm_compute. split; discriminate || reflexivity. Qed.

Section Users.
Variables users networks : list bytes.
Variable now : bytes -> Z.

Lemma user_step l s d d' ok : valid d -> rows_ok d -> wanted users (z_name s) = true ->
  NoDup (map z_name (net_sections networks s)) -> (forall n, In n (net_sections networks s) -> NoDup (map z_name (chan_sections n))) ->
  lookup gu_username l (z_name s) = get_user (z_name s) d ->
  (forall u, get_user (z_name s) d = Some u -> in_years (gu_interacted u)) ->
  import_user users networks now l s d = (d', ok) ->
  (d' = d /\ ok = false) \/
  (valid d' /\ rows_ok d' /\ rest_same d d' /\ ids_kept d d' /\ exists u', get_user (z_name s) d' = Some u' /\ user_imported d s u' /\
   (forall name, name <> z_name s -> get_user name d' = get_user name d) /\
   (forall u, u <> gu_id u' -> same_list (list_networks u d) (list_networks u d')) /\
   (forall k, (forall n, In n (list_networks (gu_id u') d') -> gn_id n <> k) -> same_list (list_channels k d) (list_channels k d')) /\
   (ok = true -> networks_after networks d d' (gu_id u') s)).
Proof.
  intros V P W Nd Nc EL Hy H. unfold import_user in H. rewrite W in H. cbn [negb] in H. cbv zeta in H. rewrite EL in H. unfold is_true in H. rewrite get_setting in H.
  set (u0 := match get_user (z_name s) d with Some u => u | None => _ end) in H.
  set (u := GUser _ _ _ _ _ _ _ _ _) in H.
  destruct (store_user (now (z_name s)) u d) as [[d1 id]|] eqn:E; [|injection H as <- <-; left; auto]. right.
  destruct (store_user_only _ _ _ _ _ E) as (V1 & N1 & C1 & S1). pose proof (store_user_rows _ _ _ _ _ P E) as P1.
  assert (A : gu_username u = z_name s /\ in_years (gu_interacted u) /\
    (gu_id u <> 0%N -> exists r, In r (d_users d) /\ ur_username r = gu_username u /\ ur_id r = gu_id u) /\
    (forall v, get_user (z_name s) d = Some v -> gu_id u <> 0%N)).
  { unfold u. cbn [gu_username gu_interacted gu_id]. unfold u0. destruct (get_user (z_name s) d) as [v|] eqn:Ev.
    - destruct (get_user_row _ _ _ Ev) as (r & Hr & En & Lr). destruct (load_fields _ _ Lr) as [L1 L2].
      split; [congruence|]. split; [exact (Hy v eq_refl)|]. split; [intros _; exists r; auto|].
      intros v' _. rewrite L1. exact (ro_users d P r Hr).
    - split; [reflexivity|]. split; [exact in_years_0|]. split; [intros K; exfalso; apply K; reflexivity|discriminate]. }
  destruct A as (An & Ay & Ae & Ai). destruct (store_user_read _ d u d1 id V Ay E Ae) as [R F]. rewrite An in R, F.
  assert (Eid : forall v, get_user (z_name s) d = Some v -> id = gu_id v).
  { intros v Ev. unfold store_user in E. pose proof (Ai v Ev) as K. apply N.eqb_neq in K. rewrite K in E. chk E. injection E as _ <-.
    unfold u. cbn [gu_id]. unfold u0. rewrite Ev. reflexivity. }
  destruct (nets_all networks id s d1 d' ok V1 P1 Nd Nc H) as (V' & P' & U' & S' & I' & F' & C' & R').
  assert (G : forall name, get_user name d' = get_user name d1) by (intros name; unfold get_user; rewrite U'; reflexivity).
  split; [exact V'|]. split; [exact P'|]. split; [exact (rest_trans _ _ _ S1 S')|]. split.
  { intros w x Hx. apply I'. rewrite (net_same_nets d d1 w N1). exact Hx. }
  exists (saved_user id u). rewrite !G. split; [exact R|]. split.
  { unfold user_imported, saved_user. cbn [gu_username gu_admin gu_id gu_password gu_nick gu_realname gu_enabled gu_interacted gu_max].
    split; [exact An|]. split; [reflexivity|]. destruct (get_user (z_name s) d) as [v|] eqn:Ev.
    - split; [exact (Eid v eq_refl)|]. unfold u, u0. cbn. repeat (split; try reflexivity).
    - unfold u, u0. cbn. repeat (split; try reflexivity). }
  split; [intros name Hn; rewrite G; exact (F name Hn)|]. cbn [saved_user gu_id].
  split; [intros w Hw; rewrite <- (net_same_nets d d1 w N1); exact (F' w Hw)|].
  split; [intros k Hk; rewrite <- (chan_same_nets d d1 k C1); exact (C' k Hk)|].
  intros Ok. specialize (R' Ok). unfold networks_after in *. rewrite !(net_same_nets d d1 _ N1) in R'.
  destruct R' as (R1 & R2 & R3). split; [|split; [|exact R3]].
  - intros c Hc. destruct (R1 c Hc) as (n' & Hn' & In' & Cn'). exists n'. split; [exact Hn'|]. split; [exact In'|].
    rewrite (chan_same_nets d d1 _ C1) in Cn'. exact Cn'.
  - intros n Hn Hu. destruct (R2 n Hn Hu) as [K1 K2]. rewrite (chan_same_nets d d1 _ C1) in K2. auto.
Qed.

Lemma net_imported_ext old old' u s n' : same_list old old' -> net_imported old u s n' -> net_imported old' u s n'.
Proof.
  intros S [R1 R2]. split; [exact R1|]. destruct R2 as [(x & Hx & R)|[R2 R3]].
  - left. exists x. split; [apply S; exact Hx|exact R].
  - right. split; [|exact R3]. intros x Hx. apply R2, S. exact Hx.
Qed.

(** Networks stay imported when they are not touched afterwards, or were not before. *)
Lemma after_later d d1 d' uid s : networks_after networks d d1 uid s -> same_list (list_networks uid d1) (list_networks uid d') ->
  (forall n, In n (list_networks uid d1) -> same_list (list_channels (gn_id n) d1) (list_channels (gn_id n) d')) -> networks_after networks d d' uid s.
Proof.
  intros (R1 & R2 & R3) Sn Sc. split; [|split].
  - intros c Hc. destruct (R1 c Hc) as (n' & Hn' & In' & Cn'). exists n'. split; [apply Sn; exact Hn'|]. split; [exact In'|].
    exact (channels_ext _ _ _ _ _ (same_refl _) (Sc n' Hn') Cn').
  - intros n Hn Hu. destruct (R2 n Hn Hu) as [K1 K2]. split; [apply Sn; exact K1|]. exact (same_trans _ _ _ K2 (Sc n K1)).
  - intros n' Hn'. apply Sn in Hn'. exact (R3 n' Hn').
Qed.
Lemma after_earlier d d1 d' uid s : networks_after networks d1 d' uid s -> same_list (list_networks uid d) (list_networks uid d1) ->
  (forall n, In n (list_networks uid d') -> same_list (list_channels (gn_id n) d) (list_channels (gn_id n) d1)) -> networks_after networks d d' uid s.
Proof.
  intros (R1 & R2 & R3) Sn Sc. split; [|split].
  - intros c Hc. destruct (R1 c Hc) as (n' & Hn' & In' & Cn'). exists n'. split; [exact Hn'|].
    split; [exact (net_imported_ext _ _ _ _ _ (same_sym _ _ Sn) In')|]. exact (channels_ext _ _ _ _ _ (same_sym _ _ (Sc n' Hn')) (same_refl _) Cn').
  - intros n Hn Hu. destruct (R2 n (proj2 (Sn n) Hn) Hu) as [K1 K2]. split; [exact K1|]. exact (same_trans _ _ _ (Sc n K1) K2).
  - intros n' Hn'. destruct (R3 n' Hn') as [K|(c & Hc & K)]; [left; apply Sn; exact K|]. right. exists c. split; [exact Hc|]. exact (net_imported_ext _ _ _ _ _ (same_sym _ _ Sn) K).
Qed.

Lemma users_phase l ss : NoDup (map z_name ss) ->
  (forall s, In s ss -> wanted users (z_name s) = true /\ NoDup (map z_name (net_sections networks s)) /\
     forall n, In n (net_sections networks s) -> NoDup (map z_name (chan_sections n))) ->
  forall d d' ok, valid d -> rows_ok d ->
  (forall s, In s ss -> lookup gu_username l (z_name s) = get_user (z_name s) d) ->
  (forall s u, In s ss -> get_user (z_name s) d = Some u -> in_years (gu_interacted u)) ->
  each (import_user users networks now l) ss d = (d', ok) ->
  valid d' /\ rows_ok d' /\ rest_same d d' /\ ids_kept d d' /\
  (forall name, (forall s, In s ss -> z_name s <> name) -> get_user name d' = get_user name d) /\
  (forall u, (forall s v, In s ss -> get_user (z_name s) d' = Some v -> gu_id v <> u) -> same_list (list_networks u d) (list_networks u d')) /\
  (forall k, (forall s v n, In s ss -> get_user (z_name s) d' = Some v -> In n (list_networks (gu_id v) d') -> gn_id n <> k) ->
     same_list (list_channels k d) (list_channels k d')) /\
  (ok = true -> forall s, In s ss -> exists u', get_user (z_name s) d' = Some u' /\ user_imported d s u' /\ networks_after networks d d' (gu_id u') s).
Proof.
  induction ss as [|s ss IH]; intros Nd Good d d' ok V P H1 Hy H.
  - cbn [each] in H. injection H as <- <-. split; [exact V|]. split; [exact P|]. split; [apply rest_refl|].
    split; [intros u' x Hx; exists x; auto|]. split; [reflexivity|]. split; [intros u _; apply same_refl|]. split; [intros k _; apply same_refl|]. intros _ s [].
  - cbn [map] in Nd. rewrite NoDup_cons_iff in Nd. destruct Nd as [Nn Nd]. cbn [each] in H.
    destruct (import_user users networks now l s d) as [d1 ok1] eqn:E. destruct (Good s (or_introl eq_refl)) as (Gw & Gn & Gc).
    destruct (user_step l s d d1 ok1 V P Gw Gn Gc (H1 s (or_introl eq_refl)) (fun u => Hy s u (or_introl eq_refl)) E)
      as [[-> ->]|(V1 & P1 & S1 & I1 & u1 & G1 & Im1 & F1 & N1 & C1 & R1)].
    { injection H as <- <-. split; [exact V|]. split; [exact P|]. split; [apply rest_refl|].
      split; [intros u' x Hx; exists x; auto|]. split; [reflexivity|]. split; [intros u _; apply same_refl|]. split; [intros k _; apply same_refl|]. discriminate. }
    assert (Nm : forall s', In s' ss -> z_name s' <> z_name s).
    { intros s' Hs' K. apply Nn. rewrite <- K. apply in_map. exact Hs'. }
    destruct ok1.
    2:{ injection H as <- <-. split; [exact V1|]. split; [exact P1|]. split; [exact S1|]. split; [exact I1|].
        split; [intros name Hn; apply F1; apply not_eq_sym, (Hn s (or_introl eq_refl))|].
        split; [intros u Hu; apply N1; apply not_eq_sym; exact (Hu s u1 (or_introl eq_refl) G1)|].
        split; [intros k Hk; apply C1; intros n Hn; exact (Hk s u1 n (or_introl eq_refl) G1 Hn)|discriminate]. }
    destruct (IH Nd (fun s' Hs' => Good s' (or_intror Hs')) d1 d' ok V1 P1) as (V' & P' & S' & I' & F' & N' & C' & R').
    { intros s' Hs'. rewrite (F1 _ (Nm s' Hs')). exact (H1 s' (or_intror Hs')). }
    { intros s' u Hs'. rewrite (F1 _ (Nm s' Hs')). exact (Hy s' u (or_intror Hs')). }
    { exact H. }
    assert (G' : get_user (z_name s) d' = Some u1) by (rewrite F'; [exact G1|exact Nm]).
    assert (Ne : forall s' v, In s' ss -> get_user (z_name s') d' = Some v -> gu_id v <> gu_id u1).
    { intros s' v Hs' Hv Ei. exact (Nm s' Hs' (get_user_uniq d' _ _ v u1 V' Hv G' Ei)). }
    assert (Sn : same_list (list_networks (gu_id u1) d1) (list_networks (gu_id u1) d')) by (apply N'; exact Ne).
    assert (Sc : forall n, In n (list_networks (gu_id u1) d1) -> same_list (list_channels (gn_id n) d1) (list_channels (gn_id n) d')).
    { intros n Hn. apply C'. intros s' v m Hs' Hv Hm Ei. apply Sn in Hn.
      exact (Ne s' v Hs' Hv (proj1 (net_uniq d' _ _ m n V' Hm Hn Ei))). }
    split; [exact V'|]. split; [exact P'|]. split; [exact (rest_trans _ _ _ S1 S')|]. split; [|split; [|split; [|split]]].
    + intros u x Hx. destruct (I1 u x Hx) as (y & Hy' & Ey). destruct (I' u y Hy') as (z & Hz & Ez). exists z. split; [exact Hz|congruence].
    + intros name Hn. rewrite F'; [apply F1, not_eq_sym, (Hn s (or_introl eq_refl))|]. intros s' Hs'. apply Hn. right. exact Hs'.
    + intros u Hu. apply (same_trans _ (list_networks u d1)).
      * apply N1, not_eq_sym. exact (Hu s u1 (or_introl eq_refl) G').
      * apply N'. intros s' v Hs'. exact (Hu s' v (or_intror Hs')).
    + intros k Hk. apply (same_trans _ (list_channels k d1)).
      * apply C1. intros n Hn. apply (Hk s u1 n (or_introl eq_refl) G'). apply Sn. exact Hn.
      * apply C'. intros s' v n Hs'. exact (Hk s' v n (or_intror Hs')).
    + intros Ok s' [<-|Hs'].
      * exists u1. split; [exact G'|]. split; [exact Im1|]. exact (after_later _ _ _ _ _ (R1 eq_refl) Sn Sc).
      * destruct (R' Ok s' Hs') as (u' & Hu' & Im' & Na). exists u'. split; [exact Hu'|]. split.
        { unfold user_imported in *. rewrite (F1 _ (Nm s' Hs')) in Im'. exact Im'. }
        apply (after_earlier d d1 d'); [exact Na|exact (N1 _ (Ne s' u' Hs' Hu'))|].
        intros n Hn. apply C1. intros m Hm Ei. apply Sn in Hm.
        exact (Ne s' u' Hs' Hu' (eq_sym (proj1 (net_uniq d' _ _ m n V' Hm Hn Ei)))).
Qed.

Lemma user_sections_eq root : user_sections users root = filter (fun c => wanted users (z_name c)) (of_type (B "User") root).
Proof. unfold of_type, user_sections. rewrite filter_filter. apply filter_ext. intros c. reflexivity. Qed.

Lemma import_ok raw_of root file d d' ok : reachable raw_of d -> parse file = Some root -> distinct users networks root ->
  (forall name u, get_user name d = Some u -> in_years (gu_interacted u)) ->
  import_file users networks now file d = (d', ok) ->
  rest_same d d' /\
  (forall name, (forall s, In s (user_sections users root) -> z_name s <> name) -> user_same d d' name) /\
  (ok = true -> forall s, In s (user_sections users root) ->
     exists u', get_user (z_name s) d' = Some u' /\ user_imported d s u' /\ networks_after networks d d' (gu_id u') s).
Proof.
  intros R EP [Nd D] Hy H. destruct (reachable_ok raw_of d R) as [V _]. pose proof (reachable_rows raw_of d R) as P.
  unfold import_file in H. rewrite EP in H. destruct (load_users (d_users d)) as [l|] eqn:EL.
  2:{ injection H as <- <-. split; [apply rest_refl|]. split; [|discriminate]. intros name _. split; [reflexivity|].
      intros u _. split; [apply same_refl|]. intros n _. apply same_refl. }
  rewrite (each_filter _ (fun c => wanted users (z_name c))), <- user_sections_eq in H.
  2:{ intros c e Hc. unfold import_user. rewrite Hc. reflexivity. }
  destruct (users_phase l _ Nd) with (d := d) (d' := d') (ok := ok) as (V' & P' & S' & I' & F' & N' & C' & R'); try assumption.
  - intros s Hs. split; [rewrite user_sections_eq in Hs; exact (proj2 (proj1 (filter_In _ _ _) Hs))|exact (D s Hs)].
  - intros s _. exact (lookup_user d l _ V EL).
  - intros s u _. apply Hy.
  - split; [exact S'|]. split; [|exact R']. intros name Hn. pose proof (F' name Hn) as G. split; [exact G|].
    intros u Hu. rewrite Hu in G.
    assert (Ne : forall s v, In s (user_sections users root) -> get_user (z_name s) d' = Some v -> gu_id v <> gu_id u).
    { intros s v Hs Hv Ei. exact (Hn s Hs (get_user_uniq d' _ _ v u V' Hv G Ei)). }
    pose proof (N' (gu_id u) Ne) as Sn. split; [exact Sn|]. intros n Hn'. apply C'. intros s v m Hs Hv Hm Ei. apply Sn in Hn'.
    exact (Ne s v Hs Hv (proj1 (net_uniq d' _ _ m n V' Hm Hn' Ei))).
Qed.
End Users.
