(** Proofs about the copy of log files to a database. *)
From Verif.Base Require Import Bytes.
From Verif.Model Require Import Message Strip TimeFmt ZncLog FsStore LogPath Sql SqlQuery MigrateLogs.
From Verif.Spec Require Import TimeFmt ZncLog FsStore Sql SqlQuery MigrateLogs.
From Verif.Proof Require Import TimeFmt Sql SqlQuery.
From Verif.Proof Require FsStore.
From Coq Require Import ZArith NArith Lia Permutation Sorted.

(** ** Sorting *)
Lemma place_perm x l : Permutation (place x l) (x :: l).
Proof.
  induction l as [|y l IH]; cbn [place]; [reflexivity|]. destruct (text_ltb (fst y) (fst x)); [|reflexivity].
  rewrite IH. apply perm_swap.
Qed.

Lemma by_name_perm l : Permutation (by_name l) l.
Proof. induction l as [|x l IH]; cbn [by_name fold_right]; [reflexivity|]. fold (by_name l). rewrite place_perm, IH. reflexivity. Qed.

Definition name_le (a b : bytes * bytes) : Prop := ~ text_lt (fst b) (fst a).

Lemma place_sorted x l : StronglySorted name_le l -> StronglySorted name_le (place x l).
Proof.
  induction l as [|y l IH]; intros S; cbn [place]; [constructor; constructor|]. apply StronglySorted_inv in S. destruct S as [S F].
  destruct (text_ltb (fst y) (fst x)) eqn:E.
  - apply text_ltb_iff in E. constructor; [apply IH; exact S|]. apply Forall_forall. intros z Hz.
    apply (Permutation_in z (place_perm x l)) in Hz. destruct Hz as [<-|Hz]; [apply text_lt_asym; exact E|]. rewrite Forall_forall in F. exact (F z Hz).
  - apply text_ltb_false in E. constructor; [constructor; assumption|]. constructor; [exact E|].
    rewrite Forall_forall in *. intros z Hz T. specialize (F z Hz). destruct (text_total (fst y) (fst x)) as [H|[H|H]]; [exact (E H)| |].
    + apply F. rewrite H. exact T.
    + apply F. exact (text_lt_trans _ _ _ T H).
Qed.

Lemma by_name_sorted l : StronglySorted name_le (by_name l).
Proof. induction l as [|x l IH]; cbn [by_name fold_right]; [constructor|]. apply place_sorted. exact IH. Qed.

(** ** Storing *)
Section Copy.
Variable raw_of : message -> bytes.
Variable now : Z.
Hypothesis now_ok : in_years now.
Variable root : bytes -> bytes -> option folder.
Notation adds := (added raw_of now).

Lemma insert_msgs_rest net name l : forall d d' ids, insert_msgs raw_of net name now l d = Some (d', ids) ->
  d_users d' = d_users d /\ d_nets d' = d_nets d /\ d_chans d' = d_chans d.
Proof.
  induction l as [|m l IH]; intros d d' ids H; cbn [insert_msgs] in H; [injection H as <- _; auto|].
  destruct (insert_msg raw_of net name now m d) as [[e id]|] eqn:E; [|discriminate].
  destruct (insert_msgs raw_of net name now l e) as [[e' ids']|] eqn:F; [|discriminate]. injection H as <- _.
  destruct (IH _ _ _ F) as (I1 & I2 & I3). unfold insert_msg in E. destruct (message_time now m); [|discriminate]. destruct (sqlite_value _); [|discriminate].
  destruct (filter _ _); [injection E as <- _; auto|]. destruct (check _) eqn:C; [|discriminate]. injection E as <- _.
  apply check_some in C. destruct C as [-> _]. auto.
Qed.

Lemma store_rest net name l d d' ids : store_messages raw_of net name now l d = Some (d', ids) ->
  d_users d' = d_users d /\ d_nets d' = d_nets d /\ d_chans d' = d_chans d.
Proof.
  unfold store_messages. destruct l as [|m l]; [intros H; injection H as <- _; auto|].
  destruct (check _) as [e|] eqn:C; [|discriminate]. apply check_some in C. destruct C as [-> _]. intros H.
  destruct (insert_msgs_rest _ _ _ _ _ _ H) as (I1 & I2 & I3). rewrite I1, I2, I3. unfold add_target. destruct (existsb _ _); auto.
Qed.

Lemma adds_refl d : adds d [] d.
Proof. exists []. rewrite app_nil_r. split; [reflexivity|]. split; [constructor|]. split; [tauto|auto]. Qed.

Lemma arrived_in d i r : arrived raw_of now d i r -> stored_for d (i_net i) (i_target i) r.
Proof. intros (_ & H & _). exact H. Qed.

Lemma adds_trans d a d1 b d2 : adds d a d1 -> adds d1 b d2 -> adds d (a ++ b) d2.
Proof.
  intros (r1 & M1 & F1 & S1 & U1 & N1 & C1) (r2 & M2 & F2 & S2 & U2 & N2 & C2). exists (r1 ++ r2).
  split; [rewrite M2, M1, app_assoc; reflexivity|]. split; [apply Forall2_app; [|exact F2]|].
  - assert (K : forall r, In r r1 -> In r (d_msgs d1)) by (intros r Hr; rewrite M1; apply in_or_app; right; exact Hr).
    clear - F1 S2 K. induction F1 as [|i r a r1 A F IH]; constructor; [|apply IH; intros x Hx; apply K; right; exact Hx].
    destruct A as (A1 & A2 & A3). split; [exact A1|]. split; [|exact A3]. apply S2; [apply K; left; reflexivity|exact A2].
  - split; [|split; [|split]; congruence]. intros r k nm Hr. rewrite (S2 r k nm); [apply S1; exact Hr|]. rewrite M1. apply in_or_app. left. exact Hr.
Qed.

(** A step that adds what it should. *)
Definition does {A} (f : A -> db -> db * bool) (P : db -> A -> list item -> Prop) : Prop :=
  forall a d d', written raw_of d -> f a d = (d', true) -> exists items, P d a items /\ adds d items d' /\ written raw_of d'.

Definition steady {A} (P : db -> A -> list item -> Prop) : Prop := forall d d' a items, d_nets d' = d_nets d -> P d' a items -> P d a items.

Lemma loop_does {A} (f : A -> db -> db * bool) P : does f P -> steady P -> does (loop f) (fun d => in_turn (P d)).
Proof.
  intros D S l. induction l as [|a l IH]; intros d d' W H; cbn [loop] in H.
  - injection H as <-. exists []. split; [exists []; split; [constructor|reflexivity]|]. split; [apply adds_refl|exact W].
  - destruct (f a d) as [d1 [|]] eqn:E; [|discriminate]. destruct (D a d d1 W E) as (i1 & P1 & A1 & W1).
    destruct (IH d1 d' W1 H) as (i2 & (parts & F & ->) & A2 & W2). exists (i1 ++ concat parts). split; [|split; [exact (adds_trans _ _ _ _ _ A1 A2)|exact W2]].
    exists (i1 :: parts). split; [|reflexivity]. constructor; [exact P1|].
    assert (N : d_nets d1 = d_nets d) by (destruct A1 as (r & _ & _ & _ & _ & N & _); exact N).
    clear - F S N. induction F; constructor; [|assumption]. exact (S _ _ _ _ N H).
Qed.

Lemma log_time m t : in_years t -> (t mod 1000000 = 0)%Z -> message_time now (log_message m t) = Some t.
Proof.
  intros Y Z. unfold message_time, log_message. cbn [m_tags find fst]. rewrite beqb_refl. rewrite (parse_format t Y). unfold millis. f_equal.
  pose proof (Z.div_mod t 1000000 ltac:(discriminate)). lia.
Qed.

Lemma parse_whole own target l m tod : fs_parse own target true l = Some (Some (m, tod)) -> (tod mod 1000000 = 0)%Z.
Proof.
  unfold fs_parse. destruct (unmarshal_line own target true l) as [[[x [[h mi] s]]|]|]; try discriminate. intros H. injection H as _ <-.
  replace (((h * 60 + mi) * 60 + s) * 1000000000)%Z with (((h * 60 + mi) * 60 + s) * 1000 * 1000000)%Z by ring. apply Z.mod_mul. discriminate.
Qed.

Definition line_item own net target day (l : bytes) : list item :=
  match fs_parse own target true l with
  | Some (Some (m, tod)) => [Item net target m (day * 86400000000000 + tod)%Z]
  | _ => []
  end.

Lemma read_items own net target day ls ms : read_lines own target day ls = Some ms ->
  ms = map (fun i => log_message (i_msg i) (i_time i)) (flat_map (line_item own net target day) ls) /\
  (forall i, In i (flat_map (line_item own net target day) ls) -> i_net i = net /\ i_target i = target /\ (i_time i mod 1000000 = 0)%Z).
Proof.
  revert ms. induction ls as [|l ls IH]; intros ms H; cbn [read_lines] in H; [injection H as <-; split; [reflexivity|intros i []]|].
  cbn [flat_map]. unfold line_item at 1 3. destruct (fs_parse own target true l) as [[[m tod]|]|] eqn:E; [| |discriminate].
  - destruct (read_lines own target day ls) as [r|]; [|discriminate]. injection H as <-. destruct (IH r eq_refl) as [-> K]. split; [reflexivity|].
    intros i [<-|Hi]; [|exact (K i Hi)]. cbn [i_net i_target i_time]. split; [reflexivity|]. split; [reflexivity|].
    replace (day * 86400000000000)%Z with (day * 86400000 * 1000000)%Z by ring. rewrite Z.add_comm, Z.mod_add by discriminate.
    exact (parse_whole _ _ _ _ _ E).
  - exact (IH ms H).
Qed.

Lemma written_store net target ms d d' ids : written raw_of d -> store_messages raw_of net target now ms d = Some (d', ids) -> written raw_of d'.
Proof.
  intros W H. replace d' with (step_db raw_of d (StoreMessages net target now ms)).
  - apply written_step; [exact W|exact I|exact now_ok].
  - unfold step_db, perform. rewrite H. reflexivity.
Qed.

Lemma entry_does own net target : does (copy_entry raw_of now own net target) (fun _ => file_items own net target).
Proof.
  intros e d d' W H. unfold copy_entry in H. destruct (entry_day (fst e)) as [day|] eqn:E; [|discriminate].
  destruct (read_lines own target day (scan_lines (snd e))) as [ms|] eqn:R; [|discriminate].
  destruct (store_messages raw_of net target now ms d) as [[d1 ids]|] eqn:S; [|discriminate]. injection H as <-.
  destruct (read_items own net target day _ ms R) as [Em K].
  set (items := flat_map (line_item own net target day) (scan_lines (snd e))) in *.
  exists items. split; [exists day; split; [exact E|reflexivity]|]. split; [|exact (written_store _ _ _ _ _ _ W S)].
  destruct (store_messages_rows _ _ _ _ _ _ _ _ now_ok S) as (rows & Ex & _ & F & G & _).
  destruct (store_rest _ _ _ _ _ _ S) as (U & N & C). exists rows. split; [exact (ex_msgs _ _ _ Ex)|]. split; [|split; [|auto]].
  - rewrite Em in F. clear - F G K. revert rows F G. induction items as [|i items IH]; intros rows F G; cbn [map] in F.
    + inversion F; subst. constructor.
    + inversion F as [|x r l rows' A F']; subst. inversion G as [|r' l' G1 G2]; subst. constructor; [|apply IH; auto; intros j Hj; apply K; right; exact Hj].
      destruct (K i (or_introl eq_refl)) as (K1 & K2 & K3). split; [exact A|]. split; [rewrite K1, K2; exact G1|].
      intros Y. destruct A as (_ & _ & _ & t & T & Rt). rewrite (log_time _ _ Y K3) in T. injection T as <-. exact Rt.
  - intros r k nm Hr. destruct (reachable_ok _ _ (written_reachable _ d W)) as [V _]. exact (extends_stored _ _ _ _ _ _ V Ex Hr).
Qed.

Lemma target_does own net : does (copy_target raw_of now own net) (fun _ => target_items own net).
Proof.
  intros t d d' W H. unfold copy_target in H.
  destruct (loop_does _ _ (entry_does own net (fst t)) (fun _ _ _ _ _ H => H) _ _ _ W H) as (items & P & A & W').
  exists items. split; [|auto]. exists (by_name (snd t)). split; [apply by_name_perm|]. split; [apply by_name_sorted|exact P].
Qed.

Lemma network_does u : does (copy_network raw_of now root u) (fun _ => network_items root u).
Proof.
  intros n d d' W H. unfold copy_network in H. unfold network_items. destruct (root _ _) as [f|].
  - exact (loop_does _ _ (target_does (log_nick u n) (gn_id n)) (fun _ _ _ _ _ H => H) _ _ _ W H).
  - injection H as <-. exists []. split; [reflexivity|]. split; [apply adds_refl|exact W].
Qed.

Theorem copies users d d' : written raw_of d -> copy_logs raw_of now root users d = (d', true) ->
  exists items, all_items root d users items /\ added raw_of now d items d'.
Proof.
  intros W H. unfold copy_logs in H.
  assert (D : does (fun u d => loop (copy_network raw_of now root u) (list_networks (gu_id u) d) d)
                (fun d u => in_turn (network_items root u) (list_networks (gu_id u) d))).
  { intros u e e' We He. exact (loop_does _ _ (network_does u) (fun _ _ _ _ _ H => H) _ _ _ We He). }
  assert (S : steady (fun d u => in_turn (network_items root u) (list_networks (gu_id u) d))).
  { intros e e' u items N P. unfold list_networks in *. rewrite <- N. exact P. }
  destruct (loop_does _ _ D S _ _ _ W H) as (items & P & A & _). exists items. auto.
Qed.

(** ** The copy gets to its end *)
Definition ends {A} (f : A -> db -> db * bool) (Q : db -> A -> Prop) : Prop :=
  forall a d, written raw_of d -> Q d a -> exists d', f a d = (d', true).

Lemma loop_ends {A} (f : A -> db -> db * bool) P Q : does f P -> ends f Q -> (forall d d' a, d_nets d' = d_nets d -> Q d a -> Q d' a) ->
  ends (loop f) (fun d l => forall a, In a l -> Q d a).
Proof.
  intros D E S l. induction l as [|a l IH]; intros d W H; cbn [loop]; [eauto|].
  destruct (E a d W (H a (or_introl eq_refl))) as (d1 & F). rewrite F. destruct (D a d d1 W F) as (i & _ & (r & _ & _ & _ & _ & N & _) & W1).
  apply IH; [exact W1|]. intros b Hb. apply (S d d1 b N). apply H. right. exact Hb.
Qed.

Definition entry_ok own net target (d : db) (e : bytes * bytes) : Prop :=
  In net (map nr_id (d_nets d)) /\ exists day, entry_day (fst e) = Some day /\ forall l, In l (scan_lines (snd e)) ->
    exists r, fs_parse own target true l = Some r /\
    forall m tod, r = Some (m, tod) -> in_years (day * 86400000000000 + tod) /\ (day * 86400000000000 + tod)%Z <> 0%Z.

Lemma reads own target day ls :
  (forall l, In l ls -> exists r, fs_parse own target true l = Some r /\
    forall m tod, r = Some (m, tod) -> in_years (day * 86400000000000 + tod) /\ (day * 86400000000000 + tod)%Z <> 0%Z) ->
  exists ms, read_lines own target day ls = Some ms /\ forall m, In m ms -> exists t, message_time now m = Some t /\ t <> 0%Z.
Proof.
  induction ls as [|l ls IH]; intros H; cbn [read_lines]; [exists []; split; [reflexivity|intros m []]|].
  destruct (H l (or_introl eq_refl)) as (r & E & T). destruct (IH (fun x Hx => H x (or_intror Hx))) as (ms & -> & K). rewrite E.
  destruct r as [[m tod]|]; [|exists ms; auto]. eexists. split; [reflexivity|]. intros x [<-|Hx]; [|exact (K x Hx)].
  destruct (T m tod eq_refl) as [Y Z]. exists (day * 86400000000000 + tod)%Z. split; [|exact Z]. apply log_time; [exact Y|].
  replace (day * 86400000000000)%Z with (day * 86400000 * 1000000)%Z by ring. rewrite Z.add_comm, Z.mod_add by discriminate.
  exact (parse_whole _ _ _ _ _ E).
Qed.

Lemma entry_ends own net target : ends (copy_entry raw_of now own net target) (entry_ok own net target).
Proof.
  intros e d W (Hn & day & E & H). unfold copy_entry. rewrite E. destruct (reads own target day _ H) as (ms & -> & K).
  destruct (store_works raw_of d net target now ms W Hn now_ok K) as (d' & ids & _ & -> & _). eauto.
Qed.

Theorem copies_end users d : written raw_of d ->
  (forall u n, In u users -> In n (list_networks (gu_id u) d) -> readable root u n) ->
  exists d', copy_logs raw_of now root users d = (d', true).
Proof.
  intros W H. unfold copy_logs.
  pose (known := fun (d : db) (n : gnet) => In (gn_id n) (map nr_id (d_nets d))).
  assert (T : forall own net, ends (copy_target raw_of now own net) (fun d t => forall e, In e (snd t) -> entry_ok own net (fst t) d e)).
  { intros own net t e We He. unfold copy_target.
    apply (loop_ends _ _ _ (entry_does own net (fst t)) (entry_ends own net (fst t))); [|exact We|].
    - intros e1 e2 a N (A & B). split; [rewrite N; exact A|exact B].
    - intros x Hx. apply He. exact (Permutation_in x (by_name_perm (snd t)) Hx). }
  assert (K : forall u, ends (copy_network raw_of now root u) (fun d n => known d n /\ readable root u n)).
  { intros u n e We [Kn R]. unfold copy_network. destruct (root _ _) as [f|] eqn:F; [|eauto].
    apply (loop_ends _ _ _ (target_does (log_nick u n) (gn_id n)) (T (log_nick u n) (gn_id n))); [|exact We|].
    - intros e1 e2 a N Q x Hx. destruct (Q x Hx) as (A & B). split; [rewrite N; exact A|exact B].
    - intros [target es] Ht [name content] He. split; [exact Kn|]. cbn [fst snd] in *. exact (R f target es name content F Ht He). }
  assert (D : does (fun u d => loop (copy_network raw_of now root u) (list_networks (gu_id u) d) d)
                (fun d u => in_turn (network_items root u) (list_networks (gu_id u) d))).
  { intros u e e' We He. exact (loop_does _ _ (network_does u) (fun _ _ _ _ _ H => H) _ _ _ We He). }
  assert (U : ends (fun u d => loop (copy_network raw_of now root u) (list_networks (gu_id u) d) d)
                (fun d u => forall n, In n (list_networks (gu_id u) d) -> readable root u n)).
  { intros u e We R. apply (loop_ends _ _ _ (network_does u) (K u)); [|exact We|].
    - intros e1 e2 a N [A B]. split; [unfold known; rewrite N; exact A|exact B].
    - intros n Hn. split; [|exact (R n Hn)]. unfold list_networks in Hn. apply in_map_iff in Hn. destruct Hn as (r & <- & Hr).
      apply filter_In in Hr. unfold known. cbn [load_network gn_id]. apply in_map. tauto. }
  apply (loop_ends _ _ _ D U); [|exact W|].
  - intros e1 e2 u N Q n Hn. apply Q. unfold list_networks in *. rewrite N in Hn. exact Hn.
  - intros u Hu n Hn. exact (H u n Hu Hn).
Qed.

(** ** A message written by soju *)
Lemma in_turn_in {A C} (P : A -> list C -> Prop) l out a : in_turn P l out -> In a l -> exists part, P a part /\ forall x, In x part -> In x out.
Proof.
  intros (parts & F & ->) H. induction F as [|b p l parts Pb F IH]; [destruct H|]. destruct H as [->|H].
  - exists p. split; [exact Pb|]. intros x Hx. cbn [concat]. apply in_or_app. left. exact Hx.
  - destruct (IH H) as (q & Q & K). exists q. split; [exact Q|]. intros x Hx. cbn [concat]. apply in_or_app. right. exact (K x Hx).
Qed.

Lemma day_named day : (0 <= day < 3652059)%Z -> entry_day (day_file day) = Some day.
Proof.
  intros R. unfold day_file, entry_day. pose proof (civil_spec day) as V. 
  assert (Y : in_years (day * ns_per_day)) by (unfold in_years, ns_per_day; lia).
  pose proof (year_range _ Y) as Y'. rewrite Z.div_mul in Y' by discriminate. destruct (civil_of_days day) as [[y m] d]. destruct V as [V E].
  destruct V as (V1 & V2). pose proof (days_in_31 y m V1) as D.
  change (B "-") with ["-"%char]. change (B ".log") with ("."%char :: B "log"). cbn [app].
  rewrite take_num_pad by (cbn; lia). rewrite take_num_pad by (cbn; lia). rewrite take_num_pad by (cbn; lia).
  change (after_prefix (B "log") (B "log")) with (Some ([] : bytes)). cbn iota.
  rewrite Z.div_small, Z.mod_small by lia. rewrite Z.add_0_r, Z.sub_add, E. reflexivity.
Qed.

Theorem chat_copied users d d' u n f es entity day ls c :
  written raw_of d -> copy_logs raw_of now root users d = (d', true) ->
  In u users -> In n (list_networks (gu_id u) d) ->
  root (escape_filename (gu_username u)) (escape_filename (log_name n)) = Some f ->
  In (escape_filename entity, es) f -> escape_filename entity = entity ->
  In (day_file day, file_of ls) es -> Forall line_ok ls -> (0 <= day < 3652059)%Z ->
  chat_ok c -> (c_time c / 86400000000000 = day)%Z -> In (chat_line (c_from c) entity (c_text c) (c_time c)) ls ->
  exists r, In r (d_msgs d') /\ stored_for d' (gn_id n) entity r /\ mr_sender r = p_name (c_from c) /\
    mr_text r = Some (strip_ansi (c_text c)) /\ row_at r (c_time c / 1000000000 * 1000000000).
Proof.
  intros W H Hu Hn Hr Ht He Hd Hl Rd Hc Hday Hin. destruct (copies users d d' W H) as (items & P & A).
  destruct (in_turn_in _ _ _ u P Hu) as (i1 & P1 & K1). destruct (in_turn_in _ _ _ n P1 Hn) as (i2 & P2 & K2).
  unfold network_items in P2. rewrite Hr in P2. destruct (in_turn_in _ _ _ _ P2 Ht) as (i3 & (es' & Pm & _ & P3) & K3). cbn [fst snd] in *.
  apply (Permutation_in _ (Permutation_sym Pm)) in Hd. destruct (in_turn_in _ _ _ _ P3 Hd) as (i4 & (day' & Ed & E4) & K4). cbn [fst snd] in *.
  rewrite (day_named day Rd) in Ed. injection Ed as <-. rewrite (FsStore.scan_lines_file ls Hl) in E4. rewrite He in *.
  destruct (FsStore.chat_entry_ok (log_nick u n) entity true c Hc) as [(E0 & _ & _ & Tod) (tod & Ep)]. cbn [fst snd] in *.
  specialize (Tod _ _ Ep).
  set (it := Item (gn_id n) entity (chat_message (log_nick u n) entity c) (day * 86400000000000 + tod)).
  assert (Hit : In it items).
  { apply K1, K2, K3, K4. rewrite E4. apply in_flat_map. exists (chat_line (c_from c) entity (c_text c) (c_time c)). split; [exact Hin|].
    rewrite Ep. left. reflexivity. }
  destruct A as (rows & M & F & _).
  assert (X : exists r, In r rows /\ arrived raw_of now d' it r).
  { clear - F Hit. induction F as [|i r l rows A F IH]; [destruct Hit|]. destruct Hit as [->|Hit]; [exists r; split; [left; reflexivity|exact A]|].
    destruct (IH Hit) as (r' & H1 & H2). exists r'. split; [right; exact H1|exact H2]. }
  destruct X as (r & Hrr & (R1 & R2 & R3)). exists r. split; [rewrite M; apply in_or_app; right; exact Hrr|].
  split; [exact R2|]. destruct R1 as (_ & R4 & R5 & _). split; [exact R4|]. split; [exact R5|].
  assert (T : i_time it = (c_time c / 1000000000 * 1000000000)%Z).
  { subst it. cbn [i_time]. rewrite Tod, <- Hday. exact (FsStore.stamp_eq (c_time c)). }
  rewrite <- T. apply R3. rewrite T. unfold in_years. pose proof (Z.div_mod (c_time c) 1000000000 ltac:(discriminate)) as E1.
  pose proof (Z.mod_pos_bound (c_time c) 1000000000 ltac:(reflexivity)) as E2.
  pose proof (Z.div_mod (c_time c) 86400000000000 ltac:(discriminate)) as E5. rewrite Hday in E5.
  pose proof (Z.mod_pos_bound (c_time c) 86400000000000 ltac:(reflexivity)) as E6. lia.
Qed.
End Copy.
