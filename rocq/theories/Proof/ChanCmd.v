From Verif.Base Require Import Bytes.
From Verif.Model Require Import CaseMap Service ChanCmd.
From Verif.Proof Require Accounts Service.
From Verif.Spec Require Import Accounts ChanCmd.
From Coq Require Import ZArith Lia Permutation Sorting.Sorted.
Open Scope nat_scope.

(** ** Lists *)
Lemma perm_filter {A} (f : A -> bool) l l' : Permutation l l' -> Permutation (List.filter f l) (List.filter f l').
Proof.
  induction 1 as [|x l l' _ IH|x y l|l1 l2 l3 _ IH1 _ IH2]; cbn [List.filter].
  - constructor.
  - destruct (f x); [constructor; exact IH|exact IH].
  - destruct (f x), (f y); try apply Permutation_refl. apply perm_swap.
  - exact (perm_trans IH1 IH2).
Qed.

Lemma nth_set l i n j : i < length l -> nth_error (set_nth l i n) j = if Nat.eqb j i then Some n else nth_error l j.
Proof.
  intros H. unfold set_nth. destruct (Nat.eqb_spec j i) as [->|E].
  - rewrite nth_error_app2; rewrite firstn_length_le by lia; [|lia]. rewrite Nat.sub_diag. reflexivity.
  - destruct (Nat.lt_ge_cases j i).
    + rewrite nth_error_app1 by (rewrite firstn_length_le; lia). revert l j E H H0. induction i as [|i IH]; intros l j E H H0; [lia|].
      destruct l as [|x l]; [cbn in H; lia|]. destruct j as [|j]; [reflexivity|]. cbn. apply IH; cbn in H; lia.
    + rewrite nth_error_app2 by (rewrite firstn_length_le; lia). rewrite firstn_length_le by lia.
      replace (j - i) with (S (j - S i)) by lia. cbn [nth_error].
      assert (G : forall k m, nth_error (skipn k l) m = nth_error l (k + m)).
      { intros k. revert l j E H H0. clear. intros l _ _ _ _. revert l. induction k as [|k IH]; intros l m; [reflexivity|]. destruct l as [|x l]; [destruct m; reflexivity|]. cbn. apply IH. }
      rewrite G. f_equal. lia.
Qed.
Lemma len_set l i n : i < length l -> length (set_nth l i n) = length l.
Proof. intros H. unfold set_nth. rewrite app_length, firstn_length_le by lia. cbn [length]. rewrite skipn_length. lia. Qed.
Lemma nth_lt {A} (l : list A) i x : nth_error l i = Some x -> i < length l.
Proof. intros H. apply nth_error_Some. rewrite H. discriminate. Qed.
Lemma set_same l i n : nth_error l i = Some n -> set_nth l i n = l.
Proof.
  revert i. induction l as [|x l IH]; intros [|i] H; try discriminate.
  - cbn in H. injection H as ->. reflexivity.
  - cbn in H. unfold set_nth in *. cbn. f_equal. apply IH, H.
Qed.
Lemma forall_set {P : network -> Prop} l i n : Forall P l -> P n -> i < length l -> Forall P (set_nth l i n).
Proof.
  intros H Hn Hi. unfold set_nth. apply Forall_app. rewrite <- (firstn_skipn i l) in H. apply Forall_app in H. destruct H as [H1 H2].
  split; [exact H1|]. constructor; [exact Hn|]. rewrite <- (firstn_skipn i l) in Hi.
  replace (skipn (S i) l) with (tl (skipn i l)). { destruct (skipn i l); [constructor|]. inversion H2; assumption. }
  clear. revert l. induction i as [|i IH]; intros l; [destruct l; reflexivity|]. destruct l as [|x l]; [reflexivity|]. cbn [skipn]. rewrite IH. destruct l; reflexivity.
Qed.

Lemma perm_eq {A} (l l' : list A) : l = l' -> Permutation l l'.
Proof. intros ->. apply Permutation_refl. Qed.

(** ** Names *)
Lemma same_iff cm a b : same cm a b = true <-> casemap cm a = casemap cm b.
Proof. unfold same. apply beqb_eq. Qed.
Lemma same_refl cm a : same cm a a = true.
Proof. apply same_iff. reflexivity. Qed.
Lemma same_false cm a b : same cm a b = false <-> casemap cm a <> casemap cm b.
Proof. rewrite <- same_iff. destruct (same cm a b); split; intros H; try reflexivity; try discriminate; [exfalso; apply H; reflexivity]. Qed.

Definition keys (n : network) := map (fun c => casemap (n_cm n) (c_name c)) (n_mem n).
Lemma nodup_inj {A B} (f : A -> B) l x y : NoDup (map f l) -> In x l -> In y l -> f x = f y -> x = y.
Proof.
  induction l as [|a l IH]; [intros _ []|]. cbn [map]. intros H. inversion H as [|? ? H1 H2]; subst. intros [->|Hx] [->|Hy] E.
  - reflexivity.
  - exfalso. apply H1. rewrite E. apply in_map, Hy.
  - exfalso. apply H1. rewrite <- E. apply in_map, Hx.
  - exact (IH H2 Hx Hy E).
Qed.

Lemma get_ch_in n name c : get_ch n name = Some c -> In c (n_mem n) /\ casemap (n_cm n) (c_name c) = casemap (n_cm n) name.
Proof. intros H. apply find_some in H. destruct H as [H1 H2]. split; [exact H1|]. apply same_iff. exact H2. Qed.
Lemma get_ch_found n name c : NoDup (keys n) -> In c (n_mem n) -> casemap (n_cm n) (c_name c) = casemap (n_cm n) name -> get_ch n name = Some c.
Proof.
  intros Hd Hi E. destruct (get_ch n name) as [c'|] eqn:G.
  - f_equal. apply get_ch_in in G. destruct G as [G1 G2]. apply (nodup_inj _ _ _ _ Hd G1 Hi). cbn. congruence.
  - exfalso. apply (find_none _ _ G) in Hi. apply same_false in Hi. exact (Hi E).
Qed.
Lemma get_ch_none n name : get_ch n name = None -> forall c, In c (n_mem n) -> casemap (n_cm n) (c_name c) <> casemap (n_cm n) name.
Proof. intros G c Hc. apply same_false. exact (find_none _ _ G c Hc). Qed.

(** ** Rows *)
Lemma row_stored c : stored_as c (as_row c).
Proof.
  unfold stored_as, as_row. cbn [c_id c_name c_key c_detached c_relay c_reattach c_on c_after].
  split; [reflexivity|]. split; [reflexivity|]. split; [reflexivity|]. split; [reflexivity|]. split; [reflexivity|]. split; [reflexivity|]. split; [reflexivity|].
  unfold whole. generalize (c_after c). intros z. split; [eexists; unfold second; reflexivity|].
  pose proof (Z.div_mod (z + (second - 1)) second ltac:(unfold second; lia)) as E.
  pose proof (Z.mod_pos_bound (z + (second - 1)) second ltac:(unfold second; lia)) as M. revert E M.
  generalize ((z + (second - 1)) / second)%Z. generalize ((z + (second - 1)) mod second)%Z. unfold second. intros m d E M. lia.
Qed.
Lemma stored_row c r : stored_as c r -> r = as_row c.
Proof.
  intros (H1 & H2 & H3 & H4 & H5 & H6 & H7 & (k & H8) & H9).
  destruct (row_stored c) as (_ & _ & _ & _ & _ & _ & _ & (k' & H8') & H9').
  assert (E : c_after r = c_after (as_row c)) by lia.
  clear - H1 H2 H3 H4 H5 H6 H7 E. destruct r as [r1 r2 r3 r4 r5 r6 r7 r8]. unfold as_row in *. cbn [c_id c_name c_key c_detached c_relay c_reattach c_after c_on] in *. congruence.
Qed.
Lemma rows_iff cs l : Forall2 stored_as cs l <-> l = map as_row cs.
Proof.
  split.
  - induction 1 as [|c r cs l H _ IH]; [reflexivity|]. cbn [map]. rewrite IH, (stored_row _ _ H). reflexivity.
  - intros ->. induction cs as [|c cs IH]; [constructor|]. constructor; [apply row_stored|exact IH].
Qed.
Lemma synced_iff n : (exists cs, Permutation cs (n_mem n) /\ Forall2 stored_as cs (n_db n)) <-> Permutation (map as_row (n_mem n)) (n_db n).
Proof.
  split.
  - intros (cs & H1 & H2). apply rows_iff in H2. rewrite H2. apply Permutation_map, Permutation_sym, H1.
  - intros H. apply Permutation_sym, Permutation_map_inv in H. destruct H as (cs & H1 & H2). exists cs. split; [apply Permutation_sym, H2|]. apply rows_iff. exact H1.
Qed.

Lemma eqid_iff a b : eqid a b = true <-> a = b.
Proof. destruct a, b; cbn; try (split; intros H; [discriminate|discriminate H]); [rewrite N.eqb_eq; split; [intros ->; reflexivity|intros H; injection H as ->; reflexivity]|split; reflexivity]. Qed.

(** ** Replacing a channel *)
Lemma put_in n c0 c1 : NoDup (keys n) -> In c0 (n_mem n) -> c_name c1 = c_name c0 ->
  forall c, In c (n_mem (put_ch n c1)) <-> c = c1 \/ (In c (n_mem n) /\ casemap (n_cm n) (c_name c) <> casemap (n_cm n) (c_name c0)).
Proof.
  intros Hd H0 En c. cbn [put_ch n_mem with_mem]. rewrite En. rewrite in_map_iff. split.
  - intros (x & E & Hx). destruct (same (n_cm n) (c_name x) (c_name c0)) eqn:S; [left; congruence|]. right. subst. split; [exact Hx|]. apply same_false. exact S.
  - intros [-> | [Hc Hn]]; [exists c0; rewrite same_refl; split; [reflexivity|exact H0]|].
    exists c. apply same_false in Hn. rewrite Hn. split; [reflexivity|exact Hc].
Qed.
Lemma put_keys n c1 : keys (put_ch n c1) = keys n.
Proof.
  unfold keys. cbn [put_ch n_mem with_mem n_cm]. rewrite map_map. apply map_ext. intros x.
  destruct (same (n_cm n) (c_name x) (c_name c1)) eqn:S; [|reflexivity]. symmetry. apply same_iff. exact S.
Qed.
Lemma put_ids n c0 c1 : NoDup (keys n) -> In c0 (n_mem n) -> c_name c1 = c_name c0 -> c_id c1 = c_id c0 ->
  map c_id (n_mem (put_ch n c1)) = map c_id (n_mem n).
Proof.
  intros Hd H0 En Ei. cbn [put_ch n_mem with_mem]. rewrite map_map. apply map_ext_in. intros x Hx. rewrite En.
  destruct (same (n_cm n) (c_name x) (c_name c0)) eqn:S; [|reflexivity]. apply same_iff in S.
  rewrite (nodup_inj _ _ _ _ Hd Hx H0 S). exact Ei.
Qed.

Lemma store_known n next c0 c1 i : net_ok next n -> In c0 (n_mem n) -> c_name c1 = c_name c0 -> c_id c1 = c_id c0 -> c_id c0 = Some i ->
  exists n2, store_channel (put_ch n c1) next c1 = (n2, next) /\ n_mem n2 = n_mem (put_ch n c1) /\ net_ok next n2 /\
    n_name n2 = n_name n /\ n_addr n2 = n_addr n /\ n_cm n2 = n_cm n /\ n_conn n2 = n_conn n.
Proof.
  intros (K1 & K2 & K3 & K4) H0 En Ei Hi. unfold store_channel. rewrite Ei, Hi. eexists. split; [reflexivity|]. cbn [with_db n_mem].
  split; [reflexivity|]. split; [|split; [reflexivity|split; [reflexivity|split; reflexivity]]].
  split; [exact (eq_ind_r (@NoDup _) K1 (put_keys n c1))|]. split; [|split].
  - cbn [with_db n_mem]. rewrite (put_ids n c0 c1 K1 H0 En Ei). exact K2.
  - cbn [with_db n_mem]. intros c Hc. apply (put_in n c0 c1 K1 H0 En) in Hc. destruct Hc as [-> | [Hc _]]; [rewrite Ei; exact (K3 _ H0)|exact (K3 _ Hc)].
  - apply synced_iff. apply synced_iff in K4. cbn [with_db n_mem n_db put_ch with_mem].
    apply (Permutation_map (fun r => if eqid (c_id r) (Some i) then as_row c1 else r)) in K4. rewrite map_map in K4.
    eapply perm_trans; [|exact K4]. apply perm_eq. rewrite map_map. apply map_ext_in. intros x Hx. cbn [as_row c_id]. rewrite En.
    destruct (same (n_cm n) (c_name x) (c_name c0)) eqn:S.
    + apply same_iff in S. rewrite (nodup_inj _ _ _ _ K1 Hx H0 S). rewrite Hi. rewrite (proj2 (eqid_iff _ _) eq_refl). reflexivity.
    + destruct (eqid (c_id x) (Some i)) eqn:E; [|reflexivity]. apply eqid_iff in E. exfalso. rewrite <- Hi in E.
      rewrite (nodup_inj _ _ _ _ K2 Hx H0 E) in S. rewrite same_refl in S. discriminate.
Qed.

Lemma nodup_snoc {A} (l : list A) x : NoDup l -> ~ In x l -> NoDup (l ++ [x]).
Proof. intros H Hx. apply (Permutation_NoDup (l := x :: l)); [apply Permutation_cons_append|]. constructor; assumption. Qed.

Lemma store_new n next c : net_ok next n -> c_id c = None -> get_ch n (c_name c) = None ->
  exists n2, store_channel (with_mem n (n_mem n ++ [c])) next c = (n2, (next + 1)%N) /\ n_mem n2 = n_mem n ++ [with_id c (Some next)] /\ net_ok (next + 1) n2 /\
    n_name n2 = n_name n /\ n_addr n2 = n_addr n /\ n_cm n2 = n_cm n /\ n_conn n2 = n_conn n.
Proof.
  intros (K1 & K2 & K3 & K4) Hi Hg. unfold store_channel. rewrite Hi. eexists. split; [reflexivity|].
  pose proof (get_ch_none _ _ Hg) as Hn.
  assert (M : n_mem (put_ch (with_mem n (n_mem n ++ [c])) (with_id c (Some next))) = n_mem n ++ [with_id c (Some next)]).
  { cbn [put_ch with_mem n_mem n_cm with_id c_name]. rewrite map_app. cbn [map]. rewrite same_refl. f_equal.
    rewrite <- (map_id (n_mem n)) at 2. apply map_ext_in. intros x Hx. apply Hn in Hx. apply same_false in Hx. rewrite Hx. reflexivity. }
  cbn [with_db n_mem] in *. split; [exact M|]. split; [|split; [reflexivity|split; [reflexivity|split; reflexivity]]].
  unfold net_ok. cbn [with_db n_mem n_cm n_db]. rewrite M. change (n_cm (put_ch (with_mem n (n_mem n ++ [c])) (with_id c (Some next)))) with (n_cm n).
  split; [|split; [|split]].
  - rewrite map_app. apply nodup_snoc; [exact K1|]. cbn [map with_id c_name]. intros H. apply in_map_iff in H. destruct H as (x & E & Hx). exact (Hn x Hx E).
  - rewrite map_app. apply nodup_snoc; [exact K2|]. cbn [map with_id c_id]. intros H. apply in_map_iff in H. destruct H as (x & E & Hx).
    destruct (K3 x Hx) as (j & E1 & E2). rewrite E1 in E. injection E as ->. lia.
  - intros x Hx. apply in_app_or in Hx. destruct Hx as [Hx|[<-|[]]].
    + destruct (K3 x Hx) as (j & E1 & E2). exists j. split; [exact E1|lia].
    + exists next. split; [reflexivity|lia].
  - apply synced_iff in K4. destruct (proj2 (synced_iff (Net [] [] (n_cm n) None (n_mem n ++ [with_id c (Some next)]) (n_db n ++ [as_row (with_id c (Some next))])))) as (cs & P1 & P2).
    { cbn [n_mem n_db]. rewrite map_app. apply Permutation_app; [exact K4|apply Permutation_refl]. }
    exists cs. split; [exact P1|exact P2].
Qed.

Lemma filter_keys {A B} (f : A -> B) (p : A -> bool) l : NoDup (map f l) -> NoDup (map f (List.filter p l)).
Proof.
  induction l as [|x l IH]; [intros _; constructor|]. cbn [map List.filter]. intros H. inversion H as [|? ? H1 H2]; subst.
  destruct (p x); [|exact (IH H2)]. cbn [map]. constructor; [|exact (IH H2)].
  intros G. apply H1. apply in_map_iff in G. destruct G as (y & E & G). apply filter_In in G. rewrite <- E. apply in_map. tauto.
Qed.

Lemma delete_ok n next c0 name : net_ok next n -> In c0 (n_mem n) -> casemap (n_cm n) (c_name c0) = casemap (n_cm n) name ->
  net_ok next (with_mem (delete_row n (c_id c0)) (List.filter (fun x => negb (same (n_cm n) (c_name x) name)) (n_mem n))).
Proof.
  intros (K1 & K2 & K3 & K4) H0 E0. unfold net_ok. cbn [with_mem delete_row with_db n_mem n_db n_cm].
  split; [apply filter_keys, K1|]. split; [apply filter_keys, K2|]. split.
  - intros c Hc. apply filter_In in Hc. apply K3. tauto.
  - apply synced_iff in K4. destruct (K3 c0 H0) as (i & Ei & _).
    destruct (proj2 (synced_iff (with_mem (delete_row n (c_id c0)) (List.filter (fun x => negb (same (n_cm n) (c_name x) name)) (n_mem n))))) as (cs & P1 & P2); [|exists cs; split; [exact P1|exact P2]].
    cbn [with_mem delete_row with_db n_mem n_db]. apply (perm_filter (fun r => negb (eqid (c_id r) (c_id c0) && is_some (c_id c0)))) in K4.
    eapply perm_trans; [|exact K4]. apply perm_eq. rewrite Ei. cbn [is_some].
    assert (G : forall l, incl l (n_mem n) -> map as_row (List.filter (fun x => negb (same (n_cm n) (c_name x) name)) l) =
      List.filter (fun r => negb (eqid (c_id r) (Some i) && true)) (map as_row l)).
    { induction l as [|x l IH]; [reflexivity|]. intros Hl. cbn [List.filter map]. cbn [as_row c_id]. rewrite andb_true_r.
      assert (Hx : In x (n_mem n)) by (apply Hl; left; reflexivity).
      replace (same (n_cm n) (c_name x) name) with (eqid (c_id x) (Some i)).
      - destruct (eqid (c_id x) (Some i)); cbn [negb]; [|cbn [map]; f_equal]; apply IH; intros y Hy; apply Hl; right; exact Hy.
      - apply Bool.eq_true_iff_eq. rewrite eqid_iff, same_iff. split.
        + intros E. rewrite <- Ei in E. rewrite (nodup_inj _ _ _ _ K2 Hx H0 E). exact E0.
        + intros E. rewrite <- Ei. f_equal. apply (nodup_inj _ _ _ _ K1 Hx H0). cbn. congruence. }
    apply G. intros x Hx. exact Hx.
Qed.

(** ** Addresses *)
Lemma position_found l i n : NoDup (map get_name l) -> nth_error l i = Some n -> position l (get_name n) = Some i.
Proof.
  revert i. induction l as [|x l IH]; intros i Hd H; [destruct i; discriminate|]. cbn [map] in Hd. inversion Hd as [|? ? H1 H2]; subst.
  destruct i as [|i]; cbn [nth_error position] in *.
  - injection H as ->. rewrite beqb_refl. reflexivity.
  - rewrite (IH i H2 H). replace (beqb (get_name n) (get_name x)) with false; [reflexivity|]. symmetry. apply beqb_neq. intros E. apply H1. rewrite <- E. apply in_map. exact (nth_error_In _ _ H).
Qed.
Lemma strip_addressed u bound p i name : names_differ u -> addressed u bound p i name -> strip u bound p = Some (name, i).
Proof.
  intros Hd. destruct bound as [j|]; cbn [addressed strip].
  - intros [-> ->]. reflexivity.
  - intros (Hs & n & Hn & ->). rewrite cut_on_app by exact Hs. rewrite (position_found _ _ _ Hd Hn). reflexivity.
Qed.

(** ** Options *)
Definition as_flag (x : setting) : bytes * fval :=
  match x with
  | Detached b => (B "detached", VBool b)
  | Relay f => (B "relay-detached", VStr (filter_word f))
  | Reattach f => (B "reattach-on", VStr (filter_word f))
  | After t _ => (B "detach-after", VStr t)
  | DetachOn f => (B "detach-on", VStr (filter_word f))
  end.
Lemma plain_names : Forall Accounts.plain_name [B "detached"; B "relay-detached"; B "reattach-on"; B "detach-after"; B "detach-on"; B "network"].
Proof. repeat constructor; try discriminate; vm_compute; intros H; repeat (destruct H as [H|H]; [discriminate|]); destruct H. Qed.
Ltac pname := apply (proj1 (Forall_forall _ _) plain_names); cbn [In]; tauto.

Section D.
  Variable duration : bytes -> option Z.

  Lemma parse_one fuel x words args : written duration x words ->
    parse_flags channel_flags (S fuel) (words ++ args) =
    match parse_flags channel_flags fuel args with None => None | Some (l, rest) => Some (as_flag x :: l, rest) end.
  Proof.
    destruct x as [b|f|f|t z|f]; cbn [written as_flag].
    - intros (t & Ht & H). apply (Accounts.parse_flag_value _ _ _ KBoolPtr t); [pname|exact H|reflexivity|discriminate|cbn [parse_value]; rewrite (Accounts.means_parse t b Ht); reflexivity].
    - intros H. apply (Accounts.parse_flag_value _ _ _ KStr (filter_word f)); [pname|exact H|reflexivity|discriminate|reflexivity].
    - intros H. apply (Accounts.parse_flag_value _ _ _ KStr (filter_word f)); [pname|exact H|reflexivity|discriminate|reflexivity].
    - intros [H _]. apply (Accounts.parse_flag_value _ _ _ KStr t); [pname|exact H|reflexivity|discriminate|reflexivity].
    - intros H. apply (Accounts.parse_flag_value _ _ _ KStr (filter_word f)); [pname|exact H|reflexivity|discriminate|reflexivity].
  Qed.
  Lemma written_len x words : written duration x words -> 1 <= length words.
  Proof.
    destruct x; cbn [written]; [intros (t & _ & H)| | |intros [H _]|]; first [exact (Accounts.flag_words_len _ _ _ H)|apply Accounts.flag_words_len].
  Qed.
  Lemma parse_settings l words : Forall2 (written duration) l words -> parse_all channel_flags (concat words) = Some (map as_flag l).
  Proof.
    intros H. unfold parse_all.
    assert (G : forall fuel, S (length (concat words)) <= fuel -> parse_flags channel_flags fuel (concat words) = Some (map as_flag l, [])).
    { induction H as [|x w l words H _ IH]; intros fuel Hf.
      - destruct fuel as [|fuel]; [cbn in Hf; lia|]. reflexivity.
      - cbn [concat map] in *. rewrite app_length in Hf. pose proof (written_len x w H). destruct fuel as [|fuel]; [lia|].
        rewrite (parse_one fuel x w _ H). rewrite IH by lia. reflexivity. }
    rewrite G by lia. reflexivity.
  Qed.

  Lemma filter_word_parse f : parse_filter (filter_word f) = Some f.
  Proof. destruct f; vm_compute; reflexivity. Qed.

  (** The flags of settings that are understood, applied. *)
  Definition good (x : setting) : Prop := match x with After t z => duration t = Some z /\ (0 <= z)%Z | _ => True end.
  Lemma written_good x w : written duration x w -> good x.
  Proof. destruct x; cbn [written good]; tauto. Qed.

  Definition frelay l c := match str_flag (map as_flag l) (B "relay-detached") with None => Some (c_relay c) | Some s => parse_filter s end.
  Definition freattach l c := match str_flag (map as_flag l) (B "reattach-on") with None => Some (c_reattach c) | Some s => parse_filter s end.
  Definition fon l c := match str_flag (map as_flag l) (B "detach-on") with None => Some (c_on c) | Some s => parse_filter s end.
  Definition fafter l c := match str_flag (map as_flag l) (B "detach-after") with None => Some (c_after c) | Some s => duration s end.
  Definition fdet l c := from_opt (c_detached c) (bool_flag (map as_flag l) (B "detached")).

  Lemma apply_fields c l : Forall good l ->
    c_id (apply_all c l) = c_id c /\ c_name (apply_all c l) = c_name c /\ c_key (apply_all c l) = c_key c /\
    c_detached (apply_all c l) = fdet l c /\ Some (c_relay (apply_all c l)) = frelay l c /\ Some (c_reattach (apply_all c l)) = freattach l c /\
    (Some (c_after (apply_all c l)) = fafter l c /\ (str_flag (map as_flag l) (B "detach-after") <> None -> (0 <= c_after (apply_all c l))%Z)) /\
    Some (c_on (apply_all c l)) = fon l c.
  Proof.
    induction l as [|x l IH] using rev_ind; intros Hg.
    - split; [reflexivity|]. split; [reflexivity|]. split; [reflexivity|]. split; [reflexivity|]. split; [reflexivity|]. split; [reflexivity|]. split; [|reflexivity].
      split; [reflexivity|]. intros H. exfalso. apply H. reflexivity.
    - apply Forall_app in Hg. destruct Hg as [Hg Hx]. apply Forall_inv in Hx. specialize (IH Hg).
      unfold apply_all in *. rewrite fold_left_app. cbn [fold_left].
      unfold fdet, frelay, freattach, fon, fafter, str_flag, bool_flag in *. rewrite map_app. cbn [map]. rewrite !Accounts.last_value_snoc.
      destruct IH as (I1 & I2 & I3 & I4 & I5 & I6 & (I7 & I7') & I8).
      destruct x as [b|f|f|t z|f]; cbn [apply as_flag fst snd c_id c_name c_key c_detached c_relay c_reattach c_after c_on good] in *;
        (split; [exact I1|]); (split; [exact I2|]); (split; [exact I3|]);
        repeat match goal with |- context [beqb (B ?x) (B ?y)] => let v := eval vm_compute in (beqb (B x) (B y)) in change (beqb (B x) (B y)) with v end; cbv iota;
        rewrite ?filter_word_parse;
        (split; [first [exact I4|reflexivity]|]); (split; [first [exact I5|reflexivity]|]); (split; [first [exact I6|reflexivity]|]);
        (split; [|first [exact I8|reflexivity]]);
        (split; [first [exact I7|symmetry; exact (proj1 Hx)]|]); first [exact I7'|intros _; exact (proj2 Hx)].
  Qed.

  Lemma apply_filter_some fl name set c f (old : filter) :
    (match str_flag fl name with None => Some old | Some s => parse_filter s end = Some f) -> set c old = c ->
    apply_filter fl name set (c, true) = (set c f, true).
  Proof. unfold apply_filter. intros H E. destruct (str_flag fl name) as [s|]; [rewrite H; reflexivity|]. injection H as <-. rewrite E. reflexivity. Qed.

  Lemma apply_after_some fl c z : (match str_flag fl (B "detach-after") with None => Some (c_after c) | Some s => duration s end = Some z) ->
    (str_flag fl (B "detach-after") <> None -> (0 <= z)%Z) -> apply_after duration fl (c, true) = (set_after c z, true).
  Proof.
    intros H H'. unfold apply_after. destruct (str_flag fl (B "detach-after")) as [s|].
    - rewrite H. replace (z <? 0)%Z with false; [reflexivity|]. symmetry. apply Z.ltb_ge. apply H'. discriminate.
    - injection H as <-. destruct c; reflexivity.
  Qed.

  Lemma update_good c l : Forall good l ->
    exists c1, update_ch duration (map as_flag l) c = (c1, true) /\
      set_detached c1 (from_opt (c_detached c1) (bool_flag (map as_flag l) (B "detached"))) = apply_all c l /\
      c_detached c1 = c_detached c.
  Proof.
    intros Hg. destruct (apply_fields c l Hg) as (I1 & I2 & I3 & I4 & I5 & I6 & (I7 & I7') & I8).
    unfold update_ch.
    rewrite (apply_filter_some _ _ set_relay c _ (c_relay c) (eq_sym I5)) by (destruct c; reflexivity).
    rewrite (apply_filter_some _ _ set_reattach (set_relay c (c_relay (apply_all c l))) _ (c_reattach c) (eq_sym I6)) by (destruct c; reflexivity).
    rewrite (apply_after_some _ (set_reattach (set_relay c (c_relay (apply_all c l))) (c_reattach (apply_all c l))) (c_after (apply_all c l)) (eq_sym I7) I7').
    match goal with |- context [apply_filter _ (B "detach-on") _ (?x, true)] => rewrite (apply_filter_some _ _ set_on x _ (c_on c) (eq_sym I8)) by (destruct c; reflexivity) end.
    eexists. split; [reflexivity|]. split; [|reflexivity].
    destruct (apply_all c l) as [a1 a2 a3 a4 a5 a6 a7 a8]. cbn [c_id c_name c_key c_detached c_relay c_reattach c_after c_on set_on set_after set_reattach set_relay set_detached] in *.
    unfold fdet in I4. rewrite <- I4. rewrite I1, I2, I3. reflexivity.
  Qed.

  Lemma no_detached l : existsb is_detached l = false -> bool_flag (map as_flag l) (B "detached") = None.
  Proof.
    induction l as [|x l IH] using rev_ind; [reflexivity|]. rewrite existsb_app. intros H. apply orb_false_iff in H. destruct H as [H1 H2].
    unfold bool_flag in *. rewrite map_app. cbn [map]. rewrite Accounts.last_value_snoc.
    destruct x; try discriminate; cbn [as_flag fst];
      repeat match goal with |- context [beqb (B ?x) (B ?y)] => let v := eval vm_compute in (beqb (B x) (B y)) in change (beqb (B x) (B y)) with v end; cbv iota; exact (IH H1).
  Qed.

  (** ** The commands *)
  Lemma frame_put u nx i n n' (u' := User (set_nth (u_nets u) i n') nx) : nth_error (u_nets u) i = Some n -> u_nets u' = set_nth (u_nets u) i n' ->
    n_name n' = n_name n -> n_addr n' = n_addr n -> n_cm n' = n_cm n -> n_conn n' = n_conn n -> only_at i u u'.
  Proof.
    intros Hn E E1 E2 E3 E4. pose proof (nth_lt _ _ _ Hn) as L. split; [rewrite E; apply len_set, L|]. split.
    - intros j Hj. rewrite E, nth_set by exact L. replace (Nat.eqb j i) with false; [reflexivity|]. symmetry. apply Nat.eqb_neq, Hj.
    - intros m Hm. rewrite Hn in Hm. injection Hm as <-. exists n'. split; [rewrite E, nth_set, Nat.eqb_refl by exact L; reflexivity|]. tauto.
  Qed.
  Lemma has_put u nx i n n' (u' := User (set_nth (u_nets u) i n') nx) : nth_error (u_nets u) i = Some n -> u_nets u' = set_nth (u_nets u) i n' -> forall c, has u' i c <-> In c (n_mem n').
  Proof.
    intros Hn E c. pose proof (nth_lt _ _ _ Hn) as L. unfold has. rewrite E, nth_set, Nat.eqb_refl by exact L. split.
    - intros (m & Hm & H). injection Hm as <-. exact H.
    - intros H. exists n'. split; [reflexivity|exact H].
  Qed.

  Lemma update_effect u bound p i name n c l words :
    consistent u -> names_differ u -> addressed u bound p i name -> nth_error (u_nets u) i = Some n -> In c (n_mem n) -> alike n (c_name c) name ->
    Forall2 (written duration) l words ->
    exists u', step duration bound true u (Update (p :: concat words)) = (u', [SUpdated name], [], true) /\ only_at i u u' /\ consistent u' /\
      forall c', has u' i c' <-> c' = apply_all c l \/ (has u i c' /\ ~ alike n (c_name c') name).
  Proof.
    intros Hc Hd Ha Hn Hi Hal Hw. cbn [step]. unfold update. rewrite (parse_settings l words Hw), (strip_addressed _ _ _ _ _ Hd Ha), Hn.
    pose proof (proj1 (Forall_forall _ _) Hc n (nth_error_In _ _ Hn)) as Hok.
    rewrite (get_ch_found n name c (proj1 Hok) Hi Hal).
    assert (Hg : Forall good l). { clear -Hw. induction Hw as [|x w l words H _ IH]; constructor; [exact (written_good _ _ H)|exact IH]. }
    destruct (update_good c l Hg) as (c1 & -> & E & _). cbv zeta. rewrite E.
    destruct (apply_fields c l Hg) as (I1 & I2 & _).
    destruct (proj1 (proj2 (proj2 Hok)) c Hi) as (id & Eid & Lid).
    destruct (store_known n (u_next u) c (apply_all c l) id Hok Hi I2 I1 Eid) as (n2 & Es & M & Hok2 & F1 & F2 & F3 & F4).
    cbn [negb]. rewrite Es. eexists. split; [reflexivity|].
    split; [exact (frame_put u _ i n n2 Hn eq_refl F1 F2 F3 F4)|]. split.
    - unfold consistent. cbn [u_nets u_next]. apply forall_set; [exact Hc|exact Hok2|exact (nth_lt _ _ _ Hn)].
    - intros c'. rewrite (has_put u _ i n n2 Hn eq_refl c'), M, (put_in n c (apply_all c l) (proj1 Hok) Hi I2 c'). unfold has, alike in *. rewrite Hal. split.
      + intros [H|[H1 H2]]; [left; exact H|right]. split; [exists n; tauto|exact H2].
      + intros [H|[(m & Hm & H1) H2]]; [left; exact H|right]. rewrite Hn in Hm. injection Hm as <-. tauto.
  Qed.

  Lemma net_ok_more next n : net_ok next n -> net_ok (next + 1) n.
  Proof. intros (K1 & K2 & K3 & K4). split; [exact K1|]. split; [exact K2|]. split; [|exact K4]. intros c H. destruct (K3 c H) as (i & E & L). exists i. split; [exact E|lia]. Qed.

  Lemma create_ok u bound i name n l p args :
    consistent u -> parse_all channel_flags args = Some (map as_flag l) -> strip u bound p = Some (name, i) -> nth_error (u_nets u) i = Some n ->
    legal name = true -> (forall k, n_conn n = Some k -> is_channel k name = true) -> get_ch n name = None -> Forall good l -> existsb is_detached l = false ->
    exists u' id, step duration bound true u (Create (p :: args)) =
        (u', [SCreated name], match n_conn n with Some _ => [(i, Join name)] | None => [] end, true) /\
      only_at i u u' /\ consistent u' /\ ~ (exists c, has u i c /\ c_id c = Some id) /\
      forall c', has u' i c' <-> c' = apply_all (Chan (Some id) name [] false FDefault FDefault 0 FDefault) l \/ has u i c'.
  Proof.
    intros Hc Hp Hs Hn Hl Hk Hg Hgood Hnd. cbn [step]. unfold create. rewrite Hp, Hs, Hn, Hl. cbn [negb].
    replace (match n_conn n with Some k => negb (is_channel k name) | None => false end) with false.
    2:{ destruct (n_conn n) as [k|]; [rewrite (Hk k eq_refl); reflexivity|reflexivity]. }
    rewrite Hg. cbn [is_some].
    set (c0 := Chan None name [] false FDefault FDefault 0 FDefault).
    destruct (update_good c0 l Hgood) as (c1 & -> & E & Ed). rewrite (no_detached l Hnd) in E. cbn [from_opt] in E.
    assert (E1 : c1 = apply_all c0 l). { rewrite <- E. destruct c1; reflexivity. } subst c1.
    destruct (apply_fields c0 l Hgood) as (I1 & I2 & _). cbv zeta. cbn [negb].
    pose proof (proj1 (Forall_forall _ _) Hc n (nth_error_In _ _ Hn)) as Hok.
    destruct (store_new n (u_next u) (apply_all c0 l) Hok I1) as (n2 & Es & M & Hok2 & F1 & F2 & F3 & F4); [rewrite I2; exact Hg|].
    rewrite Es. eexists. exists (u_next u). split; [reflexivity|]. split; [exact (frame_put u _ i n n2 Hn eq_refl F1 F2 F3 F4)|]. split; [|split].
    - unfold consistent. cbn [u_nets u_next]. apply forall_set; [|exact Hok2|exact (nth_lt _ _ _ Hn)].
      eapply Forall_impl; [|exact Hc]. intros m. apply net_ok_more.
    - intros (c & (m & Hm & H1) & H2). rewrite Hn in Hm. injection Hm as <-. destruct (proj1 (proj2 (proj2 Hok)) c H1) as (j & Ej & Lj). rewrite Ej in H2. injection H2 as ->. lia.
    - assert (W : with_id (apply_all c0 l) (Some (u_next u)) = apply_all (Chan (Some (u_next u)) name [] false FDefault FDefault 0 FDefault) l).
      { destruct (apply_fields (Chan (Some (u_next u)) name [] false FDefault FDefault 0 FDefault) l Hgood) as (J1 & J2 & J3 & J4 & J5 & J6 & (J7 & _) & J8).
        destruct (apply_fields c0 l Hgood) as (L1 & L2 & L3 & L4 & L5 & L6 & (L7 & _) & L8).
        unfold fdet, frelay, freattach, fon, fafter in *. subst c0. cbn [c_id c_name c_key c_detached c_relay c_reattach c_after c_on] in *.
        destruct (apply_all (Chan (Some (u_next u)) name [] false FDefault FDefault 0 FDefault) l) as [r1 r2 r3 r4 r5 r6 r7 r8]. destruct (apply_all (Chan None name [] false FDefault FDefault 0 FDefault) l) as [q1 q2 q3 q4 q5 q6 q7 q8].
        cbn [c_id c_name c_key c_detached c_relay c_reattach c_after c_on with_id] in *. unfold with_id. cbn. congruence. }
      intros c'. rewrite (has_put u _ i n n2 Hn eq_refl c'), M, W. unfold has. rewrite in_app_iff. cbn [In]. split.
      + intros [H|[H|[]]]; [right; exists n; tauto|left; symmetry; exact H].
      + intros [H|(m & Hm & H)]; [right; left; symmetry; exact H|left]. rewrite Hn in Hm. injection Hm as <-. exact H.
  Qed.

  Lemma create_effect u bound p i name n l words :
    consistent u -> names_differ u -> addressed u bound p i name -> nth_error (u_nets u) i = Some n ->
    name <> [] -> ~ In " "%char name -> ~ In ","%char name -> ~ In (ascii_of_N 7) name ->
    (forall k, n_conn n = Some k -> exists c, hd_error name = Some c /\ In c (k_types k)) ->
    (forall c, In c (n_mem n) -> ~ alike n (c_name c) name) ->
    Forall2 (written duration) l words -> existsb is_detached l = false ->
    exists u' id, step duration bound true u (Create (p :: concat words)) =
        (u', [SCreated name], match n_conn n with Some _ => [(i, Join name)] | None => [] end, true) /\
      only_at i u u' /\ consistent u' /\ ~ (exists c, has u i c /\ c_id c = Some id) /\
      forall c', has u' i c' <-> c' = apply_all (Chan (Some id) name [] false FDefault FDefault 0 FDefault) l \/ has u i c'.
  Proof.
    intros Hc Hd Ha Hn H0 H1 H2 H3 Hk Hnew Hw Hnd.
    apply (create_ok u bound i name n l p (concat words) Hc (parse_settings l words Hw) (strip_addressed _ _ _ _ _ Hd Ha) Hn).
    - unfold legal. rewrite (proj2 (beqb_neq name []) H0). cbn [negb andb]. apply forallb_forall. intros x Hx. apply negb_true_iff.
      destruct (amem x [" "%char; ","%char; ascii_of_N 7]) eqn:E; [|reflexivity]. apply amem_In in E. destruct E as [<-|[<-|[<-|[]]]]; contradiction.
    - intros k Ek. destruct (Hk k Ek) as (c & E1 & E2). destruct name as [|c' r]; [discriminate|]. cbn in E1. injection E1 as ->. apply amem_In. exact E2.
    - destruct (get_ch n name) as [c|] eqn:G; [|reflexivity]. apply get_ch_in in G. exfalso. exact (Hnew c (proj1 G) (proj2 G)).
    - clear -Hw. induction Hw as [|x w l words H _ IH]; constructor; [exact (written_good _ _ H)|exact IH].
    - exact Hnd.
  Qed.

  Lemma delete_effect u bound p i name n c :
    consistent u -> names_differ u -> addressed u bound p i name -> nth_error (u_nets u) i = Some n -> In c (n_mem n) -> alike n (c_name c) name ->
    exists u' msgs, step duration bound true u (Delete [p]) = (u', [SDeleted name], msgs, true) /\ only_at i u u' /\ consistent u' /\
      (forall c', has u' i c' <-> has u i c' /\ ~ alike n (c_name c') name) /\
      msgs = (match n_conn n with Some k => if existsb (fun x => beqb (casemap (n_cm n) x) (casemap (n_cm n) name)) (k_joined k) then [(i, Part name)] else [] | None => [] end).
  Proof.
    intros Hc Hd Ha Hn Hi Hal. cbn [step]. unfold delete. rewrite (strip_addressed _ _ _ _ _ Hd Ha), Hn.
    pose proof (proj1 (Forall_forall _ _) Hc n (nth_error_In _ _ Hn)) as Hok.
    rewrite (get_ch_found n name c (proj1 Hok) Hi Hal). cbv zeta. cbn [negb]. unfold put_net. eexists. eexists. split; [reflexivity|].
    split; [refine (frame_put u _ i n _ Hn eq_refl _ _ _ _); reflexivity|]. split; [|split].
    - unfold consistent. cbn [u_nets u_next put_net]. apply forall_set; [exact Hc|exact (delete_ok n (u_next u) c name Hok Hi Hal)|exact (nth_lt _ _ _ Hn)].
    - intros c'. rewrite (has_put u _ i n _ Hn eq_refl c'). cbn [with_mem n_mem]. rewrite filter_In. unfold has, alike. rewrite negb_true_iff, same_false. split.
      + intros [H1 H2]. split; [exists n; tauto|exact H2].
      + intros [(m & Hm & H1) H2]. rewrite Hn in Hm. injection Hm as <-. tauto.
    - unfold joined, same. reflexivity.
  Qed.

  (** ** Any commands *)
  Lemma apply_filter_frame fl name set c b : (forall c f, c_id (set c f) = c_id c /\ c_name (set c f) = c_name c) ->
    c_id (fst (apply_filter fl name set (c, b))) = c_id c /\ c_name (fst (apply_filter fl name set (c, b))) = c_name c.
  Proof.
    intros H. unfold apply_filter. destruct b; [|split; reflexivity]. destruct (str_flag fl name) as [s|]; [|split; reflexivity].
    destruct (parse_filter s); [apply H|split; reflexivity].
  Qed.
  Lemma apply_after_frame fl c b : c_id (fst (apply_after duration fl (c, b))) = c_id c /\ c_name (fst (apply_after duration fl (c, b))) = c_name c.
  Proof.
    unfold apply_after. destruct b; [|split; reflexivity]. destruct (str_flag fl (B "detach-after")) as [s|]; [|split; reflexivity].
    destruct (duration s) as [z|]; [|split; reflexivity]. destruct (z <? 0)%Z; split; reflexivity.
  Qed.
  Lemma update_ch_frame fl c c1 b : update_ch duration fl c = (c1, b) -> c_id c1 = c_id c /\ c_name c1 = c_name c.
  Proof.
    unfold update_ch. intros E.
    destruct (apply_filter_frame fl (B "relay-detached") set_relay c true (fun _ _ => conj eq_refl eq_refl)) as [A1 A2].
    destruct (apply_filter fl (B "relay-detached") set_relay (c, true)) as [x1 b1].
    destruct (apply_filter_frame fl (B "reattach-on") set_reattach x1 b1 (fun _ _ => conj eq_refl eq_refl)) as [A3 A4].
    destruct (apply_filter fl (B "reattach-on") set_reattach (x1, b1)) as [x2 b2].
    destruct (apply_after_frame fl x2 b2) as [A5 A6].
    destruct (apply_after duration fl (x2, b2)) as [x3 b3].
    destruct (apply_filter_frame fl (B "detach-on") set_on x3 b3 (fun _ _ => conj eq_refl eq_refl)) as [A7 A8].
    rewrite E in A7, A8. cbn [fst] in *. split; congruence.
  Qed.

  Lemma works_consistent u b c : consistent u -> snd (step duration b true u c) = true -> consistent (state (step duration b true u c)).
  Proof.
    intros Hc. destruct c as [ps|ps|ps|ps]; cbn [step].
    - unfold create. destruct ps as [|p args]; [discriminate|]. destruct (parse_all channel_flags args) as [fl|]; [|discriminate].
      destruct (strip u b p) as [[name i]|]; [|discriminate]. destruct (nth_error (u_nets u) i) as [n|] eqn:Hn; [|discriminate].
      destruct (negb (legal name)); [discriminate|]. destruct (match n_conn n with Some k => negb (is_channel k name) | None => false end); [discriminate|].
      destruct (get_ch n name) as [c|] eqn:G; [discriminate|]. cbn [is_some].
      destruct (update_ch duration fl _) as [c1 [|]] eqn:E; [|discriminate]. apply update_ch_frame in E. destruct E as [E1 E2]. cbn [c_id c_name] in *.
      cbv zeta. cbn [negb]. intros _. pose proof (proj1 (Forall_forall _ _) Hc n (nth_error_In _ _ Hn)) as Hok.
      destruct (store_new n (u_next u) c1 Hok E1) as (n2 & -> & M & Hok2 & _); [rewrite E2; exact G|].
      unfold consistent. cbn [state fst u_nets u_next]. apply forall_set; [|exact Hok2|exact (nth_lt _ _ _ Hn)].
      eapply Forall_impl; [|exact Hc]. intros m. apply net_ok_more.
    - unfold update. destruct ps as [|p args]; [discriminate|]. destruct (parse_all channel_flags args) as [fl|]; [|discriminate].
      destruct (strip u b p) as [[name i]|]; [|discriminate]. destruct (nth_error (u_nets u) i) as [n|] eqn:Hn; [|discriminate].
      destruct (get_ch n name) as [c|] eqn:G; [|discriminate].
      destruct (update_ch duration fl c) as [c1 [|]] eqn:E; [|discriminate]. apply update_ch_frame in E. destruct E as [E1 E2].
      cbv zeta. cbn [negb]. intros _. pose proof (proj1 (Forall_forall _ _) Hc n (nth_error_In _ _ Hn)) as Hok.
      apply get_ch_in in G. destruct G as [G1 G2]. destruct (proj1 (proj2 (proj2 Hok)) c G1) as (id & Eid & _).
      set (c2 := set_detached c1 _).
      destruct (store_known n (u_next u) c c2 id Hok G1 E2 E1 Eid) as (n2 & -> & M & Hok2 & _).
      unfold consistent. cbn [state fst u_nets u_next]. apply forall_set; [exact Hc|exact Hok2|exact (nth_lt _ _ _ Hn)].
    - unfold delete. destruct ps as [|p [|]]; try discriminate. 
      destruct (strip u b p) as [[name i]|]; [|discriminate]. destruct (nth_error (u_nets u) i) as [n|] eqn:Hn; [|discriminate].
      destruct (get_ch n name) as [c|] eqn:G; [|discriminate]. cbv zeta. cbn [negb]. intros _.
      apply get_ch_in in G. destruct G as [G1 G2]. pose proof (proj1 (Forall_forall _ _) Hc n (nth_error_In _ _ Hn)) as Hok.
      unfold consistent. cbn [state fst put_net u_nets u_next]. apply forall_set; [exact Hc|exact (delete_ok n (u_next u) c name Hok G1 G2)|exact (nth_lt _ _ _ Hn)].
    - unfold status. destruct (parse_all _ ps) as [fl|]; [|discriminate]. cbv zeta.
      destruct (from_opt _ _); [intros _; exact Hc|]. destruct (get_network u _); [intros _; exact Hc|discriminate].
  Qed.

  Lemma failed_silent u b ok c : snd (step duration b ok u c) = false -> snd (fst (fst (step duration b ok u c))) = [] /\ snd (fst (step duration b ok u c)) = [].
  Proof.
    destruct c as [ps|ps|ps|ps]; cbn [step].
    - unfold create. repeat match goal with |- context [match ?x with _ => _ end] => destruct x; try discriminate; try (intros _; split; reflexivity) end.
    - unfold update. repeat match goal with |- context [match ?x with _ => _ end] => destruct x; try discriminate; try (intros _; split; reflexivity) end.
    - unfold delete. repeat match goal with |- context [match ?x with _ => _ end] => destruct x; try discriminate; try (intros _; split; reflexivity) end.
    - unfold status. repeat match goal with |- context [match ?x with _ => _ end] => destruct x; try discriminate; try (intros _; split; reflexivity) end.
  Qed.

  (** One option. *)
  Lemma one_flag name v words fl : In name (map fst channel_flags) -> flag_words name v words -> parse_all channel_flags words = Some fl ->
    exists x, fl = [(name, x)].
  Proof.
    intros Hn Hw. unfold parse_all. rewrite <- (app_nil_r words) at 2.
    assert (Hp : Accounts.plain_name name). { apply (proj1 (Forall_forall _ _) plain_names). cbn [map fst channel_flags] in Hn. cbn [In] in *. tauto. }
    assert (Hk : exists k, flag_kind channel_flags name = Some k /\ k <> KBool).
    { cbn [map fst channel_flags In] in Hn. destruct Hn as [<-|[<-|[<-|[<-|[<-|[]]]]]]; eexists; (split; [vm_compute; reflexivity|discriminate]). }
    destruct Hk as (k & Hk & Hb). destruct (parse_value k v) as [fv|] eqn:Ev.
    - rewrite (Accounts.parse_flag_value _ _ _ k v fv words [] Hp Hw Hk Hb Ev).
      destruct Hw as (d & _ & [-> | ->]); cbn [length parse_flags]; intros H; injection H as <-; exists fv; reflexivity.
    - generalize (length words). intros fuel H. exfalso. destruct Hw as (d & Hd & [-> | ->]); cbn [app] in H.
      + rewrite <- (app_nil_r name) in H at 1. rewrite Accounts.parse_flags_word in H by assumption. rewrite app_nil_r, Accounts.flag_nv in H by exact Hp.
        rewrite Hk in H. destruct k; try contradiction; rewrite Ev in H; discriminate.
      + rewrite Accounts.parse_flags_word in H by assumption. rewrite Accounts.flag_nv_eq in H by exact Hp.
        rewrite Hk in H. destruct k; try contradiction; rewrite Ev in H; discriminate.
  Qed.
  Lemma one_update name x c c1 : In name (map fst channel_flags) -> update_ch duration [(name, x)] c = (c1, false) -> c1 = c.
  Proof.
    intros Hn. cbn [map fst channel_flags In] in Hn.
    assert (S : forall a, str_flag [(name, x)] a = if beqb name a then (match x with VStr s => Some s | _ => None end) else None).
    { intros a. unfold str_flag, last_value. cbn [rev app find fst]. destruct (beqb name a); reflexivity. }
    unfold update_ch, apply_filter, apply_after. rewrite !S.
    destruct Hn as [<-|[<-|[<-|[<-|[<-|[]]]]]];
      repeat match goal with |- context [beqb (B ?x) (B ?y)] => let v := eval vm_compute in (beqb (B x) (B y)) in change (beqb (B x) (B y)) with v end; cbv iota;
      destruct x as [s| |]; try discriminate.
    - destruct (parse_filter s); [discriminate|]. intros H. injection H as <-. reflexivity.
    - destruct (parse_filter s); [discriminate|]. intros H. injection H as <-. reflexivity.
    - destruct (duration s) as [z|]; [destruct (z <? 0)%Z; [|discriminate]|]; intros H; injection H as <-; reflexivity.
    - destruct (parse_filter s); [discriminate|]. intros H. injection H as <-. reflexivity.
  Qed.
  Lemma put_same n c : NoDup (keys n) -> In c (n_mem n) -> put_ch n c = n.
  Proof.
    intros Hd Hc. unfold put_ch, with_mem. destruct n as [a1 a2 cm a4 mem db]. cbn [n_mem n_cm n_name n_addr n_conn n_db keys] in *. f_equal.
    rewrite <- (map_id mem) at 2. apply map_ext_in. intros x Hx. destruct (same cm (c_name x) (c_name c)) eqn:S; [|reflexivity].
    apply same_iff in S. symmetry. exact (nodup_inj _ _ _ _ Hd Hx Hc S).
  Qed.

  Lemma failed_unchanged u b c : consistent u -> one_option c -> snd (step duration b true u c) = false -> state (step duration b true u c) = u.
  Proof.
    intros Hc Ho. destruct c as [ps|ps|ps|ps]; cbn [step].
    - unfold create. change (negb true) with false. cbv iota. repeat match goal with |- context [match ?x with _ => _ end] => destruct x; try discriminate; try (intros _; reflexivity) end.
    - unfold update. destruct ps as [|p args]; [reflexivity|]. cbn [one_option] in Ho. destruct Ho as (nm & v & Hnm & Hw).
      destruct (parse_all channel_flags args) as [fl|] eqn:Ep; [|reflexivity]. destruct (one_flag nm v args fl Hnm Hw Ep) as (x & ->).
      destruct (strip u b p) as [[name i]|]; [|reflexivity]. destruct (nth_error (u_nets u) i) as [n|] eqn:Hn; [|reflexivity].
      destruct (get_ch n name) as [c|] eqn:G; [|reflexivity].
      destruct (update_ch duration [(nm, x)] c) as [c1 [|]] eqn:E.
      + cbv zeta. cbn [negb]. destruct (store_channel _ _ _). discriminate.
      + intros _. rewrite (one_update nm x c c1 Hnm E). apply get_ch_in in G.
        pose proof (proj1 (Forall_forall _ _) Hc n (nth_error_In _ _ Hn)) as Hok.
        rewrite (put_same n c (proj1 Hok) (proj1 G)). cbn [state fail fst]. unfold put_net. rewrite (set_same _ _ _ Hn). destruct u; reflexivity.
    - unfold delete. destruct ps as [|p [|]]; try reflexivity.
      destruct (strip u b p) as [[name i]|]; [|reflexivity]. destruct (nth_error (u_nets u) i) as [n|]; [|reflexivity].
      destruct (get_ch n name) as [c|]; [|reflexivity]. cbv zeta. cbn [negb]. discriminate.
    - unfold status. destruct (parse_all _ ps) as [fl|]; [|reflexivity]. cbv zeta.
      destruct (from_opt _ _); [reflexivity|]. destruct (get_network u _); reflexivity.
  Qed.

  Lemma run_consistent u l : consistent u -> all_work duration u l -> consistent (run duration u l).
  Proof.
    revert u. induction l as [|[[b ok] c] l IH]; intros u Hc; [intros _; exact Hc|]. cbn [all_work run fold_left]. intros (-> & H & Hl).
    apply IH; [|exact Hl]. destruct (snd (step duration b true u c)) eqn:E; [exact (works_consistent u b c Hc E)|].
    destruct H as [H|H]; [discriminate|]. rewrite (failed_unchanged u b c Hc H E). exact Hc.
  Qed.

  (** ** The listing *)
  Lemma insert_perm {A} (le : A -> A -> bool) x l : Permutation (x :: l) (insert_by le x l).
  Proof. induction l as [|y l IH]; [apply Permutation_refl|]. cbn [insert_by]. destruct (le x y); [apply Permutation_refl|]. eapply perm_trans; [apply perm_swap|]. constructor. exact IH. Qed.
  Lemma sort_perm {A} (le : A -> A -> bool) l : Permutation (sort_by le l) l.
  Proof. induction l as [|x l IH]; [constructor|]. cbn [sort_by fold_right]. apply Permutation_sym. eapply perm_trans; [|apply insert_perm]. constructor. apply Permutation_sym. exact IH. Qed.
  Lemma sort_sorted {A} (le : A -> A -> bool) (R : A -> A -> Prop) l : (forall x y, le x y = true -> R x y) -> (forall x y, le x y = false -> R y x) ->
    (forall x y z, R x y -> R y z -> R x z) -> StronglySorted R (sort_by le l).
  Proof.
    intros H1 H2 H3. induction l as [|x l IH]; [constructor|]. cbn [sort_by fold_right].
    change (fold_right (insert_by le) [] l) with (sort_by le l). revert IH. generalize (sort_by le l). clear l. intros l.
    induction l as [|y l IH]; intros Hs; [cbn; constructor; [constructor|constructor]|]. inversion Hs as [|? ? Hs1 Hs2]; subst. cbn [insert_by]. destruct (le x y) eqn:E.
    - constructor; [exact Hs|]. constructor; [apply H1, E|]. eapply Forall_impl; [|exact Hs2]. intros z. apply H3. apply H1, E.
    - constructor; [apply IH, Hs1|]. apply (Permutation_Forall (insert_perm le x l)). constructor; [apply H2, E|exact Hs2].
  Qed.
  Lemma upto_trans x y z : upto x y -> upto y z -> upto x z.
  Proof.
    intros H. revert z. induction H as [y|a b x y L|a x y H IH]; intros z Hz; [constructor| |].
    - inversion Hz; subst; apply Upto_lt; lia.
    - inversion Hz; subst; [apply Upto_lt; assumption|apply Upto_eq; auto].
  Qed.
  Lemma ble_upto x y : ble x y = true -> upto x y.
  Proof.
    revert y. induction x as [|a x IH]; intros [|b y]; cbn [ble]; intros H; try discriminate; try apply Upto_nil. apply orb_true_iff in H. destruct H as [H|H].
    - apply Upto_lt. apply N.ltb_lt. exact H.
    - apply andb_true_iff in H. destruct H as [E H]. apply aeqb_eq in E. subst. apply Upto_eq, IH, H.
  Qed.
  Lemma ble_upto_not x y : ble x y = false -> upto y x.
  Proof.
    revert y. induction x as [|a x IH]; intros [|b y]; cbn [ble]; intros H; try discriminate; try apply Upto_nil. apply orb_false_iff in H. destruct H as [H1 H2].
    apply N.ltb_ge in H1. destruct (aeqb_spec a b) as [->|E].
    - apply Upto_eq, IH. exact H2.
    - apply Upto_lt. assert (code a <> code b); [|lia]. intros G. apply E. unfold code in G. rewrite <- (ascii_N_embedding a), <- (ascii_N_embedding b). congruence.
  Qed.

  Lemma line_shows full n c : shows full n c (status_line full n c).
  Proof.
    unfold shows, status_line. cbv zeta.
    exists (match n_conn n with Some k => if joined n k (c_name c) then B "joined" else B "parted" | None => B "disconnected" end). split.
    - change (B "/" ++ get_name n) with ("/"%char :: get_name n). destruct full; [rewrite <- app_assoc|cbn [app]]; do 2 f_equal; try (f_equal; destruct (c_detached c); [rewrite <- app_assoc|]; reflexivity).
      destruct (c_detached c); [rewrite <- app_assoc|]; reflexivity.
    - destruct (n_conn n) as [k|]; [|reflexivity]. destruct (joined n k (c_name c)) eqn:J.
      + left. split; [|reflexivity]. apply existsb_exists in J. destruct J as (x & Hx & E). exists x. split; [exact Hx|]. apply same_iff. exact E.
      + right. split; [|reflexivity]. intros (x & Hx & E). assert (T : joined n k (c_name c) = true); [|congruence]. apply existsb_exists. exists x. split; [exact Hx|]. apply same_iff. exact E.
  Qed.
  Lemma send_listing full n : listing full n (send_network full n).
  Proof.
    unfold send_network. exists (sort_by (fun a b => ble (sort_key a) (sort_key b)) (n_mem n)). split; [apply sort_perm|]. split.
    - apply sort_sorted.
      + intros x y. apply ble_upto.
      + intros x y. apply ble_upto_not.
      + intros x y z. apply upto_trans.
    - induction (sort_by _ (n_mem n)) as [|c cs IH]; [constructor|]. cbn [map]. constructor; [|exact IH]. eexists. split; [reflexivity|apply line_shows].
  Qed.

  Lemma status_all u : exists ls said, step duration None true u (Status []) = (u, said, [], true) /\
    Forall2 (listing true) (u_nets u) ls /\ said = match concat ls with [] => [SNone] | l => l end.
  Proof.
    exists (map (send_network true) (u_nets u)). eexists. split; [reflexivity|]. split; [|destruct (concat _); reflexivity].
    induction (u_nets u) as [|n l IH]; constructor; [apply send_listing|exact IH].
  Qed.
  Lemma found u i n : nth_error (u_nets u) i = Some n -> found_first u i -> get_network u (get_name n) = Some n.
  Proof.
    intros Hn Hf. destruct (Hf n Hn) as [Hne Hf']. unfold get_network. clear Hf. revert i Hn Hf'. induction (u_nets u) as [|m l IH]; intros i Hn Hf; [destruct i; discriminate|].
    cbn [find]. destruct i as [|i].
    - cbn in Hn. injection Hn as ->. replace (_ || _) with true; [reflexivity|]. symmetry. unfold get_name in *.
      destruct (n_name n); [rewrite beqb_refl; reflexivity|]. rewrite beqb_refl. apply orb_true_r.
    - destruct (Hf 0 m (Nat.lt_0_succ i) eq_refl) as [E1 E2]. rewrite (proj2 (beqb_neq _ _) E1), (proj2 (beqb_neq _ _) E2), andb_false_r. cbn [orb].
      apply (IH i Hn). intros j m' Hj Hm'. apply (Hf (S j) m'); [lia|exact Hm'].
  Qed.
  Lemma status_bound u i n : nth_error (u_nets u) i = Some n -> found_first u i -> exists l said, step duration (Some i) true u (Status []) = (u, said, [], true) /\
    listing false n l /\ said = match l with [] => [SNone] | l => l end.
  Proof.
    intros Hn Hf. exists (send_network false n). exists (match send_network false n with [] => [SNone] | _ => send_network false n end). split; [|split; [apply send_listing|destruct (send_network false n); reflexivity]].
    cbn [step]. unfold status. rewrite Hn. cbv zeta. change (parse_all [(B "network", KStr)] []) with (Some (@nil (bytes * fval))). cbv iota.
    change (str_flag [] (B "network")) with (@None bytes). cbn [from_opt].
    destruct (get_name n) as [|a r] eqn:E; [exfalso; exact (proj1 (Hf n Hn) E)|]. rewrite <- E, (found u i n Hn Hf). reflexivity.
  Qed.

  Lemma perm_forall2 {A B} (R : A -> B -> Prop) cs l x : Forall2 R cs l -> In x cs -> exists y, In y l /\ R x y.
  Proof. induction 1 as [|a b cs l H _ IH]; [intros []|]. intros [->|Hx]; [exists b; split; [left; reflexivity|exact H]|]. destruct (IH Hx) as (y & H1 & H2). exists y. split; [right; exact H1|exact H2]. Qed.
  Lemma listed_unbound u i n c : nth_error (u_nets u) i = Some n -> In c (n_mem n) -> ~ In "/"%char (c_name c) ->
    exists said p rest, step duration None true u (Status []) = (u, said, [], true) /\ In (SLine (p ++ B " [" ++ rest)) said /\ addressed u None p i (c_name c).
  Proof.
    intros Hn Hc Hs. destruct (status_all u) as (ls & said & E & H & ->). 
    destruct (perm_forall2 _ _ _ n H (nth_error_In _ _ Hn)) as (l & Hl & (cs & P & _ & HF)).
    destruct (perm_forall2 _ _ _ c HF (Permutation_in _ (Permutation_sym P) Hc)) as (y & Hy & text & -> & st & -> & _).
    eexists. exists (c_name c ++ "/"%char :: get_name n). eexists. split; [exact E|]. split.
    - assert (G : In (SLine (c_name c ++ (if true then "/"%char :: get_name n else []) ++ B " [" ++ st ++ (if c_detached c then B ", detached" else []) ++ B "]")) (concat ls)).
      { apply in_concat. exists l. split; assumption. }
      destruct (concat ls); [destruct G|]. rewrite <- app_assoc. exact G.
    - cbn [addressed]. split; [exact Hs|]. exists n. split; [exact Hn|reflexivity].
  Qed.
  Lemma listed_bound u i n c : nth_error (u_nets u) i = Some n -> found_first u i -> In c (n_mem n) ->
    exists said p rest, step duration (Some i) true u (Status []) = (u, said, [], true) /\ In (SLine (p ++ B " [" ++ rest)) said /\ addressed u (Some i) p i (c_name c).
  Proof.
    intros Hn Hf Hc. destruct (status_bound u i n Hn Hf) as (l & said & E & (cs & P & _ & HF) & ->).
    destruct (perm_forall2 _ _ _ c HF (Permutation_in _ (Permutation_sym P) Hc)) as (y & Hy & text & -> & st & -> & _).
    eexists. exists (c_name c). eexists. split; [exact E|]. split; [|cbn [addressed]; split; reflexivity].
    destruct l; [destruct Hy|exact Hy].
  Qed.
End D.
