(** Proofs about idents of users. *)
From Verif.Base Require Import Bytes.
From Verif.Model Require Import Identd UserIdent.
From Verif.Spec Require Import Identd UserIdent.
From Verif.Proof Require Import Identd.
From Coq Require Import ZArith NArith Lia.

Lemma hex_low_lt : forall c : ascii, ((code c / 16) < 16 /\ (code c mod 16) < 16)%N.
Proof.
  intros c. assert (A : forallb (fun c => (code c / 16 <? 16) && (code c mod 16 <? 16))%N (map ascii_of_nat (seq 0 256)) = true) by (vm_compute; reflexivity).
  pose proof (byte_forall _ A c) as K. cbv beta in K. apply andb_true_iff in K as [K1 K2]. split; apply N.ltb_lt; assumption.
Qed.

Lemma hex_low_in n : (n < 16)%N -> lower_hex (hex_low n).
Proof. intros H. unfold lower_hex, hex_low. apply nth_In. change (length (B "0123456789abcdef")) with 16. lia. Qed.

Lemma hex_low_inj a b : (a < 16)%N -> (b < 16)%N -> hex_low a = hex_low b -> a = b.
Proof.
  intros Ha Hb E. unfold hex_low in E. apply N2Nat.inj.
  apply (proj1 (NoDup_nth (B "0123456789abcdef") "0"%char)) in E; [exact E| | |].
  - vm_compute. repeat (constructor; [intros K; repeat destruct K as [K|K]; try discriminate K; exact K|]). constructor.
  - change (length (B "0123456789abcdef")) with 16. lia.
  - change (length (B "0123456789abcdef")) with 16. lia.
Qed.

Lemma code_inj' (a b : ascii) : code a = code b -> a = b.
Proof. unfold code. intros H. rewrite <- (ascii_N_embedding a), <- (ascii_N_embedding b), H. reflexivity. Qed.

Lemma hex_encode_inj a : forall b, hex_encode a = hex_encode b -> a = b.
Proof.
  induction a as [|c a IH]; intros [|d b] E; [reflexivity|discriminate|discriminate|]. cbn [hex_encode flat_map app] in E. injection E as E1 E2 E3.
  destruct (hex_low_lt c), (hex_low_lt d). apply hex_low_inj in E1; [|assumption|assumption]. apply hex_low_inj in E2; [|assumption|assumption].
  f_equal; [|exact (IH b E3)]. apply code_inj'. rewrite (N.div_mod (code c) 16), (N.div_mod (code d) 16) by discriminate. congruence.
Qed.

Lemma hex_encode_form s : length (hex_encode s) = 2 * length s /\ Forall lower_hex (hex_encode s).
Proof.
  induction s as [|c s [IH1 IH2]]; [split; [reflexivity|constructor]|]. destruct (hex_low_lt c).
  change (hex_encode (c :: s)) with (hex_low (code c / 16) :: hex_low (code c mod 16) :: hex_encode s). split; [cbn [length]; lia|].
  constructor; [apply hex_low_in; assumption|]. constructor; [apply hex_low_in; assumption|exact IH2].
Qed.

Lemma little_inj n : forall v w, (v < 256 ^ N.of_nat n)%N -> (w < 256 ^ N.of_nat n)%N -> little n v = little n w -> v = w.
Proof.
  induction n as [|n IH]; intros v w Hv Hw E; [cbn in *; lia|]. cbn [little] in E. injection E as E1 E2.
  assert (M : (v mod 256 = w mod 256)%N).
  { rewrite <- (N_ascii_embedding (v mod 256)), <- (N_ascii_embedding (w mod 256)), E1 by (apply N.mod_lt; discriminate). reflexivity. }
  rewrite Nat2N.inj_succ, N.pow_succ_r' in Hv, Hw.
  assert (D : (v / 256 = w / 256)%N) by (apply IH; [apply N.div_lt_upper_bound; [discriminate|exact Hv]|apply N.div_lt_upper_bound; [discriminate|exact Hw]|exact E2]).
  rewrite (N.div_mod v 256), (N.div_mod w 256) by discriminate. congruence.
Qed.

Theorem block_inj a b : (- 2 ^ 63 <= a < 2 ^ 63)%Z -> (- 2 ^ 63 <= b < 2 ^ 63)%Z -> block a = block b -> a = b.
Proof.
  unfold block. intros Ha Hb E. apply app_inv_tail in E.
  pose proof (Z.mod_pos_bound a (2 ^ 64) eq_refl). pose proof (Z.mod_pos_bound b (2 ^ 64) eq_refl).
  assert (B : (2 ^ 64)%Z = Z.of_N (256 ^ N.of_nat 8)) by (vm_compute; reflexivity).
  apply little_inj in E; [|apply N2Z.inj_lt; rewrite Z2N.id, <- B by lia; lia|apply N2Z.inj_lt; rewrite Z2N.id, <- B by lia; lia].
  apply Z2N.inj in E; [|lia|lia]. pose proof (Z.div_mod a (2 ^ 64) ltac:(discriminate)). pose proof (Z.div_mod b (2 ^ 64) ltac:(discriminate)).
  change (2 ^ 64)%Z with 18446744073709551616%Z in *. change (2 ^ 63)%Z with 9223372036854775808%Z in *. lia.
Qed.

Section WithSha.
Variable sha : bytes -> bytes.

Theorem distinct a b : (- 2 ^ 63 <= a < 2 ^ 63)%Z -> (- 2 ^ 63 <= b < 2 ^ 63)%Z -> a <> b ->
  user_ident sha a <> user_ident sha b \/ (block a <> block b /\ firstn 16 (sha (block a)) = firstn 16 (sha (block b))).
Proof.
  intros Ha Hb N. destruct (list_eq_dec ascii_dec (user_ident sha a) (user_ident sha b)) as [E|E]; [right|left; exact E].
  split; [intros K; apply N; apply block_inj; assumption|]. apply hex_encode_inj. exact E.
Qed.

Theorem form id : length (sha (block id)) = 32 -> length (user_ident sha id) = 32 /\ Forall lower_hex (user_ident sha id).
Proof. intros L. unfold user_ident. destruct (hex_encode_form (firstn 16 (sha (block id)))) as [F1 F2]. split; [|exact F2]. rewrite F1, firstn_length, L. reflexivity. Qed.

(** ** Connections *)
Definition key_of (c : conn) : ident_key := IdentKey (c_rhost c) (c_rport c) (c_lport c).

Lemma link_key l c : link_of l c -> new_ident_key (l_remote l) (l_local l) = Some (key_of c).
Proof. intros (H & -> & ->). exact (key_of_conn c H). Qed.

Lemma key_concerns c c' : key_of c' = key_of c <-> concerns (c_rhost c) (c_rport c) (c_lport c) c'.
Proof. unfold key_of, concerns. split; [intros E; injection E; auto|intros (-> & -> & ->); reflexivity]. Qed.

Definition all_links (s : state) : Prop := (forall i l, In (i, l) (s_live s) -> exists c, link_of l c) /\ NoDup (map fst (s_live s)).
Definition honest (s : state) : Prop := forall k, lookup k (s_ident s) = [] \/
  exists i l c, In (i, l) (s_live s) /\ link_of l c /\ key_of c = k /\ lookup k (s_ident s) = user_ident sha (l_user l).
Definition exact (s : state) : Prop := (forall i l c, In (i, l) (s_live s) -> link_of l c -> lookup (key_of c) (s_ident s) = user_ident sha (l_user l)) /\
  (forall i l c i' l' c', In (i, l) (s_live s) -> link_of l c -> In (i', l') (s_live s) -> link_of l' c' -> key_of c = key_of c' -> i = i').

Lemma find_live i s : all_links s -> match find (fun e => N.eqb i (fst e)) (s_live s) with
  | Some (j, l) => j = i /\ In (i, l) (s_live s) /\ (forall l', In (i, l') (s_live s) -> l' = l)
  | None => forall l, ~ In (i, l) (s_live s) end.
Proof.
  intros [_ ND]. destruct (find _ (s_live s)) as [[j l]|] eqn:E.
  - destruct (find_some _ _ E) as [F1 F2]. cbn [fst] in F2. apply N.eqb_eq in F2. subst j. split; [reflexivity|]. split; [exact F1|].
    clear E. intros l' H'. revert F1 H' ND. generalize (s_live s). intros L. induction L as [|[a b] L IH]; intros F H ND; [destruct F|]. cbn [map fst] in ND. inversion ND as [|? ? N1 N2]; subst.
    destruct F as [F|F], H as [H|H].
    + congruence.
    + injection F as -> ->. exfalso. apply N1. apply (in_map fst _ _ H).
    + injection H as -> ->. exfalso. apply N1. apply (in_map fst _ _ F).
    + exact (IH F H N2).
  - intros l H. apply (find_none _ _ E) in H. cbn [fst] in H. rewrite N.eqb_refl in H. discriminate.
Qed.

Lemma filter_live i (L : list (N * link)) j l : In (j, l) (filter (fun e => negb (N.eqb i (fst e))) L) <-> In (j, l) L /\ j <> i.
Proof.
  rewrite filter_In. cbn [fst]. split; intros [H1 H2]; (split; [exact H1|]).
  - intros ->. rewrite N.eqb_refl in H2. discriminate.
  - destruct (N.eqb_spec i j); [congruence|reflexivity].
Qed.

Lemma all_links_step s x : all_links s -> proper s x -> all_links (step sha s x).
Proof.
  intros A P. destruct x as [i l|i]; cbn [step].
  - destruct P as [P1 P2]. destruct A as [A1 A2]. split; cbn [s_live]; [|constructor; assumption]. intros j l' [H|H]; [injection H as <- <-; exact P2|exact (A1 j l' H)].
  - destruct (find _ (s_live s)) as [[j l]|]; [|exact A]. destruct A as [A1 A2]. split; cbn [s_live]; [intros k l' H; apply filter_live in H as [H _]; exact (A1 k l' H)|].
    revert A2. generalize (s_live s). intros L. clear. induction L as [|e L IH]; intros ND; [constructor|]. cbn [map] in ND. inversion ND as [|? ? N1 N2]; subst. cbn [filter].
    destruct (negb _); [|exact (IH N2)]. cbn [map]. constructor; [|exact (IH N2)]. intros K. apply N1. apply in_map_iff in K as (e' & <- & K). apply filter_In in K as [K _]. apply in_map. exact K.
Qed.

Lemma key_dec (a b : ident_key) : {a = b} + {a <> b}.
Proof. destruct (key_eqb a b) eqn:E; [left; apply key_eqb_eq; exact E|right; intros ->; rewrite key_eqb_refl in E; discriminate]. Qed.

Lemma lookup_store k m l c i : link_of l c -> lookup k (ident_store m (l_remote l) (l_local l) i) = if key_dec k (key_of c) then i else lookup k m.
Proof.
  intros H. unfold ident_store. rewrite (link_key l c H), lookup_cons, lookup_remove. destruct (key_dec k (key_of c)) as [->|N]; [rewrite key_eqb_refl; reflexivity|].
  destruct (key_eqb k (key_of c)) eqn:E; [apply key_eqb_eq in E; contradiction|reflexivity].
Qed.

Lemma lookup_delete k m l c : link_of l c -> lookup k (ident_delete m (l_remote l) (l_local l)) = if key_dec k (key_of c) then [] else lookup k m.
Proof.
  intros H. unfold ident_delete. rewrite (link_key l c H), lookup_remove. destruct (key_dec k (key_of c)) as [->|N]; [rewrite key_eqb_refl; reflexivity|].
  destruct (key_eqb k (key_of c)) eqn:E; [apply key_eqb_eq in E; contradiction|reflexivity].
Qed.

Lemma link_once l c c' : link_of l c -> link_of l c' -> key_of c = key_of c'.
Proof. intros H H'. apply link_key in H, H'. congruence. Qed.

Lemma honest_step s x : all_links s -> honest s -> proper s x -> honest (step sha s x).
Proof.
  intros A H P k. destruct x as [i l|i]; cbn [step].
  - destruct P as [_ [c P]]. cbn [s_ident s_live]. rewrite (lookup_store k _ l c _ P). destruct (key_dec k (key_of c)) as [->|N].
    + right. exists i, l, c. split; [left; reflexivity|]. auto.
    + destruct (H k) as [E|(j & l' & c' & H1 & H2 & H3 & H4)]; [left; exact E|right]. exists j, l', c'. split; [right; exact H1|]. auto.
  - pose proof (find_live i s A) as F. destruct (find _ (s_live s)) as [[j l]|]; [|exact (H k)]. destruct F as (-> & F1 & F2). destruct (proj1 A _ _ F1) as [c Pc].
    cbn [s_ident s_live]. rewrite (lookup_delete k _ l c Pc). destruct (key_dec k (key_of c)) as [->|N]; [left; reflexivity|].
    destruct (H k) as [E|(j & l' & c' & H1 & H2 & H3 & H4)]; [left; exact E|right]. exists j, l', c'. split; [|auto]. apply filter_live. split; [exact H1|].
    intros ->. apply N. rewrite <- H3. rewrite (F2 _ H1) in H2. exact (link_once l c' c H2 Pc).
Qed.

Lemma exact_step s x : all_links s -> exact s -> proper s x -> apart s x -> exact (step sha s x).
Proof.
  intros A [E D] P Q. destruct x as [i l|i]; cbn [step].
  - destruct P as [P1 [c P]]. cbn [apart] in Q. specialize (Q c P).
    assert (K : forall j l' c', In (j, l') (s_live s) -> link_of l' c' -> key_of c' <> key_of c) by (intros j l' c' H1 H2 H3; apply (Q j l' c' H1 H2); apply key_concerns; exact H3).
    split; cbn [s_ident s_live].
    + intros j l' c' [H1|H1] H2; rewrite (lookup_store _ _ l c _ P).
      * injection H1 as <- <-. rewrite (link_once l c' c H2 P). destruct (key_dec (key_of c) (key_of c)); [reflexivity|contradiction].
      * destruct (key_dec (key_of c') (key_of c)) as [e|_]; [destruct (K j l' c' H1 H2 e)|exact (E j l' c' H1 H2)].
    + intros j1 l1 c1 j2 l2 c2 [H1|H1] L1 [H2|H2] L2 EQ.
      * congruence.
      * injection H1 as <- <-. exfalso. apply (K j2 l2 c2 H2 L2). rewrite <- EQ. exact (link_once l c1 c L1 P).
      * injection H2 as <- <-. exfalso. apply (K j1 l1 c1 H1 L1). rewrite EQ. exact (link_once l c2 c L2 P).
      * exact (D j1 l1 c1 j2 l2 c2 H1 L1 H2 L2 EQ).
  - pose proof (find_live i s A) as F. destruct (find _ (s_live s)) as [[j l]|]; [|split; assumption]. destruct F as (-> & F1 & F2). destruct (proj1 A _ _ F1) as [c Pc].
    split; cbn [s_ident s_live].
    + intros j l' c' H1 H2. apply filter_live in H1 as [H1 N]. rewrite (lookup_delete _ _ l c Pc).
      destruct (key_dec (key_of c') (key_of c)) as [e|_]; [destruct (N (D j l' c' i l c H1 H2 F1 Pc e))|exact (E j l' c' H1 H2)].
    + intros j1 l1 c1 j2 l2 c2 H1 L1 H2 L2 EQ. apply filter_live in H1 as [H1 _]. apply filter_live in H2 as [H2 _]. exact (D j1 l1 c1 j2 l2 c2 H1 L1 H2 L2 EQ).
Qed.

Lemma reach_links P s : reach sha P s -> all_links s.
Proof. induction 1 as [|s x R IH Hp HP]; [split; [intros i l []|constructor]|]. apply all_links_step; assumption. Qed.

Lemma reach_honest P s : reach sha P s -> honest s.
Proof. induction 1 as [|s x R IH Hp HP]; [intros k; left; reflexivity|]. apply honest_step; [exact (reach_links P s R)|exact IH|exact Hp]. Qed.

Lemma reach_exact s : reach sha apart s -> exact s.
Proof. induction 1 as [|s x R IH Hp HP]; [split; [intros i l c []|intros i l c i' l' c' []]|]. apply exact_step; try assumption. exact (reach_links apart s R). Qed.

Lemma asked_query s host line lp rp : is_query line lp rp -> asked s host line =
  match lookup (IdentKey host rp lp) (s_ident s) with [] => nobody line | i => names line i end.
Proof.
  intros Q. apply parse_query_iff in Q. unfold asked, ident_line. rewrite Q. destruct (lookup _ _); reflexivity.
Qed.

Theorem told s i l c line : (forall id, length (sha (block id)) = 32) -> reach sha apart s -> In (i, l) (s_live s) -> link_of l c ->
  is_query line (c_lport c) (c_rport c) -> asked s (c_rhost c) line = names line (user_ident sha (l_user l)).
Proof.
  intros S R H L Q. rewrite (asked_query s _ line _ _ Q). change (IdentKey (c_rhost c) (c_rport c) (c_lport c)) with (key_of c). rewrite (proj1 (reach_exact s R) i l c H L).
  destruct (form (l_user l) (S (l_user l))) as [F _]. destruct (user_ident sha (l_user l)); [discriminate F|reflexivity].
Qed.

Theorem only_live P s host line lp rp : reach sha P s -> is_query line lp rp -> asked s host line = nobody line \/
  exists i l c, In (i, l) (s_live s) /\ link_of l c /\ concerns host rp lp c /\ asked s host line = names line (user_ident sha (l_user l)).
Proof.
  intros R Q. rewrite (asked_query s host line _ _ Q). destruct (reach_honest P s R (IdentKey host rp lp)) as [->|(i & l & c & H1 & H2 & H3 & H4)]; [left; reflexivity|].
  rewrite H4. destruct (user_ident sha (l_user l)) as [|x y] eqn:E; [left; reflexivity|right]. exists i, l, c. split; [exact H1|]. split; [exact H2|]. split; [|rewrite E; reflexivity].
  unfold key_of in H3. injection H3 as E1 E2 E3. repeat split; assumption.
Qed.
End WithSha.
