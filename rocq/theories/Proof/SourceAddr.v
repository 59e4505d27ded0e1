From Coq Require Import Arith NArith List Bool Lia.
From Verif.Model Require Import SourceAddr.
From Verif.Spec Require Import SourceAddr.
Import ListNotations.
Open Scope N_scope.

Notation ok a := (Forall (fun b => b < 256) a).

Lemma addr_lt a : ok a -> addr_num a < 2 ^ (8 * N.of_nat (length a)).
Proof.
  induction 1 as [|b a Hb Ha IH]; [reflexivity|]. cbn [addr_num length].
  replace (8 * N.of_nat (S (length a))) with (8 + 8 * N.of_nat (length a)) by lia.
  rewrite N.pow_add_r. change (2 ^ 8) with 256. nia.
Qed.

Lemma split_eq g x y u w : u < g -> w < g -> x * g + u = y * g + w -> x = y /\ u = w.
Proof.
  intros Hu Hw H.
  assert (E1 : x = (x * g + u) / g) by (apply N.div_unique with u; lia).
  assert (E2 : y = (y * g + w) / g) by (apply N.div_unique with w; lia).
  assert (E : x = y) by congruence. subst y. split; [reflexivity|]. lia.
Qed.

Lemma be_value_acc l : forall acc, fold_left (fun acc b => acc * 256 + b) l acc = acc * 2 ^ (8 * N.of_nat (length l)) + addr_num l.
Proof.
  induction l as [|b l IH]; intros acc; [cbn; lia|]. cbn [fold_left addr_num length]. rewrite IH.
  replace (8 * N.of_nat (S (length l))) with (8 + 8 * N.of_nat (length l)) by lia.
  rewrite N.pow_add_r. change (2 ^ 8) with 256. lia.
Qed.

Lemma be_value_num l : be_value l = addr_num l.
Proof. unfold be_value. rewrite be_value_acc. lia. Qed.

Lemma be_aux fuel : forall n acc, n < 2 ^ N.of_nat fuel -> ok acc ->
  ok (be_bytes_aux fuel n acc) /\
  addr_num (be_bytes_aux fuel n acc) = n * 2 ^ (8 * N.of_nat (length acc)) + addr_num acc /\
  (forall b l, be_bytes_aux fuel n acc = b :: l -> n <> 0 -> b <> 0).
Proof.
  induction fuel as [|f IH]; intros n acc Hn Ha.
  - cbn in Hn. assert (n = 0) by lia. subst. cbn [be_bytes_aux]. (split; [exact Ha|split; [lia|congruence]]).
  - cbn [be_bytes_aux]. destruct (N.eqb_spec n 0) as [->|Hne]; [(split; [exact Ha|split; [lia|congruence]])|].
    assert (Hm : n mod 256 < 256) by (apply N.mod_lt; lia).
    assert (Hd : n / 256 < 2 ^ N.of_nat f).
    { apply N.div_lt_upper_bound; [lia|]. rewrite Nat2N.inj_succ, N.pow_succ_r' in Hn. lia. }
    destruct (IH (n / 256) (n mod 256 :: acc) Hd (@Forall_cons N (fun b => b < 256) _ _ Hm Ha)) as (I1 & I2 & I3).
    split; [exact I1|]. split.
    + rewrite I2. cbn [addr_num length].
      replace (8 * N.of_nat (S (length acc))) with (8 + 8 * N.of_nat (length acc)) by lia.
      rewrite N.pow_add_r. change (2 ^ 8) with 256. pose proof (N.div_mod n 256 ltac:(lia)). nia.
    + intros b l E _. destruct (N.eq_dec (n / 256) 0) as [E0|E0].
      * rewrite E0 in E. assert (Ef : forall fu a, be_bytes_aux fu 0 a = a) by (intros [|fu] a; reflexivity).
        rewrite Ef in E. injection E as <- _. pose proof (N.div_mod n 256 ltac:(lia)). lia.
      * apply (I3 b l E E0).
Qed.

Lemma size_bound n : n < 2 ^ N.of_nat (N.size_nat n).
Proof.
  destruct n as [|p]; [reflexivity|]. cbn [N.size_nat].
  induction p as [p IH|p IH|]; cbn [Pos.size_nat]; [| |reflexivity];
  rewrite Nat2N.inj_succ, N.pow_succ_r'; lia.
Qed.

Lemma be_bytes_spec n : ok (be_bytes n) /\ addr_num (be_bytes n) = n /\ (forall b l, be_bytes n = b :: l -> b <> 0).
Proof.
  destruct (be_aux (N.size_nat n) n [] (size_bound n) (Forall_nil _)) as (H1 & H2 & H3).
  unfold be_bytes. split; [exact H1|]. split; [rewrite H2; cbn; lia|].
  intros b l E. apply (H3 b l E). intros ->. discriminate.
Qed.

Lemma num_length a b l : a = b :: l -> ok a -> b <> 0 ->
  2 ^ (8 * N.of_nat (length l)) <= addr_num a.
Proof. intros -> Ha Hb. cbn [addr_num]. nia. Qed.

(** The byte string has exactly L bytes iff the value needs exactly L bytes. *)
Lemma be_length n L : (0 < L)%nat ->
  length (be_bytes n) = L <-> 2 ^ (8 * N.of_nat (L - 1)) <= n < 2 ^ (8 * N.of_nat L).
Proof.
  intros HL. destruct (be_bytes_spec n) as (H1 & H2 & H3). split.
  - intros E. pose proof (addr_lt _ H1) as Hlt. rewrite H2, E in Hlt. split; [|exact Hlt].
    destruct (be_bytes n) as [|b l] eqn:Eb; [cbn in E; lia|].
    pose proof (num_length (b :: l) b l eq_refl H1 (H3 b l eq_refl)) as Hn. rewrite H2 in Hn.
    cbn [length] in E. replace (L - 1)%nat with (length l) by lia. exact Hn.
  - intros [Ha Hb]. destruct (be_bytes n) as [|b l] eqn:Eb.
    + cbn in H2. subst n. exfalso. assert (0 < 2 ^ (8 * N.of_nat (L - 1))) by (apply N.neq_0_lt_0, N.pow_nonzero; lia). lia.
    + pose proof (num_length (b :: l) b l eq_refl H1 (H3 b l eq_refl)) as Hn. rewrite H2 in Hn.
      pose proof (addr_lt _ H1) as Hlt. rewrite H2 in Hlt. cbn [length] in *.
      assert (E1 : 8 * N.of_nat (length l) < 8 * N.of_nat L) by (apply (N.pow_lt_mono_r_iff 2); lia).
      assert (E2 : 8 * N.of_nat (L - 1) < 8 * N.of_nat (S (length l))) by (apply (N.pow_lt_mono_r_iff 2); lia).
      lia.
Qed.

(** Masks. *)
Lemma byte_list_complete x : x < 256 -> In x (map N.of_nat (seq 0 256)).
Proof.
  intros H. apply in_map_iff. exists (N.to_nat x). split; [apply N2Nat.id|]. apply in_seq. lia.
Qed.

Lemma land_mask : forall x k, x < 256 -> N.land x (mask_byte k) = x / 2 ^ (8 - N.of_nat (Nat.min k 8)) * 2 ^ (8 - N.of_nat (Nat.min k 8)).
Proof.
  intros x k Hx. unfold mask_byte. assert (Hk : In (Nat.min k 8) (seq 0 9)) by (apply in_seq; lia).
  generalize dependent (Nat.min k 8). intros m Hm.
  assert (A : forallb (fun m => forallb (fun x => N.land x (256 - 2 ^ (8 - N.of_nat m)) =? x / 2 ^ (8 - N.of_nat m) * 2 ^ (8 - N.of_nat m)) (map N.of_nat (seq 0 256))) (seq 0 9) = true)
    by (vm_compute; reflexivity).
  rewrite forallb_forall in A. specialize (A m Hm). rewrite forallb_forall in A. apply N.eqb_eq. apply (A x). apply byte_list_complete. exact Hx.
Qed.

Lemma land_eq x y k : x < 256 -> y < 256 ->
  (N.land x (mask_byte k) =? N.land y (mask_byte k)) = true <->
  x / 2 ^ (8 - N.of_nat (Nat.min k 8)) = y / 2 ^ (8 - N.of_nat (Nat.min k 8)).
Proof.
  intros Hx Hy. rewrite N.eqb_eq, !land_mask by assumption.
  assert (2 ^ (8 - N.of_nat (Nat.min k 8)) <> 0) by (apply N.pow_nonzero; lia).
  split; [apply N.mul_cancel_r; assumption|intros ->; reflexivity].
Qed.

Lemma masked_eq_iff a : forall b k, ok a -> ok b -> length a = length b -> (k <= 8 * length a)%nat ->
  masked_eq k a b = true <->
  addr_num a / 2 ^ (8 * N.of_nat (length a) - N.of_nat k) = addr_num b / 2 ^ (8 * N.of_nat (length a) - N.of_nat k).
Proof.
  induction a as [|x a IH]; intros [|y b] k Ha Hb E Hk; try discriminate E; [cbn; tauto|].
  inversion Ha as [|? ? Hx Ha']; inversion Hb as [|? ? Hy Hb']; subst. injection E as E.
  cbn [length] in Hk. cbn [masked_eq addr_num length]. rewrite andb_true_iff, land_eq by assumption. rewrite <- E.
  set (l := length a) in *. pose proof (addr_lt a Ha') as La. pose proof (addr_lt b Hb') as Lb. rewrite <- E in Lb. fold l in La, Lb.
  assert (P : 0 < 2 ^ (8 * N.of_nat l)) by (apply N.neq_0_lt_0, N.pow_nonzero; lia).
  destruct (Nat.le_gt_cases k 8) as [Hk8|Hk8].
  - rewrite Nat.min_l by exact Hk8. replace (k - 8)%nat with 0%nat by lia.
    assert (M : masked_eq 0 a b = true).
    { apply IH; [assumption|assumption|exact E|lia|]. rewrite !N.div_small; [reflexivity| |]; rewrite N.sub_0_r; assumption. }
    rewrite M. assert (D : forall z v, v < 2 ^ (8 * N.of_nat l) ->
      (z * 2 ^ (8 * N.of_nat l) + v) / 2 ^ (8 * N.of_nat (S l) - N.of_nat k) = z / 2 ^ (8 - N.of_nat k)).
    { intros z v Hv. replace (8 * N.of_nat (S l) - N.of_nat k) with (8 * N.of_nat l + (8 - N.of_nat k)) by lia.
      rewrite N.pow_add_r, <- N.div_div by (apply N.pow_nonzero; lia).
      rewrite N.div_add_l by (apply N.pow_nonzero; lia). rewrite (N.div_small v) by exact Hv. rewrite N.add_0_r. reflexivity. }
    rewrite !D by assumption. tauto.
  - rewrite Nat.min_r by lia. change (8 - N.of_nat 8) with 0. rewrite !N.div_1_r.
    rewrite (IH b (k - 8)%nat) by (try assumption; lia).
    replace (8 * N.of_nat l - N.of_nat (k - 8)) with (8 * N.of_nat (S l) - N.of_nat k) by lia.
    set (h := 8 * N.of_nat (S l) - N.of_nat k).
    assert (Hh : 8 * N.of_nat l = h + (8 * N.of_nat l - h)) by lia.
    assert (Q : 0 < 2 ^ h) by (apply N.neq_0_lt_0, N.pow_nonzero; lia).
    set (g := 8 * N.of_nat l - h) in *.
    assert (Hp : 2 ^ (8 * N.of_nat l) = 2 ^ g * 2 ^ h) by (rewrite Hh, N.pow_add_r; lia).
    assert (D : forall z v, (z * 2 ^ (8 * N.of_nat l) + v) / 2 ^ h = z * 2 ^ g + v / 2 ^ h).
    { intros z v. rewrite Hp, N.mul_assoc, N.div_add_l by lia. reflexivity. }
    rewrite !D.
    assert (V : forall v, v < 2 ^ (8 * N.of_nat l) -> v / 2 ^ h < 2 ^ g).
    { intros v Hv. apply N.div_lt_upper_bound; [lia|]. rewrite <- N.mul_comm, <- Hp. exact Hv. }
    apply V in La. apply V in Lb. split; [intros [-> ->]; reflexivity|]. intros H.
    apply (split_eq _ _ _ _ _ La Lb H).
Qed.

Lemma div_range a b s : s <> 0 -> a mod s = 0 -> a / s = b / s <-> a <= b < a + s.
Proof.
  intros Hs Hm. pose proof (N.div_mod a s Hs) as Ea. pose proof (N.div_mod b s Hs) as Eb.
  pose proof (N.mod_lt b s Hs). rewrite Hm in Ea. split.
  - intros E. rewrite E in Ea. generalize dependent (s * (b / s)). intros q Ea Eb. clear E Hm. generalize dependent (b mod s). intros; lia.
  - intros [H1 H2]. assert (a / s <= b / s) by (apply N.div_le_mono; assumption).
    assert (b / s < a / s + 1); [|lia]. apply N.div_lt_upper_bound; [exact Hs|]. rewrite N.mul_add_distr_l. clear Eb H Hm. generalize dependent (s * (a / s)). intros; lia.
Qed.

Lemma to4_len16 a x : to4 a = Some x -> (length a = 4 /\ x = a)%nat \/ (length a = 16 /\ firstn 12 a = v4_prefix)%nat.
Proof.
  unfold to4. destruct (Nat.eqb_spec (length a) 4) as [E|E].
  - intros H. injection H as <-. left. split; [exact E|reflexivity].
  - destruct (Nat.eqb_spec (length a) 16) as [E2|E2]; [|discriminate]. cbn [andb].
    destruct (list_eqb (firstn 12 a) v4_prefix) eqn:El; [|discriminate]. intros _. right. split; [exact E2|].
    unfold list_eqb in El. apply andb_true_iff in El as [El1 El2]. apply Nat.eqb_eq in El1.
    revert El1 El2. generalize (firstn 12 a) v4_prefix. induction l as [|u l IH]; intros [|v m] H1 H2; try discriminate; [reflexivity|].
    cbn in H1, H2. apply andb_true_iff in H2 as [H2 H3]. apply N.eqb_eq in H2. subst. f_equal. apply IH; [lia|exact H3].
Qed.

(** The address computed for a user, with no leading zero byte. *)
Lemma be_to4 n : match to4 (be_bytes n) with Some x => x | None => be_bytes n end = be_bytes n.
Proof.
  destruct (to4 (be_bytes n)) as [x|] eqn:E; [|reflexivity]. apply to4_len16 in E as [[_ ->]|[E1 E2]]; [reflexivity|].
  exfalso. destruct (be_bytes_spec n) as (_ & _ & H3). destruct (be_bytes n) as [|b l]; [discriminate|].
  cbn in E2. injection E2 as E2 _. apply (H3 b l eq_refl). exact E2.
Qed.

Lemma contains_iff n v : is_range n -> addr_num (net_ip n) <= v ->
  net_contains n (be_bytes v) = true <->
  (v < addr_num (net_ip n) + range_size n /\ 2 ^ (8 * N.of_nat (length (net_ip n) - 1)) <= v).
Proof.
  intros (Hip & Ho & Hz & _) Hv. destruct Hip as [Hok Hl]. unfold net_contains. rewrite be_to4.
  rewrite andb_true_iff, Nat.eqb_eq.
  destruct (be_bytes_spec v) as (H1 & H2 & _).
  assert (Hs : range_size n <> 0) by (unfold range_size; apply N.pow_nonzero; lia).
  assert (HL : (0 < length (net_ip n))%nat) by lia.
  assert (Hup : addr_num (net_ip n) + range_size n <= 2 ^ (8 * N.of_nat (length (net_ip n)))).
  { pose proof (addr_lt _ Hok) as Hlt.
    assert (Hpow : 2 ^ (8 * N.of_nat (length (net_ip n))) = range_size n * 2 ^ N.of_nat (net_ones n)).
    { unfold range_size. rewrite <- N.pow_add_r. f_equal. lia. }
    pose proof (N.div_mod (addr_num (net_ip n)) (range_size n) Hs) as Ed. rewrite Hz, N.add_0_r in Ed.
    rewrite Hpow in *. rewrite Ed in Hlt |- *.
    assert (addr_num (net_ip n) / range_size n < 2 ^ N.of_nat (net_ones n)) by nia. nia. }
  rewrite be_length by exact HL. split.
  - intros [[L1 L2] Hm]. split; [|exact L1].
    assert (El : length (be_bytes v) = length (net_ip n)) by (apply be_length; [exact HL|split; assumption]).
    rewrite masked_eq_iff in Hm by (try assumption; lia). rewrite H2 in Hm.
    apply (div_range _ _ _ Hs Hz) in Hm. lia.
  - intros [H L1]. assert (L2 : v < 2 ^ (8 * N.of_nat (length (net_ip n)))) by lia.
    split; [split; assumption|].
    assert (El : length (be_bytes v) = length (net_ip n)) by (apply be_length; [exact HL|split; assumption]).
    rewrite masked_eq_iff by (try assumption; lia). rewrite H2.
    apply (div_range _ _ _ Hs Hz). lia.
Qed.

Lemma family_find ranges remote n :
  find (fun n => eqb (is_v6 remote) (is_v6 (net_ip n))) ranges = Some n -> In n ranges /\ is_v6 (net_ip n) = is_v6 remote.
Proof. intros H. apply find_some in H as [H1 H2]. apply eqb_prop in H2. auto. Qed.

Lemma local_addr_spec ranges id remote a :
  Forall is_range ranges -> local_tcp_addr ranges id remote = LocalAddr a ->
  exists n, find (fun n => eqb (is_v6 remote) (is_v6 (net_ip n))) ranges = Some n /\
    in_range n a /\ addr_num a = addr_num (net_ip n) + id + 1.
Proof.
  intros Hr H. unfold local_tcp_addr in H.
  destruct (find _ ranges) as [n|] eqn:Ef; [|discriminate]. exists n. split; [reflexivity|].
  destruct (family_find _ _ _ Ef) as [Hin _]. rewrite Forall_forall in Hr. pose proof (Hr n Hin) as Hn.
  destruct (net_contains n _) eqn:Ec; [|discriminate]. injection H as <-. rewrite be_value_num in *.
  assert (Hle : addr_num (net_ip n) <= addr_num (net_ip n) + (id + 1)) by lia.
  pose proof (proj1 (contains_iff n _ Hn Hle) Ec) as [H1 H2].
  destruct (be_bytes_spec (addr_num (net_ip n) + (id + 1))) as (B1 & B2 & _).
  unfold net_contains in Ec. rewrite be_to4 in Ec. apply andb_true_iff in Ec as [Ec _]. apply Nat.eqb_eq in Ec.
  unfold in_range. rewrite B2. split; [split; [exact Ec|split; [exact B1|lia]]|lia].
Qed.

Lemma num_inj a : forall b, length a = length b -> ok a -> ok b -> addr_num a = addr_num b -> a = b.
Proof.
  induction a as [|x a IH]; intros [|y b] E Ha Hb H; try discriminate E; [reflexivity|].
  inversion Ha; inversion Hb; subst. injection E as E. cbn [addr_num] in H. rewrite <- E in H.
  pose proof (addr_lt a ltac:(assumption)) as La. pose proof (addr_lt b ltac:(assumption)) as Lb. rewrite <- E in Lb.
  destruct (split_eq _ _ _ _ _ La Lb H) as [-> H']. f_equal. apply IH; assumption.
Qed.

Lemma dial_inv ranges id addrs pick from to : ranges <> [] -> dial_tcp ranges id addrs pick = Dials from to ->
  exists r, resolve_ip_addr addrs pick = Some r /\ to = Some r /\
    match local_tcp_addr ranges id r with AnyAddr => from = None | LocalAddr a => from = Some a | RangeTooSmall => False end.
Proof.
  intros N H. unfold dial_tcp in H. destruct ranges as [|n ranges]; [contradiction|]. destruct (resolve_ip_addr addrs pick) as [r|]; [|discriminate].
  exists r. split; [reflexivity|]. destruct (local_tcp_addr (n :: ranges) id r); inversion H; auto.
Qed.

Lemma resolve_in addrs pick r : resolve_ip_addr (Some addrs) pick = Some r -> In r addrs.
Proof.
  unfold resolve_ip_addr. intros H. apply nth_error_In in H. destruct (filter is_v6 addrs) as [|x l] eqn:E; [exact H|].
  rewrite <- E in H. apply filter_In in H. tauto.
Qed.

Lemma family_length n1 n2 : is_range n1 -> is_range n2 -> length (net_ip n1) = length (net_ip n2) -> is_v6 (net_ip n1) = is_v6 (net_ip n2).
Proof.
  intros ((_ & L1) & _ & _ & M1) ((_ & L2) & _ & _ & M2) E.
  assert (K : forall a, length a = 4%nat -> is_v6 a = false) by (intros a La; unfold is_v6, to4; rewrite La; reflexivity).
  destruct L1 as [L1|L1]; [rewrite !K; [reflexivity|congruence|exact L1]|]. unfold is_v6. rewrite M1, M2; [reflexivity|congruence|exact L1].
Qed.
