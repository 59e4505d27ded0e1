(** Proofs about texts of addresses and ranges. *)
From Coq Require Import NArith Lia.
From Verif.Base Require Import Bytes.
From Verif.Model Require Import SourceAddr IPAddr.
From Verif.Model Require Addr Networks.
From Verif.Proof Require SourceAddr.
From Verif.Spec Require Import SourceAddr IPAddr.
Open Scope N_scope.

Lemma small_forall (P : N -> Prop) k : (forall m, (m < k)%nat -> P (N.of_nat m)) -> forall n, n < N.of_nat k -> P n.
Proof. intros H n Hn. rewrite <- (N2Nat.id n). apply H. lia. Qed.

(** ** Four numbers *)
Definition step10 (v : N) : bool :=
  match N.div v 10 with 0 => beqb (dec v) [ascii_of_N (48 + v)] | q => beqb (dec v) (dec q ++ [ascii_of_N (48 + v mod 10)]) end.
Lemma step10_all : forallb step10 (map N.of_nat (seq 0 256)) = true.
Proof. vm_compute. reflexivity. Qed.
Lemma step10_ok v : v < 256 -> step10 v = true.
Proof.
  intros H. pose proof step10_all as A. rewrite forallb_forall in A. apply A. rewrite in_map_iff. exists (N.to_nat v).
  split; [apply N2Nat.id|]. apply in_seq. lia.
Qed.
Lemma digit_char c : is_digit c = true -> digit c < 10 /\ c = ascii_of_N (48 + digit c).
Proof.
  unfold is_digit, digit, code. rewrite andb_true_iff, !N.leb_le. intros [H1 H2]. split; [lia|].
  replace (48 + (N_of_ascii c - 48)) with (N_of_ascii c) by lia. rewrite ascii_N_embedding. reflexivity.
Qed.
Lemma dec_digit c : is_digit c = true -> dec (digit c) = [c].
Proof.
  intros H. apply digit_char in H. destruct H as [H E]. pose proof (step10_ok (digit c)) as S. unfold step10 in S.
  rewrite N.div_small in S by exact H. rewrite beqb_eq in S by lia. rewrite S at 1; [|lia]. rewrite <- E. reflexivity.
Qed.
Lemma dec_step val c : is_digit c = true -> val <> 0 -> val * 10 + digit c < 256 -> dec (val * 10 + digit c) = dec val ++ [c].
Proof.
  intros Hc Hv Hb. apply digit_char in Hc. destruct Hc as [Hd E]. pose proof (step10_ok _ Hb) as S. unfold step10 in S.
  assert (Q : (val * 10 + digit c) / 10 = val) by (rewrite N.div_add_l by lia; rewrite N.div_small by exact Hd; lia).
  assert (R : (val * 10 + digit c) mod 10 = digit c) by (rewrite N.add_comm, N.mod_add by lia; apply N.mod_small; exact Hd).
  rewrite Q, R in S.
  rewrite <- E in S. destruct val as [|v]; [congruence|]. apply beqb_eq in S. exact S.
Qed.

Lemma v4_run s : forall val digs done r, v4_fields s val digs done = Some r -> val < 256 ->
  (digs = 0%nat -> val = 0) -> (digs <> 0%nat -> length (dec val) = digs) ->
  exists p n rest, s = p ++ rest /\ n < 256 /\ (if Nat.eqb digs 0 then p else dec val ++ p) = dec n /\
    ((rest = [] /\ r = done ++ [n] /\ (3 <= length done)%nat) \/
     exists s', rest = "."%char :: s' /\ length done <> 3%nat /\ v4_fields s' 0 0 (done ++ [n]) = Some r).
Proof.
  induction s as [|c s IH]; intros val digs done r E Hv H0 H1; cbn [v4_fields] in E.
  - destruct (Nat.ltb_spec (length done) 3) as [|Hl]; [discriminate|]. destruct (Nat.eqb_spec digs 0) as [|Hd]; [discriminate|].
    injection E as <-. exists [], val, []. repeat split; [exact Hv|apply app_nil_r|left; repeat split; exact Hl].
  - destruct (is_digit c) eqn:Ec.
    + destruct (Nat.eqb digs 1 && (val =? 0)) eqn:Ez; [discriminate|]. destruct (N.ltb_spec 255 (val * 10 + digit c)) as [|Hb]; [discriminate|].
      assert (D : dec (val * 10 + digit c) = (if Nat.eqb digs 0 then [] else dec val) ++ [c]).
      { destruct (Nat.eqb_spec digs 0) as [->|Hd].
        - rewrite (H0 eq_refl). cbn [app]. apply dec_digit. exact Ec.
        - apply dec_step; [exact Ec| |lia]. intros ->. specialize (H1 Hd). change (length (dec 0)) with 1%nat in H1. subst digs. discriminate Ez. }
      apply IH in E; [|lia|discriminate|].
      * destruct E as (p & n & rest & -> & Hn & Ep & R). exists (c :: p), n, rest. repeat split; [exact Hn| |exact R].
        cbn [Nat.eqb] in Ep. rewrite D, <- app_assoc in Ep. cbn [app] in Ep. destruct (Nat.eqb digs 0); exact Ep.
      * intros _. rewrite D, app_length. cbn [length]. destruct (Nat.eqb_spec digs 0) as [->|Hd]; [reflexivity|]. rewrite H1 by exact Hd. lia.
    + destruct (aeqb_spec c ".") as [->|]; [|discriminate]. destruct (Nat.eqb_spec digs 0) as [|Hd]; [discriminate|].
      destruct (Nat.eqb_spec (length done) 3) as [|Hl]; [discriminate|].
      exists [], val, ("."%char :: s). repeat split; [exact Hv|apply app_nil_r|]. right. exists s. repeat split; assumption.
Qed.

Lemma v4_sound s a : parse_v4 s = Some a -> text4 s a.
Proof.
  unfold parse_v4. intros E. apply v4_run in E; [|reflexivity|reflexivity|congruence]. cbn [Nat.eqb] in E.
  destruct E as (p & n & rest & -> & Hn & -> & [(_ & _ & L)|(s1 & -> & _ & E)]); [cbn in L; lia|].
  apply v4_run in E; [|reflexivity|reflexivity|congruence]. cbn [Nat.eqb] in E.
  destruct E as (p & n2 & rest & -> & Hn2 & -> & [(_ & _ & L)|(s2 & -> & _ & E)]); [cbn in L; lia|].
  apply v4_run in E; [|reflexivity|reflexivity|congruence]. cbn [Nat.eqb] in E.
  destruct E as (p & n3 & rest & -> & Hn3 & -> & [(_ & _ & L)|(s3 & -> & _ & E)]); [cbn in L; lia|].
  apply v4_run in E; [|reflexivity|reflexivity|congruence]. cbn [Nat.eqb] in E.
  destruct E as (p & n4 & rest & -> & Hn4 & -> & [(-> & -> & L)|(s4 & -> & L & E)]); [|cbn in L; lia].
  rewrite app_nil_r. cbn [app]. exact (Text4 n n2 n3 n4 Hn Hn2 Hn3 Hn4).
Qed.

(** Reading a number. *)
Lemma v4_read n : n < 256 -> forall s done, v4_fields (dec n ++ s) 0 0 done = v4_fields s n (length (dec n)) done.
Proof.
  intros Hn s done. assert (forall m, (m < 256)%nat -> v4_fields (dec (N.of_nat m) ++ s) 0 0 done = v4_fields s (N.of_nat m) (length (dec (N.of_nat m))) done) as A.
  { intros m Hm. do 256 (destruct m as [|m]; [reflexivity|]). lia. }
  rewrite <- (N2Nat.id n). apply A. lia.
Qed.
Lemma dec_len n : n < 256 -> (1 <= length (dec n) <= 3)%nat.
Proof.
  intros Hn. rewrite <- (N2Nat.id n). assert (Hm : (N.to_nat n < 256)%nat) by lia. generalize dependent (N.to_nat n). intros m Hm.
  clear Hn. do 256 (destruct m as [|m]; [cbn; lia|]). lia.
Qed.
Lemma v4_dot n s done : n < 256 -> (length done <> 3)%nat -> v4_fields (B "." ++ s) n (length (dec n)) done = v4_fields s 0 0 (done ++ [n]).
Proof.
  intros Hn Hd. change (B "." ++ s) with ("."%char :: s). cbn [v4_fields]. change (is_digit ".") with false. change (aeqb "." ".") with true. cbn iota.
  pose proof (dec_len n Hn). destruct (Nat.eqb_spec (length (dec n)) 0); [lia|]. destruct (Nat.eqb_spec (length done) 3); [lia|]. reflexivity.
Qed.
Lemma v4_complete s a : text4 s a -> parse_v4 s = Some a.
Proof.
  intros [x b c d Hx Hb Hc Hd]. unfold parse_v4.
  rewrite v4_read, v4_dot by (assumption || discriminate). rewrite v4_read, v4_dot by (assumption || discriminate).
  rewrite v4_read, v4_dot by (assumption || discriminate). rewrite <- (app_nil_r (dec d)), v4_read by assumption.
  cbn [v4_fields]. pose proof (dec_len d Hd). destruct (Nat.eqb_spec (length (dec d)) 0); [lia|]. reflexivity.
Qed.

(** ** Groups *)
Definition hex_ok (c : ascii) : bool :=
  negb (Networks.is_hex c) || ((Addr.hexval c <? 16) &&
    match nth_error (B "0123456789abcdef") (N.to_nat (Addr.hexval c)), nth_error (B "0123456789ABCDEF") (N.to_nat (Addr.hexval c)) with
    | Some x, Some y => aeqb x c || aeqb y c | _, _ => false end).
Lemma hex_ok_all c : hex_ok c = true.
Proof. revert c. apply byte_forall. vm_compute. reflexivity. Qed.
Lemma hexd_iff c n : hexd c n <-> (Networks.is_hex c = true /\ Addr.hexval c = n).
Proof.
  unfold hexd. split.
  - intros [Hn H]. assert (Hm : (N.to_nat n < 16)%nat) by lia. rewrite <- (N2Nat.id n). generalize dependent (N.to_nat n). intros m H Hm. clear Hn.
    do 16 (destruct m as [|m]; [destruct H as [H|H]; injection H as <-; split; reflexivity|]). lia.
  - intros [H <-]. pose proof (hex_ok_all c) as A. unfold hex_ok in A. rewrite H in A. cbn [negb orb] in A. apply andb_true_iff in A.
    destruct A as [L A]. apply N.ltb_lt in L. split; [exact L|].
    destruct (nth_error (B "0123456789abcdef") _) as [x|]; [|discriminate]. destruct (nth_error (B "0123456789ABCDEF") _) as [y|]; [|discriminate].
    apply orb_true_iff in A. rewrite !aeqb_eq in A. destruct A as [->| ->]; auto.
Qed.
Lemma hexval_lt c : Networks.is_hex c = true -> Addr.hexval c < 16.
Proof. intros H. destruct (proj2 (hexd_iff c _) (conj H eq_refl)) as [L _]. exact L. Qed.

Lemma group_iff d n : group d n <-> (1 <= length d <= 4)%nat /\ forallb Networks.is_hex d = true /\ hex_num d = n.
Proof.
  split.
  - induction 1 as [c n H|d n c m G IH L H].
    + apply hexd_iff in H. destruct H as [H <-]. cbn [length forallb]. rewrite H. repeat split; cbn; lia.
    + apply hexd_iff in H. destruct H as [H <-]. destruct IH as (I1 & I2 & <-). unfold hex_num. rewrite app_length, forallb_app, fold_left_app, I2. cbn [length forallb fold_left andb].
      rewrite H. repeat split; lia.
  - revert n. induction d as [|c d IH] using rev_ind; intros n ((L1 & L2) & H & <-); [cbn in L1; lia|].
    rewrite forallb_app in H. apply andb_true_iff in H. destruct H as [Hd Hc]. cbn [forallb] in Hc. rewrite andb_true_r in Hc.
    rewrite app_length in L2. cbn [length] in L2. unfold hex_num. rewrite fold_left_app. cbn [fold_left]. rewrite (N.mul_comm _ 16).
    destruct d as [|c' d'].
    + cbn [app fold_left]. apply Group1. apply hexd_iff. split; [exact Hc|lia].
    + apply GroupS; [|cbn [length] in L2 |- *; lia|apply hexd_iff; auto]. apply IH. repeat split; [cbn [length]; lia|cbn [length] in L2 |- *; lia|exact Hd].
Qed.

(** What follows a group is not another digit. *)
Definition stops (s : bytes) : Prop := match s with [] => True | c :: _ => Networks.is_hex c = false end.
Lemma hex_run_app d rest : forallb Networks.is_hex d = true -> stops rest -> hex_run (d ++ rest) = (d, rest).
Proof.
  intros H S. induction d as [|c d IH]; cbn [app hex_run].
  - destruct rest as [|c r]; [reflexivity|]. cbn in S |- *. rewrite S. reflexivity.
  - cbn [forallb] in H. apply andb_true_iff in H. destruct H as [Hc Hd]. rewrite Hc, IH by exact Hd. reflexivity.
Qed.
Lemma hex_run_spec s : forall d rest, hex_run s = (d, rest) -> s = d ++ rest /\ forallb Networks.is_hex d = true /\ stops rest.
Proof.
  induction s as [|c s IH]; intros d rest E; cbn [hex_run] in E; [injection E as <- <-; repeat split|].
  destruct (Networks.is_hex c) eqn:Hc.
  - destruct (hex_run s) as [d' r'] eqn:E'. injection E as <- <-. destruct (IH _ _ eq_refl) as (-> & H & S). repeat split; [cbn [forallb]; rewrite Hc; exact H|exact S].
  - injection E as <- <-. repeat split. exact Hc.
Qed.

(** One round of the loop at a group. *)
Lemma v6_at_group fuel d n rest acc ell : group d n -> stops rest -> has_prefix rest (B ".") = false ->
  v6_loop (S fuel) (d ++ rest) acc ell =
    let acc := acc ++ [n / 256; n mod 256] in
    match rest with
    | [] => Some ([], acc, ell)
    | c :: s1 =>
        if negb (aeqb c ":") then None
        else match s1 with
             | [] => None
             | c2 :: s2 =>
                 if aeqb c2 ":" then
                   match ell with
                   | Some _ => None
                   | None => match s2 with [] => Some ([], acc, Some (length acc)) | _ => v6_loop fuel s2 acc (Some (length acc)) end
                   end
                 else v6_loop fuel s1 acc ell
             end
    end.
Proof.
  intros G S P. apply group_iff in G. destruct G as ((L1 & L2) & H & <-). cbn [v6_loop]. rewrite hex_run_app by assumption.
  destruct (Nat.ltb_spec 4 (length d)); [lia|]. destruct (beqb d []) eqn:E; [apply beqb_eq in E; subst; cbn in L1; lia|].
  rewrite P. reflexivity.
Qed.

(** A text that goes on after a colon. *)
Definition goes (t : bytes) : Prop := match t with [] => False | c :: _ => c <> ":"%char end.
Lemma group_head d n rest : group d n -> goes (d ++ rest) /\ stops (B ":" ++ rest).
Proof.
  intros G. apply group_iff in G. destruct G as ((L1 & _) & H & _). destruct d as [|c d]; [cbn in L1; lia|].
  split; [|reflexivity]. cbn [app goes]. intros ->. discriminate H.
Qed.
Lemma groups_goes s l rest : groups s l -> goes (s ++ rest).
Proof. intros [d n G|d n s' l' G _]; [|rewrite <- app_assoc]; apply (group_head _ _ _ G). Qed.

Lemma groups_even s l : groups s l -> exists k, length l = (2 * S k)%nat.
Proof. induction 1 as [d n G|d n s l G R IH]; [exists 0%nat; reflexivity|]. destruct IH as [k E]. exists (S k). cbn [length]. lia. Qed.

Lemma loop_groups s l : groups s l -> forall fuel acc ell, (length l <= 2 * fuel)%nat ->
  v6_loop fuel s acc ell = Some ([], acc ++ l, ell).
Proof.
  induction 1 as [d n G|d n s l G R IH]; intros fuel acc ell F; (destruct fuel as [|fuel]; [cbn [length] in F; lia|]).
  - rewrite <- (app_nil_r d). rewrite (v6_at_group _ _ n) by (exact G || exact I || reflexivity). reflexivity.
  - rewrite (v6_at_group _ _ n) by (exact G || reflexivity). cbv zeta. change (B ":" ++ s) with (":"%char :: s).
    pose proof (groups_goes s l [] R) as Gs. rewrite app_nil_r in Gs. destruct s as [|c s]; [destruct Gs|]. cbn [goes] in Gs.
    change (negb (aeqb ":" ":")) with false. cbn iota. apply aeqb_neq in Gs. rewrite Gs. rewrite IH by (cbn [length] in F; lia).
    rewrite <- app_assoc. reflexivity.
Qed.
Lemma loop_groups_colon s l t : groups s l -> goes t -> forall fuel acc ell,
  v6_loop (length l / 2 + fuel) (s ++ B ":" ++ t) acc ell = v6_loop fuel t (acc ++ l) ell.
Proof.
  intros G Gt. induction G as [d n G|d n s l G R IH]; intros fuel acc ell.
  - change (length [n / 256; n mod 256]%N / 2 + fuel)%nat with (S fuel). rewrite (v6_at_group _ _ n) by (exact G || reflexivity). cbv zeta.
    change (B ":" ++ t) with (":"%char :: t). destruct t as [|c t]; [destruct Gt|]. cbn [goes] in Gt. change (negb (aeqb ":" ":")) with false. cbn iota.
    apply aeqb_neq in Gt. rewrite Gt. reflexivity.
  - replace (length (n / 256 :: n mod 256 :: l)%N / 2 + fuel)%nat with (S (length l / 2 + fuel)).
    2:{ cbn [length]. replace (S (S (length l))) with (length l + 1 * 2)%nat by lia. rewrite Nat.div_add by lia. lia. }
    rewrite <- !app_assoc. rewrite (v6_at_group _ _ n) by (exact G || reflexivity). cbv zeta. change (B ":" ++ s ++ B ":" ++ t) with (":"%char :: (s ++ B ":" ++ t)).
    pose proof (groups_goes s l (B ":" ++ t) R) as Gs. destruct (s ++ B ":" ++ t) as [|c s0] eqn:E; [destruct Gs|]. cbn [goes] in Gs.
    change (negb (aeqb ":" ":")) with false. cbn iota. apply aeqb_neq in Gs. rewrite Gs. rewrite IH. rewrite <- app_assoc. reflexivity.
Qed.
Lemma loop_groups_ell s l t : groups s l -> forall fuel acc,
  v6_loop (length l / 2 + fuel) (s ++ B "::" ++ t) acc None =
    match t with [] => Some ([], acc ++ l, Some (length (acc ++ l))) | _ => v6_loop fuel t (acc ++ l) (Some (length (acc ++ l))) end.
Proof.
  intros G. induction G as [d n G|d n s l G R IH]; intros fuel acc.
  - change (length [n / 256; n mod 256]%N / 2 + fuel)%nat with (S fuel). rewrite (v6_at_group _ _ n) by (exact G || reflexivity). reflexivity.
  - replace (length (n / 256 :: n mod 256 :: l)%N / 2 + fuel)%nat with (S (length l / 2 + fuel)).
    2:{ cbn [length]. replace (S (S (length l))) with (length l + 1 * 2)%nat by lia. rewrite Nat.div_add by lia. lia. }
    rewrite <- !app_assoc. rewrite (v6_at_group _ _ n) by (exact G || reflexivity). cbv zeta. change (B ":" ++ s ++ B "::" ++ t) with (":"%char :: (s ++ B "::" ++ t)).
    pose proof (groups_goes s l (B "::" ++ t) R) as Gs. destruct (s ++ B "::" ++ t) as [|c s0] eqn:E; [destruct Gs|]. cbn [goes] in Gs.
    change (negb (aeqb ":" ":")) with false. cbn iota. apply aeqb_neq in Gs. rewrite Gs. rewrite IH. rewrite <- !app_assoc. reflexivity.
Qed.

Lemma is_hex_digit c : is_digit c = true -> Networks.is_hex c = true.
Proof. intros H. unfold Networks.is_hex. rewrite H. reflexivity. Qed.
Lemma loop_four s l : text4 s l -> forall fuel acc ell,
  match ell with None => length acc = 12%nat | Some _ => (length acc <= 12)%nat end ->
  v6_loop (S fuel) s acc ell = Some ([], acc ++ l, ell).
Proof.
  intros T fuel acc ell H. pose proof (v4_complete s l T) as P. cbn [v6_loop].
  assert (E : exists a r, hex_run s = (dec a, B "." ++ r) /\ (1 <= length (dec a) <= 3)%nat).
  { destruct T as [a b c d Ha Hb Hc Hd]. eexists a, _. split; [|apply dec_len; exact Ha]. apply hex_run_app; [|reflexivity].
    apply forallb_forall. intros x Hx. apply is_hex_digit. pose proof (dec_digits a) as D. rewrite Forall_forall in D. apply D. exact Hx. }
  destruct E as (a & r & E & La). rewrite E. destruct (Nat.ltb_spec 4 (length (dec a))); [lia|].
  destruct (beqb (dec a) []) eqn:Ea; [apply beqb_eq in Ea; rewrite Ea in La; cbn in La; lia|].
  change (has_prefix (B "." ++ r) (B ".")) with true. cbn iota. rewrite P.
  destruct ell as [e|].
  - destruct (Nat.ltb_spec 16 (length acc + 4)); [lia|]. reflexivity.
  - rewrite H. reflexivity.
Qed.
Lemma text4_len s l : text4 s l -> length l = 4%nat.
Proof. intros []. reflexivity. Qed.
Lemma text4_goes s l : text4 s l -> goes s.
Proof.
  intros [a b c d Ha Hb Hc Hd]. pose proof (dec_len a Ha) as L. pose proof (dec_digits a) as D. destruct (dec a) as [|x r]; [cbn in L; lia|].
  inversion D as [|? ? Hx _]; subst. cbn. intros ->. discriminate Hx.
Qed.

Lemma half_even k f : (2 * k <= 2 * f)%nat -> (k + (f - k) = f)%nat.
Proof. lia. Qed.
(** What comes after "::", or a whole address. *)
Lemma loop_tail s l : tail6 s l -> forall fuel acc ell, (length acc + 2 * fuel = 16)%nat ->
  match ell with None => length (acc ++ l) = 16%nat | Some _ => (length (acc ++ l) <= 16)%nat end ->
  v6_loop fuel s acc ell = Some ([], acc ++ l, ell).
Proof.
  intros T fuel acc ell F H. rewrite app_length in H. destruct T as [s l G|s l T|s l s4 l4 G T].
  - apply loop_groups; [exact G|]. destruct ell; lia.
  - pose proof (text4_len _ _ T) as L. destruct fuel as [|fuel]; [destruct ell; lia|]. apply loop_four; [exact T|]. destruct ell; lia.
  - rewrite app_length in H. pose proof (text4_len _ _ T) as L. destruct (groups_even _ _ G) as [k E].
    assert (D : (length l / 2 = S k)%nat) by (rewrite E, Nat.mul_comm, Nat.div_mul by lia; reflexivity).
    replace fuel with (length l / 2 + S (fuel - S (S k)))%nat by (rewrite D; destruct ell; lia).
    rewrite (loop_groups_colon _ _ _ G (text4_goes _ _ T)). rewrite (loop_four _ _ T); [rewrite <- app_assoc; reflexivity|].
    rewrite app_length. destruct ell; lia.
Qed.

Lemma tail_goes s l : tail6 s l -> goes s.
Proof.
  intros [s' l' G|s' l' T|s' l' s4 l4 G T].
  - pose proof (groups_goes _ _ [] G) as H. rewrite app_nil_r in H. exact H.
  - eapply text4_goes; exact T.
  - apply (groups_goes _ _ _ G).
Qed.
Lemma not_ell s : goes s -> has_prefix s (B "::") = false.
Proof.
  destruct s as [|c s]; [intros []|]. cbn [goes]. intros H. destruct (has_prefix (c :: s) (B "::")) eqn:E; [|reflexivity].
  apply has_prefix_iff in E. destruct E as [r E]. injection E as E _. congruence.
Qed.

Lemma v6_full s l : tail6 s l -> length l = 16%nat -> parse_v6 s = Some l.
Proof.
  intros T L. unfold parse_v6. rewrite (not_ell s (tail_goes _ _ T)). rewrite (loop_tail s l T 8 [] None) by (reflexivity || exact L).
  cbn [v6_finish app]. rewrite L. reflexivity.
Qed.
Lemma v6_ell_finish l l' n : length (l ++ repeat 0 n ++ l') = 16%nat -> n <> 0%nat ->
  v6_finish (Some ([], l ++ l', Some (length l))) = Some (l ++ repeat 0 n ++ l').
Proof.
  intros L Hn. rewrite !app_length, repeat_length in L. cbn [v6_finish]. rewrite app_length. destruct (Nat.ltb_spec (length l + length l') 16); [|lia].
  rewrite firstn_app, firstn_all, Nat.sub_diag, skipn_app, skipn_all, Nat.sub_diag. cbn [firstn skipn app]. rewrite app_nil_r.
  replace (16 - (length l + length l'))%nat with n by lia. reflexivity.
Qed.
Lemma half s l : groups s l -> (length l <= 16)%nat -> exists k, (length l = 2 * k)%nat /\ (8 = length l / 2 + (8 - k))%nat.
Proof.
  intros G L. destruct (groups_even _ _ G) as [k E]. exists (S k). split; [exact E|].
  assert (D : (length l / 2 = S k)%nat) by (rewrite E, Nat.mul_comm, Nat.div_mul by lia; reflexivity). rewrite D. lia.
Qed.
Lemma v6_complete s a : text6 s a -> parse_v6 s = Some a.
Proof.
  intros [s1 l T L|s1 l z s2 l2 G T L|z s2 l2 T L|s1 l z G L|].
  - apply v6_full; assumption.
  - unfold parse_v6. pose proof (groups_goes s1 l (B "::" ++ s2) G) as Gs. rewrite not_ell by exact Gs.
    assert (Ll : (length l + length l2 <= 14)%nat) by (rewrite !app_length, repeat_length in L; lia).
    destruct (half s1 l G ltac:(lia)) as (k & E & F). rewrite F at 1. rewrite (loop_groups_ell s1 l s2 G).
    pose proof (tail_goes _ _ T) as Gt. destruct s2 as [|c s2]; [destruct Gt|].
    rewrite (loop_tail _ _ T) by (cbn [app]; rewrite ?app_length; lia). cbn [app]. apply v6_ell_finish; [exact L|discriminate].
  - unfold parse_v6. change (has_prefix (B "::" ++ s2) (B "::")) with true. change (skipn 2 (B "::" ++ s2)) with s2. cbn iota.
    pose proof (tail_goes _ _ T) as Gt. destruct s2 as [|c s2]; [destruct Gt|].
    rewrite (loop_tail _ _ T) by (rewrite app_length, repeat_length in L; cbn [app length]; lia). exact (v6_ell_finish [] l2 (S (S z)) L ltac:(discriminate)).
  - unfold parse_v6. pose proof (groups_goes s1 l (B "::") G) as Gs. rewrite not_ell by exact Gs.
    assert (Ll : (length l <= 14)%nat) by (rewrite app_length, repeat_length in L; lia).
    destruct (half s1 l G ltac:(lia)) as (k & E & F). rewrite F at 1. rewrite <- (app_nil_r (B "::")). rewrite (loop_groups_ell s1 l [] G).
    pose proof (v6_ell_finish l [] (S (S z))) as V. rewrite !app_nil_r in V. cbn [app]. apply V; [exact L|discriminate].
  - reflexivity.
Qed.

(** *** What is read is such a text *)
Lemma tail_cons d n s l : group d n -> tail6 s l -> tail6 (d ++ B ":" ++ s) ((n / 256) :: (n mod 256) :: l).
Proof.
  intros G [s1 l1 H|s1 l1 H|s1 l1 s4 l4 H H4].
  - apply TGroups. apply GCons; assumption.
  - apply (TBoth d [n / 256; n mod 256] s1 l1); [apply GOne; exact G|exact H].
  - replace (d ++ B ":" ++ s1 ++ B ":" ++ s4) with ((d ++ B ":" ++ s1) ++ B ":" ++ s4) by (rewrite <- !app_assoc; reflexivity).
    apply (TBoth _ (n / 256 :: n mod 256 :: l1) s4 l4); [apply GCons; assumption|exact H4].
Qed.

(** One round, read backwards. *)
Lemma v6_round fuel s acc ell r : v6_loop (S fuel) s acc ell = Some r ->
  (exists q, text4 s q /\ r = ([], acc ++ q, ell) /\ match ell with None => length acc = 12%nat | Some _ => (length acc + 4 <= 16)%nat end) \/
  exists d n rest, s = d ++ rest /\ group d n /\
    ((rest = [] /\ r = ([], acc ++ [n / 256; n mod 256], ell)) \/
     (rest = B "::" /\ ell = None /\ r = ([], acc ++ [n / 256; n mod 256], Some (length (acc ++ [n / 256; n mod 256])))) \/
     (exists t, rest = B "::" ++ t /\ t <> [] /\ ell = None /\
        v6_loop fuel t (acc ++ [n / 256; n mod 256]) (Some (length (acc ++ [n / 256; n mod 256]))) = Some r) \/
     (exists t, rest = B ":" ++ t /\ goes t /\ v6_loop fuel t (acc ++ [n / 256; n mod 256]) ell = Some r)).
Proof.
  cbn [v6_loop]. destruct (hex_run s) as [d rest] eqn:E. apply hex_run_spec in E. destruct E as (-> & H & S).
  destruct (Nat.ltb_spec 4 (length d)) as [|L]; [discriminate|]. destruct (beqb d []) eqn:Ed; [discriminate|].
  assert (G : group d (hex_num d)).
  { apply group_iff. repeat split; [|exact L|exact H]. destruct d; [discriminate Ed|cbn [length]; lia]. }
  destruct (has_prefix rest (B ".")) eqn:P.
  - intros E. left. destruct ell as [e|].
    + destruct (Nat.ltb_spec 16 (length acc + 4)) as [|La]; [discriminate|]. destruct (parse_v4 (d ++ rest)) as [q|] eqn:Q; [|discriminate].
      injection E as <-. exists q. split; [apply v4_sound; exact Q|]. split; [reflexivity|exact La].
    + destruct (Nat.eqb_spec (length acc) 12) as [La|]; [|discriminate]. cbn [negb] in E. rewrite La in E. change (Nat.ltb 16 (12 + 4)) with false in E.
      cbn iota in E. destruct (parse_v4 (d ++ rest)) as [q|] eqn:Q; [|discriminate].
      injection E as <-. exists q. split; [apply v4_sound; exact Q|]. split; [reflexivity|exact La].
  - intros E. right. exists d, (hex_num d), rest. split; [reflexivity|]. split; [exact G|]. cbv zeta in E.
    destruct rest as [|c s1]; [left; injection E as <-; split; reflexivity|]. right.
    destruct (aeqb_spec c ":") as [->|]; [|discriminate]. cbn [negb] in E. destruct s1 as [|c2 s2]; [discriminate|].
    destruct (aeqb_spec c2 ":") as [->|N2].
    + destruct ell as [e|]; [discriminate|]. destruct s2 as [|c3 s3].
      * left. injection E as <-. split; [reflexivity|]. split; reflexivity.
      * right; left. exists (c3 :: s3). split; [reflexivity|]. split; [discriminate|]. split; [reflexivity|exact E].
    + right; right. exists (c2 :: s2). split; [reflexivity|]. split; [exact N2|exact E].
Qed.

Lemma loop_some_sound fuel : forall s acc e acc' ell', s <> [] -> v6_loop fuel s acc (Some e) = Some ([], acc', ell') ->
  ell' = Some e /\ exists l, tail6 s l /\ acc' = acc ++ l.
Proof.
  induction fuel as [|fuel IH]; intros s acc e acc' ell' Hs E; [cbn in E; congruence|].
  apply v6_round in E. destruct E as [(q & T & E & _)|(d & n & rest & -> & G & [(-> & E)|[(_ & E & _)|[(t & _ & _ & E & _)|(t & -> & Gt & E)]]])]; try discriminate E.
  - injection E as -> ->. split; [reflexivity|]. exists q. split; [apply TFour; exact T|reflexivity].
  - injection E as -> ->. split; [reflexivity|]. eexists. split; [|reflexivity]. rewrite app_nil_r. apply TGroups, GOne. exact G.
  - apply IH in E; [|destruct t; [destruct Gt|discriminate]]. destruct E as (-> & l & T & ->). split; [reflexivity|].
    exists (n / 256 :: n mod 256 :: l). split; [apply tail_cons; assumption|]. rewrite <- app_assoc. reflexivity.
Qed.

Lemma loop_none_sound fuel : forall s acc acc' ell', s <> [] -> v6_loop fuel s acc None = Some ([], acc', ell') ->
  (ell' = None /\ exists l, tail6 s l /\ acc' = acc ++ l) \/
  exists sl l, groups sl l /\ ell' = Some (length (acc ++ l)) /\
    ((s = sl ++ B "::" /\ acc' = acc ++ l) \/ exists t lt, s = sl ++ B "::" ++ t /\ tail6 t lt /\ acc' = (acc ++ l) ++ lt).
Proof.
  induction fuel as [|fuel IH]; intros s acc acc' ell' Hs E; [cbn in E; congruence|].
  apply v6_round in E. destruct E as [(q & T & E & _)|(d & n & rest & -> & G & [(-> & E)|[(-> & _ & E)|[(t & -> & Ht & _ & E)|(t & -> & Gt & E)]]])].
  - injection E as -> ->. left. split; [reflexivity|]. exists q. split; [apply TFour; exact T|reflexivity].
  - injection E as -> ->. left. split; [reflexivity|]. eexists. split; [|reflexivity]. rewrite app_nil_r. apply TGroups, GOne. exact G.
  - injection E as -> ->. right. exists d, [n / 256; n mod 256]. split; [apply GOne; exact G|]. split; [reflexivity|]. left. split; reflexivity.
  - apply loop_some_sound in E; [|exact Ht]. destruct E as (-> & lt & T & ->). right. exists d, [n / 256; n mod 256].
    split; [apply GOne; exact G|]. split; [reflexivity|]. right. exists t, lt. repeat split. exact T.
  - apply IH in E; [|destruct t; [destruct Gt|discriminate]].
    destruct E as [(-> & l & T & ->)|(sl & l & Gl & -> & [(-> & ->)|(t2 & lt & -> & T & ->)])].
    + left. split; [reflexivity|]. exists (n / 256 :: n mod 256 :: l). split; [apply tail_cons; assumption|]. rewrite <- app_assoc. reflexivity.
    + right. exists (d ++ B ":" ++ sl), (n / 256 :: n mod 256 :: l). split; [apply GCons; assumption|].
      rewrite <- !app_assoc. cbn [app]. split; [reflexivity|]. left. split; reflexivity.
    + right. exists (d ++ B ":" ++ sl), (n / 256 :: n mod 256 :: l). split; [apply GCons; assumption|].
      rewrite <- !app_assoc. cbn [app]. split; [reflexivity|]. right. exists t2, lt.
      split; [rewrite <- !app_assoc; reflexivity|]. split; [exact T|]. rewrite <- !app_assoc. reflexivity.
Qed.

Lemma tail_even s l : tail6 s l -> exists k, length l = (2 * k)%nat.
Proof.
  intros [s1 l1 G|s1 l1 T|s1 l1 s4 l4 G T].
  - destruct (groups_even _ _ G) as [k E]. exists (S k). exact E.
  - exists 2%nat. apply (text4_len _ _ T).
  - destruct (groups_even _ _ G) as [k E]. exists (S k + 2)%nat. rewrite app_length, E, (text4_len _ _ T). lia.
Qed.

Lemma v6_loop_len fuel : forall s acc ell s' acc' ell', (length acc + 2 * fuel = 16)%nat ->
  v6_loop fuel s acc ell = Some (s', acc', ell') -> (length acc' <= 16)%nat.
Proof.
  induction fuel as [|fuel IH]; intros s acc ell s' acc' ell' L E; [cbn in E; injection E as <- <- <-; lia|].
  assert (L2 : forall n, (length (acc ++ [n / 256; n mod 256]%N) + 2 * fuel = 16)%nat) by (intros n; rewrite app_length; cbn [length]; lia).
  apply v6_round in E. destruct E as [(q & T & E & H)|(d & n & rest & -> & G & [(-> & E)|[(-> & _ & E)|[(t & -> & Ht & _ & E)|(t & -> & Gt & E)]]])].
  - injection E as -> -> ->. rewrite app_length, (text4_len _ _ T). destruct ell; lia.
  - injection E as -> -> ->. rewrite app_length. cbn [length]. lia.
  - injection E as -> -> ->. rewrite app_length. cbn [length]. lia.
  - eapply IH; [|exact E]. apply L2.
  - eapply IH; [|exact E]. apply L2.
Qed.

Lemma fill l l' : (length l + length l' < 16)%nat -> (exists k, length l + length l' = 2 * k)%nat -> exists z,
  v6_finish (Some ([], l ++ l', Some (length l))) = Some (l ++ repeat 0 (S (S z)) ++ l') /\ length (l ++ repeat 0 (S (S z)) ++ l') = 16%nat.
Proof.
  intros L [k E]. exists (14 - (length l + length l'))%nat. assert (W : length (l ++ repeat 0 (S (S (14 - (length l + length l')))) ++ l') = 16%nat) by (rewrite !app_length, repeat_length; lia).
  split; [|exact W]. apply v6_ell_finish; [exact W|discriminate].
Qed.
Lemma finish_none acc a : v6_finish (Some ([], acc, None)) = Some a -> (length acc <= 16)%nat -> a = acc /\ length acc = 16%nat.
Proof. cbn [v6_finish]. destruct (Nat.ltb_spec (length acc) 16); [discriminate|]. intros E L. injection E as <-. split; [reflexivity|lia]. Qed.
Lemma finish_short acc e a : v6_finish (Some ([], acc, Some e)) = Some a -> (length acc < 16)%nat.
Proof. cbn [v6_finish]. destruct (Nat.ltb_spec (length acc) 16); [trivial|discriminate]. Qed.
Lemma finish_text r a : v6_finish r = Some a -> exists acc ell, r = Some ([], acc, ell).
Proof. destruct r as [[[[|c s] acc] ell]|]; try discriminate. intros _. exists acc, ell. reflexivity. Qed.

Lemma v6_sound s a : parse_v6 s = Some a -> text6 s a.
Proof.
  unfold parse_v6. destruct (has_prefix s (B "::")) eqn:P.
  - apply has_prefix_iff in P. destruct P as [s2 ->]. change (skipn 2 (B "::" ++ s2)) with s2. destruct s2 as [|c s2].
    + intros E. injection E as <-. exact Text6Zero.
    + intros E. destruct (finish_text _ _ E) as (acc & ell & R). rewrite R in E. apply loop_some_sound in R; [|discriminate].
      destruct R as (-> & l & T & ->). cbn [app] in E. pose proof (finish_short _ _ _ E) as L.
      destruct (fill [] l L) as (z & F & W); [destruct (tail_even _ _ T) as [k Ek]; exists k; exact Ek|].
      cbn [app length] in F, W. rewrite F in E. injection E as <-. apply (Text6Front z); assumption.
  - destruct s as [|c s]; [discriminate|]. intros E. destruct (finish_text _ _ E) as (acc & ell & R). pose proof R as Len.
    apply v6_loop_len in Len; [|reflexivity]. rewrite R in E. apply loop_none_sound in R; [|discriminate].
    destruct R as [(-> & l & T & ->)|(sl & l & G & -> & [(-> & ->)|(t & lt & -> & T & ->)])]; cbn [app] in *.
    + apply finish_none in E; [|exact Len]. destruct E as [-> L]. apply Text6Full; assumption.
    + pose proof (finish_short _ _ _ E) as L.
      destruct (fill l []) as (z & F & W); [cbn [length]; lia|destruct (groups_even _ _ G) as [k Ek]; exists (S k); cbn [length]; lia|].
      rewrite !app_nil_r in W. rewrite (app_nil_r (repeat 0 (S (S z)))) in F. rewrite (app_nil_r l) in F. rewrite F in E. injection E as <-. apply (Text6Back sl l z); assumption.
    + pose proof (finish_short _ _ _ E) as L. rewrite app_length in L.
      destruct (fill l lt) as (z & F & W); [exact L|destruct (groups_even _ _ G) as [k Ek]; destruct (tail_even _ _ T) as [k2 Ek2]; exists (S k + k2)%nat; lia|].
      rewrite F in E. injection E as <-. apply (Text6Mid sl l z t lt); assumption.
Qed.

(** ** Texts *)
Definition plain (c : ascii) : bool := negb (amem c (B "/%[]")).
Lemma dec_plain n : forallb plain (dec n) = true.
Proof.
  apply forallb_forall. intros c Hc. pose proof (dec_digits n) as D. rewrite Forall_forall in D. apply D in Hc.
  assert (A : forall c, implb (is_digit c) (plain c) = true) by (apply byte_forall; vm_compute; reflexivity).
  specialize (A c). rewrite Hc in A. exact A.
Qed.
Lemma hex_plain d : forallb Networks.is_hex d = true -> forallb plain d = true.
Proof.
  rewrite !forallb_forall. intros H c Hc. specialize (H c Hc). revert H.
  assert (A : forall c, implb (Networks.is_hex c) (plain c) = true) by (apply byte_forall; vm_compute; reflexivity).
  specialize (A c). destruct (Networks.is_hex c); [intros _; exact A|discriminate].
Qed.
Lemma text4_plain s a : text4 s a -> forallb plain s = true.
Proof. intros [x b c d _ _ _ _]. rewrite !forallb_app, !dec_plain. reflexivity. Qed.
Lemma group_plain d n : group d n -> forallb plain d = true.
Proof. intros G. apply group_iff in G. apply hex_plain. apply G. Qed.
Lemma groups_plain s l : groups s l -> forallb plain s = true.
Proof. induction 1 as [d n G|d n s l G R IH]; rewrite ?forallb_app, (group_plain _ _ G); [reflexivity|]. rewrite IH. reflexivity. Qed.
Lemma tail_plain s l : tail6 s l -> forallb plain s = true.
Proof.
  intros [s1 l1 G|s1 l1 T|s1 l1 s4 l4 G T]; [eapply groups_plain; exact G|eapply text4_plain; exact T|].
  rewrite !forallb_app, (groups_plain _ _ G), (text4_plain _ _ T). reflexivity.
Qed.
Lemma text6_plain s a : text6 s a -> forallb plain s = true.
Proof.
  intros [s1 l T L|s1 l z s2 l2 G T L|z s2 l2 T L|s1 l z G L|]; rewrite ?forallb_app, ?(tail_plain _ _ T), ?(groups_plain _ _ G); reflexivity.
Qed.
Lemma plain_notin s c : forallb plain s = true -> plain c = false -> ~ In c s.
Proof. rewrite forallb_forall. intros H N I. rewrite (H c I) in N. discriminate. Qed.

Definition hexish (c : ascii) : bool := Networks.is_hex c.
Lemma family_skip d s : forallb hexish d = true -> addr_family (d ++ s) = addr_family s.
Proof.
  induction d as [|c d IH]; [reflexivity|]. cbn [forallb app addr_family]. rewrite andb_true_iff. intros [H Hd]. rewrite (IH Hd).
  assert (A : forall c, implb (hexish c) (negb (amem c (B ".:%"))) = true) by (apply byte_forall; vm_compute; reflexivity).
  specialize (A c). rewrite H in A. cbn [implb] in A. destruct (aeqb_spec c "."); [subst; discriminate|].
  destruct (aeqb_spec c ":"); [subst; discriminate|]. destruct (aeqb_spec c "%"); [subst; discriminate|]. reflexivity.
Qed.
Lemma text4_family s a : text4 s a -> addr_family s = Some V4.
Proof.
  intros [x b c d _ _ _ _]. rewrite family_skip; [reflexivity|]. apply forallb_forall. intros y Hy. apply is_hex_digit.
  pose proof (dec_digits x) as D. rewrite Forall_forall in D. apply D. exact Hy.
Qed.
Lemma groups_family s l t : groups s l -> addr_family (s ++ B ":" ++ t) = Some V6.
Proof.
  intros [d n G|d n s1 l1 G R]; apply group_iff in G; rewrite <- ?app_assoc; rewrite family_skip by apply G; reflexivity.
Qed.
Lemma tail_family s l : tail6 s l -> (4 < length l)%nat -> addr_family s = Some V6.
Proof.
  intros [s1 l1 G|s1 l1 T|s1 l1 s4 l4 G T] L.
  - destruct G as [d n G|d n s2 l2 G R]; [cbn in L; lia|]. apply group_iff in G. rewrite family_skip by apply G. reflexivity.
  - rewrite (text4_len _ _ T) in L. lia.
  - apply (groups_family _ _ _ G).
Qed.
Lemma text6_family s a : text6 s a -> addr_family s = Some V6.
Proof.
  intros [s1 l T L|s1 l z s2 l2 G T L|z s2 l2 T L|s1 l z G L|].
  - apply (tail_family _ _ T). lia.
  - exact (groups_family _ _ (B ":" ++ s2) G).
  - reflexivity.
  - exact (groups_family _ _ (B ":") G).
  - reflexivity.
Qed.

Lemma amem_false c s : ~ In c s -> amem c s = false.
Proof. intros H. destruct (amem c s) eqn:E; [|reflexivity]. apply amem_In in E. contradiction. Qed.
Lemma parse_addr_iff s f a : parse_addr s = Some (f, a) <-> match f with V4 => text4 s a | V6 => text6 s a end.
Proof.
  unfold parse_addr. split.
  - destruct (addr_family s) as [[|]|]; [| |discriminate].
    + destruct (parse_v4 s) as [x|] eqn:E; [|discriminate]. intros H. injection H as <- <-. apply v4_sound. exact E.
    + destruct (amem "%" s); [discriminate|]. destruct (parse_v6 s) as [x|] eqn:E; [|discriminate]. intros H. injection H as <- <-. apply v6_sound. exact E.
  - destruct f; intros T.
    + rewrite (text4_family _ _ T), (v4_complete _ _ T). reflexivity.
    + rewrite (text6_family _ _ T), (v6_complete _ _ T). rewrite amem_false; [reflexivity|].
      apply plain_notin; [eapply text6_plain; exact T|reflexivity].
Qed.
Lemma parse_ip_iff s a : parse_ip s = Some a <-> denotes s a.
Proof.
  unfold parse_ip. split.
  - destruct (parse_addr s) as [[f x]|] eqn:E; [|discriminate]. apply parse_addr_iff in E. intros H. injection H as <-. destruct f; [apply Denotes4|apply Denotes6]; exact E.
  - intros [s1 x T|s1 x T].
    + rewrite (proj2 (parse_addr_iff s1 V4 x) T). reflexivity.
    + rewrite (proj2 (parse_addr_iff s1 V6 x) T). reflexivity.
Qed.

(** *** Bytes *)
Lemma group_lt d n : group d n -> n < 65536.
Proof.
  intros G. apply group_iff in G. destruct G as ((L1 & L2) & H & <-).
  assert (A : forall d acc, forallb Networks.is_hex d = true -> fold_left (fun a c => a * 16 + Addr.hexval c) d acc < (acc + 1) * 16 ^ N.of_nat (length d)).
  { clear. induction d as [|c d IH]; intros acc H; [cbn; lia|]. cbn [forallb] in H. apply andb_true_iff in H. destruct H as [Hc Hd]. apply hexval_lt in Hc.
    cbn [fold_left length]. specialize (IH (acc * 16 + Addr.hexval c) Hd). rewrite Nat2N.inj_succ, N.pow_succ_r'. nia. }
  specialize (A d 0 H). unfold hex_num. eapply N.lt_le_trans; [exact A|]. rewrite N.mul_1_l. change 65536 with (16 ^ 4). apply N.pow_le_mono_r; lia.
Qed.
Lemma groups_bytes s l : groups s l -> Forall (fun b => b < 256) l.
Proof.
  induction 1 as [d n G|d n s l G R IH]; apply group_lt in G; (constructor; [apply N.div_lt_upper_bound; lia|constructor; [apply N.mod_lt; lia|]]); [constructor|exact IH].
Qed.
Lemma text4_bytes s l : text4 s l -> Forall (fun b => b < 256) l.
Proof. intros [a b c d Ha Hb Hc Hd]. repeat (constructor; [assumption|]). constructor. Qed.
Lemma tail_bytes s l : tail6 s l -> Forall (fun b => b < 256) l.
Proof.
  intros [s1 l1 G|s1 l1 T|s1 l1 s4 l4 G T]; [eapply groups_bytes; exact G|eapply text4_bytes; exact T|].
  apply Forall_app. split; [eapply groups_bytes; exact G|eapply text4_bytes; exact T].
Qed.
Lemma zeros_bytes n : Forall (fun b => b < 256) (repeat 0 n).
Proof. apply Forall_forall. intros x H. apply repeat_spec in H. subst. reflexivity. Qed.
Lemma text6_address s a : text6 s a -> address a.
Proof.
  intros [s1 l T L|s1 l z s2 l2 G T L|z s2 l2 T L|s1 l z G L|]; split; try assumption; rewrite ?Forall_app; repeat split;
    eauto using tail_bytes, groups_bytes, zeros_bytes.
Qed.
Lemma mapped_address s a : text4 s a -> address (mapped ++ a).
Proof.
  intros T. split; [rewrite app_length, (text4_len _ _ T); reflexivity|]. apply Forall_app. split; [|eapply text4_bytes; exact T].
  repeat (constructor; [reflexivity|]). constructor.
Qed.

(** ** Numbers *)
Lemma decd_iff c n : decd c n <-> is_digit c = true /\ digit c = n.
Proof.
  unfold decd. split.
  - rewrite <- (N2Nat.id n) at 2. generalize (N.to_nat n). intros m H. do 10 (destruct m as [|m]; [injection H as <-; split; reflexivity|]). destruct m; discriminate H.
  - intros [H <-].
    assert (A : forall c, implb (is_digit c) (match nth_error (B "0123456789") (N.to_nat (digit c)) with Some x => aeqb x c | None => false end) = true) by (apply byte_forall; vm_compute; reflexivity).
    specialize (A c). rewrite H in A. cbn [implb] in A. destruct (nth_error _ _); [|discriminate]. apply aeqb_eq in A. subst. reflexivity.
Qed.
Definition num_of (s : bytes) (acc : N) : N := fold_left (fun a c => a * 10 + digit c) s acc.
Lemma num_mono s acc : acc <= num_of s acc.
Proof. revert acc. induction s as [|c s IH]; intros acc; cbn; [lia|]. specialize (IH (acc * 10 + digit c)). unfold num_of in IH. lia. Qed.
Lemma dtoi_sound s : forall acc v, dtoi s acc = Some v -> forallb is_digit s = true /\ v = num_of s acc.
Proof.
  induction s as [|c s IH]; intros acc v E; cbn [dtoi] in E; [injection E as <-; split; reflexivity|].
  destruct (is_digit c) eqn:D; [|discriminate]. cbv zeta in E. destruct (16777215 <=? acc * 10 + digit c); [discriminate|]. apply IH in E. destruct E as [H ->].
  split; [cbn [forallb]; rewrite D; exact H|reflexivity].
Qed.
Lemma dtoi_complete s : forall acc, forallb is_digit s = true -> num_of s acc < 16777215 -> dtoi s acc = Some (num_of s acc).
Proof.
  induction s as [|c s IH]; intros acc H L; cbn [dtoi]; [reflexivity|]. cbn [forallb] in H. apply andb_true_iff in H. destruct H as [D H]. rewrite D. cbv zeta.
  change (num_of (c :: s) acc) with (num_of s (acc * 10 + digit c)) in *. pose proof (num_mono s (acc * 10 + digit c)).
  destruct (N.leb_spec 16777215 (acc * 10 + digit c)); [lia|]. apply IH; assumption.
Qed.
Lemma number_iff s n : number s n <-> s <> [] /\ forallb is_digit s = true /\ num_of s 0 = n.
Proof.
  split.
  - induction 1 as [c n H|s n c m G IH H].
    + apply decd_iff in H. destruct H as [H <-]. repeat split; [discriminate|cbn [forallb]; rewrite H; reflexivity].
    + apply decd_iff in H. destruct H as [H <-]. destruct IH as (I1 & I2 & <-). unfold num_of. rewrite forallb_app, fold_left_app, I2. cbn [forallb fold_left andb].
      rewrite H. repeat split; [destruct s; discriminate|]. rewrite N.mul_comm. reflexivity.
  - revert n. induction s as [|c s IH] using rev_ind; intros n (L & H & <-); [congruence|].
    rewrite forallb_app in H. apply andb_true_iff in H. destruct H as [Hd Hc]. cbn [forallb] in Hc. rewrite andb_true_r in Hc.
    unfold num_of. rewrite fold_left_app. cbn [fold_left]. rewrite (N.mul_comm _ 10). destruct s as [|c' s'].
    + cbn [app fold_left]. apply Number1. apply decd_iff. split; [exact Hc|]. lia.
    + apply NumberS; [|apply decd_iff; auto]. apply IH. repeat split; [discriminate|exact Hd].
Qed.

(** ** Ranges *)
Notation ok a := (Forall (fun b => b < 256) a).
Lemma mask_len k l : length (cidr_mask k l) = l.
Proof. revert k. induction l as [|l IH]; intros k; [reflexivity|]. cbn [cidr_mask length]. rewrite IH. reflexivity. Qed.
Lemma apply_len m a : length m = length a -> length (apply_mask m a) = length a.
Proof. intros H. unfold apply_mask. rewrite map_length, combine_length. lia. Qed.
Lemma land_twice m x : N.land m (N.land m x) = N.land m x.
Proof. rewrite N.land_assoc, N.land_diag. reflexivity. Qed.
Lemma masks_eq a : forall b k l, length a = l -> length b = l ->
  forallb (fun p => fst p =? snd p) (combine (apply_mask (cidr_mask k l) (apply_mask (cidr_mask k l) a)) (apply_mask (cidr_mask k l) b)) = masked_eq k a b.
Proof.
  induction a as [|x a IH]; intros [|y b] k l Ha Hb; cbn [length] in Ha, Hb; subst l; try discriminate Hb; [reflexivity|].
  injection Hb as Hb. cbn [cidr_mask masked_eq]. unfold apply_mask in *. cbn [combine map fst snd forallb]. rewrite land_twice.
  rewrite (N.land_comm _ x), (N.land_comm _ y). f_equal. apply IH; [reflexivity|exact Hb].
Qed.
Lemma mask_byte_full k : (8 <= k)%nat -> mask_byte k = 255.
Proof. intros H. unfold mask_byte. rewrite Nat.min_r by exact H. reflexivity. Qed.
Lemma land_full x : x < 256 -> N.land 255 x = x.
Proof. intros H. rewrite N.land_comm. change 255 with (N.ones 8). rewrite N.land_ones. apply N.mod_small. exact H. Qed.
Lemma mask_full l : forall k a, length a = l -> ok a -> (8 * l <= k)%nat -> apply_mask (cidr_mask k l) a = a.
Proof.
  induction l as [|l IH]; intros k [|x a] L O H; try discriminate L; [reflexivity|]. injection L as L. inversion O as [|? ? Hx Ha]; subst.
  unfold apply_mask in *. cbn [cidr_mask combine map fst snd]. rewrite mask_byte_full, land_full by (assumption || lia). f_equal. apply IH; [reflexivity|exact Ha|lia].
Qed.
Lemma mask_split k l1 l2 : cidr_mask k (l1 + l2) = cidr_mask k l1 ++ cidr_mask (k - 8 * l1) l2.
Proof.
  revert k. induction l1 as [|l1 IH]; intros k; [rewrite Nat.mul_0_r, Nat.sub_0_r; reflexivity|]. cbn [Nat.add cidr_mask app]. f_equal. rewrite IH. do 2 f_equal. lia.
Qed.
Lemma apply_app m1 m2 a1 a2 : length m1 = length a1 -> apply_mask (m1 ++ m2) (a1 ++ a2) = apply_mask m1 a1 ++ apply_mask m2 a2.
Proof.
  revert a1. induction m1 as [|m m1 IH]; intros [|x a1] H; try discriminate H; [reflexivity|]. injection H as H. unfold apply_mask in *. cbn [app combine map fst snd].
  f_equal. apply IH. exact H.
Qed.
Lemma nth_mask l : forall i k a, (i < l)%nat -> length a = l -> nth i (apply_mask (cidr_mask k l) a) 0 = N.land (mask_byte (k - 8 * i)) (nth i a 0).
Proof.
  induction l as [|l IH]; intros i k [|x a] Hi L; try discriminate L; [lia|]. injection L as L. unfold apply_mask in *. cbn [cidr_mask combine map fst snd].
  destruct i as [|i]; [rewrite Nat.mul_0_r, Nat.sub_0_r; reflexivity|]. cbn [nth]. rewrite IH by (lia || exact L). do 2 f_equal. lia.
Qed.
Lemma mask_255 k x : x < 256 -> N.land (mask_byte k) x = 255 -> (8 <= k)%nat.
Proof.
  intros Hx E. destruct (Nat.le_gt_cases 8 k) as [|H]; [assumption|exfalso]. rewrite N.land_comm, SourceAddr.land_mask in E by exact Hx.
  rewrite Nat.min_l in E by lia. remember (8 - N.of_nat k) as j eqn:J. destruct j as [|j] using N.peano_ind; [lia|]. rewrite N.pow_succ_r' in E.
  remember (x / (2 * 2 ^ j)) as q. clear -E. lia.
Qed.

Lemma masked_prefix p : forall n x a, ok p -> ok a -> length a = (length p + length x)%nat ->
  masked_eq (8 * length p + n) (p ++ x) a = true <-> exists y, a = p ++ y /\ masked_eq n x y = true.
Proof.
  induction p as [|c p IH]; intros n x a Op Oa L.
  - cbn [app length] in *. rewrite Nat.mul_0_r. split; [intros H; exists a; auto|intros (y & -> & H); exact H].
  - destruct a as [|d a]; [discriminate L|]. injection L as L. inversion Op as [|? ? Hc Op']; inversion Oa as [|? ? Hd Oa']; subst.
    cbn [app masked_eq length]. rewrite mask_byte_full by lia. rewrite !(N.land_comm _ 255), !land_full by assumption.
    replace (8 * S (length p) + n - 8)%nat with (8 * length p + n)%nat by lia. rewrite andb_true_iff, N.eqb_eq, (IH n x a Op' Oa' L). split.
    + intros (-> & y & -> & H). exists y. split; [reflexivity|exact H].
    + intros (y & E & H). injection E as -> ->. split; [reflexivity|]. exists y. auto.
Qed.

Lemma mapped_ok : ok mapped.
Proof. repeat (constructor; [reflexivity|]). constructor. Qed.
Lemma list_eqb_iff a b : list_eqb a b = true <-> a = b.
Proof.
  unfold list_eqb. revert b. induction a as [|x a IH]; intros [|y b]; cbn; try (split; [discriminate|congruence]); [tauto|].
  specialize (IH b). rewrite andb_true_iff in IH. rewrite !andb_true_iff, N.eqb_eq. split.
  - intros (H & -> & F). f_equal. apply IH. split; assumption.
  - intros E. injection E as -> ->. destruct (proj2 IH eq_refl) as [H F]. repeat split; assumption.
Qed.
Lemma to4_16 a : length a = 16%nat -> (exists x, a = mapped ++ x /\ to4 a = Some x /\ length x = 4%nat) \/ (~ is_v4 a /\ to4 a = None).
Proof.
  intros L. unfold to4. rewrite L. cbn [Nat.eqb andb]. destruct (list_eqb (firstn 12 a) v4_prefix) eqn:E.
  - left. apply list_eqb_iff in E. exists (skipn 12 a). rewrite <- (firstn_skipn 12 a) at 1. rewrite E. split; [reflexivity|]. split; [reflexivity|].
    rewrite skipn_length, L. reflexivity.
  - right. split; [|reflexivity]. intros (x & ->). assert (T : list_eqb (firstn 12 (mapped ++ x)) v4_prefix = true) by reflexivity. congruence.
Qed.
Lemma to4_4 a : length a = 4%nat -> to4 a = Some a.
Proof. intros L. unfold to4. rewrite L. reflexivity. Qed.

Lemma agree_masked k a b : address a -> address b -> (k <= 128)%nat -> masked_eq k a b = true <-> agree (N.of_nat k) a b.
Proof.
  intros [La Oa] [Lb Ob] H. rewrite SourceAddr.masked_eq_iff by (assumption || lia). rewrite La. unfold agree. change (8 * N.of_nat 16) with 128. reflexivity.
Qed.

Lemma address_app p x : length p = 12%nat -> length x = 4%nat -> ok p -> ok x -> address (p ++ x).
Proof. intros L1 L2 O1 O2. split; [rewrite app_length, L1, L2; reflexivity|]. apply Forall_app. auto. Qed.

Lemma contains4 x n a : length x = 4%nat -> ok x -> (n <= 32)%nat -> address a ->
  cidr_contains (Cidr (apply_mask (cidr_mask n 4) x) (cidr_mask n 4)) a = true <-> covers (mapped ++ x) (96 + N.of_nat n) a.
Proof.
  intros L O H A. pose proof A as [La Oa]. unfold covers.
  replace (96 + N.of_nat n) with (N.of_nat (8 * length mapped + n)) by (cbn [length mapped]; lia).
  rewrite <- agree_masked; [|apply address_app; try assumption; [reflexivity|apply mapped_ok]|exact A|cbn [length mapped]; lia].
  rewrite masked_prefix; [|apply mapped_ok|exact Oa|rewrite La, L; reflexivity].
  assert (Lm : length (apply_mask (cidr_mask n 4) x) = 4%nat) by (rewrite apply_len; rewrite ?mask_len; auto).
  unfold cidr_contains, number_mask. cbn [c_ip c_mask]. rewrite (to4_4 _ Lm), mask_len. cbn [Nat.eqb].
  destruct (to4_16 a La) as [(y & -> & E & Ly)|[Nv E]]; rewrite E.
  - rewrite Ly, Lm. cbn [Nat.eqb andb]. rewrite masks_eq by assumption. split.
    + intros M. split; [exists y; auto|]. cbn [length mapped]. lia.
    + intros [(z & Ez & M) _]. apply app_inv_head in Ez. subst z. exact M.
  - rewrite La, Lm. cbn [Nat.eqb andb]. split; [discriminate|]. intros [(z & Ez & _) _]. destruct Nv. exists z. exact Ez.
Qed.

Lemma app_inj_pivot_len (a b c d : list N) : length a = length c -> a ++ b = c ++ d -> a = c /\ b = d.
Proof.
  revert c. induction a as [|x a IH]; intros [|y c] L E; try discriminate L; [auto|]. injection L as L. injection E as -> E.
  destruct (IH c L E) as [-> ->]. auto.
Qed.
Lemma split16 n : cidr_mask n 16 = cidr_mask n 12 ++ cidr_mask (n - 96) 4.
Proof. exact (mask_split n 12 4). Qed.
Lemma skip16 n : skipn 12 (cidr_mask n 16) = cidr_mask (n - 96) 4.
Proof.
  rewrite split16, skipn_app, mask_len, Nat.sub_diag. rewrite skipn_all2 by (rewrite mask_len; lia). reflexivity.
Qed.
Lemma contains6 b n a : address b -> (n <= 128)%nat -> address a ->
  cidr_contains (Cidr (apply_mask (cidr_mask n 16) b) (cidr_mask n 16)) a = true <-> covers b (N.of_nat n) a.
Proof.
  intros Ab H A. pose proof A as [La Oa]. pose proof Ab as [Lb Ob]. unfold covers. rewrite <- agree_masked by assumption.
  assert (Lm : length (apply_mask (cidr_mask n 16) b) = 16%nat) by (rewrite apply_len; rewrite ?mask_len; auto).
  unfold cidr_contains, number_mask. cbn [c_ip c_mask]. rewrite mask_len.
  destruct (to4_16 _ Lm) as [(x & Ex & E & Lx)|[Nb E]]; rewrite E.
  - (* the range is one of IPv4 addresses *)
    assert (N96 : (96 <= n)%nat).
    { pose proof (nth_mask 16 11 n b ltac:(lia) Lb) as Q. rewrite Ex in Q. change (nth 11 (mapped ++ x) 0) with 255 in Q. symmetry in Q.
      apply mask_255 in Q; [lia|]. rewrite Forall_forall in Ob. apply Ob. apply nth_In. lia. }
    cbn [Nat.eqb].
    assert (S : b = firstn 12 b ++ skipn 12 b) by (symmetry; apply firstn_skipn).
    assert (L1 : length (firstn 12 b) = 12%nat) by (rewrite firstn_length; lia).
    assert (L2 : length (skipn 12 b) = 4%nat) by (rewrite skipn_length; lia).
    assert (O1 : ok (firstn 12 b)) by (rewrite S in Ob; apply Forall_app in Ob; apply Ob).
    rewrite S, (split16 n), apply_app in Ex by (rewrite mask_len; symmetry; exact L1).
    rewrite (mask_full 12) in Ex by (assumption || lia).
    assert (E12 : firstn 12 b = mapped /\ apply_mask (cidr_mask (n - 96) 4) (skipn 12 b) = x).
    { apply app_inj_pivot_len; [exact L1|exact Ex]. }
    destruct E12 as [E1 E2]. rewrite E1 in S. rewrite skip16.
    rewrite Lx. rewrite S. 
    assert (Q : masked_eq n (mapped ++ skipn 12 b) a = masked_eq (8 * length mapped + (n - 96)) (mapped ++ skipn 12 b) a) by (f_equal; cbn [length mapped]; lia).
    rewrite Q. clear Q.
    rewrite masked_prefix; [|apply mapped_ok|exact Oa|rewrite La, L2; reflexivity]. rewrite <- E2.
    destruct (to4_16 a La) as [(y & -> & Ea & Ly)|[Nv Ea]]; rewrite Ea.
    + rewrite Ly. cbn [Nat.eqb andb]. rewrite masks_eq by assumption. split.
      * intros M. split; [exists y; auto|]. lia.
      * intros [(z & Ez & M) _]. apply app_inv_head in Ez. subst z. exact M.
    + rewrite La. cbn [Nat.eqb andb]. split; [discriminate|]. intros [(z & Ez & _) _]. destruct Nv. exists z. exact Ez.
  - cbn [Nat.eqb]. rewrite Lm. cbn [Nat.eqb andb]. rewrite Lm.
    destruct (to4_16 a La) as [(y & Ey & Ea & Ly)|[Nv Ea]]; rewrite Ea.
    + rewrite Ly. cbn [Nat.eqb andb]. split; [discriminate|]. intros [M V]. destruct (Nat.le_gt_cases 96 n) as [H96|H96].
      2:{ destruct V; [lia|]. exists y. exact Ey. }
      destruct Nb. (* b is then mapped as well *)
      exists (apply_mask (cidr_mask (n - 96) 4) (skipn 12 b)).
      assert (S : b = firstn 12 b ++ skipn 12 b) by (symmetry; apply firstn_skipn).
      assert (L1 : length (firstn 12 b) = 12%nat) by (rewrite firstn_length; lia).
      assert (O1 : ok (firstn 12 b)) by (rewrite S in Ob; apply Forall_app in Ob; apply Ob).
      replace n with (8 * length (firstn 12 b) + (n - 96))%nat in M by (rewrite L1; lia). rewrite S in M at 2.
      apply masked_prefix in M; [|exact O1|exact Oa|rewrite La, L1, skipn_length; lia]. destruct M as (z & Ez & _).
      rewrite Ez in Ey. destruct (app_inj_pivot_len _ _ mapped _ L1 Ey) as [E1 _].
      rewrite S at 1. rewrite (split16 n), apply_app by (rewrite mask_len; symmetry; exact L1). rewrite (mask_full 12) by (assumption || lia).
      rewrite E1. reflexivity.
    + rewrite La. cbn [Nat.eqb andb]. rewrite masks_eq by assumption. split; [intros M; split; [exact M|intros _; exact Nv]|intros [M _]; exact M].
Qed.

Lemma cut_slash s m : forallb plain s = true -> cut_on "/" (s ++ B "/" ++ m) = (s, Some m).
Proof. intros H. apply cut_on_app. apply plain_notin; [exact H|reflexivity]. Qed.
Lemma cidr_iff s n : parse_cidr s = Some n <->
  exists f t m x k, s = t ++ B "/" ++ m /\ parse_addr t = Some (f, x) /\ number m k /\
    let len := match f with V4 => 4%nat | V6 => 16%nat end in
    k <= N.of_nat (8 * len) /\ n = Cidr (apply_mask (cidr_mask (N.to_nat k) len) x) (cidr_mask (N.to_nat k) len).
Proof.
  unfold parse_cidr. split.
  - pose proof (cut_on_spec "/" s) as C. destruct (cut_on "/" s) as [t [m|]]; [|discriminate]. destruct C as [-> _].
    destruct (parse_addr t) as [[f x]|] eqn:P; [|discriminate]. destruct m as [|c m]; [discriminate|].
    destruct (dtoi (c :: m) 0) as [k|] eqn:D; [|discriminate]. cbv zeta. destruct (N.ltb_spec (N.of_nat (8 * match f with V4 => 4 | V6 => 16 end)) k) as [|L]; [discriminate|].
    intros E. injection E as <-. apply dtoi_sound in D. destruct D as [D ->].
    exists f, t, (c :: m), x, (num_of (c :: m) 0). split; [reflexivity|]. split; [exact P|]. split; [apply number_iff; repeat split; [discriminate|exact D]|]. split; [exact L|reflexivity].
  - intros (f & t & m & x & k & -> & P & Nm & L & ->). assert (Pl : forallb plain t = true).
    { apply parse_addr_iff in P. destruct f; [eapply text4_plain|eapply text6_plain]; exact P. }
    rewrite cut_slash by exact Pl. rewrite P. apply number_iff in Nm. destruct Nm as (Nn & D & <-). destruct m as [|c m]; [congruence|].
    assert (L128 : num_of (c :: m) 0 <= 128).
    { destruct f; [change (N.of_nat (8 * 4)) with 32 in L|change (N.of_nat (8 * 16)) with 128 in L]; lia. }
    rewrite dtoi_complete by (exact D || lia). cbv zeta. destruct (N.ltb_spec (N.of_nat (8 * match f with V4 => 4 | V6 => 16 end)) (num_of (c :: m) 0)) as [B|]; [destruct f; lia|].
    reflexivity.
Qed.

Lemma range_contains s base k n a : range s base k -> parse_cidr s = Some n -> address a -> cidr_contains n a = true <-> covers base k a.
Proof.
  intros R P A. apply cidr_iff in P. destruct P as (f & t & m & x & j & E & P & Nm & L & ->).
  assert (U : forall t2 m2, forallb plain t2 = true -> t2 ++ B "/" ++ m2 = t ++ B "/" ++ m -> t2 = t /\ m2 = m).
  { intros t2 m2 Pl Et. assert (Pt : forallb plain t = true) by (apply parse_addr_iff in P; destruct f; [eapply text4_plain|eapply text6_plain]; exact P).
    pose proof (cut_slash t2 m2 Pl) as C1. rewrite Et, cut_slash in C1 by exact Pt. injection C1 as -> ->. auto. }
  assert (V : forall m2 j1 j2, number m2 j1 -> number m2 j2 -> j1 = j2).
  { intros m2 j1 j2 N1 N2. apply number_iff in N1. apply number_iff in N2. destruct N1 as (_ & _ & <-). destruct N2 as (_ & _ & <-). reflexivity. }
  destruct R as [t2 x2 m2 j2 T Nm2 L2|t2 x2 m2 j2 T Nm2 L2].
  - destruct (U t2 m2 (text4_plain _ _ T) E) as [-> ->]. rewrite (proj2 (parse_addr_iff t V4 x2) T) in P. injection P as <- <-.
    rewrite (V _ _ _ Nm Nm2) in *. rewrite contains4; [rewrite N2Nat.id; reflexivity|apply (text4_len _ _ T)|apply (text4_bytes _ _ T)|lia|exact A].
  - destruct (U t2 m2 (text6_plain _ _ T) E) as [-> ->]. rewrite (proj2 (parse_addr_iff t V6 x2) T) in P. injection P as <- <-.
    rewrite (V _ _ _ Nm Nm2) in *. rewrite contains6; [rewrite N2Nat.id; reflexivity|apply (text6_address _ _ T)|lia|exact A].
Qed.
Lemma range_iff s : (exists n, parse_cidr s = Some n) <-> exists base k, range s base k.
Proof.
  split.
  - intros [n P]. apply cidr_iff in P. destruct P as (f & t & m & x & j & -> & P & Nm & L & _). apply parse_addr_iff in P. cbv zeta in L.
    destruct f; eexists _, _; [apply Range4|apply Range6]; eauto.
  - intros (base & k & [t x m n T Nm L|t x m n T Nm L]); eexists; apply cidr_iff.
    + exists V4, t, m, x, n. split; [reflexivity|]. split; [apply parse_addr_iff; exact T|]. split; [exact Nm|]. split; [exact L|reflexivity].
    + exists V6, t, m, x, n. split; [reflexivity|]. split; [apply parse_addr_iff; exact T|]. split; [exact Nm|]. split; [exact L|reflexivity].
Qed.

Lemma loopback_contains a : address a -> set_contains loopback a = true <-> covers (mapped ++ [127; 0; 0; 0]) 104 a \/ covers (repeat 0 15 ++ [1]) 128 a.
Proof.
  intros A. unfold set_contains, loopback. cbn [existsb]. rewrite orb_false_r, orb_true_iff.
  assert (A1 : cidr_contains (Cidr [127; 0; 0; 0] (cidr_mask 8 4)) a = true <-> covers (mapped ++ [127; 0; 0; 0]) 104 a).
  { apply (contains4 [127; 0; 0; 0] 8 a); [reflexivity|repeat (constructor; [reflexivity|]); constructor|lia|exact A]. }
  assert (A2 : cidr_contains (Cidr (repeat 0 15 ++ [1]) (cidr_mask 128 16)) a = true <-> covers (repeat 0 15 ++ [1]) 128 a).
  { apply (contains6 (repeat 0 15 ++ [1]) 128 a); [|lia|exact A]. split; [reflexivity|]. repeat (constructor; [reflexivity|]). constructor. }
  rewrite A1, A2. reflexivity.
Qed.

Lemma proxies_valid l : (exists set, load_proxies l = Some set) <-> Forall proxy_valid l.
Proof.
  induction l as [|s l IH]; [split; [constructor|exists []; reflexivity]|]. cbn [load_proxies]. split.
  - intros [set E]. destruct (load_proxies l) as [t|] eqn:Et; [|destruct (beqb s (B "localhost")); [discriminate|destruct (parse_cidr s); discriminate]].
    constructor; [|apply IH; exists t; reflexivity]. destruct (beqb_spec s (B "localhost")) as [->|Ns]; [left; reflexivity|]. right.
    destruct (parse_cidr s) as [n|] eqn:P; [|discriminate]. apply range_iff. exists n. exact P.
  - intros H. inversion H as [|? ? Hs Hl]; subst. apply IH in Hl. destruct Hl as [t ->].
    destruct (beqb_spec s (B "localhost")) as [->|Ns]; [eexists; reflexivity|]. destruct Hs as [Hs|Hs]; [contradiction|]. apply range_iff in Hs. destruct Hs as [n ->]. eexists. reflexivity.
Qed.
Lemma proxies_contain l : forall set a, load_proxies l = Some set -> address a -> set_contains set a = true <-> exists s, In s l /\ proxy_word s a.
Proof.
  induction l as [|s l IH]; intros set a E A; cbn [load_proxies] in E.
  - injection E as <-. split; [discriminate|intros (s & [] & _)].
  - destruct (load_proxies l) as [t|] eqn:Et; [|destruct (beqb s (B "localhost")); [discriminate|destruct (parse_cidr s); discriminate]].
    assert (H : exists h, (if beqb s (B "localhost") then Some loopback else option_map (fun n => [n]) (parse_cidr s)) = Some h /\ set = h ++ t).
    { destruct (if beqb s (B "localhost") then Some loopback else option_map (fun n => [n]) (parse_cidr s)) as [h|]; [|discriminate]. injection E as <-. exists h. auto. }
    destruct H as (h & Eh & ->). unfold set_contains. rewrite existsb_app, orb_true_iff. fold (set_contains h a) (set_contains t a). rewrite (IH t a eq_refl A).
    assert (W : set_contains h a = true <-> proxy_word s a).
    { unfold proxy_word. destruct (beqb_spec s (B "localhost")) as [->|Ns].
      - injection Eh as <-. rewrite loopback_contains by exact A. split; [intros H; left; auto|intros [[_ H]|[H _]]; [exact H|congruence]].
      - destruct (parse_cidr s) as [n|] eqn:P; [|discriminate]. injection Eh as <-. unfold set_contains. cbn [existsb]. rewrite orb_false_r. split.
        + intros H. right. split; [exact Ns|]. destruct (proj1 (range_iff s) (ex_intro _ n P)) as (base & k & R). exists base, k. split; [exact R|]. eapply range_contains; eassumption.
        + intros [[H _]|[_ (base & k & R & C)]]; [contradiction|]. eapply range_contains; eassumption. }
    rewrite W. split.
    + intros [H|(s' & I' & H)]; [exists s; split; [left; reflexivity|exact H]|exists s'; split; [right; exact I'|exact H]].
    + intros (s' & [<-|I'] & H); [left; exact H|right; exists s'; auto].
Qed.

(** Texts denote addresses. *)
Lemma denotes_address s a : denotes s a -> address a.
Proof. intros [t x T|t x T]; [apply (mapped_address _ _ T)|apply (text6_address _ _ T)]. Qed.
Lemma denotes_fun s a b : denotes s a -> denotes s b -> a = b.
Proof. intros H1 H2. apply parse_ip_iff in H1. apply parse_ip_iff in H2. congruence. Qed.
