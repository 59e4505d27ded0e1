From Verif.Base Require Import Bytes.
From Verif.Model Require Import TimeFmt.
From Verif.Spec Require Import TimeFmt.
From Coq Require Import ZArith.
Open Scope Z_scope.

(** ** The calendar *)

Definition valid_date (y m d : Z) : Prop := 1 <= m <= 12 /\ 1 <= d <= days_in y m.

Definition year_start (y : Z) : Z := let p := y - 1 in 365 * p + p / 4 - p / 100 + p / 400.

(** The second half of [civil_of_days]: month and day of a day of the year. *)
Definition in_year (leap : bool) (d : Z) : Z * Z :=
  if leap && (d =? 59) then (2, 29)
  else
    let d := if leap && (59 <? d) then d - 1 else d in
    let month := d / 31 in
    let end_ := days_before (month + 1) in
    let '(month, begin) := if end_ <=? d then (month + 1, end_) else (month, days_before month) in
    (month + 1, d - begin + 1).

Definition in_year_ok (leap : bool) (d : Z) : bool :=
  let '(m, dd) := in_year leap d in
  (1 <=? m) && (m <=? 12) && (1 <=? dd) &&
  (dd <=? (if (m =? 2) && leap then 29 else days_before m - days_before (m - 1))) &&
  (days_before (m - 1) + (if leap && (3 <=? m) then 1 else 0) + dd - 1 =? d).

Lemma in_year_spec (leap : bool) d : 0 <= d < 365 + (if leap then 1 else 0) -> in_year_ok leap d = true.
Proof.
  intros H. assert (A : forallb (in_year_ok true) (map Z.of_nat (seq 0 366)) && forallb (in_year_ok false) (map Z.of_nat (seq 0 365)) = true)
    by (vm_compute; reflexivity).
  apply andb_true_iff in A as [A1 A2]. rewrite forallb_forall in A1, A2.
  destruct leap; [apply A1|apply A2]; apply in_map_iff; exists (Z.to_nat d); (split; [lia|apply in_seq; lia]).
Qed.

(** The first half: the year and the day of the year. *)
Definition year_of (d : Z) : Z * Z :=
  let n := d / 146097 in
  let y := 400 * n in
  let d := d - 146097 * n in
  let n := d / 36524 in
  let n := n - n / 4 in
  let y := y + 100 * n in
  let d := d - 36524 * n in
  let n := d / 1461 in
  let y := y + 4 * n in
  let d := d - 1461 * n in
  let n := d / 365 in
  let n := n - n / 4 in
  (y + n + 1, d - 365 * n).

Lemma civil_split n : civil_of_days n =
  let '(y, d) := year_of n in let '(m, dd) := in_year (is_leap y) d in (y, m, dd).
Proof.
  unfold civil_of_days, year_of, in_year. cbv zeta.
  set (y := 400 * (n / 146097) + _ + _ + _ + 1). set (d := _ - 365 * _).
  destruct (is_leap y && (d =? 59)); [reflexivity|].
  destruct (days_before _ <=? _); reflexivity.
Qed.

Lemma year_of_spec n : let '(y, d) := year_of n in year_start y + d = n /\ 0 <= d < 365 + (if is_leap y then 1 else 0).
Proof.
  unfold year_of. cbv zeta.
  pose proof (Z.div_mod n 146097 ltac:(lia)) as E0. pose proof (Z.mod_pos_bound n 146097 ltac:(lia)) as B0.
  set (k := n / 146097) in *. set (d0 := n - 146097 * k). assert (H0 : 0 <= d0 < 146097) by lia.
  assert (En : n = 146097 * k + d0) by lia. clearbody d0. clear E0 B0. clearbody k.
  pose proof (Z.div_mod d0 36524 ltac:(lia)) as E1. pose proof (Z.mod_pos_bound d0 36524 ltac:(lia)) as B1.
  set (q1 := d0 / 36524) in *. generalize dependent (d0 mod 36524). intros r1 E1 B1.
  assert (Q1 : 0 <= q1 <= 4) by lia. assert (D1 : q1 / 4 = if q1 =? 4 then 1 else 0).
  { assert (C : q1 = 0 \/ q1 = 1 \/ q1 = 2 \/ q1 = 3 \/ q1 = 4) by lia. clear - C. clearbody q1. intuition (subst; reflexivity). }
  rewrite D1. set (n1 := q1 - (if q1 =? 4 then 1 else 0)). set (d1 := d0 - 36524 * n1).
  assert (N1 : 0 <= n1 <= 3) by (unfold n1; destruct (Z.eqb_spec q1 4); lia).
  assert (R1 : 0 <= d1 /\ (d1 < 36524 \/ (n1 = 3 /\ d1 = 36524))).
  { unfold d1, n1. destruct (Z.eqb_spec q1 4); lia. }
  assert (F1 : d0 = 36524 * n1 + d1) by (unfold d1; lia). clearbody d1 n1. clear D1 E1 B1 Q1 q1 r1 H0.
  pose proof (Z.div_mod d1 1461 ltac:(lia)) as E2. pose proof (Z.mod_pos_bound d1 1461 ltac:(lia)) as B2.
  set (n2 := d1 / 1461) in *. set (d2 := d1 - 1461 * n2). assert (F2 : d1 = 1461 * n2 + d2) by lia.
  assert (H2 : 0 <= d2 < 1461) by lia. assert (N2 : 0 <= n2 <= 24) by lia.
  assert (R2 : n2 = 24 -> d2 < 1460 \/ (n1 = 3 /\ d2 = 1460)) by lia.
  clearbody d2. clear E2 B2. clearbody n2.
  pose proof (Z.div_mod d2 365 ltac:(lia)) as E3. pose proof (Z.mod_pos_bound d2 365 ltac:(lia)) as B3.
  set (q3 := d2 / 365) in *. generalize dependent (d2 mod 365). intros r3 E3 B3.
  assert (Q3 : 0 <= q3 <= 4) by lia. assert (D3 : q3 / 4 = if q3 =? 4 then 1 else 0).
  { assert (C : q3 = 0 \/ q3 = 1 \/ q3 = 2 \/ q3 = 3 \/ q3 = 4) by lia. clear - C. clearbody q3. intuition (subst; reflexivity). }
  rewrite D3. set (n3 := q3 - (if q3 =? 4 then 1 else 0)). set (d3 := d2 - 365 * n3).
  assert (N3 : 0 <= n3 <= 3) by (unfold n3; destruct (Z.eqb_spec q3 4); lia).
  assert (R3 : 0 <= d3 /\ (d3 < 365 \/ (n3 = 3 /\ d3 = 365))).
  { unfold d3, n3. destruct (Z.eqb_spec q3 4); lia. }
  assert (F3 : d2 = 365 * n3 + d3) by (unfold d3; lia). clearbody d3 n3. clear D3 E3 B3 Q3 q3 r3.
  set (y := 400 * k + 100 * n1 + 4 * n2 + n3 + 1).
  assert (P4 : (y - 1) / 4 = 100 * k + 25 * n1 + n2) by (symmetry; apply Z.div_unique with n3; unfold y; lia).
  assert (P100 : (y - 1) / 100 = 4 * k + n1) by (symmetry; apply Z.div_unique with (4 * n2 + n3); unfold y; lia).
  assert (P400 : (y - 1) / 400 = k) by (symmetry; apply Z.div_unique with (100 * n1 + 4 * n2 + n3); unfold y; lia).
  split.
  - unfold year_start. cbv zeta. rewrite P4, P100, P400. unfold y. lia.
  - split; [lia|]. destruct R3 as [_ [R3|[R3 R4]]]; [destruct (is_leap y); lia|].
    assert (Hl : is_leap y = true); [|rewrite Hl; lia]. unfold is_leap.
    assert (M4 : y mod 4 = 0) by (symmetry; apply Z.mod_unique with (100 * k + 25 * n1 + n2 + 1); unfold y; lia).
    rewrite M4. cbn [Z.eqb andb]. destruct (Z.eq_dec n2 24) as [E24|E24].
    + assert (n1 = 3) by lia. assert (M400 : y mod 400 = 0) by (symmetry; apply Z.mod_unique with (k + 1); unfold y; lia).
      rewrite M400. apply orb_true_r.
    + assert (M100 : y mod 100 = 4 * n2 + 4) by (symmetry; apply Z.mod_unique with (4 * k + n1); unfold y; lia).
      rewrite M100. destruct (Z.eqb_spec (4 * n2 + 4) 0); [lia|reflexivity].
Qed.

Definition month_start (y m : Z) : Z := days_before (m - 1) + (if is_leap y && (3 <=? m) then 1 else 0).

Lemma days_of_civil_eq y m d : days_of_civil y m d = year_start y + month_start y m + d - 1.
Proof. unfold days_of_civil, year_start, month_start. cbv zeta. ring. Qed.

Lemma civil_spec n : let '(y, m, d) := civil_of_days n in valid_date y m d /\ days_of_civil y m d = n.
Proof.
  rewrite civil_split. pose proof (year_of_spec n) as Y. destruct (year_of n) as [y d]. destruct Y as [Y1 Y2].
  pose proof (in_year_spec (is_leap y) d Y2) as M. unfold in_year_ok in M. destruct (in_year (is_leap y) d) as [m dd].
  repeat (apply andb_true_iff in M as [M ?]). rewrite ?Z.leb_le, ?Z.eqb_eq in *.
  rewrite days_of_civil_eq. unfold valid_date, days_in, month_start. lia.
Qed.

(** ** Order of dates *)

Lemma days_before_step m : 1 <= m <= 12 -> 28 <= days_before m - days_before (m - 1) <= 31.
Proof.
  intros H. assert (A : forallb (fun x => (28 <=? days_before x - days_before (x - 1)) && (days_before x - days_before (x - 1) <=? 31))
    [1; 2; 3; 4; 5; 6; 7; 8; 9; 10; 11; 12] = true) by (vm_compute; reflexivity).
  rewrite forallb_forall in A. assert (Hi : In m [1; 2; 3; 4; 5; 6; 7; 8; 9; 10; 11; 12]) by (cbn; lia).
  specialize (A m Hi). apply andb_true_iff in A. rewrite !Z.leb_le in A. lia.
Qed.

Lemma month_end y m : 1 <= m <= 12 -> month_start y m + days_in y m = month_start y (m + 1).
Proof.
  intros H. unfold month_start, days_in. replace (m + 1 - 1) with m by lia.
  destruct (Z.eqb_spec m 2) as [->|Hne]; [destruct (is_leap y); reflexivity|]. cbn [andb].
  destruct (is_leap y); cbn [andb]; [|lia].
  destruct (Z.leb_spec 3 m); destruct (Z.leb_spec 3 (m + 1)); lia.
Qed.

Lemma month_start_mono y m m' : 1 <= m -> m < m' -> m' <= 13 -> month_start y m + days_in y m <= month_start y m'.
Proof.
  intros H1 H2 H3. assert (K : forall j : nat, m + 1 + Z.of_nat j <= 13 -> month_start y (m + 1) <= month_start y (m + 1 + Z.of_nat j)).
  { induction j as [|j IH]; intros Hj; [rewrite Z.add_0_r; lia|].
    replace (m + 1 + Z.of_nat (S j)) with (m + 1 + Z.of_nat j + 1) by lia. rewrite <- (month_end y (m + 1 + Z.of_nat j)) by lia.
    assert (0 <= days_in y (m + 1 + Z.of_nat j)).
    { unfold days_in. destruct ((_ =? 2) && is_leap y); [lia|]. pose proof (days_before_step (m + 1 + Z.of_nat j)). lia. }
    specialize (IH ltac:(lia)). lia. }
  rewrite month_end by lia. replace m' with (m + 1 + Z.of_nat (Z.to_nat (m' - m - 1))) by lia. apply K. lia.
Qed.

Lemma year_step y : year_start (y + 1) = year_start y + 365 + (if is_leap y then 1 else 0).
Proof.
  unfold year_start. cbv zeta. replace (y + 1 - 1) with y by lia.
  assert (D : forall k, 0 < k -> y / k = (y - 1) / k + (if y mod k =? 0 then 1 else 0)).
  { intros k Hk. pose proof (Z.div_mod y k ltac:(lia)) as E. pose proof (Z.mod_pos_bound y k Hk) as B.
    destruct (Z.eqb_spec (y mod k) 0) as [E0|E0].
    - assert ((y - 1) / k = y / k - 1); [|lia]. symmetry. apply Z.div_unique with (k - 1); [lia|].
      rewrite E0 in E. rewrite E at 1. ring.
    - assert ((y - 1) / k = y / k); [|lia]. symmetry. apply Z.div_unique with (y mod k - 1); [lia|].
      rewrite E at 1. ring. }
  rewrite (D 4), (D 100), (D 400) by lia. unfold is_leap.
  assert (I1 : y mod 100 = 0 -> y mod 4 = 0) by (intros E; apply Z.mod_divide in E; [|lia]; apply Z.mod_divide; [lia|]; destruct E as [q ->]; exists (25 * q); ring).
  assert (I2 : y mod 400 = 0 -> y mod 100 = 0) by (intros E; apply Z.mod_divide in E; [|lia]; apply Z.mod_divide; [lia|]; destruct E as [q ->]; exists (4 * q); ring).
  destruct (Z.eqb_spec (y mod 4) 0), (Z.eqb_spec (y mod 100) 0), (Z.eqb_spec (y mod 400) 0); cbn [andb orb negb]; try lia;
  exfalso; auto.
Qed.

Lemma year_start_mono y y' : y < y' -> year_start y + 365 + (if is_leap y then 1 else 0) <= year_start y'.
Proof.
  intros H. rewrite <- year_step.
  assert (K : forall j : nat, year_start (y + 1) <= year_start (y + 1 + Z.of_nat j)).
  { induction j as [|j IH]; [rewrite Z.add_0_r; lia|].
    replace (y + 1 + Z.of_nat (S j)) with (y + 1 + Z.of_nat j + 1) by lia. rewrite (year_step (y + 1 + Z.of_nat j)).
    destruct (is_leap (y + 1 + Z.of_nat j)); lia. }
  replace y' with (y + 1 + Z.of_nat (Z.to_nat (y' - y - 1))) by lia. apply K.
Qed.

Definition date_lt (a b : Z * Z * Z) : Prop :=
  let '(y, m, d) := a in let '(y', m', d') := b in
  y < y' \/ (y = y' /\ (m < m' \/ (m = m' /\ d < d'))).

Lemma date_lt_days y m d y' m' d' : valid_date y m d -> valid_date y' m' d' ->
  date_lt (y, m, d) (y', m', d') -> days_of_civil y m d < days_of_civil y' m' d'.
Proof.
  intros [M1 D1] [M2 D2] H. rewrite !days_of_civil_eq. destruct H as [H|[<- [H|[<- H]]]]; [| |lia].
  - pose proof (year_start_mono y y' H) as Y.
    assert (month_start y m + days_in y m <= month_start y 13).
    { apply month_start_mono; lia. }
    assert (month_start y 13 = 365 + (if is_leap y then 1 else 0)) by (unfold month_start; destruct (is_leap y); reflexivity).
    assert (0 <= month_start y' m').
    { destruct (Z.eq_dec m' 1) as [->|]; [unfold month_start; destruct (is_leap y'); discriminate|].
      pose proof (month_start_mono y' 1 m' ltac:(lia) ltac:(lia) ltac:(lia)) as K.
      assert (month_start y' 1 = 0) by (unfold month_start; destruct (is_leap y'); reflexivity).
      assert (0 <= days_in y' 1) by (unfold days_in; destruct (is_leap y'); discriminate). lia. }
    lia.
  - pose proof (month_start_mono y m m' ltac:(lia) H ltac:(lia)). lia.
Qed.

(** ** Digits *)

Lemma pad_length w : forall x, length (pad w x) = w.
Proof. induction w as [|w IH]; intros x; [reflexivity|]. cbn [pad]. rewrite app_length, IH. cbn. lia. Qed.

Lemma digit_code x : 0 <= x < 10 -> code (digit x) = (48 + Z.to_N x)%N.
Proof. intros H. unfold code, digit. apply N_ascii_embedding. lia. Qed.

Lemma digit_ok x : 0 <= x < 10 -> digit_value (digit x) = Some x.
Proof.
  intros H. unfold digit_value, is_digit. rewrite digit_code by exact H.
  assert (E : (N.leb 48 (48 + Z.to_N x) && N.leb (48 + Z.to_N x) 57)%N = true)
    by (apply andb_true_iff; rewrite !N.leb_le; lia).
  rewrite E. f_equal. lia.
Qed.

Lemma num_app a : forall b acc, num (a ++ b) acc = match num a acc with Some v => num b v | None => None end.
Proof. induction a as [|c a IH]; intros b acc; [reflexivity|]. cbn. destruct (digit_value c); [apply IH|reflexivity]. Qed.

Lemma num_pad w : forall x acc, 0 <= x < 10 ^ Z.of_nat w -> num (pad w x) acc = Some (acc * 10 ^ Z.of_nat w + x).
Proof.
  induction w as [|w IH]; intros x acc H; [cbn in *; f_equal; lia|].
  rewrite Nat2Z.inj_succ, Z.pow_succ_r in * by lia. cbn [pad]. rewrite num_app, IH.
  - cbn [num]. pose proof (Z.mod_pos_bound x 10 ltac:(lia)). rewrite digit_ok by lia. f_equal.
    pose proof (Z.div_mod x 10 ltac:(lia)). nia.
  - split; [apply Z.div_pos; lia|apply Z.div_lt_upper_bound; lia].
Qed.

Lemma take_num_pad w sep x s : 0 <= x < 10 ^ Z.of_nat w -> take_num w sep (pad w x ++ sep :: s) = Some (x, s).
Proof.
  intros H. unfold take_num.
  assert (E1 : skipn w (pad w x ++ sep :: s) = sep :: s).
  { rewrite skipn_app, pad_length, Nat.sub_diag, skipn_all2 by (rewrite pad_length; lia). reflexivity. }
  assert (E2 : firstn w (pad w x ++ sep :: s) = pad w x).
  { rewrite firstn_app, pad_length, Nat.sub_diag, firstn_all2 by (rewrite pad_length; lia). cbn [firstn]. apply app_nil_r. }
  rewrite E1, E2, aeqb_refl, num_pad by exact H. f_equal.
Qed.

(** ** Lexicographic order *)

Lemma text_lt_app_same a : forall s t, text_lt s t -> text_lt (a ++ s) (a ++ t).
Proof. induction a as [|c a IH]; intros s t H; [exact H|]. cbn. apply lt_tail. apply IH. exact H. Qed.

Lemma text_lt_app a b : text_lt a b -> length a = length b -> forall s t, text_lt (a ++ s) (b ++ t).
Proof.
  induction 1 as [c s|c d s t H|c s t H IH]; intros E u v; [discriminate| |].
  - cbn. apply lt_head. exact H.
  - cbn. apply lt_tail. apply IH. cbn in E. lia.
Qed.

Lemma pad_lt w : forall x y, 0 <= x -> x < y -> y < 10 ^ Z.of_nat w -> text_lt (pad w x) (pad w y).
Proof.
  induction w as [|w IH]; intros x y H0 H1 H2; [cbn in H2; lia|].
  rewrite Nat2Z.inj_succ, Z.pow_succ_r in H2 by lia. cbn [pad].
  pose proof (Z.div_mod x 10 ltac:(lia)) as Ex. pose proof (Z.div_mod y 10 ltac:(lia)) as Ey.
  pose proof (Z.mod_pos_bound x 10 ltac:(lia)) as Bx. pose proof (Z.mod_pos_bound y 10 ltac:(lia)) as By.
  assert (x / 10 <= y / 10) by (apply Z.div_le_mono; lia).
  destruct (Z.eq_dec (x / 10) (y / 10)) as [E|E].
  - rewrite E. apply text_lt_app_same. apply lt_head. rewrite !digit_code by lia. lia.
  - apply text_lt_app; [|rewrite !pad_length; reflexivity]. apply IH; [apply Z.div_pos; lia|lia|apply Z.div_lt_upper_bound; lia].
Qed.

Lemma text_lt_irrefl s : ~ text_lt s s.
Proof. induction s as [|c s IH]; intros H; inversion H; subst; [lia|apply IH; assumption]. Qed.

Lemma text_lt_asym s t : text_lt s t -> ~ text_lt t s.
Proof. induction 1; intros K; inversion K; subst; try lia; auto. Qed.

(** One field followed by the rest. *)
Lemma field_lt w x y s t : 0 <= x < 10 ^ Z.of_nat w -> 0 <= y < 10 ^ Z.of_nat w ->
  x < y \/ (x = y /\ text_lt s t) -> text_lt (pad w x ++ s) (pad w y ++ t).
Proof.
  intros Hx Hy [H|[<- H]].
  - apply text_lt_app; [apply pad_lt; lia|rewrite !pad_length; reflexivity].
  - apply text_lt_app_same. exact H.
Qed.

(** ** Fields of a time *)

Definition f_hour t := t mod ns_per_day / 1000000000 / 3600.
Definition f_min t := t mod ns_per_day / 1000000000 / 60 mod 60.
Definition f_sec t := t mod ns_per_day / 1000000000 mod 60.
Definition f_ms t := t mod ns_per_day mod 1000000000 / 1000000.

Lemma clock_fields t : 0 <= f_hour t < 24 /\ 0 <= f_min t < 60 /\ 0 <= f_sec t < 60 /\ 0 <= f_ms t < 1000 /\
  t / 1000000 = t / ns_per_day * 86400000 + ((f_hour t * 60 + f_min t) * 60 + f_sec t) * 1000 + f_ms t.
Proof.
  unfold f_hour, f_min, f_sec, f_ms.
  pose proof (Z.div_mod t ns_per_day ltac:(unfold ns_per_day; lia)) as E0.
  pose proof (Z.mod_pos_bound t ns_per_day ltac:(unfold ns_per_day; lia)) as B0.
  set (r := t mod ns_per_day) in *. set (q := t / ns_per_day) in *. unfold ns_per_day in E0, B0.
  pose proof (Z.div_mod r 1000000000 ltac:(lia)) as E1. pose proof (Z.mod_pos_bound r 1000000000 ltac:(lia)) as B1.
  set (s := r / 1000000000) in *. set (n := r mod 1000000000) in *.
  pose proof (Z.div_mod s 60 ltac:(lia)) as E2. pose proof (Z.mod_pos_bound s 60 ltac:(lia)) as B2.
  assert (E3 : s / 3600 = s / 60 / 60) by (rewrite Z.div_div by lia; reflexivity). rewrite E3.
  set (m := s / 60) in *. set (sec := s mod 60) in *.
  pose proof (Z.div_mod m 60 ltac:(lia)) as E4. pose proof (Z.mod_pos_bound m 60 ltac:(lia)) as B4.
  set (h := m / 60) in *. set (mi := m mod 60) in *.
  pose proof (Z.div_mod n 1000000 ltac:(lia)) as E5. pose proof (Z.mod_pos_bound n 1000000 ltac:(lia)) as B5.
  set (ms := n / 1000000) in *. set (us := n mod 1000000) in *.
  assert (E6 : t / 1000000 = q * 86400000 + ((h * 60 + mi) * 60 + sec) * 1000 + ms).
  { symmetry. apply Z.div_unique with us; lia. }
  rewrite E6. clearbody q r s n m sec h mi ms us. lia.
Qed.

Definition render (y m d hh mi ss ms : Z) : bytes :=
  pad 4 y ++ B "-" ++ pad 2 m ++ B "-" ++ pad 2 d ++ B "T" ++
  pad 2 hh ++ B ":" ++ pad 2 mi ++ B ":" ++ pad 2 ss ++ B "." ++ pad 3 ms ++ B "Z".

Lemma format_render t : format_time t = let '(y, m, d) := civil_of_days (t / ns_per_day) in
  render y m d (f_hour t) (f_min t) (f_sec t) (f_ms t).
Proof. unfold format_time, render, f_hour, f_min, f_sec, f_ms. destruct (civil_of_days _) as [[y m] d]. reflexivity. Qed.

Lemma days_in_31 y m : 1 <= m <= 12 -> days_in y m <= 31.
Proof. intros H. unfold days_in. destruct (_ && _); [lia|]. pose proof (days_before_step m H). lia. Qed.

(** Years of the times in range. *)
Lemma year_range t : in_years t -> let '(y, m, d) := civil_of_days (t / ns_per_day) in 0 <= y <= 9999.
Proof.
  unfold in_years. intros H.
  assert (Hd : -366 <= t / ns_per_day < 3652059).
  { unfold ns_per_day. split; [apply Z.div_le_lower_bound; lia|apply Z.div_lt_upper_bound; lia]. }
  pose proof (civil_spec (t / ns_per_day)) as C. destruct (civil_of_days (t / ns_per_day)) as [[y m] d].
  destruct C as (V & E). set (n := t / ns_per_day) in *.
  assert (V0 : valid_date 0 1 1) by (repeat split; vm_compute; discriminate).
  assert (V1 : valid_date 9999 12 31) by (repeat split; vm_compute; discriminate).
  assert (D0 : days_of_civil 0 1 1 = -366) by reflexivity.
  assert (D1 : days_of_civil 9999 12 31 = 3652058) by (vm_compute; reflexivity).
  split.
  - destruct (Z_lt_ge_dec y 0) as [K|K]; [|lia]. pose proof (date_lt_days y m d 0 1 1 V V0 (or_introl K)). lia.
  - destruct (Z_lt_ge_dec 9999 y) as [K|K]; [|lia]. pose proof (date_lt_days 9999 12 31 y m d V1 V (or_introl K)). lia.
Qed.

Lemma format_lt t u : in_years t -> in_years u -> t / 1000000 < u / 1000000 -> text_lt (format_time t) (format_time u).
Proof.
  intros Ht Hu H. rewrite !format_render.
  pose proof (year_range t Ht) as Yt. pose proof (year_range u Hu) as Yu.
  pose proof (civil_spec (t / ns_per_day)) as Ct. pose proof (civil_spec (u / ns_per_day)) as Cu.
  destruct (clock_fields t) as (T1 & T2 & T3 & T4 & T5). destruct (clock_fields u) as (U1 & U2 & U3 & U4 & U5).
  destruct (civil_of_days (t / ns_per_day)) as [[y m] d]. destruct (civil_of_days (u / ns_per_day)) as [[y' m'] d'].
  destruct Ct as ([M1 D1] & Et). destruct Cu as ([M2 D2] & Eu).
  pose proof (days_in_31 y m M1). pose proof (days_in_31 y' m' M2).
  rewrite T5, U5 in H. clear T5 U5.
  assert (L : date_lt (y, m, d) (y', m', d') \/ ((y, m, d) = (y', m', d'))).
  { assert (K : date_lt (y, m, d) (y', m', d') \/ (y, m, d) = (y', m', d') \/ date_lt (y', m', d') (y, m, d)).
    { cbn. destruct (Z.lt_trichotomy y y') as [?|[->|?]]; [auto| |auto]. destruct (Z.lt_trichotomy m m') as [?|[->|?]]; [auto| |auto 8].
      destruct (Z.lt_trichotomy d d') as [?|[->|?]]; auto 8. }
    destruct K as [K|[K|K]]; [left; exact K|right; exact K|exfalso].
    assert (V1 : valid_date y m d) by (split; assumption). assert (V2 : valid_date y' m' d') by (split; assumption).
    pose proof (date_lt_days _ _ _ _ _ _ V2 V1 K) as K2. rewrite Et, Eu in K2. nia. }
  unfold render. change (10 ^ Z.of_nat 4) with 10000 in *.
  destruct L as [L|L].
  - cbn in L. apply field_lt; [cbn; lia|cbn; lia|]. destruct L as [L|[L1 L]]; [left; exact L|right; split; [exact L1|]].
    apply text_lt_app_same. apply field_lt; [cbn; lia|cbn; lia|]. destruct L as [L|[L2 L]]; [left; exact L|right; split; [exact L2|]].
    apply text_lt_app_same. apply field_lt; [cbn; lia|cbn; lia|]. left. exact L.
  - injection L as <- <- <-. rewrite Et in Eu. rewrite <- Eu in H.
    assert (K : f_hour t < f_hour u \/ (f_hour t = f_hour u /\ (f_min t < f_min u \/ (f_min t = f_min u /\ (f_sec t < f_sec u \/ (f_sec t = f_sec u /\ f_ms t < f_ms u)))))).
    { clear - H T1 T2 T3 T4 U1 U2 U3 U4. generalize dependent (t / ns_per_day). intros q H. lia. }
    do 6 apply text_lt_app_same.
    apply field_lt; [cbn; lia|cbn; lia|]. destruct K as [K|[K1 K]]; [left; exact K|right; split; [exact K1|]].
    apply text_lt_app_same. apply field_lt; [cbn; lia|cbn; lia|]. destruct K as [K|[K2 K]]; [left; exact K|right; split; [exact K2|]].
    apply text_lt_app_same. apply field_lt; [cbn; lia|cbn; lia|]. destruct K as [K|[K3 K]]; [left; exact K|right; split; [exact K3|]].
    apply text_lt_app_same. apply field_lt; [cbn; lia|cbn; lia|]. left. exact K.
Qed.

Lemma format_same t u : t / 1000000 = u / 1000000 -> format_time t = format_time u.
Proof.
  intros H. assert (D : forall x, x / ns_per_day = x / 1000000 / 86400000) by (intros x; rewrite Z.div_div by lia; reflexivity).
  destruct (clock_fields t) as (T1 & T2 & T3 & T4 & T5). destruct (clock_fields u) as (U1 & U2 & U3 & U4 & U5).
  rewrite !format_render. assert (Ed : t / ns_per_day = u / ns_per_day) by (rewrite !D, H; reflexivity).
  rewrite Ed. rewrite H, U5, Ed in T5. clear H D Ed.
  assert (K : f_hour t = f_hour u /\ f_min t = f_min u /\ f_sec t = f_sec u /\ f_ms t = f_ms u).
  { generalize dependent (u / ns_per_day). intros q E _. lia. }
  destruct K as (-> & -> & -> & ->). reflexivity.
Qed.

Lemma parse_format t : in_years t -> parse_time (format_time t) = Some (millis t).
Proof.
  intros Ht. rewrite format_render. pose proof (year_range t Ht) as Yt. pose proof (civil_spec (t / ns_per_day)) as Ct.
  destruct (clock_fields t) as (T1 & T2 & T3 & T4 & T5).
  destruct (civil_of_days (t / ns_per_day)) as [[y m] d]. destruct Ct as ([M1 D1] & Et).
  pose proof (days_in_31 y m M1). unfold render, parse_time.
  change (B "-") with ["-"%char]. change (B "T") with ["T"%char]. change (B ":") with [":"%char]. change (B ".") with ["."%char]. change (B "Z") with ["Z"%char].
  cbn [app].
  rewrite (take_num_pad 4 "-" y) by (cbn; lia). rewrite (take_num_pad 2 "-" m) by (cbn; lia). rewrite (take_num_pad 2 "T" d) by (cbn; lia).
  rewrite (take_num_pad 2 ":" (f_hour t)) by (cbn; lia). rewrite (take_num_pad 2 ":" (f_min t)) by (cbn; lia).
  rewrite (take_num_pad 2 "." (f_sec t)) by (cbn; lia). rewrite (take_num_pad 3 "Z" (f_ms t)) by (cbn; lia).
  assert (C : beqb [] [] && (1 <=? m) && (m <=? 12) && (1 <=? d) && (d <=? days_in y m) && (f_hour t <? 24) && (f_min t <? 60) && (f_sec t <? 60) = true).
  { rewrite !andb_true_iff, !Z.leb_le, !Z.ltb_lt. cbn. lia. }
  rewrite C. unfold millis. rewrite T5, Et. f_equal. unfold ns_per_day. ring.
Qed.
