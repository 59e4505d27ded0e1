(** Byte strings and list helpers shared by every model file.
    Go's [string] and [[]byte] are both modelled by [bytes]. *)
From Coq Require Export Ascii String.
From Coq Require Export List Arith NArith ZArith Lia Bool.
From Coq Require Export Permutation Sorted.
From Coq Require Import Decimal DecimalN DecimalFacts.
Export ListNotations.
Open Scope list_scope.
Open Scope bool_scope.

Notation bytes := (list ascii).

(** [B "lit"] is the byte string of a literal. *)
Definition B (s : string) : bytes := list_ascii_of_string s.

(** Byte value. *)
Definition code (c : ascii) : N := N_of_ascii c.

Definition aeqb (a b : ascii) : bool := Ascii.eqb a b.

Lemma aeqb_spec a b : reflect (a = b) (aeqb a b).
Proof. apply Ascii.eqb_spec. Qed.

Lemma aeqb_refl a : aeqb a a = true.
Proof. apply Ascii.eqb_refl. Qed.

Lemma aeqb_eq a b : aeqb a b = true <-> a = b.
Proof. apply Ascii.eqb_eq. Qed.

Lemma aeqb_neq a b : aeqb a b = false <-> a <> b.
Proof. apply Ascii.eqb_neq. Qed.

(** Generic list equality test. *)
Fixpoint leqb {A} (eqb : A -> A -> bool) (x y : list A) : bool :=
  match x, y with
  | [], [] => true
  | a :: x', b :: y' => eqb a b && leqb eqb x' y'
  | _, _ => false
  end.

Lemma leqb_eq {A} (eqb : A -> A -> bool) :
  (forall a b, eqb a b = true <-> a = b) ->
  forall x y, leqb eqb x y = true <-> x = y.
Proof.
  intros He x; induction x as [|a x IH]; intros [|b y]; simpl; split; intros H;
    try reflexivity; try discriminate.
  - apply andb_true_iff in H as [H1 H2]. apply He in H1. apply IH in H2. congruence.
  - injection H as -> ->. apply andb_true_iff; split; [apply He|apply IH]; reflexivity.
Qed.

Definition beqb (x y : bytes) : bool := leqb aeqb x y.

Lemma beqb_eq x y : beqb x y = true <-> x = y.
Proof. apply leqb_eq. apply aeqb_eq. Qed.

Lemma beqb_refl x : beqb x x = true.
Proof. apply beqb_eq; reflexivity. Qed.

Lemma beqb_neq x y : beqb x y = false <-> x <> y.
Proof.
  destruct (beqb x y) eqn:E; split; intros H; try congruence.
  - apply beqb_eq in E. congruence.
  - intros ->. rewrite beqb_refl in E. discriminate.
Qed.

Lemma beqb_spec x y : reflect (x = y) (beqb x y).
Proof.
  destruct (beqb x y) eqn:E; constructor.
  - apply beqb_eq; exact E.
  - apply beqb_neq; exact E.
Qed.

Lemma beqb_sym x y : beqb x y = beqb y x.
Proof. destruct (beqb_spec x y), (beqb_spec y x); congruence. Qed.

Definition bytes_dec (x y : bytes) : {x = y} + {x <> y} := list_eq_dec ascii_dec x y.

(** Membership of a byte in a list of bytes. *)
Definition amem (c : ascii) (l : bytes) : bool := existsb (aeqb c) l.

Lemma amem_In c l : amem c l = true <-> In c l.
Proof.
  unfold amem. rewrite existsb_exists. split.
  - intros [x [Hx He]]. apply aeqb_eq in He. subst; assumption.
  - intros H. exists c. split; [assumption|apply aeqb_refl].
Qed.

Lemma amem_nIn c l : amem c l = false <-> ~ In c l.
Proof. rewrite <- amem_In. destruct (amem c l); split; congruence. Qed.

Definition bmem (c : bytes) (l : list bytes) : bool := existsb (beqb c) l.

Lemma bmem_In c l : bmem c l = true <-> In c l.
Proof.
  unfold bmem. rewrite existsb_exists. split.
  - intros [x [Hx He]]. apply beqb_eq in He. subst; assumption.
  - intros H. exists c. split; [assumption|apply beqb_refl].
Qed.

Lemma bmem_nIn c l : bmem c l = false <-> ~ In c l.
Proof. rewrite <- bmem_In. destruct (bmem c l); split; congruence. Qed.

(** Go: strings.HasPrefix. *)
Fixpoint has_prefix (s p : bytes) {struct p} : bool :=
  match p, s with
  | [], _ => true
  | a :: p', b :: s' => aeqb a b && has_prefix s' p'
  | _ :: _, [] => false
  end.

Lemma has_prefix_iff s p : has_prefix s p = true <-> exists r, s = p ++ r.
Proof.
  revert s; induction p as [|a p IH]; intros s; simpl.
  - split; [intros _; exists s; reflexivity|reflexivity].
  - destruct s as [|b s].
    + split; [discriminate|intros [r Hr]; discriminate].
    + rewrite andb_true_iff, aeqb_eq, IH. split.
      * intros [-> [r ->]]. exists r; reflexivity.
      * intros [r Hr]. injection Hr as -> ->. split; [reflexivity|exists r; reflexivity].
Qed.

(** Go: strings.Split(s, sep) for a one byte separator: always non-empty. *)
Fixpoint split_on (sep : ascii) (s : bytes) : list bytes :=
  match s with
  | [] => [[]]
  | c :: s' =>
      if aeqb c sep then [] :: split_on sep s'
      else match split_on sep s' with
           | [] => [[c]]
           | w :: ws => (c :: w) :: ws
           end
  end.

(** Go: strings.SplitN(s, sep, 2) for a one byte separator: the part before
    the first separator, and the rest when a separator occurs. *)
Fixpoint cut_on (sep : ascii) (s : bytes) : bytes * option bytes :=
  match s with
  | [] => ([], None)
  | c :: s' =>
      if aeqb c sep then ([], Some s')
      else let (a, b) := cut_on sep s' in (c :: a, b)
  end.

(** Go: strings.Join. *)
Fixpoint join (sep : bytes) (l : list bytes) : bytes :=
  match l with
  | [] => []
  | [x] => x
  | x :: l' => x ++ sep ++ join sep l'
  end.

Lemma split_on_nonempty sep s : split_on sep s <> [].
Proof.
  destruct s as [|c s]; simpl; [discriminate|].
  destruct (aeqb c sep); [discriminate|].
  destruct (split_on sep s); discriminate.
Qed.

Lemma split_on_nosep sep s : ~ In sep s -> split_on sep s = [s].
Proof.
  induction s as [|c s IH]; simpl; intros H; [reflexivity|].
  destruct (aeqb_spec c sep) as [->|Hn]; [exfalso; apply H; left; reflexivity|].
  rewrite IH; [reflexivity|intros Hin; apply H; right; exact Hin].
Qed.

Lemma split_on_app sep a b :
  ~ In sep a -> split_on sep (a ++ sep :: b) = a :: split_on sep b.
Proof.
  induction a as [|c a IH]; simpl; intros H.
  - rewrite aeqb_refl. reflexivity.
  - destruct (aeqb_spec c sep) as [->|Hn]; [exfalso; apply H; left; reflexivity|].
    rewrite IH; [reflexivity|intros Hin; apply H; right; exact Hin].
Qed.

Lemma split_join sep l :
  l <> [] -> Forall (fun w => ~ In sep w) l -> split_on sep (join [sep] l) = l.
Proof.
  induction l as [|w l IH]; intros Hne Hf; [congruence|].
  inversion Hf as [|? ? Hw Hl]; subst.
  destruct l as [|w' l].
  - simpl. apply split_on_nosep; exact Hw.
  - change (join [sep] (w :: w' :: l)) with (w ++ sep :: join [sep] (w' :: l)).
    rewrite split_on_app by exact Hw. rewrite IH; [reflexivity|discriminate|exact Hl].
Qed.

Lemma join_split sep s : join [sep] (split_on sep s) = s.
Proof.
  induction s as [|c s IH]; simpl; [reflexivity|].
  destruct (aeqb_spec c sep) as [->|Hn].
  - destruct (split_on sep s) as [|w ws] eqn:E; [exfalso; eapply split_on_nonempty; exact E|].
    rewrite <- IH. reflexivity.
  - destruct (split_on sep s) as [|w ws] eqn:E; [exfalso; eapply split_on_nonempty; exact E|].
    rewrite <- IH. destruct ws; reflexivity.
Qed.

Lemma cut_on_app sep a b : ~ In sep a -> cut_on sep (a ++ sep :: b) = (a, Some b).
Proof.
  induction a as [|c a IH]; simpl; intros H.
  - rewrite aeqb_refl; reflexivity.
  - destruct (aeqb_spec c sep) as [->|Hn]; [exfalso; apply H; left; reflexivity|].
    rewrite IH; [reflexivity|intros Hin; apply H; right; exact Hin].
Qed.

Lemma cut_on_nosep sep a : ~ In sep a -> cut_on sep a = (a, None).
Proof.
  induction a as [|c a IH]; simpl; intros H; [reflexivity|].
  destruct (aeqb_spec c sep) as [->|Hn]; [exfalso; apply H; left; reflexivity|].
  rewrite IH; [reflexivity|intros Hin; apply H; right; exact Hin].
Qed.

Lemma cut_on_spec sep s :
  match cut_on sep s with
  | (a, None) => s = a /\ ~ In sep s
  | (a, Some b) => s = a ++ sep :: b /\ ~ In sep a
  end.
Proof.
  induction s as [|c s IH]; simpl; [split; [reflexivity|intros []]|].
  destruct (aeqb_spec c sep) as [->|Hn]; [split; [reflexivity|intros []]|].
  destruct (cut_on sep s) as [a [b|]]; destruct IH as [H1 H2].
  - split; [simpl; f_equal; exact H1|]. intros [Hc|Hc]; [congruence|exact (H2 Hc)].
  - split; [simpl; f_equal; exact H1|]. intros [Hc|Hc]; [congruence|exact (H2 Hc)].
Qed.

(** ASCII upper and lower case of one byte. *)
Definition lower_byte (c : ascii) : ascii :=
  let n := code c in
  if (N.leb 65 n && N.leb n 90)%N then ascii_of_N (n + 32) else c.

Definition upper_byte (c : ascii) : ascii :=
  let n := code c in
  if (N.leb 97 n && N.leb n 122)%N then ascii_of_N (n - 32) else c.

(** Go's strings.ToLower/ToUpper restricted to ASCII letters. *)
Definition to_lower (s : bytes) : bytes := map lower_byte s.
Definition to_upper (s : bytes) : bytes := map upper_byte s.

(** Every property of single bytes can be settled by the 256 cases. *)
Lemma byte_forall (P : ascii -> bool) :
  forallb P (map ascii_of_nat (seq 0 256)) = true -> forall c, P c = true.
Proof.
  intros H c. rewrite forallb_forall in H. apply H.
  apply in_map_iff. exists (nat_of_ascii c). split; [apply ascii_nat_embedding|].
  apply in_seq. split; [lia|]. pose proof (nat_ascii_bounded c). lia.
Qed.

(** ** Decimal numbers *)

Fixpoint bytes_of_uint (d : Decimal.uint) : bytes :=
  match d with
  | Nil => []
  | D0 d => "0"%char :: bytes_of_uint d
  | D1 d => "1"%char :: bytes_of_uint d
  | D2 d => "2"%char :: bytes_of_uint d
  | D3 d => "3"%char :: bytes_of_uint d
  | D4 d => "4"%char :: bytes_of_uint d
  | D5 d => "5"%char :: bytes_of_uint d
  | D6 d => "6"%char :: bytes_of_uint d
  | D7 d => "7"%char :: bytes_of_uint d
  | D8 d => "8"%char :: bytes_of_uint d
  | D9 d => "9"%char :: bytes_of_uint d
  end.

Definition digit_of (c : ascii) : option (Decimal.uint -> Decimal.uint) :=
  if aeqb c "0" then Some D0 else if aeqb c "1" then Some D1
  else if aeqb c "2" then Some D2 else if aeqb c "3" then Some D3
  else if aeqb c "4" then Some D4 else if aeqb c "5" then Some D5
  else if aeqb c "6" then Some D6 else if aeqb c "7" then Some D7
  else if aeqb c "8" then Some D8 else if aeqb c "9" then Some D9 else None.

Fixpoint uint_of_bytes (s : bytes) : option Decimal.uint :=
  match s with
  | [] => Some Nil
  | c :: s' =>
      match digit_of c, uint_of_bytes s' with
      | Some f, Some d => Some (f d)
      | _, _ => None
      end
  end.

(** Decimal rendering, without leading zeros ("0" for zero), as produced by
    Go's fmt %d / strconv.Itoa on non-negative numbers. *)
Definition dec (n : N) : bytes := bytes_of_uint (N.to_uint n).

(** Decimal parsing of a non-empty digit string (leading zeros accepted). *)
Definition undec (s : bytes) : option N :=
  match s with
  | [] => None
  | _ => match uint_of_bytes s with Some d => Some (N.of_uint d) | None => None end
  end.

Definition is_digit (c : ascii) : bool := (N.leb 48 (code c) && N.leb (code c) 57)%N.

Lemma uint_of_bytes_of_uint d : uint_of_bytes (bytes_of_uint d) = Some d.
Proof. induction d; simpl; try rewrite IHd; reflexivity. Qed.

Lemma bytes_of_uint_nonnil d : d <> Nil -> bytes_of_uint d <> [].
Proof. destruct d; simpl; congruence. Qed.

Lemma dec_nonempty n : dec n <> [].
Proof.
  unfold dec. apply bytes_of_uint_nonnil. destruct n; simpl; [discriminate|].
  apply DecimalPos.Unsigned.to_uint_nonnil.
Qed.

Lemma undec_dec n : undec (dec n) = Some n.
Proof.
  unfold undec. destruct (dec n) eqn:E; [exfalso; eapply dec_nonempty; exact E|].
  rewrite <- E. unfold dec. rewrite uint_of_bytes_of_uint.
  rewrite DecimalN.Unsigned.of_to. reflexivity.
Qed.

Lemma dec_inj n m : dec n = dec m -> n = m.
Proof. intros H. pose proof (undec_dec n) as H1. rewrite H, undec_dec in H1. congruence. Qed.

Lemma bytes_of_uint_digits d : Forall (fun c => is_digit c = true) (bytes_of_uint d).
Proof. induction d; simpl; constructor; try assumption; reflexivity. Qed.

Lemma dec_digits n : Forall (fun c => is_digit c = true) (dec n).
Proof. apply bytes_of_uint_digits. Qed.

Lemma dec_notin n c : is_digit c = false -> ~ In c (dec n).
Proof.
  intros Hc Hin. pose proof (dec_digits n) as H. rewrite Forall_forall in H.
  specialize (H c Hin). congruence.
Qed.

(** ** List helpers *)

Fixpoint updnth {A} (n : nat) (x : A) (l : list A) : list A :=
  match n, l with
  | O, _ :: l' => x :: l'
  | S n', y :: l' => y :: updnth n' x l'
  | _, [] => []
  end.

(** The last [n] elements of a list. *)
Definition lastn {A} (n : nat) (l : list A) : list A := skipn (length l - n) l.

Lemma lastn_length {A} n (l : list A) : length (lastn n l) = min n (length l).
Proof. unfold lastn. rewrite skipn_length. lia. Qed.

Lemma lastn_all {A} n (l : list A) : length l <= n -> lastn n l = l.
Proof. intros H. unfold lastn. replace (length l - n) with 0 by lia. reflexivity. Qed.

Lemma lastn_app {A} n (l : list A) x :
  lastn (S n) (l ++ [x]) = lastn n l ++ [x].
Proof.
  unfold lastn. rewrite app_length. simpl.
  replace (length l + 1 - S n) with (length l - n) by lia.
  rewrite skipn_app. f_equal.
  replace (length l - n - length l) with 0 by lia. reflexivity.
Qed.

Lemma skipn_skipn {A} n m (l : list A) : skipn n (skipn m l) = skipn (n + m) l.
Proof.
  revert l; induction m as [|m IH]; intros l; simpl.
  - rewrite Nat.add_0_r. reflexivity.
  - rewrite Nat.add_succ_r. destruct l as [|x l]; [destruct n; reflexivity|]. simpl. apply IH.
Qed.
