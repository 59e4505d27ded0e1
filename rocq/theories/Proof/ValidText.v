(** Proofs about the text sent to WebSocket clients. *)
From Verif.Base Require Import Bytes.
From Verif.Model Require Import Glob ValidText.
From Verif.Spec Require Import Glob ValidText.
From Verif.Proof Require Glob.
From Coq Require Import NArith Lia.
Open Scope nat_scope.

Lemma bad_utf8 s : bad_rune s = false <-> utf8 s.
Proof.
  unfold bad_rune, utf8. destruct (rune s) as [r t]. cbn [fst snd]. destruct (N.eqb_spec r 65533) as [->|E]; cbn [andb].
  - destruct (Nat.eqb_spec (length s) (S (length t))) as [L|L]; split; intros H; [discriminate H|destruct H; auto|tauto|reflexivity].
  - split; [tauto|reflexivity].
Qed.

Lemma rune_ascii c x : (code c <? 128)%N = true -> rune (c :: x) = (code c, x).
Proof. intros H. unfold rune. rewrite H. reflexivity. Qed.

Lemma ascii_good c x : (code c <? 128)%N = true -> utf8 (c :: x).
Proof. intros H. unfold utf8. rewrite (rune_ascii c x H). cbn [fst]. intros [E _]. rewrite E in H. discriminate H. Qed.

Lemma good_split c x n y : utf8 (c :: x) -> rune (c :: x) = (n, y) -> scalar n /\ c :: x = encode n ++ y.
Proof. intros U R. apply (Proof.Glob.encode_decode (c :: x) n y); [discriminate|exact R|exact U]. Qed.

Lemma encode_shorter n y c x : c :: x = encode n ++ y -> length y <= length x.
Proof.
  intros E. assert (L : length (c :: x) = length (encode n) + length y) by (rewrite E, app_length; reflexivity). cbn [length] in L.
  assert (1 <= length (encode n)) by (unfold encode; repeat destruct (_ <? _)%N; cbn; lia). lia.
Qed.

Lemma take_front (a b : bytes) : firstn (length (a ++ b) - length b) (a ++ b) = a.
Proof. rewrite app_length. replace (length a + length b - length b) with (length a + 0) by lia. rewrite firstn_app_2. apply app_nil_r. Qed.

Theorem mend_reads fuel : forall junk s, length s <= fuel -> exists l, reads s l /\ mend fuel junk s = text_of (mended junk l).
Proof.
  induction fuel as [|fuel IH]; intros junk s L; [destruct s; [exists []; split; [constructor|reflexivity]|cbn in L; lia]|].
  destruct s as [|c x]; [exists []; split; [constructor|reflexivity]|]. cbn [length] in L. cbn [mend].
  destruct (code c <? 128)%N eqn:A.
  - destruct (good_split c x _ _ (ascii_good c x A) (rune_ascii c x A)) as [S E]. destruct (IH false x ltac:(lia)) as (l & R & M).
    exists (Some (code c) :: l). split; [rewrite E; constructor; assumption|]. cbn [mended]. unfold text_of in *. cbn [map concat].
    rewrite M. change (c :: concat (map encode (mended false l))) with ([c] ++ concat (map encode (mended false l))). f_equal.
    change (c :: x) with ([c] ++ x) in E. apply app_inv_tail in E. exact E.
  - destruct (bad_rune (c :: x)) eqn:Bd.
    + destruct (IH true x ltac:(lia)) as (l & R & M). exists (None :: l). split.
      * constructor; [|exact R]. intros n y S E. destruct (Proof.Glob.decode_encode n y S) as [D U]. rewrite <- E in D, U.
        apply bad_utf8 in U. congruence.
      * cbn [mended]. unfold text_of in *. rewrite map_app, concat_app, M. f_equal. destruct junk; reflexivity.
    + apply bad_utf8 in Bd. destruct (rune (c :: x)) as [n y] eqn:Rn. destruct (good_split c x n y Bd Rn) as [S E]. cbn [snd].
      destruct (IH false y ltac:(pose proof (encode_shorter n y c x E); lia)) as (l & R & M).
      exists (Some n :: l). split; [rewrite E; constructor; assumption|]. cbn [mended]. unfold text_of in *. cbn [map concat]. rewrite M. f_equal.
      rewrite E. apply take_front.
Qed.

Theorem valid_reads s : exists l, reads s l /\ to_valid_utf8 s = text_of (mended false l).
Proof. apply mend_reads. apply le_n. Qed.

Lemma reads_scalar s l : reads s l -> Forall (fun o => match o with Some n => scalar n | None => True end) l.
Proof. induction 1; constructor; auto. Qed.

Lemma mended_scalar l : forall junk, Forall (fun o => match o with Some n => scalar n | None => True end) l -> Forall scalar (mended junk l).
Proof.
  induction l as [|[n|] l IH]; intros junk H; cbn [mended]; [constructor|inversion H; subst; constructor; auto|].
  inversion H; subst. apply Forall_app. split; [destruct junk; constructor; [right; split; [discriminate|reflexivity]|constructor]|auto].
Qed.

Theorem always_valid s : valid_text (to_valid_utf8 s).
Proof. destruct (valid_reads s) as (l & R & ->). exists (mended false l). split; [apply mended_scalar; exact (reads_scalar s l R)|reflexivity]. Qed.

(** Texts are read in one way. *)
Lemma encode_same n s n' s' : scalar n -> scalar n' -> encode n ++ s = encode n' ++ s' -> n = n' /\ s = s'.
Proof.
  intros S S' E. destruct (Proof.Glob.decode_encode n s S) as [D _]. destruct (Proof.Glob.decode_encode n' s' S') as [D' _].
  rewrite E, D' in D. injection D as -> ->. auto.
Qed.

Theorem reads_once s l : reads s l -> forall l', reads s l' -> l = l'.
Proof.
  induction 1 as [|n s l S R IH|c s l N R IH]; intros l' R'.
  - inversion R' as [|n s l0 S0 R0 E|]; [reflexivity|]. exfalso. unfold encode in E. repeat destruct (_ <? _)%N; discriminate E.
  - inversion R' as [E|n' s' l0 S0 R0 E|c s' l0 N0 R0 E]; subst.
    + exfalso. unfold encode in E. repeat destruct (_ <? _)%N; discriminate E.
    + destruct (encode_same _ _ _ _ S0 S E) as [-> ->]. f_equal. auto.
    + exfalso. exact (N0 n s S E).
  - inversion R' as [|n' s' l0 S0 R0 E|c' s' l0 N0 R0]; subst.
    + exfalso. exact (N n' s' S0 (eq_sym E)).
    + f_equal. auto.
Qed.

Lemma reads_text l : Forall scalar l -> reads (text_of l) (map Some l) /\ mended false (map Some l) = l.
Proof.
  induction l as [|n l IH]; intros H; [split; [constructor|reflexivity]|]. inversion H; subst. destruct (IH H3) as [A C].
  split; [apply RChar; assumption|]. cbn [map mended]. rewrite C. reflexivity.
Qed.

Theorem unchanged s : valid_text s -> to_valid_utf8 s = s.
Proof.
  intros (l & S & ->). destruct (valid_reads (text_of l)) as (l' & R & ->). destruct (reads_text l S) as [R' M].
  rewrite (reads_once _ _ R _ R'), M. reflexivity.
Qed.

(** ** ASCII stays as it is *)
Definition is_ascii (c : ascii) : bool := (code c <? 128)%N.

Lemma code_byte k : (k < 256)%N -> code (byte k) = k.
Proof. intros H. unfold code, byte. apply N_ascii_embedding. exact H. Qed.

Lemma high_encode n : scalar n -> (128 <= n)%N -> filter is_ascii (encode n) = [].
Proof.
  intros S H. assert (B : (n < 1114112)%N) by (destruct S as [S|S]; lia).
  assert (K : forall c a, (128 <= c)%N -> (c + a < 256)%N -> is_ascii (byte (c + a)) = false) by (intros c a Hc Ha; unfold is_ascii; rewrite code_byte by exact Ha; apply N.ltb_ge; lia).
  unfold encode. destruct (N.ltb_spec n 128); [lia|].
  assert (M : forall a, (a mod 64 < 64)%N) by (intros a; apply N.mod_lt; discriminate).
  destruct (N.ltb_spec n 2048); [|destruct (N.ltb_spec n 65536)]; cbn [filter].
  - assert (n / 64 < 32)%N by (apply N.div_lt_upper_bound; lia). pose proof (M n). rewrite !K by lia. reflexivity.
  - assert (n / 4096 < 16)%N by (apply N.div_lt_upper_bound; lia). pose proof (M n). pose proof (M (n / 64)%N). rewrite !K by lia. reflexivity.
  - assert (n / 262144 < 8)%N by (apply N.div_lt_upper_bound; lia). pose proof (M n). pose proof (M (n / 64)%N). pose proof (M (n / 4096)%N). rewrite !K by lia. reflexivity.
Qed.

Lemma reads_ascii s l : reads s l -> forall junk, filter is_ascii (text_of (mended junk l)) = filter is_ascii s.
Proof.
  induction 1 as [|n s l S R IH|c s l N R IH]; intros junk; [reflexivity| |].
  - cbn [mended]. unfold text_of in *. cbn [map concat]. rewrite !filter_app, IH. reflexivity.
  - cbn [mended]. unfold text_of in *. rewrite map_app, concat_app, filter_app, IH.
    assert (Hc : is_ascii c = false).
    { destruct (is_ascii c) eqn:E; [|reflexivity]. exfalso. unfold is_ascii in E. destruct (good_split c s _ _ (ascii_good c s E) (rune_ascii c s E)) as [Sc Ec]. exact (N _ _ Sc Ec). }
    cbn [filter]. rewrite Hc. destruct junk; [reflexivity|]. cbn [map concat]. rewrite app_nil_r, high_encode; [reflexivity|right; split; [discriminate|reflexivity]|discriminate].
Qed.

Theorem same_ascii s : filter is_ascii (to_valid_utf8 s) = filter is_ascii s.
Proof. destruct (valid_reads s) as (l & R & ->). exact (reads_ascii s l R false). Qed.
