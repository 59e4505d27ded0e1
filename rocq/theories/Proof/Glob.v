(** Proofs about shell patterns. *)
From Coq Require Import NArith Lia.
From Verif.Base Require Import Bytes.
From Verif.Model Require Import Glob.
From Verif.Spec Require Import Glob.
Open Scope nat_scope.

(** ** Code points *)
Definition high (c : ascii) : Prop := (128 <= code c)%N.
Lemma within_high lo hi c : (128 <= lo)%N -> within lo hi c = true -> high c.
Proof. unfold within, high. intros L H. apply andb_true_iff in H. destruct H as [H _]. apply N.leb_le in H. lia. Qed.
Lemma lead_high b k lo hi : lead b = Some (k, lo, hi) -> (128 <= lo)%N.
Proof.
  unfold lead. repeat match goal with |- context [if ?x then _ else _] => destruct x end; intros E; try discriminate E; injection E as <- <- <-; lia.
Qed.
Ltac ands H := repeat match type of H with (_ && _)%bool = true => let H1 := fresh "W" in apply andb_true_iff in H; destruct H as [H H1] end.

(** A code point: its bytes after the first are not ASCII, it does not depend on what follows, unless it is none. *)
Lemma rune_split c x : exists u, rune (c :: x) = (fst (rune (c :: x)), snd (rune (c :: x))) /\ x = u ++ snd (rune (c :: x)) /\ Forall high u /\
  (~ high c -> u = [] /\ fst (rune (c :: x)) = code c) /\
  (utf8 (c :: x) -> forall y, rune (c :: u ++ y) = (fst (rune (c :: x)), y) /\ utf8 (c :: u ++ y)).
Proof.
  assert (Bad : rune (c :: x) = (65533%N, x) -> high c -> exists u, rune (c :: x) = (fst (rune (c :: x)), snd (rune (c :: x))) /\ x = u ++ snd (rune (c :: x)) /\ Forall high u /\
    (~ high c -> u = [] /\ fst (rune (c :: x)) = code c) /\
    (utf8 (c :: x) -> forall y, rune (c :: u ++ y) = (fst (rune (c :: x)), y) /\ utf8 (c :: u ++ y))).
  { intros E Hc. exists []. rewrite E. split; [reflexivity|]. split; [reflexivity|]. split; [constructor|]. split; [intros X; contradiction|].
    intros U. exfalso. apply U. rewrite E. split; reflexivity. }
  assert (Good : forall u y, u <> [] -> x = u ++ y -> Forall high u -> high c -> (exists n, forall y', rune (c :: u ++ y') = (n, y')) ->
    exists u, rune (c :: x) = (fst (rune (c :: x)), snd (rune (c :: x))) /\ x = u ++ snd (rune (c :: x)) /\ Forall high u /\
    (~ high c -> u = [] /\ fst (rune (c :: x)) = code c) /\
    (utf8 (c :: x) -> forall y, rune (c :: u ++ y) = (fst (rune (c :: x)), y) /\ utf8 (c :: u ++ y))).
  { intros u y Nu -> Hu Hc [n St]. exists u. rewrite (St y). cbn [fst snd]. split; [reflexivity|]. split; [reflexivity|]. split; [exact Hu|]. split; [intros X; contradiction|].
    intros _ y'. split; [apply St|]. unfold utf8. rewrite St. cbn [snd length]. intros [_ L]. rewrite app_length in L. destruct u; [congruence|cbn [length] in L; lia]. }
  destruct (N.ltb_spec (code c) 128) as [L|L].
  - clear Bad Good. assert (E : forall z, rune (c :: z) = (code c, z)) by (intros z; unfold rune; destruct (N.ltb_spec (code c) 128); [reflexivity|lia]).
    exists []. rewrite E. split; [reflexivity|]. split; [reflexivity|]. split; [constructor|]. split; [auto|]. intros _ y. cbn [app]. rewrite E. split; [reflexivity|].
    unfold utf8. rewrite E. cbn [fst]. intros [X _]. lia.
  - assert (Hc : high c) by exact L.
    assert (E : forall z, rune (c :: z) = match lead (code c), z with
        | Some (1, lo, hi), d :: y => if within lo hi d then ((code c mod 32) * 64 + low6 d, y)%N else (65533%N, z)
        | Some (2, lo, hi), d :: e :: y => if within lo hi d && cont e then ((code c mod 16) * 4096 + low6 d * 64 + low6 e, y)%N else (65533%N, z)
        | Some (3, lo, hi), d :: e :: f :: y =>
            if within lo hi d && cont e && cont f then ((code c mod 8) * 262144 + low6 d * 4096 + low6 e * 64 + low6 f, y)%N else (65533%N, z)
        | _, _ => (65533%N, z)
        end) by (intros z; unfold rune; destruct (N.ltb_spec (code c) 128); [lia|reflexivity]).
    destruct (lead (code c)) as [[[k lo] hi]|] eqn:Le; [|apply Bad; [rewrite E; reflexivity|exact Hc]].
    pose proof (lead_high _ _ _ _ Le) as Hlo.
    destruct k as [|[|[|[|k]]]]; try (apply Bad; [rewrite E; reflexivity|exact Hc]).
    + destruct x as [|d y]; [apply Bad; [rewrite E; reflexivity|exact Hc]|].
      destruct (within lo hi d) eqn:W; [|apply Bad; [rewrite E, W; reflexivity|exact Hc]].
      apply (Good [d] y); [discriminate|reflexivity|constructor; [eapply within_high; eassumption|constructor]|exact Hc|].
      eexists. intros y'. cbn [app]. rewrite E, W. reflexivity.
    + destruct x as [|d [|e y]]; try (apply Bad; [rewrite E; reflexivity|exact Hc]).
      destruct (within lo hi d && cont e) eqn:W; [|apply Bad; [rewrite E, W; reflexivity|exact Hc]].
      apply (Good [d; e] y); [discriminate|reflexivity| |exact Hc|eexists; intros y'; cbn [app]; rewrite E, W; reflexivity].
      ands W. repeat constructor; (eapply within_high; [|eassumption]); assumption || lia.
    + destruct x as [|d [|e [|f y]]]; try (apply Bad; [rewrite E; reflexivity|exact Hc]).
      destruct (within lo hi d && cont e && cont f) eqn:W; [|apply Bad; [rewrite E, W; reflexivity|exact Hc]].
      apply (Good [d; e; f] y); [discriminate|reflexivity| |exact Hc|eexists; intros y'; cbn [app]; rewrite E, W; reflexivity].
      ands W. repeat constructor; (eapply within_high; [|eassumption]); assumption || lia.
Qed.
Lemma rune_shorter c x : length (snd (rune (c :: x))) <= length x.
Proof. destruct (rune_split c x) as (u & _ & E & _). rewrite E at 2. rewrite app_length. lia. Qed.

Lemma bad_iff s : bad_rune s = false <-> utf8 s.
Proof.
  unfold bad_rune, utf8. destruct (rune s) as [r t]. cbn [fst snd]. rewrite andb_false_iff, N.eqb_neq, Nat.eqb_neq. tauto || split; [intros [H|H] [A B]; contradiction|].
  intros H. destruct (N.eq_dec r 65533); [right|left]; [intros X; apply H; auto|assumption].
Qed.

(** ** Classes *)
Lemma get_rune_iff s n y : get_rune s = Some (n, y) <-> rune s = (n, y) /\ utf8 s /\ y <> [].
Proof.
  unfold get_rune. destruct (bad_rune s) eqn:E.
  - split; [discriminate|]. intros (_ & U & _). apply bad_iff in U. congruence.
  - apply bad_iff in E. destruct (rune s) as [r t] eqn:R. destruct t as [|c t]; split.
    + discriminate. + intros (X & _ & N). injection X as _ <-. congruence.
    + intros X. injection X as <- <-. repeat split; [exact E|discriminate].
    + intros (X & _ & _). congruence.
Qed.
Lemma get_esc_iff x n y : get_esc x = Some (n, y) <-> bound x n y /\ y <> [].
Proof.
  unfold get_esc. destruct x as [|c rest]; [split; [discriminate|intros [X _]; inversion X]|].
  destruct (aeqb_spec c "-") as [->|N1]; cbn [orb].
  { split; [discriminate|]. intros [X _]. inversion X; subst. exfalso. match goal with H : ~ In _ _ |- _ => apply H; left; reflexivity end. }
  destruct (aeqb_spec c "]") as [->|N2].
  { split; [discriminate|]. intros [X _]. inversion X; subst. exfalso. match goal with H : ~ In _ _ |- _ => apply H; right; left; reflexivity end. }
  destruct (aeqb_spec c "\") as [->|N3].
  - destruct rest as [|d rest]; [split; [discriminate|intros [X _]; inversion X; subst; match goal with H : ~ In _ _ |- _ => destruct H; right; right; left; reflexivity end]|].
    rewrite get_rune_iff. split.
    + intros (R & U & N). split; [apply Escaped; assumption|exact N].
    + intros [X N]. inversion X; subst; [exfalso; match goal with H : ~ In _ _ |- _ => apply H; right; right; left; reflexivity end|]. auto.
  - rewrite get_rune_iff. split.
    + intros (R & U & N). split; [|exact N]. apply Bare; [|exact R|exact U]. intros [X|[X|[X|[]]]]; congruence.
    + intros [X N]. inversion X; subst; [auto|]. congruence.
Qed.

(** The bytes of a bound, of an item, of items: what comes after does not matter. *)
Definition inner (c : ascii) : Prop := ~ In c (B "*[]\") .
Lemma bound_cut x n y : bound x n y -> exists w, x = w ++ y /\ w <> [] /\ (forall z, bound (w ++ z) n z).
Proof.
  intros [c x' n' y' Nc R U|c x' n' y' R U]; destruct (rune_split c x') as (u & _ & E & _ & _ & St); rewrite R in E, St; cbn [fst snd] in E, St; subst x'.
  - exists (c :: u). split; [reflexivity|]. split; [discriminate|]. intros z. destruct (St U z) as [A C]. apply Bare; assumption.
  - exists ("\"%char :: c :: u). split; [reflexivity|]. split; [discriminate|]. intros z. destruct (St U z) as [A C]. apply Escaped; assumption.
Qed.
Lemma item_cut x r c y : item x r (c :: y) -> exists w, x = w ++ c :: y /\ w <> [] /\ (forall z, item (w ++ c :: z) r (c :: z)).
Proof.
  intros H. inversion H as [x' n d y' Bn Nd|x' lo y' hi z B1 B2]; subst.
  - destruct (bound_cut _ _ _ Bn) as (w & -> & Nw & St). exists w. split; [reflexivity|]. split; [exact Nw|]. intros z. apply Single; [apply St|exact Nd].
  - destruct (bound_cut _ _ _ B1) as (w & -> & Nw & St). destruct (bound_cut _ _ _ B2) as (v & -> & Nv & Sv).
    exists (w ++ "-"%char :: v). split; [rewrite <- app_assoc; reflexivity|]. split; [destruct w; discriminate|]. intros z. rewrite <- app_assoc. cbn [app].
    apply (Range _ _ (v ++ c :: z)); [apply St|apply Sv].
Qed.
Lemma items_cut x rs y : items x rs y -> exists w, x = w ++ y /\ w <> [] /\ (forall z, items (w ++ z) rs z).
Proof.
  induction 1 as [x r y I|x r c y rs z I Nc Is IH].
  - destruct (item_cut _ _ _ _ I) as (w & -> & Nw & St). exists (w ++ ["]"%char]). split; [rewrite <- app_assoc; reflexivity|]. split; [destruct w; discriminate|].
    intros z. rewrite <- app_assoc. apply ILast. apply St.
  - destruct (item_cut _ _ _ _ I) as (w & -> & Nw & St). destruct IH as (v & E & Nv & Sv). destruct v as [|d v]; [congruence|]. injection E as <- ->.
    exists (w ++ c :: v). split; [rewrite <- app_assoc; reflexivity|]. split; [destruct w; discriminate|]. intros q. rewrite <- app_assoc. cbn [app].
    apply (IMore _ _ c (v ++ q)); [apply St|exact Nc|apply Sv].
Qed.
Lemma item_head x r y : item x r y -> match x with [] => False | c :: _ => c <> "]"%char end.
Proof.
  assert (G : forall x n y, bound x n y -> match x with [] => False | c :: _ => c <> "]"%char end).
  { intros x0 n y0 [c z n' y' N _ _|c z n' y' _ _]; [|discriminate]. intros ->. apply N. right. left. reflexivity. }
  intros [x0 n c y0 Bn _|x0 lo y0 hi z Bn _]; exact (G _ _ _ Bn).
Qed.
Lemma items_head x rs y : items x rs y -> match x with [] => False | c :: _ => c <> "]"%char end.
Proof. intros [x' r y' I|x' r c y' rs' z I _ _]; exact (item_head _ _ _ I). Qed.
Definition hits (r : N) (rs : list (N * N)) : bool := existsb (fun p => (fst p <=? r)%N && (r <=? snd p)%N) rs.
Lemma hits_iff r rs : hits r rs = true <-> in_ranges r rs.
Proof.
  unfold hits, in_ranges. rewrite existsb_exists. split.
  - intros ((lo, hi) & I & E). apply andb_true_iff in E. destruct E as [E1 E2]. apply N.leb_le in E1, E2. exists lo, hi. auto.
  - intros (lo & hi & I & L1 & L2). exists (lo, hi). split; [exact I|]. apply andb_true_iff. split; apply N.leb_le; assumption.
Qed.
Lemma class_item fuel x r0 y some m r : item x r0 y -> y <> [] -> class (S fuel) x some m r = class fuel y true (m || ((fst r0 <=? r)%N && (r <=? snd r0)%N)) r.
Proof.
  intros I Ny. pose proof (item_head _ _ _ I) as Hd. cbn [class].
  assert (G : match get_esc x with
      | None => None
      | Some (lo, chunk1) => match chunk1 with
          | c :: chunk2 => if aeqb c "-" then match get_esc chunk2 with None => None | Some (hi, chunk3) => class fuel chunk3 true (m || ((lo <=? r)%N && (r <=? hi)%N)) r end
                           else class fuel chunk1 true (m || ((lo <=? r)%N && (r <=? lo)%N)) r
          | [] => None
          end
      end = class fuel y true (m || ((fst r0 <=? r)%N && (r <=? snd r0)%N)) r).
  { destruct I as [x n c y Bn Nc|x lo y hi z B1 B2].
    - assert (E : get_esc x = Some (n, c :: y)) by (apply get_esc_iff; split; [exact Bn|discriminate]). rewrite E. apply aeqb_neq in Nc. rewrite Nc. reflexivity.
    - assert (E : get_esc x = Some (lo, "-"%char :: y)) by (apply get_esc_iff; split; [exact B1|discriminate]). rewrite E, aeqb_refl.
      assert (E2 : get_esc y = Some (hi, z)) by (apply get_esc_iff; split; assumption). rewrite E2. reflexivity. }
  destruct x as [|c x]; [destruct Hd|]. apply aeqb_neq in Hd. rewrite Hd. cbn [andb]. exact G.
Qed.
Lemma class_complete x rs y : items x rs y -> forall fuel some m r, length x < fuel -> class fuel x some m r = Some (m || hits r rs, y).
Proof.
  induction 1 as [x r0 y I|x r0 c y rs z I Nc Is IH]; intros fuel some m r L; (destruct fuel as [|fuel]; [lia|]).
  - rewrite (class_item fuel x r0 _ some m r I) by discriminate. destruct (item_cut _ _ _ _ I) as (w & -> & Nw & _). rewrite app_length in L. cbn [length] in L.
    destruct fuel as [|fuel]; [lia|]. cbn [class]. rewrite aeqb_refl. cbn [andb]. unfold hits. cbn [existsb]. rewrite orb_false_r. reflexivity.
  - rewrite (class_item fuel x r0 _ some m r I) by discriminate. destruct (item_cut _ _ _ _ I) as (w & -> & Nw & _). rewrite app_length in L.
    rewrite IH; [|destruct w; [congruence|cbn [length] in *; lia]]. unfold hits. cbn [existsb]. rewrite orb_assoc. reflexivity.
Qed.
Lemma class_sound fuel : forall x some m r m' y, class fuel x some m r = Some (m', y) -> (some = true /\ x = "]"%char :: y) \/ exists rs, items x rs y.
Proof.
  induction fuel as [|fuel IH]; intros x some m r m' y; [discriminate|]. cbn [class].
  assert (G : match get_esc x with
      | None => None
      | Some (lo, chunk1) => match chunk1 with
          | c :: chunk2 => if aeqb c "-" then match get_esc chunk2 with None => None | Some (hi, chunk3) => class fuel chunk3 true (m || ((lo <=? r)%N && (r <=? hi)%N)) r end
                           else class fuel chunk1 true (m || ((lo <=? r)%N && (r <=? lo)%N)) r
          | [] => None
          end
      end = Some (m', y) -> exists rs, items x rs y).
  { destruct (get_esc x) as [[lo c1]|] eqn:E1; [|discriminate]. apply get_esc_iff in E1. destruct E1 as [B1 _]. destruct c1 as [|c c2]; [discriminate|].
    assert (K : forall r0 z k, item x r0 z -> z <> [] -> class fuel z true k r = Some (m', y) -> exists rs, items x rs y).
    { intros r0 z k I Nz H. apply IH in H. destruct H as [[_ ->]|[rs H]]; [exists [r0]; apply ILast; exact I|].
      destruct z as [|d z]; [congruence|]. exists (r0 :: rs). apply (IMore x r0 d z); [exact I| |exact H]. 
      exact (items_head _ _ _ H). }
    destruct (aeqb_spec c "-") as [->|Nc].
    - destruct (get_esc c2) as [[hi c3]|] eqn:E2; [|discriminate]. apply get_esc_iff in E2. destruct E2 as [B2 N3]. apply (K (lo, hi)); [exact (Range _ _ _ _ _ B1 B2)|exact N3].
    - apply (K (lo, lo)); [exact (Single _ _ _ _ B1 Nc)|discriminate]. }
  destruct x as [|c x]; [intros H; right; exact (G H)|]. destruct (aeqb_spec c "]") as [->|Nc]; cbn [andb].
  - destruct some; [|intros H; right; exact (G H)]. intros H. injection H as <- <-. left. auto.
  - intros H. right. exact (G H).
Qed.

(** ** Chunks *)
Definition step1 (t : tok) (s : option bytes) : option bytes :=
  match s with
  | Some (d :: x) =>
      match t with
      | TStar => None
      | TOne => if aeqb d "/" then None else Some (snd (rune (d :: x)))
      | TIn neg rs => if Bool.eqb (hits (fst (rune (d :: x))) rs) neg then None else Some (snd (rune (d :: x)))
      | TLit c => if aeqb c d then Some x else None
      end
  | _ => None
  end.
Fixpoint run (l : list tok) (s : option bytes) : option bytes := match l with [] => s | t :: l' => run l' (step1 t s) end.
Lemma run_none l : run l None = None.
Proof. induction l as [|t l IH]; [reflexivity|exact IH]. Qed.
(** Texts without stars; a star is a character like others. *)
Inductive cpat : bytes -> list tok -> Prop :=
| CNil : cpat [] []
| COne p l : cpat p l -> cpat ("?"%char :: p) (TOne :: l)
| CLit c p l : ~ In c (B "?[\") -> cpat p l -> cpat (c :: p) (TLit c :: l)
| CEsc c p l : cpat p l -> cpat ("\"%char :: c :: p) (TLit c :: l)
| CIn p rs q l : (forall t, p <> "^"%char :: t) -> items p rs q -> cpat q l -> cpat ("["%char :: p) (TIn false rs :: l)
| CNot p rs q l : items p rs q -> cpat q l -> cpat ("["%char :: "^"%char :: p) (TIn true rs :: l).
Lemma items_shorter x rs y : items x rs y -> length y < length x.
Proof. intros I. destruct (items_cut _ _ _ I) as (w & -> & N & _). rewrite app_length. destruct w; [congruence|cbn [length]; lia]. Qed.

Lemma chunk_complete p l : cpat p l -> forall fuel s, length p < fuel -> match_chunk fuel p s = Some (run l s).
Proof.
  assert (E0 : forall t s, step1 t (match s with Some [] => None | _ => s end) = step1 t s) by (intros t [[|d x]|]; reflexivity).
  induction 1 as [|p l H IH|c p l N H IH|c p l H IH|p rs q l N I H IH|p rs q l I H IH]; intros fuel s L; (destruct fuel as [|fuel]; [lia|]); cbn [match_chunk run];
    cbn [length] in L.
  - reflexivity.
  - change (aeqb "?" "[") with false. change (aeqb "?" "?") with true. cbv iota. rewrite IH by lia. do 2 f_equal. destruct s as [[|d x]|]; reflexivity.
  - assert (Hc : aeqb c "[" = false /\ aeqb c "?" = false /\ aeqb c "\" = false).
    { repeat split; apply aeqb_neq; intros ->; apply N; [right; left|left|right; right; left]; reflexivity. }
    destruct Hc as (-> & -> & ->). rewrite IH by lia. do 2 f_equal. destruct s as [[|d x]|]; reflexivity.
  - change (aeqb "\" "[") with false. change (aeqb "\" "?") with false. change (aeqb "\" "\") with true. cbv iota. rewrite IH by (cbn [length] in L; lia).
    do 2 f_equal. destruct s as [[|d x]|]; reflexivity.
  - change (aeqb "[" "[") with true. cbv iota.
    assert (E : (match p with d :: b => if aeqb d "^" then (true, b) else (false, p) | [] => (false, p) end) = (false, p)).
    { destruct p as [|d b]; [reflexivity|]. destruct (aeqb_spec d "^") as [->|]; [destruct (N b eq_refl)|reflexivity]. }
    rewrite E. pose proof (items_shorter _ _ _ I) as Ls. destruct s as [[|d x]|].
    + cbv iota beta. rewrite (class_complete _ _ _ I) by lia. rewrite IH by lia. do 2 f_equal. destruct (Bool.eqb _ _); reflexivity.
    + destruct (rune_split d x) as (u & R & _). rewrite R. rewrite (class_complete _ _ _ I) by lia. rewrite IH by lia. reflexivity.
    + cbv iota beta. rewrite (class_complete _ _ _ I) by lia. rewrite IH by lia. do 2 f_equal. destruct (Bool.eqb _ _); reflexivity.
  - change (aeqb "[" "[") with true. change (aeqb "^" "^") with true. cbv iota. pose proof (items_shorter _ _ _ I) as Ls. cbn [length] in L. destruct s as [[|d x]|].
    + cbv iota beta. rewrite (class_complete _ _ _ I) by lia. rewrite IH by lia. do 2 f_equal. destruct (Bool.eqb _ _); reflexivity.
    + destruct (rune_split d x) as (u & R & _). rewrite R. rewrite (class_complete _ _ _ I) by lia. rewrite IH by lia. reflexivity.
    + cbv iota beta. rewrite (class_complete _ _ _ I) by lia. rewrite IH by lia. do 2 f_equal. destruct (Bool.eqb _ _); reflexivity.
Qed.
Lemma chunk_sound fuel : forall p s r, length p < fuel -> match_chunk fuel p s = Some r -> exists l, cpat p l.
Proof.
  induction fuel as [|fuel IH]; intros p s r L; [lia|]. destruct p as [|c p]; [exists []; constructor|]. cbn [match_chunk length] in *.
  destruct (aeqb_spec c "[") as [->|N1].
  - set (s0 := match s with Some [] => None | _ => s end).
    assert (Cl : forall n neg body s1, length body <= length p -> match class (S (length body)) body false false n with None => None | Some (m, rest) => match_chunk fuel rest (if Bool.eqb m neg then None else s1) end = Some r ->
      exists rs q l, items body rs q /\ cpat q l).
    { intros n neg body s1 Lb H. destruct (class (S (length body)) body false false n) as [[m rest]|] eqn:E; [|discriminate].
      apply class_sound in E. destruct E as [[E _]|[rs I]]; [discriminate|]. pose proof (items_shorter _ _ _ I). apply IH in H; [|lia]. destruct H as [l H]. exists rs, rest, l. auto. }
    destruct (match s0 with Some x => let '(r0, t) := rune x in (r0, Some t) | None => (0%N, None) end) as [n s1].
    destruct p as [|d b].
    + intros H. apply (Cl n false [] s1) in H; [|lia]. destruct H as (rs & q & l & I & _). pose proof (items_shorter _ _ _ I). cbn [length] in *. lia.
    + destruct (aeqb_spec d "^") as [->|Nd]; intros H.
      * apply (Cl n true b s1) in H; [|cbn [length]; lia]. destruct H as (rs & q & l & I & C). exists (TIn true rs :: l). apply (CNot b rs q l); assumption.
      * apply (Cl n false (d :: b) s1) in H; [|lia]. destruct H as (rs & q & l & I & C). exists (TIn false rs :: l). apply (CIn (d :: b) rs q l); [|exact I|exact C].
        intros t E. injection E as E _. contradiction.
  - destruct (aeqb_spec c "?") as [->|N2].
    + intros H. apply IH in H; [|lia]. destruct H as [l H]. exists (TOne :: l). constructor. exact H.
    + destruct (aeqb_spec c "\") as [->|N3].
      * destruct p as [|d p]; [discriminate|]. cbn [length] in L. intros H. apply IH in H; [|lia]. destruct H as [l H]. exists (TLit d :: l). constructor. exact H.
      * intros H. apply IH in H; [|lia]. destruct H as [l H]. exists (TLit c :: l). constructor; [|exact H]. intros [X|[X|[X|[]]]]; congruence.
Qed.
Lemma at_chunk_run p l s : cpat p l -> at_chunk p s = Some (run l (Some s)).
Proof. intros C. apply chunk_complete; [exact C|lia]. Qed.
Lemma at_chunk_pat p s r : at_chunk p s = Some r -> exists l, cpat p l.
Proof. intros H. eapply chunk_sound; [|exact H]. lia. Qed.

(** ** Where chunks end *)
Lemma high_scan c inr y : high c -> scan inr (c :: y) = (c :: fst (scan inr y), snd (scan inr y)).
Proof.
  intros H. assert (N : forall d, (code d < 128)%N -> aeqb c d = false) by (intros d L; apply aeqb_neq; intros ->; unfold high in H; lia).
  cbn [scan]. rewrite !N by (vm_compute; reflexivity). cbn [andb]. destruct (scan inr y). reflexivity.
Qed.
Lemma highs_scan u inr y : Forall high u -> scan inr (u ++ y) = (u ++ fst (scan inr y), snd (scan inr y)).
Proof.
  induction 1 as [|c u H _ IH]; cbn [app]; [destruct (scan inr y); reflexivity|]. rewrite high_scan by exact H. rewrite IH. reflexivity.
Qed.
Lemma scan_in c y : ~ In c (B "]\") -> scan true (c :: y) = (c :: fst (scan true y), snd (scan true y)).
Proof.
  intros N. assert (H : aeqb c "\" = false /\ aeqb c "]" = false) by (split; apply aeqb_neq; intros ->; apply N; [right; left|left]; reflexivity).
  destruct H as [H1 H2]. cbn [scan]. rewrite H1, H2. rewrite andb_false_r. destruct (aeqb c "["); destruct (scan true y); reflexivity.
Qed.
Lemma bound_scan x n y : bound x n y -> exists w, x = w ++ y /\ (forall z, scan true (w ++ z) = (w ++ fst (scan true z), snd (scan true z))) /\ (forall z, bound (w ++ z) n z) /\ w <> [].
Proof.
  intros [c x' n' y' Nc R U|c x' n' y' R U]; destruct (rune_split c x') as (u & _ & E & Hu & _ & St); rewrite R in E, St; cbn [fst snd] in E, St; subst x'.
  - exists (c :: u). split; [reflexivity|]. split; [|split; [intros z; destruct (St U z) as [A C]; apply Bare; assumption|discriminate]].
    intros z. cbn [app]. rewrite scan_in by (intros [X|[X|[]]]; apply Nc; [right; left|right; right; left]; exact X).
    rewrite highs_scan by exact Hu. reflexivity.
  - exists ("\"%char :: c :: u). split; [reflexivity|]. split; [|split; [intros z; destruct (St U z) as [A C]; apply Escaped; assumption|discriminate]].
    intros z. cbn [app scan]. change (aeqb "\" "\") with true. cbv iota. rewrite highs_scan by exact Hu. reflexivity.
Qed.
Lemma item_scan x r c y : item x r (c :: y) -> exists w, x = w ++ c :: y /\ (forall z, scan true (w ++ z) = (w ++ fst (scan true z), snd (scan true z))) /\ (forall z, item (w ++ c :: z) r (c :: z)) /\ w <> [].
Proof.
  intros H. inversion H as [x' n d y' Bn Nd|x' lo y' hi z B1 B2]; subst.
  - destruct (bound_scan _ _ _ Bn) as (w & -> & Sc & St & Nw). exists w. split; [reflexivity|]. split; [exact Sc|]. split; [|exact Nw]. intros z. apply Single; [apply St|exact Nd].
  - destruct (bound_scan _ _ _ B1) as (w & -> & Sc & St & Nw). destruct (bound_scan _ _ _ B2) as (v & -> & Sv & Stv & Nv).
    exists (w ++ "-"%char :: v). split; [rewrite <- app_assoc; reflexivity|]. split; [|split].
    + intros z. rewrite <- app_assoc. cbn [app]. rewrite Sc. rewrite scan_in by (intros [X|[X|[]]]; discriminate X). rewrite Sv. cbn [fst snd]. rewrite <- app_assoc. reflexivity.
    + intros z. rewrite <- app_assoc. cbn [app]. apply (Range _ _ (v ++ c :: z)); [apply St|apply Stv].
    + destruct w; discriminate.
Qed.
Lemma items_scan x rs y : items x rs y -> exists w, x = w ++ y /\ (forall z, scan true (w ++ z) = (w ++ fst (scan false z), snd (scan false z))) /\ (forall z, items (w ++ z) rs z) /\ w <> [].
Proof.
  induction 1 as [x r y I|x r c y rs z I Nc Is IH].
  - destruct (item_scan _ _ _ _ I) as (w & -> & Sc & St & Nw). exists (w ++ ["]"%char]). split; [rewrite <- app_assoc; reflexivity|]. split; [|split].
    + intros z. rewrite <- app_assoc. rewrite Sc. cbn [app scan]. change (aeqb "]" "\") with false. change (aeqb "]" "*") with false. change (aeqb "]" "[") with false. change (aeqb "]" "]") with true. cbn [andb].
      destruct (scan false z) as [a b]. cbn [fst snd]. rewrite <- app_assoc. reflexivity.
    + intros z. rewrite <- app_assoc. apply ILast. apply St.
    + destruct w; discriminate.
  - destruct (item_scan _ _ _ _ I) as (w & -> & Sc & St & Nw). destruct IH as (v & E & Sv & Stv & Nv). destruct v as [|d v]; [congruence|]. injection E as <- ->.
    exists (w ++ c :: v). split; [rewrite <- app_assoc; reflexivity|]. split; [|split].
    + intros q. rewrite <- app_assoc. rewrite Sc, Sv. cbn [fst snd]. rewrite <- app_assoc. reflexivity.
    + intros q. rewrite <- app_assoc. cbn [app]. apply (IMore _ _ c (v ++ q)); [apply St|exact Nc|apply Stv].
    + destruct w; discriminate.
Qed.
Lemma scan_app inr p : p = fst (scan inr p) ++ snd (scan inr p).
Proof.
  assert (G : forall n inr p, length p <= n -> p = fst (scan inr p) ++ snd (scan inr p)).
  { induction n as [|n IH]; intros i q L; [destruct q; [reflexivity|cbn [length] in L; lia]|]. destruct q as [|c q]; [reflexivity|]. cbn [scan length] in *.
    destruct (aeqb c "\").
    - destruct q as [|d q]; [reflexivity|]. cbn [length] in L. specialize (IH i q ltac:(lia)). destruct (scan i q) as [a b]. cbn [fst snd] in *. rewrite IH. reflexivity.
    - destruct (aeqb c "*" && negb i); [reflexivity|]. specialize (IH (if aeqb c "[" then true else if aeqb c "]" then false else i) q ltac:(lia)).
      destruct (scan _ q) as [a b]. cbn [fst snd] in *. rewrite IH at 1. reflexivity. }
  exact (G (length p) inr p (le_n _)).
Qed.
Definition starts (b : bytes) : Prop := b = [] \/ exists t, b = "*"%char :: t.
Lemma scan_rest inr p : starts (snd (scan inr p)).
Proof.
  assert (G : forall n inr p, length p <= n -> starts (snd (scan inr p))).
  { induction n as [|n IH]; intros i q L; [destruct q; [left; reflexivity|cbn [length] in L; lia]|]. destruct q as [|c q]; [left; reflexivity|]. cbn [scan length] in *.
    destruct (aeqb c "\").
    - destruct q as [|d q]; [left; reflexivity|]. cbn [length] in L. specialize (IH i q ltac:(lia)). destruct (scan i q) as [a b]. exact IH.
    - destruct (aeqb_spec c "*") as [->|N]; [destruct i; cbn [negb andb]|cbn [andb]].
      + specialize (IH true q ltac:(lia)). change (aeqb "*" "[") with false. change (aeqb "*" "]") with false. cbv iota. destruct (scan true q) as [a b]. exact IH.
      + right. exists q. reflexivity.
      + specialize (IH (if aeqb c "[" then true else if aeqb c "]" then false else i) q ltac:(lia)). destruct (scan _ q) as [a b]. exact IH. }
  exact (G (length p) inr p (le_n _)).
Qed.
Lemma scan_lit c p : ~ In c (B "*?[\") -> scan false (c :: p) = (c :: fst (scan false p), snd (scan false p)).
Proof.
  intros N. assert (H : aeqb c "\" = false /\ aeqb c "*" = false /\ aeqb c "[" = false).
  { repeat split; apply aeqb_neq; intros ->; apply N; [right; right; right; left|left|right; right; left]; reflexivity. }
  destruct H as (H1 & H2 & H3). cbn [scan]. rewrite H1, H2, H3. cbn [andb]. destruct (aeqb c "]"); destruct (scan false p); reflexivity.
Qed.
Lemma scan_one p : scan false ("?"%char :: p) = ("?"%char :: fst (scan false p), snd (scan false p)).
Proof. cbn [scan]. change (aeqb "?" "\") with false. change (aeqb "?" "*") with false. change (aeqb "?" "[") with false. change (aeqb "?" "]") with false. cbn [andb]. destruct (scan false p). reflexivity. Qed.
Lemma scan_esc c p : scan false ("\"%char :: c :: p) = ("\"%char :: c :: fst (scan false p), snd (scan false p)).
Proof. cbn [scan]. change (aeqb "\" "\") with true. cbv iota. destruct (scan false p). reflexivity. Qed.
Lemma scan_open p : scan false ("["%char :: p) = ("["%char :: fst (scan true p), snd (scan true p)).
Proof. cbn [scan]. change (aeqb "[" "\") with false. change (aeqb "[" "*") with false. change (aeqb "[" "[") with true. cbn [andb]. destruct (scan true p). reflexivity. Qed.

Lemma pat_scan p l : pat p l -> exists l1 l2, l = l1 ++ l2 /\ cpat (fst (scan false p)) l1 /\ pat (snd (scan false p)) l2.
Proof.
  induction 1 as [|p l H IH|p l H IH|c p l N H IH|c p l H IH|p rs q l N I H IH|p rs q l I H IH].
  - exists [], []. repeat split; constructor.
  - exists [], (TStar :: l). cbn [scan]. change (aeqb "*" "\") with false. change (aeqb "*" "*") with true. cbn [andb negb fst snd]. repeat split; constructor. exact H.
  - destruct IH as (l1 & l2 & -> & C & P). exists (TOne :: l1), l2. rewrite scan_one. cbn [fst snd]. repeat split; [constructor; exact C|exact P].
  - destruct IH as (l1 & l2 & -> & C & P). exists (TLit c :: l1), l2. rewrite scan_lit by exact N. cbn [fst snd]. repeat split; [|exact P]. constructor; [|exact C].
    intros X. apply N. right. exact X.
  - destruct IH as (l1 & l2 & -> & C & P). exists (TLit c :: l1), l2. rewrite scan_esc. cbn [fst snd]. repeat split; [constructor; exact C|exact P].
  - destruct IH as (l1 & l2 & -> & C & P). exists (TIn false rs :: l1), l2. destruct (items_scan _ _ _ I) as (w & -> & Sc & St & Nw). rewrite scan_open, Sc. cbn [fst snd].
    repeat split; [|exact P]. apply (CIn _ rs (fst (scan false q))); [|apply St|exact C]. destruct w as [|d w]; [congruence|]. intros t E. injection E as -> _. apply (N (w ++ q)). reflexivity.
  - destruct IH as (l1 & l2 & -> & C & P). exists (TIn true rs :: l1), l2. destruct (items_scan _ _ _ I) as (w & -> & Sc & St & Nw). rewrite scan_open.
    rewrite scan_in by (intros [X|[X|[]]]; discriminate X). rewrite Sc. cbn [fst snd].
    repeat split; [|exact P]. apply (CNot _ rs (fst (scan false q))); [apply St|exact C].
Qed.
Lemma scan_pat a l1 : cpat a l1 -> forall b l2, scan false (a ++ b) = (a, b) -> pat b l2 -> pat (a ++ b) (l1 ++ l2).
Proof.
  induction 1 as [|p l H IH|c p l N H IH|c p l H IH|p rs q l N I H IH|p rs q l I H IH]; intros b l2 E P; cbn [app] in *.
  - exact P.
  - rewrite scan_one in E. injection E as E1 E2. constructor. apply IH; [|exact P]. rewrite (surjective_pairing (scan false (p ++ b))), E1, E2. reflexivity.
  - destruct (aeqb_spec c "*") as [->|Nc].
    { cbn [scan] in E. change (aeqb "*" "\") with false in E. change (aeqb "*" "*") with true in E. cbn [andb negb] in E. discriminate E. }
    assert (N' : ~ In c (B "*?[\")) by (intros [X|X]; [congruence|apply N; exact X]).
    rewrite scan_lit in E by exact N'. injection E as E1 E2. constructor; [exact N'|]. apply IH; [|exact P]. rewrite (surjective_pairing (scan false (p ++ b))), E1, E2. reflexivity.
  - rewrite scan_esc in E. injection E as E1 E2. constructor. apply IH; [|exact P]. rewrite (surjective_pairing (scan false (p ++ b))), E1, E2. reflexivity.
  - destruct (items_scan _ _ _ I) as (w & -> & Sc & St & Nw). rewrite <- app_assoc in *. rewrite scan_open, Sc in E. cbn [fst snd] in E. injection E as E1 E2.
    apply app_inv_head in E1. apply (PIn _ rs (q ++ b)); [|apply St|apply IH; [|exact P]; rewrite (surjective_pairing (scan false (q ++ b))), E1, E2; reflexivity].
    destruct w as [|d w]; [congruence|]. intros t X. injection X as -> _. apply (N (w ++ q)). reflexivity.
  - destruct (items_scan _ _ _ I) as (w & -> & Sc & St & Nw). rewrite <- app_assoc in *. rewrite scan_open in E. rewrite scan_in in E by (intros [X|[X|[]]]; discriminate X). rewrite Sc in E.
    cbn [fst snd] in E. injection E as E1 E2. apply app_inv_head in E1. apply (PNot _ rs (q ++ b)); [apply St|apply IH; [|exact P]; rewrite (surjective_pairing (scan false (q ++ b))), E1, E2; reflexivity].
Qed.

(** Stars. *)
Lemma stars_spec p : exists k, p = repeat "*"%char k ++ snd (stars p) /\ fst (stars p) = negb (k =? 0) /\ (forall t, snd (stars p) <> "*"%char :: t).
Proof.
  induction p as [|c p IH]; [exists 0; repeat split; discriminate|]. cbn [stars]. destruct (aeqb_spec c "*") as [->|N].
  - destruct IH as (k & E & _ & Sx). exists (S k). cbn [fst snd repeat app]. split; [rewrite E at 1; reflexivity|]. split; [reflexivity|exact Sx].
  - exists 0. split; [reflexivity|]. split; [reflexivity|]. intros t X. injection X as -> _. contradiction.
Qed.
Lemma star_star l s : glob (TStar :: TStar :: l) s <-> glob (TStar :: l) s.
Proof.
  split; intros H.
  - inversion H as [| | | |u l' s0 Nu G]; subst. inversion G as [| | | |v l' s1 Nv G']; subst. rewrite app_assoc. constructor; [|exact G']. intros X. apply in_app_or in X. tauto.
  - inversion H as [| | | |u l' s0 Nu G]; subst. constructor; [exact Nu|]. apply (GStar [] l s0); [intros []|exact G].
Qed.
Lemma glob_stars k l s : glob (repeat TStar k ++ l) s <-> glob ((if negb (k =? 0) then [TStar] else []) ++ l) s.
Proof.
  destruct k as [|k]; [reflexivity|]. cbn [Nat.eqb negb]. induction k as [|k IH]; [reflexivity|]. cbn [repeat app] in *. rewrite star_star. exact IH.
Qed.
Lemma pat_stars k q l : pat (repeat "*"%char k ++ q) l <-> exists l', l = repeat TStar k ++ l' /\ pat q l'.
Proof.
  revert l. induction k as [|k IH]; intros l; cbn [repeat app].
  - split; [intros H; exists l; auto|intros (l' & -> & H); exact H].
  - split.
    + intros H. inversion H; subst; [|exfalso; match goal with X : ~ In _ _ |- _ => apply X; left; reflexivity end].
      match goal with X : pat _ _ |- _ => apply IH in X; destruct X as (l' & -> & P) end. exists l'. auto.
    + intros (l' & -> & P). constructor. apply IH. exists l'. auto.
Qed.

(** ** All chunks *)
Definition flat (tl : list (bool * list tok)) : list tok := concat (map (fun bt : bool * list tok => (if fst bt then [TStar] else []) ++ snd bt) tl).
Definition same (x : bool * bytes) (y : bool * list tok) : Prop := fst x = fst y /\ cpat (snd x) (snd y).
Fixpoint wf (cs : list (bool * bytes)) : Prop :=
  match cs with
  | [] => True
  | (b, c) :: cs' => (c = [] -> b = true /\ cs' = []) /\ match cs' with [] => True | (b', _) :: _ => b' = true end /\ wf cs'
  end.
Lemma glob_app_stable t l l' : (forall s, glob l s <-> glob l' s) -> forall s, glob (t ++ l) s <-> glob (t ++ l') s.
Proof.
  intros E. assert (G : forall l l', (forall s, glob l s -> glob l' s) -> forall s, glob (t ++ l) s -> glob (t ++ l') s).
  { clear. induction t as [|x t IH]; intros l l' H s G; [apply H; exact G|]. cbn [app] in *. specialize (IH _ _ H). inversion G; subst; constructor; auto. }
  intros s. split; apply G; intros s'; apply E.
Qed.
Lemma chunks_len star p q : stars p = (star, q) -> p <> [] -> length (snd (scan false q)) < length p.
Proof.
  intros E Np. destruct (stars_spec p) as (k & Ep & Es & Sq). rewrite E in *. cbn [fst snd] in *.
  pose proof (scan_app false q) as Eq. assert (L : length q = length (fst (scan false q)) + length (snd (scan false q))) by (rewrite Eq at 1; apply app_length).
  rewrite Ep, app_length, repeat_length. destruct k as [|k]; [|lia]. cbn [repeat app] in Ep. subst q.
  destruct (fst (scan false p)) eqn:F; [|cbn [length] in L; lia]. cbn [app] in Eq. destruct (scan_rest false p) as [R|[t R]]; [rewrite R in Eq; congruence|]. rewrite R in Eq. exfalso. exact (Sq t Eq).
Qed.
Lemma chunks_spec fuel : forall p, length p < fuel ->
  wf (chunks fuel p) /\ ((exists t, p = "*"%char :: t) -> match chunks fuel p with (b, _) :: _ => b = true | [] => True end) /\ (chunks fuel p = [] -> p = []) /\
  (forall l, pat p l -> exists tl, Forall2 same (chunks fuel p) tl /\ (forall s, glob l s <-> glob (flat tl) s)
     /\ (forall t, In t (flat tl) <-> In t l)) /\
  (forall tl, Forall2 same (chunks fuel p) tl -> exists l, pat p l /\ (forall s, glob l s <-> glob (flat tl) s)).
Proof.
  induction fuel as [|fuel IH]; intros p L; [lia|]. cbn [chunks]. destruct p as [|c0 p0].
  { split; [exact I|]. split; [auto|]. split; [reflexivity|]. split.
    - intros l P. inversion P; subst. exists []. repeat split; auto.
    - intros tl F. inversion F; subst. exists []. split; [constructor|reflexivity]. }
  set (p := c0 :: p0) in *. assert (Np : p <> []) by discriminate. destruct (stars p) as [star q] eqn:Es. pose proof (chunks_len _ _ _ Es Np) as Lr.
  destruct (stars_spec p) as (k & Ep & Ek & Sq). rewrite Es in Ep, Ek, Sq. cbn [fst snd] in Ep, Ek, Sq.
  pose proof (scan_app false q) as Eq. pose proof (scan_rest false q) as Rq. destruct (scan false q) as [a b] eqn:Sc. cbn [fst snd] in *.
  destruct (IH b ltac:(lia)) as (W & Hs & Hn & Pa & Pb). clear IH. clearbody p.
  split; [|split; [|split; [|split]]].
  - cbn [wf]. split; [|split; [|exact W]].
    + intros ->. cbn [app] in Eq. destruct Rq as [->|[t ->]]; [|exfalso; exact (Sq t Eq)]. subst q. cbn [app] in *. destruct k as [|k]; [cbn in Ep; congruence|]. split; [exact Ek|]. destruct fuel; reflexivity.
    + destruct Rq as [->|Sx]; [destruct fuel; reflexivity|]. exact (Hs Sx).
  - intros [t Et]. destruct k as [|k]; [|exact Ek]. cbn [repeat app] in Ep. rewrite Et in Ep. exfalso. exact (Sq t (eq_sym Ep)).
  - discriminate.
  - intros l P. rewrite Ep in P. apply pat_stars in P. destruct P as (l' & -> & P). apply pat_scan in P. rewrite Sc in P. destruct P as (l1 & l2 & -> & C & P).
    apply Pa in P. destruct P as (tl & F & G & T). exists ((star, l1) :: tl). split; [constructor; [split; [reflexivity|exact C]|exact F]|]. split.
    + intros s. rewrite glob_stars. rewrite <- Ek. unfold flat. cbn [map concat fst snd]. rewrite <- app_assoc. apply glob_app_stable. apply glob_app_stable. exact G.
    + intros t. unfold flat in *. cbn [map concat fst snd]. rewrite !in_app_iff, (T t). rewrite Ek.
      assert (X : In t (if negb (k =? 0) then [TStar] else []) <-> In t (repeat TStar k)).
      { destruct k as [|k]; [reflexivity|]. cbn [Nat.eqb negb]. split; [intros [<-|[]]; left; reflexivity|]. intros X. apply repeat_spec in X. left. congruence. }
      rewrite X. tauto.
  - intros tl F. destruct tl as [|[st l1] tl']; [inversion F|].
    assert (F2 : same (star, a) (st, l1) /\ Forall2 same (chunks fuel b) tl') by (inversion F; auto). clear F. destruct F2 as [[S1 C] F']. cbn [fst snd] in *. subst st.
    apply Pb in F'. destruct F' as (l2 & P & G). exists (repeat TStar k ++ l1 ++ l2). split.
    + rewrite Ep. apply pat_stars. exists (l1 ++ l2). split; [reflexivity|]. rewrite Eq. rewrite Eq in Sc. exact (scan_pat _ _ C _ _ Sc P).
    + intros s. rewrite glob_stars. rewrite <- Ek. unfold flat. cbn [map concat fst snd]. rewrite <- app_assoc. apply glob_app_stable. apply glob_app_stable. exact G.
Qed.

(** ** The loop *)
Definition ok (c : bytes) : Prop := exists t, cpat c t.
Lemma at_ok c s : at_chunk c s <> None <-> ok c.
Proof.
  split.
  - destruct (at_chunk c s) eqn:E; [|congruence]. intros _. exact (at_chunk_pat _ _ _ E).
  - intros [t C]. rewrite (at_chunk_run _ _ _ C). discriminate.
Qed.
Lemma later_ok c last s : ok c -> later c last s <> None.
Proof.
  intros O. induction s as [|d s IH]; [discriminate|]. cbn [later]. destruct (aeqb d "/"); [discriminate|].
  apply (at_ok c s) in O. destruct (at_chunk c s) as [[t|]|]; [|exact IH|congruence]. destruct (last && negb (beqb t [])); [exact IH|discriminate].
Qed.
Lemma check_ok cs : check cs <> None <-> Forall (fun x => ok (snd x)) cs.
Proof.
  induction cs as [|[b c] cs IH]; cbn [check]; [split; [constructor|discriminate]|]. split.
  - intros H. destruct (at_chunk c []) eqn:E; [|congruence]. constructor; [exact (at_chunk_pat _ _ _ E)|apply IH; exact H].
  - intros H. inversion H as [|? ? O F]; subst. cbn [snd] in O. apply (at_ok c []) in O. destruct (at_chunk c []); [apply IH; exact F|congruence].
Qed.
Lemma loop_ok cs : wf cs -> forall s, match_loop cs s <> None <-> Forall (fun x => ok (snd x)) cs.
Proof.
  induction cs as [|[b c] cs IH]; intros W s; cbn [match_loop]; [split; [constructor|discriminate]|]. destruct W as (We & _ & W). specialize (IH W).
  destruct (b && beqb c []) eqn:E.
  { apply andb_true_iff in E. destruct E as [-> E]. apply beqb_eq in E. subst c. destruct (We eq_refl) as [_ ->]. split; [|discriminate]. intros _. constructor; [exists []; constructor|constructor]. }
  assert (K : forall t, match_loop cs t <> None -> ok c -> Forall (fun x => ok (snd x)) ((b, c) :: cs)) by (intros t H O; constructor; [exact O|apply (IH t); exact H]).
  destruct (at_chunk c s) as [r|] eqn:A.
  - assert (O : ok c) by exact (at_chunk_pat _ _ _ A). clear A.
    destruct (match r with Some t => if beqb t [] || negb _ then Some t else None | None => None end) as [t|].
    + split; [intros H; exact (K t H O)|]. intros H. inversion H; subst. apply (IH t). assumption.
    + pose proof (later_ok c (match cs with [] => true | _ => false end) s O) as La.
      destruct (if b then later c _ s else Some None) as [[t|]|] eqn:El.
      * split; [intros H; exact (K t H O)|]. intros H. inversion H; subst. apply (IH t). assumption.
      * rewrite check_ok. split; [intros H; constructor; assumption|intros H; inversion H; assumption].
      * destruct b; [congruence|discriminate].
  - split; [congruence|]. intros H. inversion H as [|? ? O F]; subst. cbn [snd] in O. apply (at_ok c s) in O. congruence.
Qed.
Lemma ok_same cs : Forall (fun x : bool * bytes => ok (snd x)) cs <-> exists tl, Forall2 same cs tl.
Proof.
  split.
  - induction 1 as [|[b c] cs [t C] _ [tl F]]; [exists []; constructor|]. exists ((b, t) :: tl). constructor; [split; [reflexivity|exact C]|exact F].
  - intros [tl F]. induction F as [|x y cs tl [E C] F IH]; constructor; [exists (snd y); exact C|exact IH].
Qed.
(** Whether a pattern is one does not depend on the text. *)
Lemma errors p s : path_match p s = None <-> ~ exists l, pat p l.
Proof.
  unfold path_match. destruct (chunks_spec (S (length p)) p (Nat.lt_succ_diag_r _)) as (W & _ & _ & Pa & Pb). set (cs := chunks (S (length p)) p) in *.
  pose proof (loop_ok cs W s) as L. rewrite ok_same in L. split.
  - intros E [l P]. destruct (Pa l P) as (tl & F & _). assert (N : match_loop cs s <> None) by (apply L; exists tl; exact F). contradiction.
  - intros N. destruct (match_loop cs s) eqn:E; [|reflexivity]. exfalso. apply N. destruct (proj1 L ltac:(discriminate)) as [tl F]. destruct (Pb tl F) as (l & P & _). exists l. exact P.
Qed.

(** ** What is matched is matched *)
Definition starless (t : list tok) : Prop := ~ In TStar t.
Lemma cpat_starless c t : cpat c t -> starless t.
Proof. induction 1 as [|p l H IH|c p l N H IH|c p l H IH|p rs q l N I H IH|p rs q l I H IH]; intros X; [destruct X|..]; (destruct X as [X|X]; [discriminate X|exact (IH X)]). Qed.
Lemma hits_neg r rs neg : Bool.eqb (hits r rs) neg = false <-> (in_ranges r rs <-> neg = false).
Proof.
  rewrite <- hits_iff. destruct (hits r rs), neg; cbn [Bool.eqb]; (split; [intros H; try discriminate H; split; congruence|intros [H1 H2]; try reflexivity]).
  - discriminate (H1 eq_refl).
  - discriminate (H2 eq_refl).
Qed.
Lemma run_iff t rest : starless t -> forall s, glob (t ++ rest) s <-> exists s', run t (Some s) = Some s' /\ glob rest s'.
Proof.
  induction t as [|x t IH]; intros N s; cbn [app run].
  - split; [intros H; exists s; auto|]. intros (s' & E & H). injection E as ->. exact H.
  - assert (Nt : starless t) by (intros X; apply N; right; exact X). specialize (IH Nt).
    assert (K : forall s1, step1 x (Some s) = Some s1 -> (glob (t ++ rest) s1 <-> exists s', run t (step1 x (Some s)) = Some s' /\ glob rest s')) by (intros s1 ->; apply IH).
    assert (K0 : step1 x (Some s) = None -> ~ exists s', run t (step1 x (Some s)) = Some s' /\ glob rest s') by (intros ->; rewrite run_none; intros (s' & E & _); discriminate).
    destruct s as [|d y].
    { split; [intros H; inversion H; subst|intros H; destruct (K0 eq_refl H)]. exfalso. apply N. left. reflexivity. }
    destruct x as [| |neg rs|c]; cbn [step1] in *.
    + exfalso. apply N. left. reflexivity.
    + destruct (aeqb_spec d "/") as [->|Nd].
      * split; [intros H; inversion H; subst; congruence|intros H; destruct (K0 eq_refl H)].
      * rewrite <- (K _ eq_refl). split; [intros H; inversion H; subst; assumption|intros H; constructor; assumption].
    + destruct (Bool.eqb (hits (fst (rune (d :: y))) rs) neg) eqn:E.
      * split; [intros H; inversion H; subst|intros H; destruct (K0 eq_refl H)]. match goal with X : _ <-> _ |- _ => apply hits_neg in X end. congruence.
      * apply hits_neg in E. rewrite <- (K _ eq_refl). split; [intros H; inversion H; subst; assumption|intros H; constructor; assumption].
    + destruct (aeqb_spec c d) as [->|Nd].
      * rewrite <- (K _ eq_refl). split; [intros H; inversion H; subst; assumption|intros H; constructor; assumption].
      * split; [intros H; inversion H; subst; congruence|intros H; destruct (K0 eq_refl H)].
Qed.
Lemma later_sound c t last s r : cpat c t -> later c last s = Some (Some r) ->
  exists u s', s = u ++ s' /\ ~ In "/"%char u /\ run t (Some s') = Some r /\ (last = true -> r = []).
Proof.
  intros C. induction s as [|d s IH]; cbn [later]; [discriminate|]. destruct (aeqb_spec d "/") as [->|Nd]; [discriminate|]. rewrite (at_chunk_run _ _ _ C).
  assert (K : later c last s = Some (Some r) -> exists u s', d :: s = u ++ s' /\ ~ In "/"%char u /\ run t (Some s') = Some r /\ (last = true -> r = [])).
  { intros H. destruct (IH H) as (u & s' & -> & Nu & R & La). exists (d :: u), s'. repeat split; [|exact R|exact La]. intros [X|X]; [congruence|contradiction]. }
  destruct (run t (Some s)) as [r0|] eqn:R; [|exact K]. destruct (last && negb (beqb r0 [])) eqn:E; [exact K|]. intros H. injection H as ->.
  exists [d], s. repeat split; [intros [X|[]]; congruence|exact R|]. intros ->. destruct (beqb r []) eqn:X; [apply beqb_eq in X; exact X|discriminate E].
Qed.
Lemma loop_sound cs tl : Forall2 same cs tl -> wf cs -> forall s, match_loop cs s = Some true -> glob (flat tl) s.
Proof.
  induction 1 as [|[b c] [b' t] cs tl [E C] F IH]; intros W s; cbn [match_loop].
  - intros H. injection H as H. apply beqb_eq in H. subst s. constructor.
  - cbn [fst snd] in E, C. subst b'. destruct W as (We & _ & W). specialize (IH W). unfold flat in *. cbn [map concat fst snd].
    destruct (b && beqb c []) eqn:Em.
    { apply andb_true_iff in Em. destruct Em as [-> Em]. apply beqb_eq in Em. subst c. destruct (We eq_refl) as [_ ->]. inversion F; subst. inversion C; subst. intros H. injection H as H.
      cbn [map concat app]. rewrite <- (app_nil_r s). apply GStar; [|constructor]. intros X. apply amem_In in X. rewrite X in H. discriminate. }
    rewrite (at_chunk_run _ _ _ C). pose proof (cpat_starless _ _ C) as St.
    assert (K : forall u s' r, ~ In "/"%char u -> (b = false -> u = []) -> run t (Some s') = Some r -> match_loop cs r = Some true ->
       glob (((if b then [TStar] else []) ++ t) ++ concat (map (fun bt : bool * list tok => (if fst bt then [TStar] else []) ++ snd bt) tl)) (u ++ s')).
    { intros u s' r Nu Bu R M. rewrite <- app_assoc. assert (G : glob (t ++ concat (map (fun bt : bool * list tok => (if fst bt then [TStar] else []) ++ snd bt) tl)) s') by (apply run_iff; [exact St|]; exists r; auto).
      destruct b; [constructor; assumption|]. rewrite (Bu eq_refl). exact G. }
    assert (K2 : (match (if b then later c (match cs with [] => true | _ => false end) s else Some None) with None => None | Some (Some t0) => match_loop cs t0 | Some None => check cs end) = Some true ->
       glob (((if b then [TStar] else []) ++ t) ++ concat (map (fun bt : bool * list tok => (if fst bt then [TStar] else []) ++ snd bt) tl)) s).
    { assert (Ck : forall l, check l <> Some true) by (clear; induction l as [|[x y] l IH]; cbn [check]; [discriminate|destruct (at_chunk y []); [exact IH|discriminate]]).
      destruct b; [|intros H; destruct (Ck _ H)]. destruct (later c _ s) as [[r|]|] eqn:El; [|intros H; destruct (Ck _ H)|discriminate].
      destruct (later_sound _ _ _ _ _ C El) as (u & s' & -> & Nu & R & _). intros H. apply (K u s' r); [exact Nu|discriminate|exact R|exact H]. }
    destruct (run t (Some s)) as [r|] eqn:R; [|exact K2]. destruct (beqb r [] || negb _); [|exact K2]. intros H. apply (K [] s r); auto.
Qed.
Lemma sound p s : path_match p s = Some true -> exists l, pat p l /\ glob l s.
Proof.
  unfold path_match. destruct (chunks_spec (S (length p)) p (Nat.lt_succ_diag_r _)) as (W & _ & _ & _ & Pb). set (cs := chunks (S (length p)) p) in *. intros H.
  assert (N : match_loop cs s <> None) by congruence. apply (loop_ok cs W) in N. apply ok_same in N. destruct N as [tl F]. destruct (Pb tl F) as (l & P & G). exists l. split; [exact P|].
  apply G. exact (loop_sound _ _ F W _ H).
Qed.

(** ** What matches is found *)
Fixpoint slashes (s : bytes) : nat := match s with [] => 0 | c :: s' => (if aeqb c "/" then 1 else 0) + slashes s' end.
Lemma slashes_app a b : slashes (a ++ b) = slashes a + slashes b.
Proof. induction a as [|c a IH]; [reflexivity|]. cbn [app slashes]. rewrite IH. lia. Qed.
Lemma slashes_none s : slashes s = 0 <-> ~ In "/"%char s.
Proof.
  induction s as [|c s IH]; [split; [intros _ []|reflexivity]|]. cbn [slashes]. destruct (aeqb_spec c "/") as [->|N].
  - split; [discriminate|]. intros X. exfalso. apply X. left. reflexivity.
  - cbn [Nat.add]. rewrite IH. split; [intros H [X|X]; [congruence|contradiction]|]. intros H X. apply H. right. exact X.
Qed.
Definition tslash (t : tok) : nat := match t with TLit c => if aeqb c "/" then 1 else 0 | _ => 0 end.
Definition tslashes (l : list tok) : nat := list_sum (map tslash l).
Definition easy (l : list tok) (s : bytes) : Prop := (Forall no_slash l \/ ~ In "/"%char s) /\ (ascii_text s \/ plain l).
Lemma step_bytes x s s' : step1 x (Some s) = Some s' -> (no_slash x \/ ~ In "/"%char s) -> (ascii_text s \/ exists c, x = TLit c) -> exists d, s = d :: s' /\ slashes [d] = tslash x.
Proof.
  destruct s as [|d y]; [discriminate|].
  assert (A : ascii_text (d :: y) -> rune (d :: y) = (code d, y)).
  { intros H. inversion H as [|? ? L _]; subst. unfold rune. destruct (N.ltb_spec (code d) 128); [reflexivity|lia]. }
  destruct x as [| |neg rs|c]; cbn [step1]; [discriminate| | |].
  - destruct (aeqb_spec d "/") as [->|N]; [discriminate|]. intros E _ [H|[c H]]; [|discriminate]. rewrite (A H) in E. injection E as <-. exists d. split; [reflexivity|].
    cbn [slashes tslash]. apply aeqb_neq in N. rewrite N. reflexivity.
  - destruct (Bool.eqb _ neg) eqn:Eb; [discriminate|]. intros E Ns [H|[c H]]; [|discriminate]. rewrite (A H) in *. injection E as <-. exists d. split; [reflexivity|].
    cbn [slashes tslash]. destruct (aeqb_spec d "/") as [->|N]; [|reflexivity]. exfalso. destruct Ns as [Ns|Ns]; [|apply Ns; left; reflexivity]. cbn [no_slash] in Ns.
    apply hits_neg in Eb. cbn [fst] in Eb. rewrite Ns in Eb. destruct neg; [|]; (destruct Eb as [E1 E2]).
    + discriminate (E1 eq_refl). + discriminate (E2 eq_refl).
  - destruct (aeqb_spec c d) as [->|N]; [|discriminate]. intros E _ _. injection E as <-. exists d. split; [reflexivity|]. cbn [slashes tslash]. lia.
Qed.
Lemma plain_tail x l : plain (x :: l) -> plain l.
Proof. intros H. inversion H; assumption. Qed.
Lemma run_bytes t : starless t -> forall s s', easy t s -> run t (Some s) = Some s' -> exists w, s = w ++ s' /\ length w = length t /\ slashes w = tslashes t.
Proof.
  induction t as [|x t IH]; intros N s s' [Ns A] R; cbn [run] in R.
  - injection R as ->. exists []. auto.
  - destruct (step1 x (Some s)) as [s1|] eqn:E; [|rewrite run_none in R; discriminate].
    assert (Nx : no_slash x \/ ~ In "/"%char s) by (destruct Ns as [Ns|Ns]; [left; inversion Ns; assumption|right; exact Ns]).
    destruct (step_bytes _ _ _ E Nx) as (d & -> & Sd).
    { destruct A as [A|A]; [auto|]. right. inversion A as [|? ? [P|P] _]; subst; [|exact P]. exfalso. apply N. left. reflexivity. }
    destruct (IH (fun X => N (or_intror X)) s1 s') as (w & -> & L & Sw); [|exact R|].
    { split; [destruct Ns as [Ns|Ns]; [left; inversion Ns; assumption|right; intros X; apply Ns; right; exact X]|]. destruct A as [A|A]; [left; inversion A; assumption|right; exact (plain_tail _ _ A)]. }
    exists (d :: w). split; [reflexivity|]. split; [cbn [length]; lia|]. change (slashes (d :: w)) with ((if aeqb d "/" then 1 else 0) + slashes w). cbn [slashes] in Sd.
    unfold tslashes in *. cbn [map list_sum fold_right]. unfold list_sum in Sw. lia.
Qed.
Lemma easy_suffix t u s : easy t (u ++ s) -> easy t s.
Proof.
  intros [A H]. split.
  - destruct A as [A|A]; [left; exact A|right; intros X; apply A, in_or_app; right; exact X].
  - destruct H as [H|H]; [left; apply Forall_app in H; apply H|right; exact H].
Qed.
Lemma later_found c t last : cpat c t -> forall u s0 s', u <> [] -> ~ In "/"%char u -> run t (Some s0) = Some s' -> (last = true -> s' = []) ->
  exists u0 s1 r, later c last (u ++ s0) = Some (Some r) /\ u ++ s0 = u0 ++ s1 /\ length u0 <= length u /\ ~ In "/"%char u0 /\ run t (Some s1) = Some r /\ (last = true -> r = []).
Proof.
  intros C u. induction u as [|d u IH]; intros s0 s' Nu Sl R La; [congruence|]. cbn [app later]. destruct (aeqb_spec d "/") as [->|Nd]; [exfalso; apply Sl; left; reflexivity|].
  rewrite (at_chunk_run _ _ _ C).
  assert (Here : forall r, run t (Some (u ++ s0)) = Some r -> (last = true -> r = []) -> exists u0 s1 r0, Some (Some r) = Some (Some r0) /\ d :: u ++ s0 = u0 ++ s1 /\ length u0 <= length (d :: u) /\ ~ In "/"%char u0 /\ run t (Some s1) = Some r0 /\ (last = true -> r0 = [])).
  { intros r E L. exists [d], (u ++ s0), r. repeat split; [cbn [length]; lia|intros [X|[]]; congruence|exact E|exact L]. }
  destruct u as [|e u].
  - cbn [app] in *. rewrite R in *. assert (X : last && negb (beqb s' []) = false) by (destruct last; [rewrite (La eq_refl); reflexivity|reflexivity]). rewrite X. apply Here; [reflexivity|exact La].
  - assert (Next : exists u0 s1 r0, later c last ((e :: u) ++ s0) = Some (Some r0) /\ d :: (e :: u) ++ s0 = u0 ++ s1 /\ length u0 <= length (d :: e :: u) /\ ~ In "/"%char u0 /\ run t (Some s1) = Some r0 /\ (last = true -> r0 = [])).
    { destruct (IH s0 s') as (u0 & s1 & r & E1 & E2 & L0 & N0 & R0 & La0); [discriminate|intros X; apply Sl; right; exact X|exact R|exact La|].
      exists (d :: u0), s1, r. repeat split; [exact E1|rewrite E2; reflexivity|cbn [length] in *; lia| |exact R0|exact La0]. intros [X|X]; [congruence|contradiction]. }
    destruct (run t (Some ((e :: u) ++ s0))) as [r|] eqn:E; [|exact Next]. destruct (last && negb (beqb r [])) eqn:X; [exact Next|].
    apply Here; [reflexivity|]. intros ->. destruct (beqb r []) eqn:Y; [apply beqb_eq in Y; exact Y|discriminate X].
Qed.
Lemma no_slash_flat_star b t tl : Forall no_slash (flat ((b, t) :: tl)) -> Forall no_slash t /\ Forall no_slash (flat tl).
Proof. unfold flat. cbn [map concat fst snd]. rewrite !Forall_app. tauto. Qed.
Lemma plain_flat b t tl : plain (flat ((b, t) :: tl)) -> plain t /\ plain (flat tl).
Proof. unfold flat, plain. cbn [map concat fst snd]. rewrite !Forall_app. tauto. Qed.
Lemma loop_complete cs tl : Forall2 same cs tl -> wf cs -> forall s, easy (flat tl) s -> glob (flat tl) s -> match_loop cs s = Some true.
Proof.
  induction 1 as [|[b c] [b' t] cs tl [E C] F IH]; intros W s Ez G; cbn [match_loop].
  - inversion G; subst. reflexivity.
  - cbn [fst snd] in E, C. subst b'. destruct W as (We & Wb & W). specialize (IH W). pose proof (cpat_starless _ _ C) as St.
    destruct Ez as [Ns A]. 
    assert (Nt : Forall no_slash t \/ ~ In "/"%char s) by (destruct Ns as [Ns|Ns]; [left; exact (proj1 (no_slash_flat_star _ _ _ Ns))|right; exact Ns]).
    assert (Nl : Forall no_slash (flat tl) \/ ~ In "/"%char s) by (destruct Ns as [Ns|Ns]; [left; exact (proj2 (no_slash_flat_star _ _ _ Ns))|right; exact Ns]).
    assert (At : ascii_text s \/ plain t) by (destruct A as [A|A]; [left; exact A|right; exact (proj1 (plain_flat _ _ _ A))]).
    assert (Al : ascii_text s \/ plain (flat tl)) by (destruct A as [A|A]; [left; exact A|right; exact (proj2 (plain_flat _ _ _ A))]).
    assert (Ezl : forall u r, s = u ++ r -> easy (flat tl) r) by (intros u r ->; apply (easy_suffix _ u); split; assumption).
    assert (Ezt : forall u r, s = u ++ r -> easy t r) by (intros u r ->; apply (easy_suffix _ u); split; assumption).
    unfold flat in G. cbn [map concat fst snd] in G. fold (flat tl) in G. rewrite <- app_assoc in G.
    destruct (b && beqb c []) eqn:Em.
    { apply andb_true_iff in Em. destruct Em as [-> Em]. apply beqb_eq in Em. subst c. destruct (We eq_refl) as [_ ->]. inversion F; subst. inversion C; subst.
      cbn [app flat map concat] in G. inversion G as [| | | |u l s' Nu G']; subst. inversion G'; subst. rewrite app_nil_r. destruct (amem "/" u) eqn:X; [apply amem_In in X; contradiction|reflexivity]. }
    rewrite (at_chunk_run _ _ _ C). set (last := match cs with [] => true | _ => false end).
    (* The text matched by the star in the specification, then by the chunk, then the rest. *)
    assert (Hx : exists u s0 s', s = u ++ s0 /\ ~ In "/"%char u /\ (b = false -> u = []) /\ run t (Some s0) = Some s' /\ glob (flat tl) s').
    { destruct b; cbn [app] in G.
      - inversion G as [| | | |u l s0 Nu G']; subst. apply run_iff in G'; [|exact St]. destruct G' as (s' & R & G'). exists u, s0, s'. repeat split; auto. discriminate.
      - apply run_iff in G; [|exact St]. destruct G as (s' & R & G). exists [], s, s'. repeat split; auto. }
    destruct Hx as (u & s0 & s' & Es & Nu & Bu & R & Gl).
    assert (Ls : last = true -> s' = []).
    { unfold last. destruct cs; [|discriminate]. intros _. inversion F; subst. inversion Gl; subst. reflexivity. }
    (* Wherever the chunk is found first, the rest matches as well. *)
    assert (Move : forall u0 s1 r, s = u0 ++ s1 -> length u0 <= length u -> ~ In "/"%char u0 -> run t (Some s1) = Some r -> (last = true -> r = []) -> match_loop cs r = Some true).
    { intros u0 s1 r E0 L0 N0 R0 La0. destruct (run_bytes t St s0 s' (Ezt u s0 Es) R) as (w & -> & Lw & Sw). destruct (run_bytes t St s1 r (Ezt u0 s1 E0) R0) as (w0 & -> & Lw0 & Sw0).
      assert (Ez1 : easy (flat tl) r) by (apply (Ezl (u0 ++ w0)); rewrite <- app_assoc; exact E0).
      apply IH; [exact Ez1|]. unfold last in *. destruct cs as [|[b2 c2] cs]; [rewrite (La0 eq_refl), <- (Ls eq_refl); exact Gl|]. cbn in Wb. subst b2.
      destruct tl as [|[b2 t2] tl]; [inversion F|]. assert (b2 = true) by (inversion F as [|? ? ? ? [X _] _]; subst; symmetry; exact X). subst b2. clear IH F.
      assert (Ex : exists x, r = x ++ s').
      { rewrite Es in E0. assert (Eq : skipn (length (u0 ++ w0)) ((u ++ w) ++ s') = r).
        { rewrite <- app_assoc, E0, app_assoc, skipn_app, skipn_all, Nat.sub_diag. reflexivity. }
        rewrite skipn_app in Eq. exists (skipn (length (u0 ++ w0)) (u ++ w)). rewrite <- Eq. f_equal.
        replace (length (u0 ++ w0) - length (u ++ w)) with 0 by (rewrite !app_length; lia). reflexivity. }
      destruct Ex as [x ->]. assert (Nx : ~ In "/"%char x).
      { apply slashes_none. apply slashes_none in Nu, N0. assert (Q : slashes s = slashes s) by reflexivity. rewrite Es in Q at 1. rewrite E0 in Q. rewrite !slashes_app in Q. lia. }
      unfold flat in *. cbn [map concat fst snd app] in *. inversion Gl as [| | | |v l s2 Nv G2]; subst. rewrite app_assoc. constructor; [|exact G2]. intros X. apply in_app_or in X. tauto. }
    assert (K2 : u <> [] -> (match (if b then later c last s else Some None) with None => None | Some (Some t0) => match_loop cs t0 | Some None => check cs end) = Some true).
    { intros Ne. destruct b; [|destruct (Ne (Bu eq_refl))]. destruct (later_found c t last C u s0 s' Ne Nu R Ls) as (u0 & s1 & r & E1 & E2 & L0 & N0 & R0 & La0). rewrite <- Es in E1, E2.
      rewrite E1. exact (Move u0 s1 r E2 L0 N0 R0 La0). }
    destruct u as [|d u].
    + cbn [app] in Es. subst s0. rewrite R.
      assert (X : beqb s' [] || negb last = true) by (destruct last; [rewrite (Ls eq_refl); reflexivity|apply orb_true_r]). rewrite X.
      apply (Move [] s s'); auto.
    + destruct (run t (Some s)) as [r|] eqn:Rs; [|apply K2; discriminate]. destruct (beqb r [] || negb last) eqn:X; [|apply K2; discriminate].
      apply (Move [] s r); [reflexivity|cbn [length]; lia|intros []|exact Rs|]. intros L. rewrite L in X. rewrite orb_false_r in X. apply beqb_eq in X. exact X.
Qed.
Lemma complete p l s : pat p l -> Forall no_slash l \/ ~ In "/"%char s -> ascii_text s \/ plain l -> glob l s -> path_match p s = Some true.
Proof.
  intros P N A G. unfold path_match. destruct (chunks_spec (S (length p)) p (Nat.lt_succ_diag_r _)) as (W & _ & _ & Pa & _). set (cs := chunks (S (length p)) p) in *.
  destruct (Pa l P) as (tl & F & E & T). apply (loop_complete _ _ F W); [|apply E; exact G]. split.
  - destruct N as [N|N]; [left|right; exact N]. apply Forall_forall. intros t I. apply T in I. revert t I. apply Forall_forall. exact N.
  - destruct A as [A|A]; [left; exact A|]. right. apply Forall_forall. intros t I. apply T in I. revert t I. apply Forall_forall. exact A.
Qed.

(** ** Origins *)
Lemma origins_patterns os : origins_ok os = true <-> forall o, In o os -> exists l, pat o l.
Proof.
  unfold origins_ok. rewrite forallb_forall. split; intros H o I; specialize (H o I).
  - destruct (path_match o o) eqn:E; [|discriminate]. pose proof (sound o) as _.
    assert (N : match_loop (chunks (S (length o)) o) o <> None) by (fold (path_match o o); congruence).
    destruct (chunks_spec (S (length o)) o (Nat.lt_succ_diag_r _)) as (W & _ & _ & _ & Pb). apply (loop_ok _ W) in N. apply ok_same in N. destruct N as [tl F]. destruct (Pb tl F) as (l & P & _). exists l. exact P.
  - destruct (path_match o o) eqn:E; [reflexivity|]. apply errors in E. contradiction.
Qed.
Lemma origins_total os host : origins_ok os = true -> check_origin os host <> None.
Proof.
  intros H. rewrite origins_patterns in H. induction os as [|o os IH]; [discriminate|]. cbn [check_origin].
  destruct (path_match o host) as [[|]|] eqn:E; [discriminate|apply IH; intros o' I; apply H; right; exact I|].
  apply errors in E. exfalso. apply E. apply H. left. reflexivity.
Qed.
Lemma origins_sound os host : check_origin os host = Some true -> exists o l, In o os /\ pat o l /\ glob l host.
Proof.
  induction os as [|o os IH]; cbn [check_origin]; [discriminate|]. destruct (path_match o host) as [[|]|] eqn:E; [| |discriminate].
  - intros _. apply sound in E. destruct E as (l & P & G). exists o, l. split; [left; reflexivity|auto].
  - intros H. destruct (IH H) as (o' & l & I & P & G). exists o', l. split; [right; exact I|auto].
Qed.
Lemma origins_complete os o l host : origins_ok os = true -> In o os -> pat o l -> Forall no_slash l \/ ~ In "/"%char host -> ascii_text host \/ plain l -> glob l host -> check_origin os host = Some true.
Proof.
  intros H I P N A G. assert (M : path_match o host = Some true) by exact (complete o l host P N A G). revert H I. rewrite origins_patterns.
  induction os as [|o' os IH]; intros H I; [destruct I|]. cbn [check_origin]. destruct (path_match o' host) as [[|]|] eqn:E; [reflexivity| |].
  - apply IH; [intros q Iq; apply H; right; exact Iq|]. destruct I as [->|I]; [congruence|exact I].
  - apply errors in E. exfalso. apply E. apply H. left. reflexivity.
Qed.

(** ** UTF-8 *)
Open Scope N_scope.
Lemma code_byte n : n < 256 -> code (byte n) = n.
Proof. intros L. unfold code, byte. apply N_ascii_embedding. exact L. Qed.
Lemma decode_encode n y : scalar n -> rune (encode n ++ y) = (n, y) /\ utf8 (encode n ++ y).
Proof.
  intros S. assert (H : rune (encode n ++ y) = (n, y) /\ (n = 65533 -> length (encode n) <> 1%nat)).
  2:{ destruct H as [R L]. split; [exact R|]. unfold utf8. rewrite R. cbn [fst snd]. intros [-> E]. apply (L eq_refl). rewrite app_length in E. lia. }
  unfold encode. destruct (N.ltb_spec n 128) as [L1|L1]; [|destruct (N.ltb_spec n 2048) as [L2|L2]; [|destruct (N.ltb_spec n 65536) as [L3|L3]]].
  - split; [|lia]. cbn [app]. unfold rune. rewrite code_byte by lia. destruct (N.ltb_spec n 128); [reflexivity|lia].
  - split; [|lia]. cbn [app]. unfold rune, low6, within. assert (B1 : n / 64 < 32) by (apply N.div_lt_upper_bound; lia). assert (B2 : n mod 64 < 64) by (apply N.mod_lt; lia).
    rewrite !code_byte by lia. assert (B3 : 2 <= n / 64) by (apply N.div_le_lower_bound; lia).
    pose proof (N.le_0_l (n mod 64)); pose proof (N.le_0_l (n / 64 mod 64)); pose proof (N.le_0_l (n / 4096 mod 64)).
    unfold lead. repeat match goal with |- context [?a <? ?b] => destruct (N.ltb_spec a b); try lia end.
    repeat match goal with |- context [?a <=? ?b] => destruct (N.leb_spec a b); try lia end. cbn [andb]. f_equal.
    rewrite (N.add_comm 192), (N.add_comm 128). change 192 with (6 * 32). rewrite N.mod_add by lia. change 128 with (2 * 64). rewrite N.mod_add by lia. rewrite N.mod_mod, (N.mod_small (n / 64)) by lia.
    pose proof (N.div_mod n 64). lia.
  - split; [|intros _; cbn [length]; lia]. cbn [app]. unfold rune, low6, within, cont, within. assert (B1 : n / 4096 < 16) by (apply N.div_lt_upper_bound; lia).
    assert (B2 : n mod 64 < 64) by (apply N.mod_lt; lia). assert (B3 : n / 64 mod 64 < 64) by (apply N.mod_lt; lia). rewrite !code_byte by lia.
    assert (D1 : n = 64 * (n / 64) + n mod 64) by (apply N.div_mod; lia). assert (D2 : n / 64 = 64 * (n / 64 / 64) + n / 64 mod 64) by (apply N.div_mod; lia).
    rewrite N.div_div in D2 by lia. change (64 * 64) with 4096 in D2.
    assert (V : (224 + n / 4096) mod 16 * 4096 + (128 + n / 64 mod 64) mod 64 * 64 + (128 + n mod 64) mod 64 = n).
    { rewrite (N.add_comm 224), !(N.add_comm 128). change 224 with (14 * 16). rewrite N.mod_add by lia. change 128 with (2 * 64). rewrite !N.mod_add by lia. rewrite !N.mod_mod, (N.mod_small (n / 4096)) by lia. lia. }
    rewrite V. unfold scalar in S.
    pose proof (N.le_0_l (n mod 64)); pose proof (N.le_0_l (n / 64 mod 64)); pose proof (N.le_0_l (n / 4096 mod 64)).
    unfold lead. repeat match goal with |- context [?a <? ?b] => destruct (N.ltb_spec a b); try lia end.
    all: repeat match goal with |- context [?a =? ?b] => destruct (N.eqb_spec a b); try lia end.
    all: repeat match goal with |- context [?a <=? ?b] => destruct (N.leb_spec a b); try lia end.
    all: reflexivity.
  - split; [|intros _; cbn [length]; lia]. cbn [app]. unfold rune, low6, within, cont, within. assert (L4 : n < 1114112) by (unfold scalar in S; lia).
    assert (B1 : n / 262144 < 5) by (apply N.div_lt_upper_bound; lia).
    assert (B2 : n mod 64 < 64) by (apply N.mod_lt; lia). assert (B3 : n / 64 mod 64 < 64) by (apply N.mod_lt; lia). assert (B4 : n / 4096 mod 64 < 64) by (apply N.mod_lt; lia). rewrite !code_byte by lia.
    assert (D1 : n = 64 * (n / 64) + n mod 64) by (apply N.div_mod; lia). assert (D2 : n / 64 = 64 * (n / 64 / 64) + n / 64 mod 64) by (apply N.div_mod; lia).
    rewrite N.div_div in D2 by lia. change (64 * 64) with 4096 in D2. assert (D3 : n / 4096 = 64 * (n / 4096 / 64) + n / 4096 mod 64) by (apply N.div_mod; lia).
    rewrite N.div_div in D3 by lia. change (4096 * 64) with 262144 in D3.
    assert (V : (240 + n / 262144) mod 8 * 262144 + (128 + n / 4096 mod 64) mod 64 * 4096 + (128 + n / 64 mod 64) mod 64 * 64 + (128 + n mod 64) mod 64 = n).
    { rewrite (N.add_comm 240), !(N.add_comm 128). change 240 with (30 * 8). rewrite N.mod_add by lia. change 128 with (2 * 64). rewrite !N.mod_add by lia. rewrite !N.mod_mod, (N.mod_small (n / 262144)) by lia. lia. }
    rewrite V.
    pose proof (N.le_0_l (n mod 64)); pose proof (N.le_0_l (n / 64 mod 64)); pose proof (N.le_0_l (n / 4096 mod 64)).
    unfold lead. repeat match goal with |- context [?a <? ?b] => destruct (N.ltb_spec a b); try lia end.
    all: repeat match goal with |- context [?a =? ?b] => destruct (N.eqb_spec a b); try lia end.
    all: repeat match goal with |- context [?a <=? ?b] => destruct (N.leb_spec a b); try lia end.
    all: reflexivity.
Qed.
Close Scope N_scope.

(** ** A text is one pattern at most *)
Lemma bound_det x n y n' y' : bound x n y -> bound x n' y' -> n = n' /\ y = y'.
Proof.
  assert (In ("\"%char) (B "-]\")) by (right; right; left; reflexivity).
  intros H1 H2. inversion H1; subst; inversion H2; subst; try contradiction; split; congruence.
Qed.
Lemma item_det x r y r' y' : item x r y -> item x r' y' -> r = r' /\ y = y'.
Proof.
  intros H1 H2. inversion H1 as [? ? ? ? B1 N1|? ? ? ? ? B1 C1]; subst; inversion H2 as [? ? ? ? B2 N2|? ? ? ? ? B2 C2]; subst; destruct (bound_det _ _ _ _ _ B1 B2) as [E1 E2]; try congruence.
  - subst. split; congruence.
  - subst. injection E2 as ->. destruct (bound_det _ _ _ _ _ C1 C2) as [-> ->]. auto.
Qed.
Lemma items_det x rs y : items x rs y -> forall rs' y', items x rs' y' -> rs = rs' /\ y = y'.
Proof.
  induction 1 as [x r y I|x r c y rs z I Nc Is IH]; intros rs' y' H; inversion H as [? ? ? I'|? ? ? ? ? ? I' Nc' Is']; subst; destruct (item_det _ _ _ _ _ I I') as [-> E]; try congruence.
  - split; congruence.
  - injection E as <- <-. destruct (IH _ _ Is') as [-> ->]. auto.
Qed.
Lemma pat_det p l : pat p l -> forall l', pat p l' -> l = l'.
Proof.
  assert (X1 : In ("*"%char) (B "*?[\")) by (left; reflexivity). assert (X2 : In ("?"%char) (B "*?[\")) by (right; left; reflexivity).
  assert (X3 : In ("["%char) (B "*?[\")) by (right; right; left; reflexivity). assert (X4 : In ("\"%char) (B "*?[\")) by (right; right; right; left; reflexivity).
  induction 1 as [|p l H IH|p l H IH|c p l N H IH|c p l H IH|p rs q l N I H IH|p rs q l I H IH]; intros l' H'; inversion H'; subst; try contradiction; try (f_equal; apply IH; assumption); try reflexivity.
  - match goal with J : items p _ _ |- _ => destruct (items_det _ _ _ I _ _ J) as [-> ->] end || idtac. f_equal; apply IH; assumption.
  - exfalso. eapply N. reflexivity.
  - match goal with J : forall t, _ <> _ |- _ => exfalso; eapply J; reflexivity end.
  - match goal with J : items p _ _ |- _ => destruct (items_det _ _ _ I _ _ J) as [-> ->] end. f_equal; apply IH; assumption.
Qed.

Open Scope N_scope.
Lemma code_lt c : code c < 256.
Proof. unfold code. apply N_ascii_bounded. Qed.
(** The other way round: what is read as a character is its encoding. *)
Lemma byte_code c : byte (code c) = c.
Proof. unfold byte, code. apply ascii_N_embedding. Qed.
Lemma low6_within lo hi d : within lo hi d = true -> 128 <= lo -> hi <= 191 -> code d = 128 + low6 d /\ low6 d < 64 /\ lo <= code d <= hi.
Proof.
  unfold within, low6. intros H Hl Hh. apply andb_true_iff in H. destruct H as [H1 H2]. apply N.leb_le in H1, H2.
  assert (E : code d mod 64 = code d - 128).
  { symmetry. apply (N.mod_unique _ _ 2); lia. }
  rewrite E. lia.
Qed.
Lemma divmod p q k : q < k -> (p * k + q) / k = p /\ (p * k + q) mod k = q.
Proof.
  intros H. split.
  - symmetry. apply (N.div_unique _ _ p q); lia.
  - symmetry. apply (N.mod_unique _ _ p q); lia.
Qed.
Lemma mod_high b h k : h mod k = 0 -> k <> 0 -> h <= b -> b < h + k -> b mod k = b - h.
Proof.
  intros H K L U. pose proof (N.div_mod h k K) as D. rewrite H, N.add_0_r in D. symmetry. apply (N.mod_unique _ _ (h / k)); lia.
Qed.

Lemma encode_decode s n y : s <> [] -> rune s = (n, y) -> utf8 s -> scalar n /\ s = encode n ++ y.
Proof.
  destruct s as [|c x]; [intros K; contradiction|]. intros _ R U.
  assert (F : (65533, x) = (n, y) -> scalar n /\ c :: x = encode n ++ y).
  { intros E. exfalso. apply U. rewrite R. injection E as <- <-. split; reflexivity. }
  unfold rune in R. pose proof (code_lt c) as Lc. destruct (N.ltb_spec (code c) 128) as [L|L].
  - injection R as <- <-. split; [left; lia|]. unfold encode. destruct (N.ltb_spec (code c) 128); [|lia]. rewrite byte_code. reflexivity.
  - unfold lead in R.
    destruct (N.ltb_spec (code c) 194) as [L1|L1]; [apply F; exact R|].
    destruct (N.ltb_spec (code c) 224) as [L2|L2].
    { destruct x as [|d x]; [apply F; exact R|]. destruct (within 128 191 d) eqn:W; [|apply F; exact R]. injection R as <- <-.
      destruct (low6_within _ _ _ W) as (D1 & D2 & _); [lia|lia|]. rewrite (mod_high (code c) 192 32) by (reflexivity || lia).
      set (p := code c - 192). assert (P : code c = 192 + p /\ 2 <= p < 32) by (unfold p; lia). destruct P as [P1 P2]. clearbody p.
      set (q := low6 d) in *. clearbody q. destruct (divmod p q 64 D2) as [A1 A2]. split; [left; lia|].
      unfold encode. destruct (N.ltb_spec (p * 64 + q) 128); [lia|]. destruct (N.ltb_spec (p * 64 + q) 2048); [|lia].
      rewrite A1, A2, <- P1, <- D1, !byte_code. reflexivity. }
    assert (Three : forall lo hi, 128 <= lo -> hi <= 191 -> code c < 240 -> (code c = 224 -> lo = 160) -> (code c = 237 -> hi = 159) ->
      match x with
      | d :: e :: y0 => if within lo hi d && cont e then (code c mod 16 * 4096 + low6 d * 64 + low6 e, y0) else (65533, x)
      | _ => (65533, x) end = (n, y) -> scalar n /\ c :: x = encode n ++ y).
    { intros lo hi Hlo Hhi L3 E1 E2 R'. destruct x as [|d [|e x]]; [apply F; exact R'|apply F; exact R'|].
      destruct (within lo hi d) eqn:W; [|apply F; exact R']. destruct (cont e) eqn:W2; [|apply F; exact R']. cbn [andb] in R'. injection R' as <- <-.
      destruct (low6_within _ _ _ W) as (D1 & D2 & D3); [lia|lia|]. destruct (low6_within 128 191 e W2) as (G1 & G2 & _); [lia|lia|].
      rewrite (mod_high (code c) 224 16) by (reflexivity || lia).
      set (p := code c - 224). assert (P : code c = 224 + p /\ p < 16) by (unfold p; lia). destruct P as [P1 P2]. clearbody p.
      set (q := low6 d) in *. set (r := low6 e) in *. clearbody q r.
      destruct (divmod (p * 64 + q) r 64 G2) as [A1 A2]. destruct (divmod p q 64 D2) as [A3 A4].
      destruct (divmod p (q * 64 + r) 4096) as [A5 _]; [lia|].
      assert (V : p * 4096 + q * 64 + r = (p * 64 + q) * 64 + r) by lia. assert (V2 : p * 4096 + q * 64 + r = p * 4096 + (q * 64 + r)) by lia.
      assert (B1 : p = 0 -> 32 <= q) by (intros ->; specialize (E1 P1); lia).
      assert (B2 : p = 13 -> q < 32) by (intros ->; specialize (E2 P1); lia).
      split; [unfold scalar; destruct (N.eq_dec p 13) as [->|]; [specialize (B2 eq_refl); lia|lia]|].
      unfold encode. destruct (N.ltb_spec (p * 4096 + q * 64 + r) 128); [destruct (N.eq_dec p 0) as [->|]; [specialize (B1 eq_refl)|]; lia|].
      destruct (N.ltb_spec (p * 4096 + q * 64 + r) 2048); [destruct (N.eq_dec p 0) as [->|]; [specialize (B1 eq_refl)|]; lia|].
      destruct (N.ltb_spec (p * 4096 + q * 64 + r) 65536); [|lia].
      rewrite V2 at 1. rewrite A5, V, A1, A2, A4, <- P1, <- D1, <- G1, !byte_code. reflexivity. }
    assert (Four : forall lo hi, 128 <= lo -> hi <= 191 -> 240 <= code c <= 244 -> (code c = 240 -> lo = 144) -> (code c = 244 -> hi = 143) ->
      match x with
      | d :: e :: f :: y0 => if within lo hi d && cont e && cont f then (code c mod 8 * 262144 + low6 d * 4096 + low6 e * 64 + low6 f, y0) else (65533, x)
      | _ => (65533, x) end = (n, y) -> scalar n /\ c :: x = encode n ++ y).
    { intros lo hi Hlo Hhi L3 E1 E2 R'. destruct x as [|d [|e [|f x]]]; try (apply F; exact R').
      destruct (within lo hi d) eqn:W; [|apply F; exact R']. destruct (cont e) eqn:W2; [|apply F; exact R'].
      destruct (cont f) eqn:W3; [|apply F; exact R']. cbn [andb] in R'. injection R' as <- <-.
      destruct (low6_within _ _ _ W) as (D1 & D2 & D3); [lia|lia|]. destruct (low6_within 128 191 e W2) as (G1 & G2 & _); [lia|lia|].
      destruct (low6_within 128 191 f W3) as (I1 & I2 & _); [lia|lia|].
      rewrite (mod_high (code c) 240 8) by (reflexivity || lia).
      set (p := code c - 240). assert (P : code c = 240 + p /\ p <= 4) by (unfold p; lia). destruct P as [P1 P2]. clearbody p.
      set (q := low6 d) in *. set (r := low6 e) in *. set (t := low6 f) in *. clearbody q r t.
      destruct (divmod ((p * 64 + q) * 64 + r) t 64 I2) as [A1 A2]. destruct (divmod (p * 64 + q) r 64 G2) as [A3 A4].
      destruct (divmod p q 64 D2) as [A5 A6]. destruct (divmod (p * 64 + q) (r * 64 + t) 4096) as [A7 _]; [lia|].
      destruct (divmod p (q * 4096 + r * 64 + t) 262144) as [A8 _]; [lia|].
      assert (B1 : p = 0 -> 16 <= q) by (intros ->; specialize (E1 P1); lia).
      assert (B2 : p = 4 -> q < 16) by (intros ->; specialize (E2 P1); lia).
      set (m := p * 262144 + q * 4096 + r * 64 + t).
      assert (V1 : m = ((p * 64 + q) * 64 + r) * 64 + t) by (unfold m; lia). assert (V2 : m = (p * 64 + q) * 4096 + (r * 64 + t)) by (unfold m; lia).
      assert (V3 : m = p * 262144 + (q * 4096 + r * 64 + t)) by (unfold m; lia).
      assert (M : 65536 <= m < 1114112).
      { unfold m. destruct (N.eq_dec p 0) as [->|]; [specialize (B1 eq_refl); lia|]. destruct (N.eq_dec p 4) as [->|]; [specialize (B2 eq_refl); lia|lia]. }
      split; [right; lia|]. unfold encode. destruct (N.ltb_spec m 128); [lia|]. destruct (N.ltb_spec m 2048); [lia|]. destruct (N.ltb_spec m 65536); [lia|].
      rewrite <- V3 in A8. rewrite <- V2 in A7. rewrite <- V1 in A1, A2.
      rewrite A8, A7, A1, A2, A4, A6, <- P1, <- D1, <- G1, <- I1, !byte_code. reflexivity. }
    destruct (N.eqb_spec (code c) 224) as [Q|Q]; [apply (Three 160 191); try lia; exact R|].
    destruct (N.eqb_spec (code c) 237) as [Q2|Q2]; [apply (Three 128 159); try lia; exact R|].
    destruct (N.ltb_spec (code c) 240) as [L3|L3]; [apply (Three 128 191); try lia; exact R|].
    destruct (N.eqb_spec (code c) 240) as [Q3|Q3]; [apply (Four 144 191); try lia; exact R|].
    destruct (N.ltb_spec (code c) 244) as [L4|L4]; [apply (Four 128 191); try lia; exact R|].
    destruct (N.eqb_spec (code c) 244) as [Q4|Q4]; [apply (Four 128 143); try lia; exact R|]. apply F; exact R.
Qed.
