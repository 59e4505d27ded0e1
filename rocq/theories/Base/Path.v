(** Slash-separated paths: Go's path.Clean, path.Join, path.Base and their
    path/filepath counterparts on Unix. Not soju code: transcribed from the
    documentation of Go's standard library, component by component. *)
From Verif.Base Require Import Bytes.

(** One step of Clean: [acc] holds the components kept so far, last first. *)
Definition clean_step (rooted : bool) (acc : list bytes) (c : bytes) : list bytes :=
  if beqb c [] || beqb c (B ".") then acc
  else if beqb c (B "..") then
    match acc with
    | [] => if rooted then [] else [c]
    | top :: acc' => if beqb top (B "..") then c :: acc else acc'
    end
  else c :: acc.

Definition is_rooted (s : bytes) : bool := has_prefix s (B "/").

Definition clean_comps (s : bytes) : list bytes :=
  rev (fold_left (clean_step (is_rooted s)) (split_on "/" s) []).

(** path.Clean. *)
Definition clean (s : bytes) : bytes :=
  if is_rooted s then B "/" ++ join (B "/") (clean_comps s)
  else match clean_comps s with
       | [] => B "."
       | cs => join (B "/") cs
       end.

Definition nonempty (s : bytes) : bool := match s with [] => false | _ => true end.

(** path.Join. *)
Definition path_join (l : list bytes) : bytes :=
  match filter nonempty l with
  | [] => []
  | l' => clean (join (B "/") l')
  end.

(** path.Base: trailing slashes are removed first. *)
Fixpoint drop_slashes (s : bytes) : bytes :=
  match s with
  | [] => []
  | c :: s' => match drop_slashes s' with
               | [] => if aeqb c "/" then [] else [c]
               | r => c :: r
               end
  end.

Definition path_base (s : bytes) : bytes :=
  match s with
  | [] => B "."
  | _ => match drop_slashes s with
         | [] => B "/"
         | s' => last (split_on "/" s') []
         end
  end.

(** ** Specification: a name inside a directory. *)

Definition safe_name (n : bytes) : Prop :=
  n <> [] /\ n <> B "." /\ n <> B ".." /\ ~ In "/"%char n.

(** The path of [names] inside the directory with canonical path [dir]. *)
Definition place (dir : bytes) (names : list bytes) : bytes :=
  if beqb dir (B "/") then B "/" ++ join (B "/") names
  else if beqb dir (B ".") then join (B "/") names
  else dir ++ B "/" ++ join (B "/") names.

(** [p] designates something strictly inside [dir], without [..]. *)
Definition below (dir p : bytes) : Prop :=
  exists names, names <> [] /\ Forall safe_name names /\ p = place dir names.

(** ** Facts *)

Lemma split_on_app2 sep a b :
  split_on sep (a ++ sep :: b) = split_on sep a ++ split_on sep b.
Proof.
  induction a as [|c a IH]; simpl.
  - rewrite aeqb_refl. reflexivity.
  - rewrite IH. destruct (aeqb c sep); [reflexivity|].
    destruct (split_on sep a) as [|w ws] eqn:E; [exfalso; eapply split_on_nonempty; exact E|].
    reflexivity.
Qed.

Lemma split_on_elems sep s : Forall (fun w => ~ In sep w) (split_on sep s).
Proof.
  induction s as [|c s IH]; simpl; [constructor; [intros []|constructor]|].
  destruct (aeqb_spec c sep) as [->|Hn]; [constructor; [intros []|exact IH]|].
  destruct (split_on sep s) as [|w ws]; [constructor; [|constructor]|].
  - intros [H|[]]. congruence.
  - inversion IH as [|? ? H1 H2]; subst. constructor; [|exact H2].
    intros [H|H]; [congruence|contradiction].
Qed.

Lemma safe_step rooted acc n : safe_name n -> clean_step rooted acc n = n :: acc.
Proof.
  intros (H1 & H2 & H3 & _). unfold clean_step.
  apply beqb_neq in H1, H2, H3. rewrite H1, H2, H3. reflexivity.
Qed.

Lemma safe_fold rooted names : Forall safe_name names ->
  forall acc, fold_left (clean_step rooted) names acc = rev names ++ acc.
Proof.
  induction 1 as [|n names Hn _ IH]; intros acc; [reflexivity|].
  cbn [fold_left rev]. rewrite safe_step by exact Hn. rewrite IH, <- app_assoc. reflexivity.
Qed.

Lemma clean_step_safe acc c :
  Forall safe_name acc -> ~ In "/"%char c -> Forall safe_name (clean_step true acc c).
Proof.
  intros H Hc. unfold clean_step.
  destruct (beqb_spec c []) as [|H1]; [exact H|]. cbn [orb].
  destruct (beqb_spec c (B ".")) as [|H2]; [exact H|].
  destruct (beqb_spec c (B "..")) as [->|H3].
  - destruct H as [|top acc Ht Ha]; [constructor|].
    destruct (beqb_spec top (B "..")) as [->|_]; [destruct Ht as (_ & _ & Ht & _); congruence|exact Ha].
  - constructor; [|exact H]. repeat split; assumption.
Qed.

Lemma clean_comps_safe s : is_rooted s = true -> Forall safe_name (clean_comps s).
Proof.
  intros Hr. unfold clean_comps. rewrite Hr. apply Forall_rev.
  assert (G : forall l acc, Forall (fun w => ~ In "/"%char w) l -> Forall safe_name acc ->
    Forall safe_name (fold_left (clean_step true) l acc)).
  { induction l as [|w l IH]; intros acc Hl Ha; [exact Ha|]. inversion Hl; subst.
    cbn [fold_left]. apply IH; [assumption|]. apply clean_step_safe; assumption. }
  apply G; [apply split_on_elems|constructor].
Qed.

(** Components of a relative path are never empty or ".". *)
Lemma clean_comps_parts s : Forall (fun c => c <> [] /\ c <> B "." /\ ~ In "/"%char c) (clean_comps s).
Proof.
  unfold clean_comps. apply Forall_rev. generalize (is_rooted s) as rooted. intros rooted.
  set (P := fun c => c <> [] /\ c <> B "." /\ ~ In "/"%char c).
  assert (G : forall l acc, Forall (fun w => ~ In "/"%char w) l -> Forall P acc ->
    Forall P (fold_left (clean_step rooted) l acc)).
  { induction l as [|w l IH]; intros acc Hl Ha; [exact Ha|]. inversion Hl as [|? ? Hw Hl']; subst.
    cbn [fold_left]. apply IH; [assumption|]. unfold clean_step.
    destruct (beqb_spec w []) as [|H1]; [exact Ha|]. cbn [orb].
    destruct (beqb_spec w (B ".")) as [|H2]; [exact Ha|].
    assert (Pw : P w) by (split; [assumption|split; assumption]).
    destruct (beqb_spec w (B "..")) as [|H3]; [|constructor; assumption].
    destruct Ha as [|top acc Ht Ha]; [destruct rooted; [constructor|constructor; [exact Pw|constructor]]|].
    destruct (beqb top (B "..")); [constructor; [exact Pw|constructor; assumption]|exact Ha]. }
  apply G; [apply split_on_elems|constructor].
Qed.

Lemma join_app sep a b : a <> [] -> b <> [] -> join sep (a ++ b) = join sep a ++ sep ++ join sep b.
Proof.
  intros Ha Hb. induction a as [|x a IH]; [congruence|].
  destruct a as [|y a].
  - cbn [app join]. destruct b; [congruence|]. reflexivity.
  - change ((x :: y :: a) ++ b) with (x :: (y :: a) ++ b).
    assert (E : forall l, l <> [] -> join sep (x :: l) = x ++ sep ++ join sep l) by (intros [|? ?]; [congruence|reflexivity]).
    rewrite E by (destruct a; discriminate). rewrite IH by discriminate. rewrite E by discriminate.
    rewrite <- !app_assoc. reflexivity.
Qed.

Lemma is_rooted_app r b : r <> [] -> is_rooted (r ++ b) = is_rooted r.
Proof. destruct r as [|c r]; [congruence|]. intros _. unfold is_rooted. simpl. destruct (aeqb "/" c); reflexivity. Qed.

(** Joining safe names to a directory places them below its canonical path. *)
Lemma clean_below r b :
  r <> [] -> Forall safe_name (split_on "/" b) ->
  clean (r ++ "/"%char :: b) = place (clean r) (split_on "/" b).
Proof.
  intros Hr Hs. set (names := split_on "/" b) in *.
  assert (Hn : names <> []) by apply split_on_nonempty.
  assert (E : clean_comps (r ++ "/"%char :: b) = clean_comps r ++ names).
  { unfold clean_comps. rewrite is_rooted_app by exact Hr. rewrite split_on_app2, fold_left_app.
    fold names. rewrite safe_fold by exact Hs. rewrite rev_app_distr, rev_involutive. reflexivity. }
  unfold clean at 1. rewrite is_rooted_app by exact Hr. rewrite E. unfold place, clean.
  pose proof (clean_comps_parts r) as Hp.
  destruct (is_rooted r) eqn:Er.
  - destruct (clean_comps r) as [|c cs] eqn:Ec; [reflexivity|].
    inversion Hp as [|? ? (P1 & P2 & P3) Hp']; subst.
    destruct (beqb_spec (B "/" ++ join (B "/") (c :: cs)) (B "/")) as [Heq|_].
    { exfalso. apply (f_equal (@length ascii)) in Heq. rewrite app_length in Heq.
      destruct c as [|x c]; [congruence|]. destruct cs; cbn [join] in Heq; rewrite ?app_length in Heq;
        cbn [length B list_ascii_of_string] in Heq; lia. }
    destruct (beqb_spec (B "/" ++ join (B "/") (c :: cs)) (B ".")) as [Heq|_]; [discriminate|].
    rewrite join_app by (assumption || discriminate). rewrite <- !app_assoc. reflexivity.
  - destruct (clean_comps r) as [|c cs] eqn:Ec.
    + cbn [app]. destruct names as [|n names']; [congruence|]. reflexivity.
    + inversion Hp as [|? ? (P1 & P2 & P3) Hp']; subst.
      destruct (beqb_spec (join (B "/") (c :: cs)) (B "/")) as [Heq|_].
      { exfalso. destruct c as [|x c]; [congruence|]. apply P3.
        destruct cs as [|c2 cs]; cbn [join] in Heq; injection Heq as -> _; left; reflexivity. }
      destruct (beqb_spec (join (B "/") (c :: cs)) (B ".")) as [Heq|_].
      { exfalso. destruct c as [|x c]; [congruence|].
        destruct cs as [|c2 cs]; cbn [join] in Heq; injection Heq as Hx Hr'.
        - subst. apply P2. reflexivity.
        - destruct c; discriminate. }
      change (join (B "/") ((c :: cs) ++ names) = join (B "/") (c :: cs) ++ B "/" ++ join (B "/") names).
      rewrite join_app by (assumption || discriminate). reflexivity.
Qed.

Lemma below_clean r b :
  r <> [] -> Forall safe_name (split_on "/" b) -> below (clean r) (clean (r ++ "/"%char :: b)).
Proof.
  intros Hr Hs. exists (split_on "/" b). split; [apply split_on_nonempty|]. split; [exact Hs|].
  apply clean_below; assumption.
Qed.

Lemma split_safe names : names <> [] -> Forall safe_name names -> split_on "/" (join (B "/") names) = names.
Proof.
  intros Hn Hs. apply split_join; [exact Hn|]. eapply Forall_impl; [|exact Hs].
  intros n (_ & _ & _ & H). exact H.
Qed.

Lemma place_inj dir n1 n2 :
  n1 <> [] -> n2 <> [] -> Forall safe_name n1 -> Forall safe_name n2 ->
  place dir n1 = place dir n2 -> n1 = n2.
Proof.
  intros H1 H2 S1 S2 E.
  rewrite <- (split_safe n1), <- (split_safe n2) by assumption. f_equal.
  unfold place in E. destruct (beqb dir (B "/")); [apply app_inv_head in E; exact E|].
  destruct (beqb dir (B ".")); [exact E|]. apply app_inv_head in E. apply app_inv_head in E. exact E.
Qed.

(** Joining a possibly empty root with safe names. *)
Lemma path_join_safe root names :
  names <> [] -> Forall safe_name names ->
  path_join (root :: names) = place (clean root) names.
Proof.
  intros Hn Hs.
  assert (F : filter nonempty names = names).
  { clear Hn. induction Hs as [|n names (H & _) _ IH]; [reflexivity|]. destruct n; [congruence|]. simpl. rewrite IH. reflexivity. }
  pose proof (split_safe names Hn Hs) as Esp.
  unfold path_join. cbn [filter]. destruct root as [|c root].
  - cbn [nonempty]. rewrite F. change (clean []) with (B "."). unfold place.
    change (beqb (B ".") (B "/")) with false. change (beqb (B ".") (B ".")) with true. cbv iota.
    assert (Er : is_rooted (join (B "/") names) = false).
    { destruct Hs as [|n names (H & _ & _ & Hsl) _]; [congruence|].
      unfold is_rooted. destruct n as [|x n]; [congruence|].
      assert (Hx : aeqb "/" x = false) by (apply aeqb_neq; intros <-; apply Hsl; left; reflexivity).
      destruct names; cbn [join app B list_ascii_of_string has_prefix]; rewrite Hx; reflexivity. }
    assert (Ec : clean (join (B "/") names) = join (B "/") names).
    { unfold clean. rewrite Er. unfold clean_comps. rewrite Er, Esp, safe_fold by exact Hs.
      rewrite app_nil_r, rev_involutive. destruct names; [congruence|reflexivity]. }
    destruct names as [|n names]; [congruence|]. exact Ec.
  - cbn [nonempty]. rewrite F.
    destruct names as [|n names]; [congruence|].
    change (join (B "/") ((c :: root) :: n :: names)) with ((c :: root) ++ B "/" ++ join (B "/") (n :: names)).
    change (B "/" ++ ?x) with ("/"%char :: x).
    rewrite clean_below; [rewrite Esp; reflexivity|discriminate|rewrite Esp; exact Hs].
Qed.

(** Joining a root with a relative path whose components are safe. *)
Lemma rooted_join_safe s :
  exists names, Forall safe_name names /\ path_join [B "/"; s] = B "/" ++ join (B "/") names.
Proof.
  exists (clean_comps (match s with [] => B "/" | _ => join (B "/") [B "/"; s] end)). split.
  - apply clean_comps_safe. destruct s; reflexivity.
  - unfold path_join. destruct s as [|c s]; reflexivity.
Qed.
