(** C47: highlights. *)
From Verif.Base Require Import Bytes.
From Verif.Model Require Import Words Highlight.
From Verif.Spec Require Import Highlight.
From Verif.Proof Require Highlight.
From Coq Require Import NArith.
Open Scope nat_scope.

(** C47, no mention is missed: a text with an isolated mention of the nickname outside URIs is a
    highlight, if occurrences of the nickname do not overlap. *)
Theorem C47_mention_found : forall lon s nick,
  lon rune_error = false -> nick <> [] -> no_overlap lon nick ->
  mention lon is_space s nick -> is_highlight lon s nick = true.
Proof. exact (fun lon s nick H => Proof.Highlight.mention_highlight lon H s nick). Qed.
Print Assumptions C47_mention_found.

(** C47, exact when the nickname and "://" occur at most once in the text. *)
Theorem C47_exact_partial : forall lon s nick,
  lon rune_error = false -> nick <> [] -> occurs_once s nick -> occurs_once s [58; 47; 47]%N ->
  (is_highlight lon s nick = true <-> mention lon is_space s nick).
Proof. exact (fun lon s nick H => Proof.Highlight.single_exact lon H s nick). Qed.
Print Assumptions C47_exact_partial.

(** C47, what a highlight tells in general: the nickname occurs in the text, no word touches it on
    the right, and on the left at most another occurrence of the nickname. *)
Theorem C47_highlight_sound_partial : forall lon s nick,
  lon rune_error = false -> nick <> [] -> is_highlight lon s nick = true ->
  exists l r, s = l ++ nick ++ r /\ (forall c b, r = c :: b -> word_char lon c = false) /\
    ((forall a c, l = a ++ [c] -> word_char lon c = false) \/ exists a, l = a ++ nick).
Proof. exact (fun lon s nick H Hn => Proof.Highlight.loop_sound lon H nick Hn (S (length s)) s). Qed.
Print Assumptions C47_highlight_sound_partial.

(** The letters and digits of ASCII. *)
Definition ascii_lon (r : N) : bool :=
  ((48 <=? r) && (r <=? 57) || (65 <=? r) && (r <=? 90) || (97 <=? r) && (r <=? 122))%N.
Definition T (s : string) : list N := map N_of_ascii (B s).

Lemma no_mention s nick : nick <> [] ->
  forallb (fun i =>
    let l := firstn i s in let r := skipn (i + length nick) s in
    negb (leqb N.eqb s (l ++ nick ++ r) && negb (word_char ascii_lon (last l 32%N)) && negb (word_char ascii_lon (hd 32%N r)) &&
          negb (is_uri_prefix l))) (seq 0 (S (length s))) = true ->
  (forall l r, s = l ++ nick ++ r -> is_uri_prefix l = true -> in_uri is_space l) ->
  ~ mention ascii_lon is_space s nick.
Proof.
  intros Hn H Hu (l & r & E & H1 & H2 & H3). rewrite forallb_forall in H.
  assert (Hi : In (length l) (seq 0 (S (length s)))) by (apply in_seq; rewrite E, app_length; lia).
  specialize (H _ Hi). cbv zeta in H. destruct (Proof.Highlight.check_eq l r nick) as [C1 C2]. cbv zeta in C1, C2. rewrite <- E in C1, C2.
  rewrite C1, C2 in H. apply negb_true_iff in H.
  replace (leqb N.eqb s (l ++ nick ++ r)) with true in H by (symmetry; apply (leqb_eq N.eqb N.eqb_eq); exact E).
  assert (A : word_char ascii_lon (last l 32%N) = false).
  { destruct l as [|c l _] using rev_ind; [reflexivity|]. rewrite last_last. exact (H1 l c eq_refl). }
  assert (A2 : word_char ascii_lon (hd 32%N r) = false).
  { destruct r as [|c r]; [reflexivity|]. exact (H2 c r eq_refl). }
  rewrite A, A2 in H. cbn [negb andb] in H. apply negb_false_iff in H. apply H3. exact (Hu l r E H).
Qed.

(** C47 is violated: after an occurrence that is not a mention, the text before it is forgotten. So
    the second half of "annaanna" in a word counts as a mention, and so does a nickname that occurs
    twice in a URI. *)
Theorem C47_left_context_refuted : exists s nick,
  no_overlap ascii_lon nick /\ is_highlight ascii_lon s nick = true /\ ~ mention ascii_lon is_space s nick.
Proof.
  exists (T "joannaanna"), (T "anna"). split; [|split; [vm_compute; reflexivity|]].
  - intros x c y z E Hy Ez. destruct x as [|x1 [|x2 [|x3 [|x4 x]]]]; vm_compute in E; injection E; intros; subst; try reflexivity; try discriminate.
    all: try (destruct y; discriminate). destruct x; discriminate.
  - apply no_mention; [discriminate|vm_compute; reflexivity|intros l r _; apply Proof.Highlight.uri_prefix_sound].
Qed.
Print Assumptions C47_left_context_refuted.

Theorem C47_uri_refuted : exists s nick,
  is_highlight ascii_lon s nick = true /\ ~ mention ascii_lon is_space s nick.
Proof.
  exists (T "https://anna.example/anna"), (T "anna"). split; [vm_compute; reflexivity|].
  apply no_mention; [discriminate|vm_compute; reflexivity|intros l r _; apply Proof.Highlight.uri_prefix_sound].
Qed.
Print Assumptions C47_uri_refuted.

(** An overlap hides a mention: a second occurrence that begins inside of the first one. *)
Theorem C47_overlap_refuted : exists s nick,
  is_highlight ascii_lon s nick = false /\ mention ascii_lon is_space s nick.
Proof.
  exists (T "x]]]"), (T "]]"). split; [vm_compute; reflexivity|]. exists (T "x]"), []. split; [reflexivity|].
  split; [intros a c E; apply (app_inj_tail [120%N] a 93%N c) in E as [_ <-]; reflexivity|].
  split; [intros c b E; discriminate|]. intros (a & c & b & E & _). apply (f_equal (@length N)) in E.
  rewrite app_length in E. cbn in E. lia.
Qed.
Print Assumptions C47_overlap_refuted.

Example C47_nonvacuous :
  is_highlight ascii_lon (T "hi anna: see https://anna.example") (T "anna") = true /\
  mention ascii_lon is_space (T "hi anna: see https://anna.example") (T "anna") /\
  is_highlight ascii_lon (T "https://anna.example") (T "anna") = false /\
  is_highlight ascii_lon (T "joanna, anna_") (T "anna") = false /\
  ascii_lon rune_error = false.
Proof.
  split; [vm_compute; reflexivity|]. split.
  - exists (T "hi "), (T ": see https://anna.example"). split; [vm_compute; reflexivity|].
    split; [intros a c E; apply (app_inj_tail [104; 105]%N a 32%N c) in E as [_ <-]; reflexivity|].
    split; [intros c b E; vm_compute in E; injection E as <- _; reflexivity|].
    intros (a & c & b & E & _). apply (f_equal (@length N)) in E. rewrite app_length in E. cbn in E. lia.
  - vm_compute. repeat split.
Qed.
