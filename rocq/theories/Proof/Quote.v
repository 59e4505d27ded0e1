(** Proofs about quoted commands. *)
From Verif.Base Require Import Bytes.
From Verif.Model Require Import Message Modes Roster Robust Service Lines Quote.
From Verif.Spec Require Import Lines Wire Quote.
From Verif.Proof Require Import Lines Wire.
From Coq Require Import Lia.

(** ** Words *)
Definition opt (t : option bytes) : list bytes := match t with Some t => [t] | None => [] end.
Definition begins_colon (s : bytes) : Prop := exists r, s = ":"%char :: r.

Lemma split_on_cons sep s : exists h t, split_on sep s = h :: t.
Proof. induction s as [|c s IH]; cbn [split_on]; [eauto|]. destruct (aeqb c sep); [eauto|]. destruct IH as (h & t & ->). eauto. Qed.

Lemma cut_trailing_cons c s : ~ (c = " "%char /\ begins_colon s) ->
  cut_trailing (c :: s) = (c :: fst (cut_trailing s), snd (cut_trailing s)).
Proof.
  intros N. destruct s as [|b s]; [reflexivity|]. change (cut_trailing (c :: b :: s)) with (if aeqb c " " && aeqb b ":" then ([], Some s) else let (x, y) := cut_trailing (b :: s) in (c :: x, y)).
  destruct (aeqb_spec c " ") as [->|E]; cbn [andb].
  - destruct (aeqb_spec b ":") as [->|E']; [exfalso; apply N; split; [reflexivity|exists s; reflexivity]|]. destruct (cut_trailing (b :: s)). reflexivity.
  - destruct (cut_trailing (b :: s)). reflexivity.
Qed.

Lemma colon_dec s : begins_colon s \/ ~ begins_colon s.
Proof. destruct s as [|c s]; [right; intros [r E]; discriminate|]. destruct (aeqb_spec c ":") as [->|N]; [left; exists s; reflexivity|right; intros [r E]; congruence]. Qed.

Lemma words_cut s :
  (forall w, words s (Some w) = (w ++ hd [] (split_on " " (fst (cut_trailing s)))) :: filter nonempty (tl (split_on " " (fst (cut_trailing s)))) ++ opt (snd (cut_trailing s))) /\
  (~ begins_colon s -> words s None = split_space (fst (cut_trailing s)) ++ opt (snd (cut_trailing s))).
Proof.
  unfold split_space. induction s as [|c s [IH1 IH2]].
  - split; intros; cbn; [rewrite app_nil_r|]; reflexivity.
  - destruct (aeqb_spec c " ") as [->|Nc].
    + destruct (colon_dec s) as [[r ->]|Nb].
      * split; intros; cbn; [rewrite app_nil_r|]; reflexivity.
      * rewrite cut_trailing_cons by tauto. cbn [fst snd split_on words aeqb]. rewrite aeqb_refl. cbn [hd tl filter nonempty]. rewrite (IH2 Nb). split; intros; [rewrite app_nil_r|]; reflexivity.
    + rewrite cut_trailing_cons by tauto. cbn [fst snd split_on words]. rewrite (proj2 (aeqb_neq c " ") Nc). destruct (split_on_cons " " (fst (cut_trailing s))) as (h & t & E).
      rewrite E in *. cbn [hd tl filter nonempty] in *. split.
      * intros w. rewrite IH1, <- app_assoc. reflexivity.
      * intros Nb. destruct (aeqb_spec c ":") as [->|_]; [exfalso; apply Nb; exists s; reflexivity|]. rewrite IH1. reflexivity.
Qed.

Lemma words_shape s : forall cur, match cur with Some w => word w | None => True end ->
  match cur with
  | Some w => exists w' l, words s cur = w' :: l /\ word w' /\ (l = [] \/ exists ws t, l = ws ++ [t] /\ Forall word ws)
  | None => words s cur = [] \/ exists ws t, words s cur = ws ++ [t] /\ Forall word ws
  end.
Proof.
  induction s as [|c s IH]; intros cur H; cbn [words].
  - destruct cur as [w|]; [exists w, []; auto|auto].
  - destruct cur as [w|].
    + destruct (aeqb_spec c " ") as [->|N].
      * exists w, (words s None). split; [reflexivity|]. split; [exact H|]. exact (IH None I).
      * apply (IH (Some (w ++ [c]))). destruct H as (H1 & H2 & H3). split; [destruct w; discriminate|]. split.
        -- intros K. apply in_app_or in K as [K|[K|[]]]; [exact (H2 K)|congruence].
        -- intros r K. destruct w as [|a w]; [contradiction|]. injection K as -> _. exact (H3 w eq_refl).
    + destruct (aeqb_spec c " ") as [->|N]; [exact (IH None I)|]. destruct (aeqb_spec c ":") as [->|N']; [right; exists [], s; split; [reflexivity|constructor]|].
      assert (W : word [c]) by (split; [discriminate|]; split; [intros [K|[]]; congruence|intros r K; congruence]).
      destruct (IH (Some [c]) W) as (w' & l & E & W' & [->|(ws & t & -> & F)]); right; rewrite E; [exists [], w'; split; [reflexivity|constructor]|].
      exists (w' :: ws), t. split; [reflexivity|constructor; assumption].
Qed.

Lemma word_upper w : word w -> word (to_upper w).
Proof.
  assert (U : forall c x, (x = " " \/ x = ":")%char -> upper_byte c = x -> c = x).
  { intros c x Hx E. pose proof (byte_forall (fun c => (negb (aeqb (upper_byte c) " ") || aeqb c " ") && (negb (aeqb (upper_byte c) ":") || aeqb c ":"))) as S.
    specialize (S ltac:(vm_compute; reflexivity) c). cbn beta in S. apply andb_prop in S as [S1 S2]. rewrite E in *. destruct Hx as [->| ->]; rewrite aeqb_refl in *; cbn [negb orb] in *; apply aeqb_eq; assumption. }
  intros (H1 & H2 & H3). split; [destruct w; [contradiction|discriminate]|]. split.
  - intros K. apply in_map_iff in K as (c & E & Hc). apply (U c " "%char) in E; [subst c; exact (H2 Hc)|auto].
  - intros r K. destruct w as [|c w]; [discriminate K|]. injection K as E _. apply (U c ":"%char) in E; [subst c; exact (H3 w eq_refl)|auto].
Qed.

Lemma lenient_in raw : ~ In "010"%char raw -> ~ In "013"%char raw -> Forall (fun c => lenient c = false) raw.
Proof. intros A C. apply Forall_forall. intros c Hc. unfold lenient. apply orb_false_iff. split; apply aeqb_neq; intros ->; auto. Qed.

Lemma trim_eol_clean raw : Forall (fun c => lenient c = false) raw -> trim_eol raw = raw.
Proof.
  intros H. unfold trim_eol. apply Forall_rev in H. destruct (rev raw) as [|c l] eqn:E; cbn [Detach.trim_left]; [rewrite <- (rev_involutive raw), E; reflexivity|].
  inversion H as [|? ? L _]; subst. unfold lenient in L. apply orb_false_iff in L as [L1 L2].
  assert (A : amem c crlf = false). { unfold crlf. cbn. rewrite ?L1, ?L2. apply aeqb_neq in L1, L2. cbn. repeat match goal with |- context [aeqb ?x ?y] => destruct (aeqb_spec x y); [subst; contradiction|] end. reflexivity. }
  rewrite A, <- E. apply rev_involutive.
Qed.

(** What the server reads is what was written. *)
Lemma read_back tags_of raw : command raw -> exists cmd ps m,
  words raw None = cmd :: ps /\ Robust.parse_line tags_of raw = Some m /\ m_tags m = [] /\ words (format_message m) None = to_upper cmd :: ps /\
  server_reads lenient (write_all [m]) [] = [format_message m].
Proof.
  intros ((c & r & -> & Nc) & L1 & L2). pose proof (lenient_in _ L1 L2) as L. set (raw := c :: r) in *.
  assert (Nb : ~ begins_colon raw) by (intros [x E]; injection E as -> _; apply Nc; cbn; auto).
  assert (Pa : Robust.parse_line tags_of raw = parse_body [] None raw).
  { unfold Robust.parse_line. rewrite (trim_eol_clean _ L). unfold raw. destruct (aeqb_spec c "@") as [->|_]; [exfalso; apply Nc; cbn; auto|]. cbn [parse_source].
    destruct (aeqb_spec c ":") as [->|_]; [exfalso; apply Nc; cbn; auto|reflexivity]. }
  assert (W : word [c]) by (split; [discriminate|]; split; [intros [K|[]]; subst c; apply Nc; cbn; auto|intros x K; injection K as -> _; apply Nc; cbn; auto]).
  assert (Es : words raw None = words r (Some [c])).
  { unfold raw. cbn [words]. destruct (aeqb_spec c " ") as [->|_]; [exfalso; apply Nc; cbn; auto|]. destruct (aeqb_spec c ":") as [->|_]; [exfalso; apply Nc; cbn; auto|reflexivity]. }
  destruct (words_shape r (Some [c]) W) as (cmd & ps & E & Wc & Sh). rewrite <- Es in E.
  pose proof (proj2 (words_cut raw) Nb) as Q. rewrite E in Q.
  assert (P : parse_body [] None raw = Some (msg (to_upper cmd) ps)).
  { unfold parse_body. destruct (cut_trailing raw) as [mid tr] eqn:C. cbn [fst snd] in Q. destruct (split_space mid) as [|cmd' ps'] eqn:S.
    - exfalso. assert (F : fst (cut_trailing raw) = mid) by (rewrite C; reflexivity). unfold raw in F. rewrite cut_trailing_cons in F by (intros [-> _]; apply Nc; cbn; auto).
      cbn [fst] in F. rewrite <- F in S. unfold split_space in S. cbn [split_on] in S. destruct (aeqb_spec c " ") as [->|_]; [apply Nc; cbn; auto|].
      destruct (split_on_cons " " (fst (cut_trailing r))) as (h & t & Eh). rewrite Eh in S. discriminate S.
    - cbn [app] in Q. injection Q as <- ->. reflexivity. }
  exists cmd, ps, (msg (to_upper cmd) ps). split; [exact E|]. split; [rewrite Pa; exact P|]. split; [reflexivity|]. split.
  - destruct Sh as [->|(ws & t & -> & F)].
    + unfold format_message. cbn [msg m_prefix m_command m_params format_params app]. rewrite app_nil_r. apply words_last. apply word_upper. exact Wc.
    + pose proof (parse_format (to_upper cmd) ws t (word_upper _ Wc) F) as R. unfold Wire.parse_line in R.
      destruct (words (format_message (msg (to_upper cmd) (ws ++ [t]))) None) as [|a b]; [discriminate R|]. injection R as -> ->. reflexivity.
  - change [format_message (msg (to_upper cmd) ps)] with (map format_message [msg (to_upper cmd) ps]). apply lenient_written. constructor; [|constructor].
    apply (clean_parse lenient lenient_upper tags_of raw); [rewrite (trim_eol_clean _ L); exact L|]. rewrite Pa. exact P.
Qed.

(** ** Networks *)
Lemma get_network_some name l : forall i j n, get_network name l i = Some (j, n) -> exists k, j = i + k /\ nth_error l k = Some n /\ is_network name n = true.
Proof.
  induction l as [|a l IH]; intros i j n H; cbn [get_network] in H; [discriminate|]. destruct (is_network name a) eqn:E.
  - injection H as <- <-. exists 0. split; [lia|]. auto.
  - apply IH in H as (k & -> & K & F). exists (S k). split; [lia|]. auto.
Qed.

Lemma get_network_none name l : forall i, get_network name l i = None -> forall n, In n l -> is_network name n = false.
Proof.
  induction l as [|a l IH]; intros i H n Hn; cbn [get_network] in H; [destruct Hn|]. destruct (is_network name a) eqn:E; [discriminate|]. destruct Hn as [<-|Hn]; [exact E|exact (IH _ H n Hn)].
Qed.

Lemma is_network_spec name n : is_network name n = true <-> q_addr n = name \/ (q_name n = name /\ name <> []).
Proof.
  unfold is_network. rewrite orb_true_iff, andb_true_iff, !beqb_eq. split; intros [K|[K1 K2]]; auto.
  - right. split; [exact K2|]. rewrite <- K2. destruct (q_name n); [discriminate K1|discriminate].
  - right. split; [destruct (q_name n); [subst; contradiction|reflexivity]|exact K1].
Qed.

Lemma listed_network name n : listed name n -> is_network name n = true.
Proof. intros [[A C]|[A C]]; apply is_network_spec; [right; auto|left; exact C]. Qed.

(** With the conditions, a name that is listed finds its network. *)
Lemma finds nets i n name : listed_apart nets -> no_mixing nets -> nth_error nets i = Some n -> listed name n -> get_network name nets 0 = Some (i, n).
Proof.
  intros [U D] M Hn Li. destruct (get_network name nets 0) as [[j a]|] eqn:E.
  - apply get_network_some in E as (k & -> & K & F). cbn [plus] in *. apply is_network_spec in F.
    assert (G : i = k).
    { destruct F as [F|[F1 F2]]; [exact (M i k n a Hn K ltac:(rewrite F; exact Li))|]. apply (U i k n a name Hn K Li). left. auto. }
    subst k. congruence.
  - pose proof (get_network_none _ _ _ E n (nth_error_In _ _ Hn)) as F. rewrite (listed_network _ _ Li) in F. discriminate F.
Qed.

Theorem quoted tags_of nets current i n name raw : listed_apart nets -> no_mixing nets -> nth_error nets i = Some n -> listed name n -> q_conn n = true -> command raw ->
  exists cmd ps m, words raw None = cmd :: ps /\ quote tags_of nets current [name; raw] = (SentCommand, [(i, m)]) /\
    words (format_message m) None = to_upper cmd :: ps /\ server_reads lenient (write_all [m]) [] = [format_message m].
Proof.
  intros A M Hn Li C R. destruct (read_back tags_of raw R) as (cmd & ps & m & W & P & T & F & S). exists cmd, ps, m. split; [exact W|]. split; [|auto].
  unfold quote. cbn [rev app length Nat.ltb Nat.leb]. unfold network_from_arg, pop_arg. destruct (proj2 A n name [] (nth_error_In _ _ Hn) Li) as [N0 _].
  assert (D : has_prefix name (B "-") = false).
  { destruct name as [|c r]; [contradiction|]. change (B "-") with ["-"%char]. cbn [has_prefix]. destruct (proj2 A n (c :: r) r (nth_error_In _ _ Hn) Li) as [_ N1]. destruct (aeqb_spec "-" c) as [<-|_]; [contradiction|reflexivity]. }
  rewrite D. cbn [negb fst]. destruct name as [|c0 r0]; [contradiction|]. rewrite (finds nets i n _ A M Hn Li), C. cbn [negb]. rewrite P.
  destruct m as [tg pr cm pa]. cbn [m_tags] in T. subst tg. unfold sent_as. destruct (q_tags n); reflexivity.
Qed.

Theorem current_one tags_of nets i n raw : nth_error nets i = Some n -> q_conn n = true -> command raw ->
  exists cmd ps m, words raw None = cmd :: ps /\ quote tags_of nets (Some i) [raw] = (SentCommand, [(i, m)]) /\
    words (format_message m) None = to_upper cmd :: ps /\ server_reads lenient (write_all [m]) [] = [format_message m].
Proof.
  intros Hn C R. destruct (read_back tags_of raw R) as (cmd & ps & m & W & P & T & F & S). exists cmd, ps, m. split; [exact W|]. split; [|auto].
  unfold quote. cbn [rev app length Nat.ltb Nat.leb]. rewrite Hn. cbn [option_map]. unfold network_from_arg, pop_arg. cbn [fst]. rewrite C. cbn [negb]. rewrite P.
  destruct m as [tg pr cm pa]. cbn [m_tags] in T. subst tg. unfold sent_as. destruct (q_tags n); reflexivity.
Qed.

(** Whatever is sent goes to one network, which is connected and goes by the name that
    was given. *)
Theorem nowhere_else tags_of nets current params e sent i m : quote tags_of nets current params = (e, sent) -> In (i, m) sent ->
  sent = [(i, m)] /\ e = SentCommand /\ exists n, nth_error nets i = Some n /\ q_conn n = true /\
  match params with
  | [_] => current = Some i
  | [name; _] => q_addr n = name \/ q_name n = name \/ (current = Some i /\ (name = [] \/ exists r, name = "-"%char :: r))
  | _ => False
  end.
Proof.
  intros Q Hs. unfold quote in Q.
  destruct params as [|a [|b [|c l]]]; cbn [rev app] in Q.
  - injection Q as <- <-. destruct Hs.
  - cbn [length Nat.ltb Nat.leb] in Q. unfold network_from_arg, pop_arg in Q. cbn [fst] in Q.
    destruct current as [j|]; [|injection Q as <- <-; destruct Hs]. destruct (nth_error nets j) as [n|] eqn:En; cbn [option_map] in Q; [|injection Q as <- <-; destruct Hs].
    destruct (q_conn n) eqn:C; cbn [negb] in Q; [|injection Q as <- <-; destruct Hs]. destruct (Robust.parse_line tags_of a); injection Q as <- <-; [destruct Hs as [Hs|[]]|destruct Hs].
    injection Hs as -> <-. split; [reflexivity|]. split; [reflexivity|]. exists n. auto.
  - cbn [length Nat.ltb Nat.leb] in Q. unfold network_from_arg in Q.
    assert (G : forall x, match fst (pop_arg [a]) with [] => match (match current with None => None | Some i => option_map (pair i) (nth_error nets i) end) with Some x => inl x | None => inr NoNetwork end
        | name => match get_network name nets 0 with Some x => inl x | None => inr UnknownNetwork end end = inl x -> nth_error nets (fst x) = Some (snd x) /\
        (q_addr (snd x) = a \/ q_name (snd x) = a \/ (current = Some (fst x) /\ (a = [] \/ exists r, a = "-"%char :: r)))).
    { intros [j n] H. cbn [fst snd]. unfold pop_arg in H. 
      assert (Cur : (a = [] \/ exists r, a = "-"%char :: r) -> match (match current with None => None | Some i => option_map (pair i) (nth_error nets i) end) with Some x => inl x | None => inr NoNetwork end = inl (j, n) ->
        nth_error nets j = Some n /\ (q_addr n = a \/ q_name n = a \/ (current = Some j /\ (a = [] \/ exists r, a = "-"%char :: r)))).
      { intros Ha K. destruct current as [k|]; [|discriminate]. destruct (nth_error nets k) eqn:Ek; cbn [option_map] in K; [|discriminate]. injection K as <- <-. auto. }
      destruct a as [|c r]; [cbn in H; apply Cur; auto|]. destruct (aeqb_spec c "-") as [->|N]; [cbn in H; apply Cur; [right; eexists; reflexivity|exact H]|].
      assert (D : has_prefix (c :: r) (B "-") = false) by (change (B "-") with ["-"%char]; cbn [has_prefix]; destruct (aeqb_spec "-" c) as [K|_]; [congruence|reflexivity]).
      rewrite D in H. cbn [negb fst] in H. destruct (get_network (c :: r) nets 0) as [[k n']|] eqn:E; [|discriminate]. injection H as <- <-.
      apply get_network_some in E as (k' & -> & K & F). split; [exact K|]. apply is_network_spec in F as [F|[F _]]; auto. }
    destruct (match fst (pop_arg [a]) with [] => _ | _ => _ end) as [[j n]|e'] eqn:E; [|injection Q as <- <-; destruct Hs].
    destruct (G (j, n) eq_refl) as [G1 G2]. cbn [fst snd] in *.
    destruct (q_conn n) eqn:C; cbn [negb] in Q; [|injection Q as <- <-; destruct Hs]. destruct (Robust.parse_line tags_of b); injection Q as <- <-; [destruct Hs as [Hs|[]]|destruct Hs].
    injection Hs as -> <-. split; [reflexivity|]. split; [reflexivity|]. exists n. auto.
  - exfalso. destruct ((rev l ++ [c]) ++ [b]) as [|x y] eqn:E; [destruct (rev l); discriminate E|]. cbn [app] in Q. cbn [length Nat.ltb Nat.leb] in Q. injection Q as <- <-. destruct Hs.
Qed.
