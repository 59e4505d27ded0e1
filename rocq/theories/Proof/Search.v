(** Proofs for C102. *)
From Verif.Base Require Import Bytes.
From Coq Require Import Lia ZArith NArith.
From Verif.Model Require Import Message CaseMap TimeFmt Identd ZncLog Glob Networks FsStore Sql SqlQuery History Search.
From Verif.Proof Require Glob FsStore SqlQuery.
From Verif.Spec Require Import TimeFmt ZncLog FsStore Sql SqlQuery Search.
Open Scope nat_scope.

(** ** The command *)
Section Command.
  Context {M : Type}.
  Variable c : hconn M.

  Definition lookup (name : bytes) (attrs : list (bytes * bytes)) : option bytes := option_map snd (find (fun p => beqb (fst p) name) attrs).
  Lemma lookup_In name attrs v : NoDup (map fst attrs) -> (lookup name attrs = Some v <-> In (name, v) attrs).
  Proof.
    induction attrs as [|[n w] l IH]; cbn [map fst]; intro N; [split; [discriminate|intros []]|]. inversion N as [|? ? N1 N2]; subst.
    unfold lookup. cbn [find fst]. destruct (beqb_spec n name) as [->|D]; cbn [option_map snd].
    - split; [intro E; injection E as ->; left; reflexivity|]. intros [E|J]; [congruence|]. exfalso. apply N1. apply (in_map fst) in J. exact J.
    - change (lookup name l = Some v <-> In (name, v) ((n, w) :: l)). rewrite (IH N2). split; [right; assumption|]. intros [E|J]; [congruence|exact J].
  Qed.
  Lemma lookup_None name attrs : lookup name attrs = None <-> forall v, ~ In (name, v) attrs.
  Proof.
    induction attrs as [|[n w] l IH]; [split; [intros _ v []|reflexivity]|]. unfold lookup. cbn [find fst]. destruct (beqb_spec n name) as [->|D]; cbn [option_map snd].
    - split; [discriminate|]. intro H. exfalso. apply (H w). left. reflexivity.
    - change (lookup name l = None <-> forall v, ~ In (name, v) ((n, w) :: l)). rewrite IH. split; intros H v J.
      + destruct J as [J|J]; [congruence|exact (H v J)].
      + apply (H v). right. exact J.
  Qed.

  Definition ok_attr (name v : bytes) : Prop :=
    ((name = B "before" \/ name = B "after") -> parse_time v <> None) /\ (name = B "in" -> hc_net c <> None) /\ (name = B "limit" -> count v <> None).

  Definition time_of (d : Z) (v : option bytes) : Z := match v with Some v => opt 0%Z (parse_time v) | None => d end.
  Definition final (attrs : list (bytes * bytes)) (q : search) : search :=
    Search (time_of (q_start q) (lookup (B "after") attrs)) (time_of (q_end q) (lookup (B "before") attrs)) (opt (q_from q) (lookup (B "from") attrs))
      (match lookup (B "in") attrs with Some v => match hc_net c with Some (cm, _) => casemap cm v | None => [] end | None => q_in q end)
      (opt (q_text q) (lookup (B "text") attrs)) (match lookup (B "limit") attrs with Some v => opt 0%Z (count v) | None => q_limit q end).
  Definition is_some {A} (o : option A) : bool := match o with Some _ => true | None => false end.

  Lemma lookup_cons n v name l : lookup name ((n, v) :: l) = if beqb n name then Some v else lookup name l.
  Proof. unfold lookup. cbn [find fst]. destruct (beqb n name); reflexivity. Qed.

  Ltac lits := repeat match goal with |- context [beqb (B ?a) (B ?b)] => let v := eval vm_compute in (beqb (B a) (B b)) in change (beqb (B a) (B b)) with v end; cbn iota beta.
  Ltac fin IH L := rewrite IH; unfold final; rewrite !lookup_cons; cbn [q_start q_end q_from q_in q_text q_limit]; lits; rewrite L.
  Lemma attrs_ok attrs : NoDup (map fst attrs) -> (forall name v, In (name, v) attrs -> ok_attr name v) ->
    forall q n, search_attrs c attrs (q, n) = inl (final attrs q, n || is_some (lookup (B "in") attrs)).
  Proof.
    induction attrs as [|[name v] l IH]; cbn [map fst]; intros N H q n.
    - cbn [search_attrs]. rewrite orb_false_r. destruct q. reflexivity.
    - inversion N as [|? ? N1 N2]; subst. specialize (IH N2 (fun a b J => H a b (or_intror J))).
      assert (lookup name l = None) as L. { apply lookup_None. intros w J. apply N1. apply (in_map fst) in J. exact J. }
      destruct (H name v (or_introl eq_refl)) as (H1 & H2 & H3). cbn [search_attrs]. unfold search_attr.
      destruct (beqb_spec name (B "before")) as [->|D1]; [|destruct (beqb_spec name (B "after")) as [->|D2]].
      1,2: cbn [orb]; destruct (parse_time v) as [t|] eqn:P; [|exfalso; apply H1; [auto|reflexivity]]; lits; fin IH L; cbn [time_of]; rewrite P; reflexivity.
      cbn [orb]. destruct (beqb_spec name (B "from")) as [->|D3]; [|destruct (beqb_spec name (B "in")) as [->|D4]; [|destruct (beqb_spec name (B "text")) as [->|D5]; [|destruct (beqb_spec name (B "limit")) as [->|D6]]]].
      + fin IH L. reflexivity.
      + destruct (hc_net c) as [[cm f]|] eqn:Hn; [|exfalso; exact (H2 eq_refl eq_refl)].
        fin IH L. rewrite Hn. cbn [is_some orb]. rewrite orb_true_r. reflexivity.
      + fin IH L. reflexivity.
      + specialize (H3 eq_refl). unfold count in H3. destruct (atoi v) as [k|] eqn:A; [|contradiction].
        destruct (Z.ltb_spec 0 k) as [K|K]; [|contradiction]. destruct (Z.leb_spec k 0); [lia|].
        fin IH L. unfold count. rewrite A. destruct (Z.ltb_spec 0 k); [reflexivity|lia].
      + rewrite IH. unfold final. rewrite !lookup_cons. apply beqb_neq in D1, D2, D3, D4, D5, D6. rewrite D1, D2, D3, D4, D5, D6. reflexivity.
  Qed.

  Lemma attr_cases name v : {ok_attr name v} + {~ ok_attr name v}.
  Proof.
    unfold ok_attr. destruct (beqb_spec name (B "before")) as [->|D1]; [|destruct (beqb_spec name (B "after")) as [->|D2]; [|destruct (beqb_spec name (B "in")) as [->|D3]; [|destruct (beqb_spec name (B "limit")) as [->|D4]]]].
    1,2: destruct (parse_time v) as [t|]; [left; split; [intros _; discriminate|split; intro; discriminate]|right; intros [H _]; apply H; auto].
    - destruct (hc_net c); [left; split; [intros [?|?]; discriminate|split; [intros _; discriminate|intro; discriminate]]|right; intros (_ & H & _); apply H; reflexivity].
    - destruct (count v); [left; split; [intros [?|?]; discriminate|split; [intro; discriminate|intros _; discriminate]]|right; intros (_ & _ & H); apply H; reflexivity].
    - left. split; [tauto|split; intro; contradiction].
  Qed.
  Lemma attr_bad name v qn : ~ ok_attr name v -> exists x, search_attr c name v qn = inr (search_fail (B "INVALID_PARAMS" :: x)).
  Proof.
    intro H. destruct qn as [q n]. unfold search_attr. unfold ok_attr in H.
    destruct (beqb_spec name (B "before")) as [->|D1]; [|destruct (beqb_spec name (B "after")) as [->|D2]; [|destruct (beqb_spec name (B "from")) as [->|D0]; [|destruct (beqb_spec name (B "in")) as [->|D3]; [|destruct (beqb_spec name (B "text")) as [->|D5]; [|destruct (beqb_spec name (B "limit")) as [->|D4]]]]]]; cbn [orb].
    1,2: destruct (parse_time v); [exfalso; apply H; split; [intros _; discriminate|split; intro; discriminate]|eexists; reflexivity].
    - exfalso. apply H. split; [intros [?|?]; discriminate|split; intro; discriminate].
    - destruct (hc_net c) as [[cm f]|]; [|eexists; reflexivity]. exfalso. apply H. split; [intros [?|?]; discriminate|split; [intros _; discriminate|intro; discriminate]].
    - exfalso. apply H. split; [intros [?|?]; discriminate|split; intro; discriminate].
    - unfold count in H. destruct (atoi v) as [k|]; [|eexists; reflexivity]. destruct (Z.leb_spec k 0) as [K|K]; [eexists; reflexivity|]. destruct (Z.ltb_spec 0 k); [|lia].
      exfalso. apply H. split; [intros [?|?]; discriminate|split; [intro; discriminate|intros _; discriminate]].
    - exfalso. apply H. split; [tauto|split; intro; contradiction].
  Qed.
  Lemma attr_good name v qn : ok_attr name v -> exists qn', search_attr c name v qn = inl qn'.
  Proof.
    intro H. destruct qn as [q n]. unfold search_attr. destruct H as (H1 & H2 & H3).
    destruct (beqb_spec name (B "before")) as [->|D1]; [|destruct (beqb_spec name (B "after")) as [->|D2]; [|destruct (beqb_spec name (B "from")) as [->|D0]; [|destruct (beqb_spec name (B "in")) as [->|D3]; [|destruct (beqb_spec name (B "text")) as [->|D5]; [|destruct (beqb_spec name (B "limit")) as [->|D4]]]]]]; cbn [orb].
    1,2: destruct (parse_time v); [eexists; reflexivity|exfalso; apply H1; auto].
    1,3,5: eexists; reflexivity.
    - destruct (hc_net c) as [[cm f]|]; [eexists; reflexivity|exfalso; apply H2; reflexivity].
    - specialize (H3 eq_refl). unfold count in H3. destruct (atoi v) as [k|]; [|contradiction]. destruct (Z.ltb_spec 0 k); [|contradiction]. destruct (Z.leb_spec k 0); [lia|]. eexists; reflexivity.
  Qed.
  Lemma attrs_bad attrs name v : In (name, v) attrs -> ~ ok_attr name v -> forall qn, exists x, search_attrs c attrs qn = inr (search_fail (B "INVALID_PARAMS" :: x)).
  Proof.
    induction attrs as [|[n w] l IH]; intros I H qn; [destruct I|]. cbn [search_attrs].
    destruct (attr_cases n w) as [K|K].
    - destruct (attr_good n w qn K) as [qn' ->]. destruct I as [E|I]; [injection E as -> ->; contradiction|]. exact (IH I H qn').
    - destruct (attr_bad n w qn K) as [x ->]. exists x. reflexivity.
  Qed.
  Lemma all_or attrs : (forall name v, In (name, v) attrs -> ok_attr name v) \/ exists name v, In (name, v) attrs /\ ~ ok_attr name v.
  Proof.
    induction attrs as [|[n w] l [IH|(a & b & J & K)]]; [left; intros ? ? []| |right; exists a, b; split; [right; exact J|exact K]].
    destruct (attr_cases n w) as [K|K]; [left|right; exists n, w; split; [left; reflexivity|exact K]].
    intros a b [E|J]; [injection E as <- <-; exact K|exact (IH a b J)].
  Qed.

  Lemma given_eq attrs name o : NoDup (map fst attrs) -> (given attrs name o <-> lookup name attrs = o).
  Proof.
    intro N. destruct o as [v|]; cbn [given].
    - symmetry. exact (lookup_In _ _ _ N).
    - symmetry. exact (lookup_None _ _).
  Qed.
  Lemma means_eq {A} attrs name (read : bytes -> option A) o : NoDup (map fst attrs) ->
    (means attrs name read o <-> match lookup name attrs with Some v => o <> None /\ read v = o | None => o = None end).
  Proof.
    intro N. destruct o as [a|]; cbn [means].
    - split.
      + intros (v & I & R). apply (lookup_In _ _ _ N) in I. rewrite I. split; [discriminate|exact R].
      + destruct (lookup name attrs) as [v|] eqn:L; [|discriminate]. intros [_ R]. exists v. split; [apply (lookup_In _ _ _ N); exact L|exact R].
    - rewrite <- lookup_None. destruct (lookup name attrs); split; [discriminate|intros [H _]; contradiction|reflexivity|reflexivity].
  Qed.

  Theorem request attrs r st cm f : NoDup (map fst attrs) -> requests attrs r -> hc_search c = Some st -> hc_net c = Some (cm, f) ->
    search_command c attrs = match st (query_of cm r) with
                             | Some l => HBatch (B "soju.im/search") [] l
                             | None => HRefuse (B "FAIL") [B "SEARCH"; B "INTERNAL_ERROR"; B "Messages could not be retrieved"]
                             end.
  Proof.
    intros N (R1 & R2 & R3 & R4 & R5 & R6) Hs Hn. unfold search_command. rewrite Hs.
    apply (lookup_In _ _ _ N) in R1. apply (given_eq _ _ _ N) in R2, R3. apply (means_eq _ _ _ _ N) in R4, R5, R6.
    rewrite attrs_ok; [|exact N|].
    2:{ intros name v J. apply (lookup_In _ _ _ N) in J. split; [|split].
        - intros [->| ->]; [rewrite J in R5; destruct R5 as [R R']|rewrite J in R4; destruct R4 as [R R']]; rewrite R'; exact R.
        - intros _. rewrite Hn. discriminate.
        - intros ->. rewrite J in R6. destruct R6 as [R R']. rewrite R'. exact R. }
    rewrite R1. cbn [orb is_some]. unfold final. cbn [q_start q_end q_from q_in q_text q_limit]. rewrite R1, R2, R3, Hn.
    assert (time_of 0 (lookup (B "after") attrs) = opt 0%Z (r_after r)) as ->.
    { destruct (lookup (B "after") attrs); [destruct R4 as [_ <-]; reflexivity|rewrite R4; reflexivity]. }
    assert (time_of 0 (lookup (B "before") attrs) = opt 0%Z (r_before r)) as ->.
    { destruct (lookup (B "before") attrs); [destruct R5 as [_ <-]; reflexivity|rewrite R5; reflexivity]. }
    assert ((match lookup (B "limit") attrs with Some v => opt 0%Z (count v) | None => search_max end) = opt 100%Z (r_limit r)) as ->.
    { destruct (lookup (B "limit") attrs); [destruct R6 as [K E]; rewrite E; destruct (r_limit r); [reflexivity|contradiction]|rewrite R6; reflexivity]. }
    unfold query_of, search_max. destruct (Z.ltb_spec 100 (opt 100%Z (r_limit r))) as [K|K].
    - rewrite Z.min_l by lia. destruct (st _); reflexivity.
    - rewrite Z.min_r by lia. destruct (st _); reflexivity.
  Qed.

  Theorem malformed attrs st : NoDup (map fst attrs) -> hc_search c = Some st -> (hc_net c = None \/ forall r, ~ requests attrs r) ->
    exists x, search_command c attrs = HRefuse (B "FAIL") (B "SEARCH" :: B "INVALID_PARAMS" :: x).
  Proof.
    intros N Hs H. unfold search_command. rewrite Hs. destruct (all_or attrs) as [K|(name & v & I & K)].
    - rewrite (attrs_ok _ N K). cbn [orb]. destruct (lookup (B "in") attrs) as [e|] eqn:Le; cbn [is_some]; [exfalso|eexists; reflexivity].
      pose proof (proj1 (lookup_In _ _ _ N) Le) as Le'. destruct H as [H|H]; [destruct (K _ _ Le') as (_ & K2 & _); exact (K2 eq_refl H)|].
      apply (H (Request e (lookup (B "from") attrs) (lookup (B "text") attrs) (match lookup (B "after") attrs with Some v => parse_time v | None => None end)
                  (match lookup (B "before") attrs with Some v => parse_time v | None => None end) (match lookup (B "limit") attrs with Some v => count v | None => None end))).
      split; [exact Le'|]. cbn [r_in r_from r_text r_after r_before r_limit]. rewrite !(given_eq _ _ _ N), !(means_eq _ _ _ _ N). split; [reflexivity|]. split; [reflexivity|].
      split; [|split].
      + destruct (lookup (B "after") attrs) as [v|] eqn:E; [|reflexivity]. split; [|reflexivity]. apply (lookup_In _ _ _ N) in E. destruct (K _ _ E) as (K1 & _). apply K1. right; reflexivity.
      + destruct (lookup (B "before") attrs) as [v|] eqn:E; [|reflexivity]. split; [|reflexivity]. apply (lookup_In _ _ _ N) in E. destruct (K _ _ E) as (K1 & _). apply K1. left; reflexivity.
      + destruct (lookup (B "limit") attrs) as [v|] eqn:E; [|reflexivity]. split; [|reflexivity]. apply (lookup_In _ _ _ N) in E. destruct (K _ _ E) as (_ & _ & K1). apply K1. reflexivity.
    - destruct (attrs_bad attrs name v I K (Search 0 0 [] [] [] search_max, false)) as [x ->]. exists x. reflexivity.
  Qed.
End Command.

(** ** The log directory *)
Lemma prefix_iff s p : has_prefix s p = true <-> exists b, s = p ++ b.
Proof.
  revert s. induction p as [|c p IH]; intros s; [split; [intros _; exists s; reflexivity|destruct s; reflexivity]|].
  destruct s as [|d s]; cbn [has_prefix]; [split; [discriminate|intros [b E]; discriminate]|]. rewrite andb_true_iff, aeqb_eq, IH. split.
  - intros [-> [b ->]]. exists b. reflexivity.
  - intros [b E]. injection E as -> E. split; [reflexivity|]. exists b. exact E.
Qed.
Lemma contains_iff sub s : contains sub s = true <-> occurs sub s.
Proof.
  induction s as [|c s IH]; cbn [contains]; rewrite orb_true_iff, prefix_iff.
  - split; [intros [[b E]|E]; [exists [], b; exact E|discriminate]|]. intros (a & b & E). left. destruct a; [exists b; exact E|discriminate].
  - rewrite IH. split.
    + intros [[b E]|(a & b & E)]; [exists [], b; exact E|]. exists (c :: a), b. rewrite E. reflexivity.
    + intros (a & b & E). destruct a as [|d a]; [left; exists b; exact E|]. injection E as -> E. right. exists a, b. exact E.
Qed.

Section Fs.
  Variable lower : bytes -> bytes.
  Definition sel (q : search) (m : log_msg) : bool :=
    (beqb (q_from q) [] || beqb (p_name (lm_prefix m)) (q_from q)) && (beqb (q_text q) [] || log_contains lower m (q_text q)).
  Lemma sel_iff q m : sel q m = true <-> log_matches lower q m.
  Proof. unfold sel, log_matches, log_contains. rewrite andb_true_iff, !orb_true_iff, !beqb_eq, contains_iff. tauto. Qed.

  Variables (own : bytes) (files : bytes -> files) (lg : log) (now : Z) (q : search).
  Let parse := fs_parse own (q_in q) false.
  Let hi := if (q_end q =? 0)%Z then now else q_end q.
  Hypothesis Hh : holds (files (q_in q)) lg.
  Hypothesis Hg : good_log parse lg.

  Variable pick : log_msg -> bool.
  Hypothesis Hp : forall m, pick m = true <-> log_matches lower q m.
  Lemma pick_sel m : sel q m = pick m.
  Proof. destruct (sel q m) eqn:E; symmetry; [apply Hp; apply sel_iff; exact E|]. destruct (pick m) eqn:P; [|reflexivity]. apply Hp, sel_iff in P. congruence. Qed.
  Lemma in_window_eq lo h d : in_window parse lg lo h (sel q) d = in_window parse lg lo h pick d.
  Proof. unfold in_window. f_equal. apply filter_ext. intro e. rewrite pick_sel. reflexivity. Qed.
  Lemma window_eq lo h : window parse lg lo h (sel q) = window parse lg lo h pick.
  Proof. unfold window. apply flat_map_ext. intro d. apply in_window_eq. Qed.

  Theorem fs_before : q_start q = 0%Z -> gaps_down (in_window parse lg 0 hi pick) (hi / 86400000000000) ->
    log_search lower own files now q = Some (map Some (lastn (Z.to_nat (q_limit q)) (window parse lg 0 hi pick))).
  Proof.
    intros E G. unfold log_search, fs_search. rewrite E. cbn [Z.eqb]. rewrite <- window_eq.
    apply Proof.FsStore.get_before_spec; [exact Hh|exact Hg|]. intros d. rewrite in_window_eq. intros L K. destruct (G d L K) as [H|(d' & H1 & H2 & H3)]; [left; exact H|].
    right. exists d'. rewrite in_window_eq. auto.
  Qed.

  Theorem fs_after : q_start q <> 0%Z ->
    (forall d t m, (q_start q / 86400000000000 < d)%Z -> In (t, m) (day_messages parse lg d) -> t <> (d * 86400000000000)%Z) ->
    gaps_up (in_window parse lg (q_start q) hi pick) (q_start q / 86400000000000) ->
    log_search lower own files now q = Some (map Some (firstn (Z.to_nat (q_limit q)) (window parse lg (q_start q) hi pick))).
  Proof.
    intros E Mid G. unfold log_search, fs_search. destruct (Z.eqb_spec (q_start q) 0); [contradiction|]. rewrite <- window_eq.
    erewrite Proof.FsStore.get_after_spec; [reflexivity|exact Hh|exact Hg|exact Mid|]. intros d. rewrite in_window_eq. intros L K. destruct (G d L K) as [H|(d' & H1 & H2 & H3)]; [left; exact H|].
    right. exists d'. rewrite in_window_eq. auto.
  Qed.
End Fs.

(** ** The database *)
Section Fts.
  Variable token_rune : N -> bool.
  Let sep := fun x : N * bytes => negb (token_rune (fst x)).
  Let text (p : list (N * bytes)) := concat (map snd p).
  Let ne (w : bytes) := match w with [] => false | _ => true end.

  Lemma pieces_cons {A} (f : A -> bool) l : exists p ps, pieces f l = p :: ps.
  Proof. induction l as [|x l (p & ps & E)]; [exists [], []; reflexivity|]. cbn [pieces]. rewrite E. destruct (f x); eexists _, _; reflexivity. Qed.

  Lemma fields_words fuel : forall s cur p ps, pieces sep (code_points fuel s) = p :: ps -> fields token_rune fuel s cur = filter ne ((cur ++ text p) :: map text ps).
  Proof.
    assert (F : forall cur, flush cur = filter ne [cur]) by (intros []; reflexivity).
    induction fuel as [|fuel IH]; intros s cur p ps; [cbn [code_points pieces fields]; intro E; injection E as <- <-; cbn; rewrite app_nil_r; apply F|].
    destruct s as [|c s]; [cbn [code_points pieces fields]; intro E; injection E as <- <-; cbn; rewrite app_nil_r; apply F|].
    cbn [code_points fields]. destruct (rune (c :: s)) as [r t]. cbn [pieces]. destruct (pieces_cons sep (code_points fuel t)) as (p1 & ps1 & E1). rewrite E1.
    unfold sep at 1. cbn [fst]. destruct (token_rune r); cbn [negb]; intro E; injection E as <- <-; rewrite (IH _ _ _ _ E1).
    - unfold text at 2. cbn [map concat snd]. fold (text p1). rewrite <- app_assoc. reflexivity.
    - rewrite F. change (text []) with (@nil ascii). rewrite app_nil_r. cbn [app map]. rewrite <- filter_app. reflexivity.
  Qed.
  Lemma fields_all s : fields token_rune (length s) s [] = words token_rune s.
  Proof.
    destruct (pieces_cons sep (code_points (length s) s)) as (p & ps & E). rewrite (fields_words _ _ _ _ _ E). unfold words. change (fun x => negb (token_rune (fst x))) with sep. rewrite E. reflexivity.
  Qed.

  Lemma code_points_all fuel : forall s, length s <= fuel -> concat (map snd (code_points fuel s)) = s.
  Proof.
    induction fuel as [|fuel IH]; intros s L; [destruct s; [reflexivity|cbn in L; lia]|]. destruct s as [|c s]; [reflexivity|]. cbn [code_points].
    destruct (Proof.Glob.rune_split c s) as (u & R & E & _). pose proof (Proof.Glob.rune_shorter c s) as Sh. rewrite R. cbn [map concat snd]. set (t := snd (rune (c :: s))) in *.
    rewrite IH by (cbn [length] in L; lia). assert (c :: s = (c :: u) ++ t) as Ec by (rewrite E; reflexivity). rewrite Ec at 1 2 3. rewrite app_length, Nat.add_sub, firstn_app, Nat.sub_diag, firstn_all. cbn [firstn].
    rewrite app_nil_r. reflexivity.
  Qed.

  Lemma in_string w : forall acc rest, rest = [] \/ (exists r, rest = " "%char :: r) ->
    fts5_strings (escape_quotes w ++ quote :: rest) (Some acc) = option_map (cons (acc ++ w)) (fts5_strings rest None).
  Proof.
    induction w as [|c w IH]; intros acc rest H; cbn [escape_quotes flat_map app].
    - rewrite app_nil_r. destruct H as [->|[r ->]]; reflexivity.
    - destruct (aeqb c quote) eqn:E.
      + apply aeqb_eq in E as ->. cbn [app fts5_strings]. change (aeqb quote "034") with true. cbn iota. change (flat_map _ w) with (escape_quotes w). rewrite (IH _ _ H), <- app_assoc. reflexivity.
      + cbn [app fts5_strings]. change "034"%char with quote. rewrite E. change (flat_map _ w) with (escape_quotes w). rewrite (IH _ _ H), <- app_assoc. reflexivity.
  Qed.
  Lemma strings_join ws : fts5_strings (join [" "%char] (map (fun t => quote :: escape_quotes t ++ [quote]) ws)) None = Some ws.
  Proof.
    induction ws as [|w ws IH]; [reflexivity|]. destruct ws as [|v ws].
    - cbn [map join]. cbn [fts5_strings]. change (aeqb quote " ") with false. change (aeqb quote "034") with true. cbn iota. rewrite (in_string w [] []) by (left; reflexivity). reflexivity.
    - cbn [map] in *. cbn [join] in *. set (tl := match map _ ws with [] => _ | _ => _ end) in *. cbn [app fts5_strings]. change (aeqb quote " ") with false. change (aeqb quote "034") with true. cbn iota.
      rewrite <- app_assoc. cbn [app]. rewrite (in_string w [] (" "%char :: _)) by (right; eexists; reflexivity). cbn [fts5_strings aeqb]. change (aeqb " " " ") with true. cbn iota. rewrite IH. reflexivity.
  Qed.
  Theorem quoted s : fts5_strings (quote_fts token_rune s) None = Some (words token_rune s).
  Proof. unfold quote_fts. rewrite fields_all. apply strings_join. Qed.

  Variables (has : bytes -> bytes -> bool) (match5 : bytes -> option bytes -> bool).
  Hypothesis M5 : is_match5 has match5.
  Lemma fts_iff q row : sqlite_fts token_rune match5 q row = true <->
    exists t, row = Some t /\ words token_rune q <> [] /\ forall w, In w (words token_rune q) -> has t w = true.
  Proof.
    unfold sqlite_fts. rewrite (M5 _ _ row (quoted q)). destruct row as [t|]; [|split; [discriminate|intros (t & E & _); discriminate]].
    rewrite andb_true_iff, forallb_forall. destruct (words token_rune q) as [|w ws].
    - split; [intros [E _]; discriminate|intros (t' & _ & H & _); contradiction].
    - split; [intros [_ H]; exists t; split; [reflexivity|split; [discriminate|exact H]]|intros (t' & E & _ & H); injection E as <-; split; [reflexivity|exact H]].
  Qed.

  Theorem db_answer raw_of by_time by_time_desc d net q : sorts time_asc by_time -> sorts time_desc by_time_desc ->
    written raw_of d -> in_years (q_start q) -> in_years (q_end q) ->
    best not_later (fun r => In r (d_msgs d) /\ stored_for d net (q_in q) r /\ row_matches token_rune has q r) (Z.to_nat (q_limit q)) true
      (db_search by_time by_time_desc (sqlite_fts token_rune match5) net (q_in q) (q_start q) (q_end q) (Z.to_nat (q_limit q)) (q_from q) (q_text q) d).
  Proof.
    intros A D W Y1 Y2. unfold db_search.
    pose proof (Proof.SqlQuery.list_answer raw_of by_time by_time_desc (sqlite_fts token_rune match5) A D d net (q_in q)
      (Options 0 (q_start q) (q_end q) (Z.to_nat (q_limit q)) false (q_from q) (q_text q) true) W Y1 Y2) as H.
    unfold answer in H. eapply Proof.SqlQuery.best_ext; [|exact H]. intro r. unfold in_bounds, row_matches. cbn [o_after_id o_after o_before o_sender o_text o_events]. rewrite fts_iff. split.
    - intros (H1 & H2 & _ & B2 & B3 & B4 & B5 & B6). split; [exact H1|]. split; [exact H2|]. split; [|tauto].
      destruct (mr_text r) as [t|]; [|destruct B6; [discriminate|contradiction]]. exists t. split; [reflexivity|]. destruct B5 as [B5|(t' & E & K)]; [left; exact B5|injection E as <-; right; exact K].
    - intros (H1 & H2 & (t & Et & K) & B4 & B2 & B3). split; [exact H1|]. split; [exact H2|]. split; [left; reflexivity|]. split; [exact B2|]. split; [exact B3|]. split; [exact B4|]. rewrite Et.
      split; [|right; discriminate]. destruct K as [K|K]; [left; exact K|right; exists t; split; [reflexivity|exact K]].
  Qed.
End Fts.
