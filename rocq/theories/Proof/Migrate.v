(** Upgrades of the database keep what is in it. *)
From Coq Require Import NArith ZArith Lia.
From Verif.Base Require Import Bytes.
From Verif.Model Require Import Migrate.
From Verif.Spec Require Import Migrate.

(** ** Tables by name *)
Lemma tfind_In n t l : tfind n l = Some t -> In (n, t) l.
Proof. induction l as [|[m u] l IH]; [discriminate|]. cbn [tfind]. destruct (beqb_spec n m) as [->|_]; [intros E; injection E as ->; left; reflexivity|intros E; right; exact (IH E)]. Qed.
Lemma In_tfind n t l : NoDup (map fst l) -> In (n, t) l -> tfind n l = Some t.
Proof.
  induction l as [|[m u] l IH]; [intros _ []|]. cbn [map fst]. intros N [E|I]; cbn [tfind].
  - injection E as -> ->. rewrite beqb_refl. reflexivity.
  - inversion N as [|? ? N1 N2]; subst. destruct (beqb_spec n m) as [->|_]; [|exact (IH N2 I)]. exfalso. apply N1. exact (in_map fst _ _ I).
Qed.
Lemma tfind_tset n m t l : tfind n (tset m t l) = if beqb n m then match tfind m l with Some _ => Some t | None => None end else tfind n l.
Proof.
  induction l as [|[k u] l IH]; [cbn; destruct (beqb n m); reflexivity|]. unfold tset in *. cbn [map fst]. destruct (beqb_spec m k) as [<-|N].
  - cbn [tfind]. rewrite beqb_refl. destruct (beqb_spec n m) as [->|N]; [reflexivity|]. exact IH.
  - cbn [tfind]. rewrite (proj2 (beqb_neq m k) N). destruct (beqb_spec n k) as [->|N2].
    + rewrite (proj2 (beqb_neq k m)) by congruence. reflexivity.
    + exact IH.
Qed.
Lemma In_tset n t m u l : In (n, t) (tset m u l) -> (n = m /\ t = u /\ exists u0, In (m, u0) l) \/ (n <> m /\ In (n, t) l).
Proof.
  unfold tset. rewrite in_map_iff. intros ([k w] & E & I). cbn [fst] in E. destruct (beqb_spec m k) as [<-|N]; injection E as <- <-; [left; eauto|right; split; [congruence|exact I]].
Qed.
Lemma tfind_tdel n m l : tfind n (tdel m l) = if beqb n m then None else tfind n l.
Proof.
  induction l as [|[k u] l IH]; [cbn; destruct (beqb n m); reflexivity|]. unfold tdel in *. cbn [filter fst]. destruct (beqb_spec m k) as [<-|N]; cbn [negb].
  - rewrite IH. cbn [tfind]. destruct (beqb n m); reflexivity.
  - cbn [tfind]. rewrite IH. destruct (beqb_spec n k) as [->|N2]; [rewrite (proj2 (beqb_neq k m)) by congruence; reflexivity|reflexivity].
Qed.
Lemma tfind_app n l l' : tfind n (l ++ l') = match tfind n l with Some t => Some t | None => tfind n l' end.
Proof. induction l as [|[k u] l IH]; [reflexivity|]. cbn [app tfind]. destruct (beqb n k); [reflexivity|exact IH]. Qed.

(** ** Schemas do not depend on rows *)
Definition blank (t : table) : table := Table (t_cols t) (t_uniques t) (t_fks t) [].
Definition eraset (l : list (bytes * table)) : list (bytes * table) := map (fun p => (fst p, blank (snd p))) l.
Lemma erased_eq x : erased x = Db (eraset (d_tables x)) (d_objects x).
Proof. reflexivity. Qed.
Lemma tfind_erase n l : tfind n (eraset l) = option_map blank (tfind n l).
Proof. induction l as [|[k u] l IH]; [reflexivity|]. unfold eraset in *. cbn [map fst snd tfind]. destruct (beqb n k); [reflexivity|exact IH]. Qed.
Lemma erase_tset n t l : eraset (tset n t l) = tset n (blank t) (eraset l).
Proof. unfold eraset, tset. rewrite !map_map. apply map_ext. intros [k u]. cbn [fst snd]. destruct (beqb n k); reflexivity. Qed.
Lemma erase_tdel n l : eraset (tdel n l) = tdel n (eraset l).
Proof. induction l as [|[k u] l IH]; [reflexivity|]. unfold eraset, tdel in *. cbn [map filter fst snd]. destruct (negb (beqb n k)); cbn [map fst snd]; rewrite IH; reflexivity. Qed.
Lemma forallb_true {A} (f : A -> bool) l : (forall a, f a = true) -> forallb f l = true.
Proof. intros H. induction l as [|a l IH]; [reflexivity|]. cbn [forallb]. rewrite H, IH. reflexivity. Qed.
Lemma valid_blank x cs t : t_rows t = [] -> valid_on x cs t = true.
Proof.
  intros R. unfold valid_on. rewrite R. cbn [forallb unique]. rewrite !forallb_true; [reflexivity| | |]; intros a; apply orb_true_r.
Qed.
Lemma referenced_blank n x : referenced n [] x = false.
Proof.
  unfold referenced. apply Bool.not_true_iff_false. rewrite existsb_exists. intros (p & _ & H). apply existsb_exists in H. destruct H as (f & _ & H). apply andb_prop in H. destruct H as [_ H].
  apply existsb_exists in H. destruct H as (r & _ & H). discriminate.
Qed.

Lemma exec_erased d now s x y : exec d now s x = Some y -> exec d now s (erased x) = Some (erased y).
Proof.
  rewrite !erased_eq. destruct x as [ts os]. destruct s as [n cols us fks|n c fk|n es src joined|n|a b|n c|n c k t k2 c2|n|n c b|n c ty vs|o]; unfold exec; cbn [d_tables d_objects]; rewrite ?tfind_erase.
  - destruct (tfind n ts); cbn [option_map]; [discriminate|]. intros E. injection E as <-. cbn [d_tables d_objects]. unfold eraset. rewrite map_app. reflexivity.
  - destruct (tfind n ts) as [t|]; cbn [option_map]; [|discriminate]. change (names (blank t)) with (names t). destruct (bmem (c_name c) (names t)); [discriminate|].
    destruct (c_notnull c && is_null (eval_default now (c_default c))) eqn:D.
    + destruct d; cbn [andb]; [discriminate|]. destruct (negb (is_nil (t_rows t))); [discriminate|]. intros E. injection E as <-. cbn [d_tables d_objects blank t_rows is_nil negb]. rewrite erase_tset. reflexivity.
    + cbn [andb]. intros E. injection E as <-. cbn [d_tables d_objects]. rewrite erase_tset. reflexivity.
  - destruct (tfind n ts) as [t|]; cbn [option_map]; [|discriminate]. destruct (tfind src ts) as [s|]; cbn [option_map]; [|discriminate]. change (names (blank t)) with (names t). change (t_cols (blank t)) with (t_cols t).
    match goal with |- (if ?a && ?b && ?c then _ else _) = _ -> _ => destruct (a && b) eqn:G; [|discriminate]; destruct c; [|discriminate] end. cbn [andb]. intros E. injection E as <-. cbn [d_tables d_objects].
    assert (R : selected (eraset ts) es (blank s) joined = []) by (unfold selected; destruct joined as [[[t0 c1] c2]|]; [destruct (tfind t0 (eraset ts)); reflexivity|reflexivity]).
    rewrite R. cbn [blank t_rows map app].
    assert (G' : (match joined with Some (t0, _, _) => match tfind t0 (eraset ts) with Some _ => true | None => false end | None => true end && (Datatypes.length es =? Datatypes.length (t_cols t))%nat) = true).
    { apply andb_prop in G. destruct G as [G1 G2]. rewrite G2, andb_true_r. destruct joined as [[[t0 c1] c2]|]; [rewrite tfind_erase; destruct (tfind t0 ts); [reflexivity|discriminate]|reflexivity]. }
    rewrite G'. rewrite valid_blank by reflexivity. cbn [andb]. rewrite erase_tset. reflexivity.
  - destruct (tfind n ts) as [t|]; cbn [option_map]; [|discriminate]. change (t_rows (blank t)) with (@nil row). rewrite referenced_blank.
    destruct (match d with Sqlite => referenced n (t_rows t) (tdel n ts) | Postgres => false end); [discriminate|]. intros E. injection E as <-. cbn [d_tables d_objects]. rewrite erase_tdel. destruct d; reflexivity.
  - destruct (tfind a ts) as [t|]; cbn [option_map]; [|discriminate]. destruct (tfind b ts); cbn [option_map]; [discriminate|]. intros E. injection E as <-. cbn [d_tables d_objects]. f_equal. f_equal. unfold eraset.
    rewrite !map_map. apply map_ext. intros [k u]. reflexivity.
  - destruct (tfind n ts) as [t|]; cbn [option_map]; [|discriminate]. change (names (blank t)) with (names t). destruct (bmem c (names t)); [|discriminate]. cbn [andb].
    match goal with |- (if ?c then _ else _) = _ -> _ => destruct c; [|discriminate] end. intros E. injection E as <-. cbn [blank t_rows map]. rewrite valid_blank by reflexivity. cbn [d_tables d_objects]. rewrite erase_tset. reflexivity.
  - destruct (tfind n ts) as [t1|]; cbn [option_map]; [|discriminate]. destruct (tfind t ts) as [t2|]; cbn [option_map]; [|discriminate]. change (names (blank t1)) with (names t1). change (names (blank t2)) with (names t2).
    match goal with |- (if ?a && ?c then _ else _) = _ -> _ => destruct a; [|discriminate]; destruct c; [|discriminate] end. cbn [andb]. intros E. injection E as <-. cbn [blank t_rows map]. rewrite valid_blank by reflexivity. cbn [d_tables d_objects]. rewrite erase_tset. reflexivity.
  - destruct (tfind n ts) as [t|]; cbn [option_map]; [|discriminate]. intros E. injection E as <-. cbn [d_tables d_objects]. rewrite erase_tset. reflexivity.
  - destruct (tfind n ts) as [t|]; cbn [option_map]; [|discriminate]. change (names (blank t)) with (names t). destruct (bmem c (names t)); [|discriminate]. cbn [andb].
    match goal with |- (if ?c then _ else _) = _ -> _ => destruct c; [|discriminate] end. intros E. injection E as <-. cbn [blank t_rows forallb d_tables d_objects]. rewrite erase_tset. reflexivity.
  - destruct (tfind n ts) as [t|]; cbn [option_map]; [|discriminate]. change (names (blank t)) with (names t). destruct (bmem c (names t)); [|discriminate]. cbn [andb].
    match goal with |- (if ?c then _ else _) = _ -> _ => destruct c; [|discriminate] end. intros E. injection E as <-. cbn [blank t_rows forallb d_tables d_objects]. rewrite erase_tset. reflexivity.
  - destruct (bmem o os); [discriminate|]. intros E. injection E as <-. reflexivity.
Qed.
Lemma exec_all_erased d now l x y : exec_all d now l x = Some y -> exec_all d now l (erased x) = Some (erased y).
Proof.
  revert x. induction l as [|s l IH]; intros x; cbn [exec_all]; [intros E; injection E as ->; reflexivity|]. destruct (exec d now s x) as [z|] eqn:E; [|discriminate]. rewrite (exec_erased _ _ _ _ _ E). apply IH.
Qed.
Lemma exec_all_app d now l l' x : exec_all d now (l ++ l') x = match exec_all d now l x with Some y => exec_all d now l' y | None => None end.
Proof. revert x. induction l as [|s l IH]; intros x; cbn [app exec_all]; [reflexivity|]. destruct (exec d now s x); [apply IH|reflexivity]. Qed.

Lemma version_step d now v1 ms v x y : of_version d now v1 ms v x -> v < length ms -> exec_all d now (nth v ms []) x = Some y -> of_version d now v1 ms (S v) y.
Proof.
  unfold of_version. intros V L E. assert (F : firstn (S v) ms = firstn v ms ++ [nth v ms []]).
  { clear V E. revert v L. induction ms as [|m ms IH]; intros v L; [cbn in L; lia|]. destruct v; [reflexivity|]. cbn [firstn nth app]. rewrite <- (IH v); [reflexivity|cbn in L; lia]. }
  rewrite F, concat_app, app_assoc, exec_all_app, V. cbn [concat]. rewrite app_nil_r. exact (exec_all_erased _ _ _ _ _ E).
Qed.
Lemma nth_skipn {A} (d : A) v l : v < length l -> skipn v l = nth v l d :: skipn (S v) l.
Proof. revert v. induction l as [|a l IH]; intros v L; [cbn in L; lia|]. destruct v; [reflexivity|]. cbn [skipn nth]. apply IH. cbn in L. lia. Qed.

(** ** Rows that are kept *)
Definition addl : list (bytes * bytes * default) :=
  [(B "User", B "admin", Const (Int 0)); (B "User", B "realname", Const Null); (B "User", B "nick", Const Null); (B "User", B "created_at", Now); (B "User", B "enabled", Const (Int 1));
   (B "User", B "downstream_interacted_at", Const Null); (B "User", B "max_networks", Const (Int (-1))); (B "Network", B "connect_commands", Const Null); (B "Network", B "sasl_external_cert", Const Null);
   (B "Network", B "sasl_external_key", Const Null); (B "Network", B "enabled", Const (Int 1)); (B "Network", B "auto_away", Const (Int 1)); (B "Network", B "certfp", Const Null);
   (B "Channel", B "detached", Const (Int 0)); (B "Channel", B "relay_detached", Const (Int 0)); (B "Channel", B "reattach_on", Const (Int 0)); (B "Channel", B "detach_after", Const (Int 0));
   (B "Channel", B "detach_on", Const (Int 0)); (B "Channel", B "detached_internal_msgid", Const Null)].
Lemma added_In now n c v : added now n c v -> exists d, In (n, c, d) addl /\ v = eval_default now d.
Proof.
  assert (G : forall n c v k d, nth_error addl k = Some (n, c, d) -> v = eval_default now d -> exists d, In (n, c, d) addl /\ v = eval_default now d) by (intros ? ? ? k d E F; exists d; split; [exact (nth_error_In _ _ E)|exact F]).
  intros [];
  [eapply (G _ _ _ 0)|eapply (G _ _ _ 1)|eapply (G _ _ _ 2)|eapply (G _ _ _ 3)|eapply (G _ _ _ 4)|eapply (G _ _ _ 5)|eapply (G _ _ _ 6)|eapply (G _ _ _ 7)|eapply (G _ _ _ 8)|eapply (G _ _ _ 9)|eapply (G _ _ _ 10)|eapply (G _ _ _ 11)|eapply (G _ _ _ 12)|eapply (G _ _ _ 13)|eapply (G _ _ _ 14)|eapply (G _ _ _ 15)|eapply (G _ _ _ 16)|eapply (G _ _ _ 17)|eapply (G _ _ _ 18)]; reflexivity.
Qed.

Definition krow (now : value) (n : bytes) (but : list bytes) (r r' : row) : Prop :=
  (forall c v, ~ In c but -> In (c, v) r -> In (c, v) r') /\
  (forall c v, added now n c v -> ~ In c (map fst r) -> In c (map fst r') -> In (c, v) r').
Definition keeps (now : value) (lost : list bytes) (x y : db) : Prop :=
  forall n t, tfind n (d_tables x) = Some t -> ~ In n lost ->
  exists t', tfind n (d_tables y) = Some t' /\ Forall2 (krow now n []) (t_rows t) (t_rows t').
Lemma bytes_in_dec (c : bytes) l : {In c l} + {~ In c l}.
Proof. apply in_dec. apply list_eq_dec. exact Ascii.ascii_dec. Qed.
Lemma krow_refl now n but r : krow now n but r r.
Proof. split; [auto|]. intros c v _ N I. contradiction. Qed.
Lemma krow_trans now n b1 b2 r r' r'' : (forall c v, added now n c v -> ~ In c b2) -> krow now n b1 r r' -> krow now n b2 r' r'' -> krow now n (b1 ++ b2) r r''.
Proof.
  intros D [A1 A2] [B1 B2]. split.
  - intros c v N I. apply B1; [intros X; apply N; apply in_or_app; right; exact X|]. apply A1; [intros X; apply N; apply in_or_app; left; exact X|exact I].
  - intros c v A N I. destruct (bytes_in_dec c (map fst r')) as [J|J]; [|exact (B2 c v A J I)]. apply B1; [exact (D c v A)|]. exact (A2 c v A N J).
Qed.
Lemma Forall2_trans {A} (P Q R : A -> A -> Prop) a b c : (forall x y z, P x y -> Q y z -> R x z) -> Forall2 P a b -> Forall2 Q b c -> Forall2 R a c.
Proof. intros T F. revert c. induction F as [|x y a b Px F IH]; intros c G; inversion G; subst; constructor; eauto. Qed.
Lemma Forall2_refl {A} (P : A -> A -> Prop) l : (forall x, P x x) -> Forall2 P l l.
Proof. intros H. induction l; constructor; auto. Qed.
Lemma keeps_refl now lost x : keeps now lost x x.
Proof. intros n t E _. exists t. split; [exact E|]. apply Forall2_refl. intros r. apply krow_refl. Qed.
Lemma keeps_trans now lost x y z : keeps now lost x y -> keeps now lost y z -> keeps now lost x z.
Proof.
  intros K L n t E N. destruct (K n t E N) as (t' & E' & F). destruct (L n t' E' N) as (t'' & E'' & G). exists t''. split; [exact E''|].
  apply (Forall2_trans _ _ _ _ _ _ (fun x y z => krow_trans now n [] [] x y z (fun _ _ _ H => H)) F G).
Qed.
Lemma keeps_more now lost lost' x y : incl lost lost' -> keeps now lost x y -> keeps now lost' x y.
Proof. intros I K n t E N. apply (K n t E). intros X. apply N. exact (I _ X). Qed.

(** Simple statements: they add or change columns, or add tables. *)
Definition deqb (a b : default) : bool :=
  match a, b with
  | Now, Now | Const Null, Const Null => true
  | Const (Int a), Const (Int b) => Z.eqb a b
  | _, _ => false
  end.
Lemma deqb_eq a b : deqb a b = true -> a = b.
Proof. destruct a as [[]|], b as [[]|]; cbn; try discriminate; try reflexivity. intros E. apply Z.eqb_eq in E. subst. reflexivity. Qed.
Definition add_ok (n c : bytes) (d : default) : bool := forallb (fun '(n', c', d') => negb (beqb n n' && beqb c c') || deqb d d') addl.
Lemma add_ok_value now n c d v : add_ok n c d = true -> added now n c v -> v = eval_default now d.
Proof.
  intros H A. apply added_In in A. destruct A as (d' & I & ->). unfold add_ok in H. rewrite forallb_forall in H. specialize (H _ I). cbn in H. rewrite !beqb_refl in H. apply deqb_eq in H. subst. reflexivity.
Qed.
Definition simple (lost : list bytes) (s : stmt) : bool :=
  match s with
  | Create _ _ _ _ | Object _ | SetNotNull _ _ _ | Retype _ _ _ _ => true
  | AddColumn n c _ => add_ok n (c_name c) (c_default c)
  | Clear n => bmem n lost
  | _ => false
  end.
Lemma krow_add now n c v r : (forall w, added now n c w -> w = v) -> krow now n [] r (r ++ [(c, v)]).
Proof.
  intros D. split; [intros c' v' _ I; apply in_or_app; left; exact I|]. intros c' v' A N I. rewrite map_app in I. apply in_app_or in I. destruct I as [I|[<-|[]]]; [contradiction|].
  rewrite (D _ A). apply in_or_app. right. left. reflexivity.
Qed.
Lemma Forall2_map {A} (P : A -> A -> Prop) f l : (forall x, In x l -> P x (f x)) -> Forall2 P l (map f l).
Proof. induction l as [|a l IH]; intros H; constructor; [apply H; left; reflexivity|apply IH; intros x I; apply H; right; exact I]. Qed.
Lemma keeps_tset now lost x n t t' :
  tfind n (d_tables x) = Some t -> (~ In n lost -> Forall2 (krow now n []) (t_rows t) (t_rows t')) -> keeps now lost x (Db (tset n t' (d_tables x)) (d_objects x)).
Proof.
  intros E F m u Em N. cbn [d_tables]. rewrite tfind_tset. destruct (beqb_spec m n) as [->|_].
  - rewrite E. exists t'. split; [reflexivity|]. rewrite E in Em. injection Em as <-. exact (F N).
  - exists u. split; [exact Em|]. apply Forall2_refl. intros r. apply krow_refl.
Qed.
Lemma conforms_tset x n t : conforms x -> (forall r, In r (t_rows t) -> map fst r = names t) -> conforms (Db (tset n t (d_tables x)) (d_objects x)).
Proof.
  intros C H m u r I R. cbn [d_tables] in I. apply In_tset in I. destruct I as [(-> & -> & _)|[_ I]]; [exact (H r R)|exact (C m u r I R)].
Qed.
Lemma names_map g (l : list column) : (forall c, c_name (g c) = c_name c) -> map c_name (map g l) = map c_name l.
Proof. intros H. rewrite map_map. apply map_ext. exact H. Qed.
Lemma simple_keeps d now lost s x y : simple lost s = true -> conforms x -> exec d now s x = Some y -> keeps now lost x y /\ conforms y.
Proof.
  intros S C. destruct s as [n cols us fks|n c fk|n es src joined|n|a b|n c|n c k t k2 c2|n|n c b|n c ty vs|o]; try discriminate; cbn [exec].
  - destruct (tfind n (d_tables x)) eqn:E; [discriminate|]. intros X. injection X as <-. split.
    + intros m t Em _. cbn [d_tables]. rewrite tfind_app, Em. exists t. split; [reflexivity|]. apply Forall2_refl. intros r. apply krow_refl.
    + intros m t r I R. cbn [d_tables] in I. apply in_app_or in I. destruct I as [I|[I|[]]]; [exact (C m t r I R)|]. injection I as <- <-. destruct R.
  - destruct (tfind n (d_tables x)) as [t|] eqn:E; [|discriminate]. destruct (bmem (c_name c) (names t)) eqn:M; [discriminate|]. match goal with |- (if ?c then _ else _) = _ -> _ => destruct c; [discriminate|] end.
    intros X. injection X as <-. split.
    + apply (keeps_tset now lost x n t _ E). intros _. cbn [t_rows]. apply Forall2_map. intros r _. apply krow_add. intros w A. exact (add_ok_value now _ _ _ _ S A).
    + apply conforms_tset; [exact C|]. cbn [t_rows]. intros r R. apply in_map_iff in R. destruct R as (r0 & <- & R). unfold names. cbn [t_cols]. rewrite !map_app. cbn [map]. rewrite (C n t r0 (tfind_In _ _ _ E) R). reflexivity.
  - destruct (tfind n (d_tables x)) as [t|] eqn:E; [|discriminate]. intros X. injection X as <-. split.
    + apply (keeps_tset now lost x n t _ E). intros N. exfalso. apply N. apply bmem_In. exact S.
    + apply conforms_tset; [exact C|]. intros r [].
  - destruct (tfind n (d_tables x)) as [t|] eqn:E; [|discriminate]. match goal with |- (if ?c then _ else _) = _ -> _ => destruct c; [|discriminate] end. intros X. injection X as <-. split.
    + apply (keeps_tset now lost x n t _ E). intros _. cbn [t_rows]. apply Forall2_refl. intros r. apply krow_refl.
    + apply conforms_tset; [exact C|]. cbn [t_rows]. intros r R. unfold names. cbn [t_cols]. rewrite names_map; [exact (C n t r (tfind_In _ _ _ E) R)|]. intros k. destruct (beqb c (c_name k)); reflexivity.
  - destruct (tfind n (d_tables x)) as [t|] eqn:E; [|discriminate]. match goal with |- (if ?c then _ else _) = _ -> _ => destruct c; [|discriminate] end. intros X. injection X as <-. split.
    + apply (keeps_tset now lost x n t _ E). intros _. cbn [t_rows]. apply Forall2_refl. intros r. apply krow_refl.
    + apply conforms_tset; [exact C|]. cbn [t_rows]. intros r R. unfold names. cbn [t_cols]. rewrite names_map; [exact (C n t r (tfind_In _ _ _ E) R)|]. intros k. destruct (beqb c (c_name k)); reflexivity.
  - destruct (bmem o (d_objects x)); [discriminate|]. intros X. injection X as <-. split; [|exact C]. intros n t E _. exists t. split; [exact E|]. apply Forall2_refl. intros r. apply krow_refl.
Qed.
Lemma simple_all d now lost l x y : forallb (simple lost) l = true -> conforms x -> exec_all d now l x = Some y -> keeps now lost x y /\ conforms y.
Proof.
  revert x. induction l as [|s l IH]; intros x; cbn [forallb exec_all]; [intros _ C E; injection E as <-; split; [apply keeps_refl|exact C]|]. intros S C. apply andb_prop in S. destruct S as [S1 S2].
  destruct (exec d now s x) as [z|] eqn:E; [|discriminate]. intros F. destruct (simple_keeps _ _ _ _ _ _ S1 C E) as [K C']. destruct (IH z S2 C' F) as [K' C'']. split; [exact (keeps_trans _ _ _ _ _ K K')|exact C''].
Qed.

(** ** Schemas of versions *)
Definition schema_names (d : dialect) (now : value) (v1 : list stmt) (ms : list (list stmt)) (v : nat) (n : bytes) : option (list bytes) :=
  match exec_all d now (v1 ++ concat (firstn v ms)) (Db [] []) with Some z => option_map names (tfind n (d_tables z)) | None => None end.
Lemma schema_names_eq d now v1 ms v x n : of_version d now v1 ms v x -> schema_names d now v1 ms v n = option_map names (tfind n (d_tables x)).
Proof. unfold of_version, schema_names. intros ->. rewrite erased_eq. cbn [d_tables]. rewrite tfind_erase. destruct (tfind n (d_tables x)); reflexivity. Qed.
Lemma schema_has d now v1 ms v x n l : of_version d now v1 ms v x -> schema_names d now v1 ms v n = Some l -> exists t, tfind n (d_tables x) = Some t /\ names t = l.
Proof. intros V E. rewrite (schema_names_eq _ _ _ _ _ _ _ V) in E. destruct (tfind n (d_tables x)) as [t|]; [|discriminate]. injection E as E. eauto. Qed.
Fixpoint nodupb (l : list bytes) : bool := match l with [] => true | a :: l => negb (bmem a l) && nodupb l end.
Lemma nodupb_NoDup l : nodupb l = true -> NoDup l.
Proof. induction l as [|a l IH]; [constructor|]. cbn [nodupb]. intros H. apply andb_prop in H. destruct H as [H1 H2]. constructor; [|exact (IH H2)]. intros I. apply bmem_In in I. rewrite I in H1. discriminate. Qed.
Definition distinct (d : dialect) (now : value) (v1 : list stmt) (ms : list (list stmt)) (v : nat) : bool :=
  match exec_all d now (v1 ++ concat (firstn v ms)) (Db [] []) with
  | Some z => nodupb (map fst (d_tables z)) && forallb (fun p => nodupb (names (snd p))) (d_tables z)
  | None => true
  end.
Lemma distinct_tables d now v1 ms v x : distinct d now v1 ms v = true -> of_version d now v1 ms v x -> NoDup (map fst (d_tables x)) /\ forall n t, In (n, t) (d_tables x) -> NoDup (names t).
Proof.
  unfold of_version, distinct. intros D E. rewrite E in D. apply andb_prop in D. destruct D as [D1 D2]. cbn [erased d_tables] in D1, D2. split.
  - apply nodupb_NoDup in D1. rewrite map_map in D1. exact D1.
  - intros n t I. rewrite forallb_forall in D2. apply nodupb_NoDup. apply (in_map (fun p : bytes * table => (fst p, Table (t_cols (snd p)) (t_uniques (snd p)) (t_fks (snd p)) []))) in I. exact (D2 _ I).
Qed.
Definition complete (d : dialect) (now : value) (v1 : list stmt) (ms : list (list stmt)) : bool :=
  forallb (fun '(n, c, _) => match schema_names d now v1 ms (length ms) n with Some l => bmem c l | None => false end) addl.

Lemma kept_of d now v1 ms v lost x y :
  distinct d now v1 ms v = true -> distinct d now v1 ms (length ms) = true -> complete d now v1 ms = true ->
  of_version d now v1 ms v x -> of_version d now v1 ms (length ms) y -> conforms y -> keeps now lost x y -> kept now lost x y.
Proof.
  intros D1 D2 F Vx Vy C K n t I N. destruct (distinct_tables _ _ _ _ _ _ D1 Vx) as [N1 _]. destruct (K n t (In_tfind _ _ _ N1 I) N) as (t' & E & L). exists t'. split; [exact (tfind_In _ _ _ E)|].
  assert (H : forall r', In r' (t_rows t') -> forall c v, added now n c v -> In c (map fst r')).
  { intros r' R c w A. rewrite (C n t' r' (tfind_In _ _ _ E) R). apply added_In in A. destruct A as (d0 & A & _). unfold complete in F. rewrite forallb_forall in F. specialize (F _ A). cbn in F.
    rewrite (schema_names_eq _ _ _ _ _ _ _ Vy), E in F. cbn [option_map] in F. apply bmem_In in F. exact F. }
  revert H. induction L as [|r r' l l' [A1 A2] L IH]; intros H; constructor.
  - split; [exact A1|]. intros c w A M. apply (A2 c w A M). apply (H r' (or_introl eq_refl) c w A).
  - apply IH. intros r0 R. apply H. right. exact R.
Qed.

(** ** Chains of migrations *)
Definition step_keeps d now v1 ms lost i := forall x y,
  of_version d now v1 ms i x -> conforms x -> exec_all d now (nth i ms []) x = Some y -> keeps now lost x y /\ conforms y.
Lemma chain d now v1 ms lost k : forall v x y,
  v + k <= length ms -> (forall i, v <= i < v + k -> step_keeps d now v1 ms lost i) ->
  of_version d now v1 ms v x -> conforms x -> exec_all d now (concat (firstn k (skipn v ms))) x = Some y ->
  keeps now lost x y /\ conforms y /\ of_version d now v1 ms (v + k) y.
Proof.
  induction k as [|k IH]; intros v x y L G V C; [cbn [firstn concat exec_all]; intros E; injection E as <-; rewrite Nat.add_0_r; split; [apply keeps_refl|auto]|].
  rewrite (nth_skipn [] v ms) by lia. cbn [firstn concat]. rewrite exec_all_app. destruct (exec_all d now (nth v ms []) x) as [z|] eqn:E; [|discriminate]. intros F.
  destruct (G v ltac:(lia) x z V C E) as [K C']. assert (V' : of_version d now v1 ms (S v) z) by (apply (version_step _ _ _ _ _ _ _ V ltac:(lia) E)).
  destruct (IH (S v) z y ltac:(lia) ltac:(intros i I; apply G; lia) V' C' F) as (K' & C'' & V''). split; [exact (keeps_trans _ _ _ _ _ K K')|]. split; [exact C''|]. replace (v + S k) with (S v + k) by lia. exact V''.
Qed.

(** ** PostgreSQL *)
Lemma postgres_steps now i : i < 15 -> step_keeps Postgres now postgres_v1 postgres_migrations [subscription_t] i.
Proof.
  intros L x y V C E. refine (simple_all Postgres now [subscription_t] _ x y _ C E). do 15 (destruct i as [|i]; [vm_compute; reflexivity|]). lia.
Qed.
Lemma postgres_steps8 now i : 8 <= i < 15 -> step_keeps Postgres now postgres_v1 postgres_migrations [] i.
Proof.
  intros L x y V C E. refine (simple_all Postgres now [] _ x y _ C E). do 8 (destruct i as [|i]; [lia|]). do 7 (destruct i as [|i]; [vm_compute; reflexivity|]). lia.
Qed.
Lemma postgres_distinct now v : v <= 15 -> distinct Postgres now postgres_v1 postgres_migrations v = true.
Proof. intros L. do 16 (destruct v as [|v]; [destruct now; vm_compute; reflexivity|]). lia. Qed.
Lemma postgres_complete now : complete Postgres now postgres_v1 postgres_migrations = true.
Proof. destruct now; vm_compute; reflexivity. Qed.

Lemma upgraded d now schema ms v x y w : 1 <= v < length ms -> upgrade d now schema ms (File v x) = (true, File w y) -> w = length ms /\ exec_all d now (concat (skipn v ms)) x = Some y.
Proof.
  intros L. unfold upgrade. cbn [version contents]. rewrite (proj2 (Nat.eqb_neq v (length ms))) by lia. rewrite (proj2 (Nat.ltb_ge (length ms) v)) by lia. rewrite (proj2 (Nat.eqb_neq v 0)) by lia.
  destruct (exec_all d now (concat (skipn v ms)) x) as [z|]; [|discriminate]. intros E. injection E as <- <-. auto.
Qed.
Lemma firstn_whole {A} v (l : list A) : firstn (length l - v) (skipn v l) = skipn v l.
Proof. rewrite <- skipn_length. apply firstn_all. Qed.

Lemma postgres_kept now v x y w : 1 <= v < 15 -> of_version Postgres now postgres_v1 postgres_migrations v x -> conforms x ->
  upgrade Postgres now postgres_schema postgres_migrations (File v x) = (true, File w y) ->
  kept now (if v <=? 7 then [B "WebPushSubscription"] else []) x y.
Proof.
  intros L V C U. change 15 with (length postgres_migrations) in L. destruct (upgraded _ _ _ _ _ _ _ _ L U) as [_ E]. rewrite <- (firstn_whole v postgres_migrations) in E.
  assert (G : exists k, k = (length postgres_migrations - v)%nat) by eauto. destruct G as [k K]. rewrite <- K in E. change (length postgres_migrations) with 15 in L, K.
  destruct (Nat.leb_spec v 7).
  - destruct (chain Postgres now postgres_v1 postgres_migrations [subscription_t] k v x y ltac:(change (length postgres_migrations) with 15; lia) ltac:(intros i I; apply postgres_steps; lia) V C E) as (Ke & C' & V').
    replace (v + k) with (length postgres_migrations) in V' by (change (length postgres_migrations) with 15; lia).
    exact (kept_of _ _ _ _ _ _ _ _ (postgres_distinct now v ltac:(lia)) (postgres_distinct now (length postgres_migrations) ltac:(change (length postgres_migrations) with 15; lia)) (postgres_complete now) V V' C' Ke).
  - destruct (chain Postgres now postgres_v1 postgres_migrations [] k v x y ltac:(change (length postgres_migrations) with 15; lia) ltac:(intros i I; apply postgres_steps8; lia) V C E) as (Ke & C' & V').
    replace (v + k) with (length postgres_migrations) in V' by (change (length postgres_migrations) with 15; lia).
    exact (kept_of _ _ _ _ _ _ _ _ (postgres_distinct now v ltac:(lia)) (postgres_distinct now (length postgres_migrations) ltac:(change (length postgres_migrations) with 15; lia)) (postgres_complete now) V V' C' Ke).
Qed.

(** ** SQLite: a column that is added and filled at once *)
Lemma put_last c v w r : ~ In c (map fst r) -> put c v (r ++ [(c, w)]) = r ++ [(c, v)].
Proof.
  intros N. unfold put. rewrite map_app. cbn [map fst]. rewrite beqb_refl. f_equal. induction r as [|[k u] r IH]; [reflexivity|]. cbn [map fst] in *. rewrite (proj2 (beqb_neq c k)); [|intros ->; apply N; left; reflexivity].
  f_equal. apply IH. intros I. apply N. right. exact I.
Qed.
Lemma bmem_false c l : bmem c l = false -> ~ In c l.
Proof. intros H I. apply bmem_In in I. congruence. Qed.
(** The tables after both statements, for what the second one computes. *)
Lemma filled d now n c fk x x1 : conforms x -> exec d now (AddColumn n c fk) x = Some x1 ->
  exists t, tfind n (d_tables x) = Some t /\ ~ In (c_name c) (names t) /\ d_objects x1 = d_objects x /\
    d_tables x1 = tset n (Table (t_cols t ++ [c]) (t_uniques t) (t_fks t ++ match fk with Some f => [f] | None => [] end) (map (fun r => r ++ [(c_name c, eval_default now (c_default c))]) (t_rows t))) (d_tables x).
Proof.
  intros C. cbn [exec]. destruct (tfind n (d_tables x)) as [t|] eqn:E; [|discriminate]. destruct (bmem (c_name c) (names t)) eqn:M; [discriminate|]. match goal with |- (if ?c then _ else _) = _ -> _ => destruct c; [discriminate|] end.
  intros X. injection X as <-. exists t. split; [reflexivity|]. split; [exact (bmem_false _ _ M)|]. split; reflexivity.
Qed.
Lemma tset_tset n a b l : tset n a (tset n b l) = tset n a l.
Proof. unfold tset. rewrite map_map. apply map_ext. intros [k u]. cbn [fst]. destruct (beqb n k) eqn:E; cbn [fst]; [rewrite beqb_refl; reflexivity|rewrite E; reflexivity]. Qed.
Lemma fill_keeps now n c t cols us fks g x :
  conforms x -> tfind n (d_tables x) = Some t -> ~ In (c_name c) (names t) -> (forall w r, In r (t_rows t) -> added now n (c_name c) w -> w = g r) -> cols = t_cols t ++ [c] ->
  let y := Db (tset n (Table cols us fks (map (fun r => r ++ [(c_name c, g r)]) (t_rows t))) (d_tables x)) (d_objects x) in
  keeps now [] x y /\ conforms y.
Proof.
  intros C E N A -> y. split.
  - apply (keeps_tset now [] x n t _ E). intros _. cbn [t_rows]. apply Forall2_map. intros r R. apply krow_add. intros w W. exact (A w r R W).
  - apply conforms_tset; [exact C|]. cbn [t_rows]. intros r R. apply in_map_iff in R. destruct R as (r0 & <- & R). unfold names. cbn [t_cols]. rewrite !map_app. cbn [map]. rewrite (C n t r0 (tfind_In _ _ _ E) R). reflexivity.
Qed.
Lemma not_in_row x n t r c : conforms x -> tfind n (d_tables x) = Some t -> In r (t_rows t) -> ~ In c (names t) -> ~ In c (map fst r).
Proof. intros C E R N. rewrite (C n t r (tfind_In _ _ _ E) R). exact N. Qed.
Lemma get_app_l c (r : row) l : In c (map fst r) -> get c (r ++ l) = get c r.
Proof. induction r as [|[k u] r IH]; [intros []|]. cbn [map fst app get]. destruct (beqb_spec c k) as [->|N]; [reflexivity|]. intros [E|I]; [congruence|exact (IH I)]. Qed.
Lemma sqlite_step16 now : step_keeps Sqlite now sqlite_v1 sqlite_migrations [] 16.
Proof.
  intros x y _ C. unfold sqlite_migrations. cbn [nth exec_all]. destruct (exec Sqlite now _ x) as [x1|] eqn:E1; [|discriminate]. destruct (exec Sqlite now _ x1) as [x2|] eqn:E2; [|discriminate]. intros E. injection E as <-.
  destruct (filled _ _ _ _ _ _ _ C E1) as (t & Et & N & O & T). revert E2. cbn [exec]. rewrite T, O, !tfind_tset, beqb_refl, Et. change (beqb network_t subscription_t) with false. cbv iota.
  destruct (tfind network_t (d_tables x)) as [t2|]; [|discriminate]. match goal with |- (if ?c then _ else _) = _ -> _ => destruct c; [|discriminate] end. intros E. injection E as <-. rewrite tset_tset. unfold with_rows. cbn [t_rows t_cols t_uniques t_fks].
  set (c := nul (B "user") IN) in *. change (B "user") with (c_name c). rewrite map_map.
  set (g := fun r : row => match find (fun r2 : row => veqb (get (B "id") r2) (get (B "network") (r ++ [(c_name c, eval_default now (c_default c))]))) (t_rows t2) with Some r2 => get (c_name c) r2 | None => Null end).
  replace (map _ (t_rows t)) with (map (fun r => r ++ [(c_name c, g r)]) (t_rows t)); [|apply map_ext_in; intros r R; symmetry; apply put_last; exact (not_in_row _ _ _ _ _ C Et R N)].
  apply (fill_keeps now subscription_t c t _ _ _ g x C Et N); [|reflexivity]. intros w r R A. exfalso. apply added_In in A. destruct A as (d0 & A & _). revert A. vm_compute. intuition discriminate.
Qed.
Lemma sqlite_step20 now : step_keeps Sqlite now sqlite_v1 sqlite_migrations [] 20.
Proof.
  intros x y _ C. unfold sqlite_migrations. cbn [nth exec_all]. destruct (exec Sqlite now _ x) as [x1|] eqn:E1; [|discriminate]. destruct (exec Sqlite now _ x1) as [x2|] eqn:E2; [|discriminate]. intros E. injection E as <-.
  destruct (filled _ _ _ _ _ _ _ C E1) as (t & Et & N & O & T). revert E2. cbn [exec]. rewrite T, O, !tfind_tset, beqb_refl, Et.
  match goal with |- (if ?c then _ else _) = _ -> _ => destruct c; [|discriminate] end. intros E. injection E as <-. rewrite tset_tset. unfold with_rows. cbn [t_rows t_cols t_uniques t_fks].
  set (c := dfl (B "created_at") TX (Text [])) in *. change (B "created_at") with (c_name c). rewrite map_map.
  replace (map _ (t_rows t)) with (map (fun r => r ++ [(c_name c, (fun _ => now) r)]) (t_rows t)); [|apply map_ext_in; intros r R; symmetry; apply put_last; exact (not_in_row _ _ _ _ _ C Et R N)].
  apply (fill_keeps now user_t c t _ _ _ (fun _ => now) x C Et N); [|reflexivity]. intros w r R A. exact (add_ok_value now user_t (B "created_at") Now w eq_refl A).
Qed.

(** ** SQLite: tables that are written anew *)
Lemma rebuild d now nn cols us fks es t joined x y :
  exec_all d now [Create nn cols us fks; Copy nn es t joined; Drop t; Rename nn t] x = Some y -> nn <> t ->
  (forall t0 c1 c2, joined = Some (t0, c1, c2) -> t0 <> nn) ->
  tfind nn (d_tables x) = None /\
  exists s t', tfind t (d_tables x) = Some s /\ tfind t (d_tables y) = Some t' /\ names t' = map c_name cols /\
    t_rows t' = map (combine (map c_name cols)) (selected (d_tables x) es s joined) /\
    length es = length cols /\
    (forall m, m <> t -> m <> nn -> tfind m (d_tables y) = option_map (refollow nn t) (tfind m (d_tables x))) /\
    tfind nn (d_tables y) = None /\
    (d = Sqlite -> forall n u, In (n, u) (d_tables x) -> n <> t -> forall f r, In f (t_fks u) -> f_table f = t -> In r (t_rows u) -> existsb (refers f r) (t_rows s) = false) /\
    (conforms x -> conforms y) /\
    (forall c, In c cols -> c_notnull c = true -> forall r, In r (t_rows t') -> get (c_name c) r <> Null) /\
    (forall u c, In u us -> In c u -> In c (map c_name cols) -> unique u (t_rows t') = true).
Proof.
  intros X Nt J. cbn [exec_all] in X.
  destruct (exec d now (Create nn cols us fks) x) as [x1|] eqn:E1; [|discriminate]. destruct (exec d now (Copy nn es t joined) x1) as [x2|] eqn:E2; [|discriminate].
  destruct (exec d now (Drop t) x2) as [x3|] eqn:E3; [|discriminate]. destruct (exec d now (Rename nn t) x3) as [x4|] eqn:E4; [|discriminate]. injection X as <-.
  cbn [exec] in E1. destruct (tfind nn (d_tables x)) eqn:Nn; [discriminate|]. injection E1 as <-. split; [reflexivity|]. revert E2. cbn [exec d_tables d_objects]. rewrite !tfind_app, Nn. cbn [tfind]. rewrite beqb_refl.
  rewrite (proj2 (beqb_neq t nn)) by congruence. destruct (tfind t (d_tables x)) as [s|] eqn:Es; [|discriminate]. unfold names. cbn [t_cols t_rows app].
  set (ts1 := d_tables x ++ [(nn, Table cols us fks [])]). set (t1 := with_rows (Table cols us fks []) (map (combine (map c_name cols)) (selected ts1 es s joined))).
  assert (Sel : selected ts1 es s joined = selected (d_tables x) es s joined).
  { unfold selected. destruct joined as [[[t0 c1] c2]|]; [|reflexivity]. unfold ts1. rewrite tfind_app. cbn [tfind]. rewrite (proj2 (beqb_neq t0 nn) (J _ _ _ eq_refl)). destruct (tfind t0 (d_tables x)); reflexivity. }
  match goal with |- (if ?a && ?b && ?c then _ else _) = _ -> _ => destruct a; [|discriminate]; destruct b eqn:Le; [|discriminate]; destruct c eqn:Va; [|discriminate] end. intros E. injection E as <-.
  cbn [exec d_tables d_objects] in E3. rewrite tfind_tset in E3. rewrite (proj2 (beqb_neq t nn)) in E3 by congruence.
  assert (Es1 : tfind t ts1 = Some s) by (unfold ts1; rewrite tfind_app, Es; reflexivity). rewrite Es1 in E3.
  destruct (match d with Sqlite => referenced t (t_rows s) (tdel t (tset nn t1 ts1)) | Postgres => false end) eqn:Rf; [discriminate|]. injection E3 as <-.
  cbn [exec d_tables d_objects] in E4. rewrite !tfind_tdel, !tfind_tset, beqb_refl in E4. rewrite (proj2 (beqb_neq nn t)) in E4 by congruence. rewrite beqb_refl in E4.
  assert (En1 : tfind nn ts1 = Some (Table cols us fks [])) by (unfold ts1; rewrite tfind_app, Nn; cbn [tfind]; rewrite beqb_refl; reflexivity). rewrite En1 in E4. injection E4 as <-. cbn [d_tables].
  set (l := tdel t (tset nn t1 ts1)).
  assert (Fm : forall m, m <> t -> m <> nn -> tfind m (map (fun p => (if beqb nn (fst p) then t else fst p, refollow nn t (snd p))) l) = option_map (refollow nn t) (tfind m l)).
  { intros m M1 M2. induction l as [|[k u] l IH]; [reflexivity|]. cbn [map fst snd tfind]. destruct (beqb_spec nn k) as [<-|K].
    - rewrite (proj2 (beqb_neq m t) M1), (proj2 (beqb_neq m nn) M2). exact IH.
    - destruct (beqb m k); [reflexivity|exact IH]. }
  assert (Ft : forall k, tfind t k = None -> tfind t (map (fun p => (if beqb nn (fst p) then t else fst p, refollow nn t (snd p))) k) = option_map (refollow nn t) (tfind nn k)).
  { induction k as [|[k u] k' IH]; [reflexivity|]. cbn [map fst snd tfind]. destruct (beqb_spec t k) as [->|K]; [discriminate|]. intros H. destruct (beqb_spec nn k) as [<-|K2].
    - rewrite beqb_refl. reflexivity.
    - rewrite (proj2 (beqb_neq t k) K). exact (IH H). }
  assert (Fn : forall k, tfind nn (map (fun p => (if beqb nn (fst p) then t else fst p, refollow nn t (snd p))) k) = None).
  { induction k as [|[k u] k' IH]; [reflexivity|]. cbn [map fst snd tfind]. destruct (beqb_spec nn k) as [<-|K2].
    - rewrite (proj2 (beqb_neq nn t)) by congruence. exact IH.
    - rewrite (proj2 (beqb_neq nn k) K2). exact IH. }
  assert (Tl : tfind t l = None) by (unfold l; rewrite tfind_tdel, beqb_refl; reflexivity).
  assert (Nl : tfind nn l = Some t1) by (unfold l; rewrite tfind_tdel, (proj2 (beqb_neq nn t)) by congruence; rewrite tfind_tset, beqb_refl, En1; reflexivity).
  exists s, (refollow nn t t1). split; [reflexivity|]. split; [rewrite (Ft l Tl), Nl; reflexivity|]. split; [reflexivity|]. split; [unfold refollow, t1, with_rows; cbn [t_rows]; rewrite Sel; reflexivity|].
  split; [apply Nat.eqb_eq; exact Le|]. split; [|split; [apply Fn|split; [|split; [|split]]]].
  - intros m M1 M2. rewrite (Fm m M1 M2). f_equal. unfold l. rewrite tfind_tdel, (proj2 (beqb_neq m t) M1), tfind_tset, (proj2 (beqb_neq m nn) M2). unfold ts1. rewrite tfind_app. cbn [tfind]. rewrite (proj2 (beqb_neq m nn) M2). destruct (tfind m (d_tables x)); reflexivity.
  - intros -> n u I Nu f r If Et R. apply Bool.not_true_iff_false. intros H. apply Bool.not_true_iff_false in Rf. apply Rf. unfold referenced. apply existsb_exists.
    assert (Nnn : n <> nn). { intros ->. assert (G : forall k, In (nn, u) k -> tfind nn k <> None). { clear. induction k as [|[k w] k' IH]; [intros []|]. intros [E|I]; cbn [tfind]; [injection E as -> ->; rewrite beqb_refl; discriminate|destruct (beqb nn k); [discriminate|exact (IH I)]]. } exact (G _ I Nn). }
    exists (n, u). split.
    + unfold tdel. apply filter_In. split; [|cbn [fst]; rewrite (proj2 (beqb_neq t n)) by congruence; reflexivity]. unfold tset. apply in_map_iff. exists (n, u). cbn [fst]. rewrite (proj2 (beqb_neq nn n)) by congruence. split; [reflexivity|].
      unfold ts1. apply in_or_app. left. exact I.
    + cbn [snd]. apply existsb_exists. exists f. split; [exact If|]. rewrite Et, beqb_refl. cbn [andb]. apply existsb_exists. exists r. split; [exact R|exact H].
  - intros C m u r I R. apply in_map_iff in I. destruct I as ([k w] & E & I). cbn [fst snd] in E. injection E as Em <-. unfold l in I. unfold tdel in I. apply filter_In in I. destruct I as [I _]. apply In_tset in I. destruct I as [(-> & -> & _)|[K I]].
    + cbn [refollow t_rows t_cols t1 with_rows] in *. apply in_map_iff in R. destruct R as (vs & <- & R).
      assert (Lv : length vs = length (map c_name cols)).
      { rewrite map_length. apply Nat.eqb_eq in Le. rewrite <- Le. unfold selected in R. destruct joined as [[[t0 c1] c2]|].
        - destruct (tfind t0 ts1); [|destruct R]. apply in_flat_map in R. destruct R as (r1 & _ & R). apply in_map_iff in R. destruct R as (r2 & <- & _). apply map_length.
        - apply in_map_iff in R. destruct R as (r1 & <- & _). apply map_length. }
      clear - Lv. revert vs Lv. induction (map c_name cols) as [|c cs IH]; intros [|v vs] L; try discriminate L; [reflexivity|]. cbn [combine map fst]. f_equal. apply IH. cbn in L. lia.
    + cbn [refollow t_rows t_cols] in *. unfold ts1 in I. apply in_app_or in I. destruct I as [I|[I|[]]]; [exact (C k w r I R)|]. injection I as <- <-. destruct R.
  - intros c I Nc r R Z. unfold valid_on in Va. apply andb_prop in Va. destruct Va as [Va _]. apply andb_prop in Va. destruct Va as [Va _]. rewrite forallb_forall in Va. specialize (Va c I).
    rewrite (proj2 (bmem_In (c_name c) (map c_name cols)) (in_map c_name _ _ I)), Nc in Va. cbn [andb negb orb] in Va. rewrite forallb_forall in Va. specialize (Va r R). cbv beta in Va. rewrite Z in Va. discriminate.
  - intros u c I Ic Il. unfold valid_on in Va. apply andb_prop in Va. destruct Va as [Va _]. apply andb_prop in Va. destruct Va as [_ Va]. rewrite forallb_forall in Va. specialize (Va u I). apply orb_prop in Va.
    destruct Va as [Va|Va]; [|exact Va]. exfalso. apply Bool.negb_true_iff in Va. apply Bool.not_true_iff_false in Va. apply Va. apply existsb_exists. exists c. split; [exact Ic|]. apply bmem_In. exact Il.
Qed.

Lemma In_get (r : row) c v : NoDup (map fst r) -> In (c, v) r -> get c r = v.
Proof.
  induction r as [|[k u] r IH]; [intros _ []|]. cbn [map fst get]. intros N [E|I]; [injection E as -> ->; rewrite beqb_refl; reflexivity|]. inversion N as [|? ? N1 N2]; subst.
  destruct (beqb_spec c k) as [->|_]; [|exact (IH N2 I)]. exfalso. apply N1. exact (in_map fst _ _ I).
Qed.
Lemma get_In (r : row) c : In c (map fst r) -> In (c, get c r) r.
Proof. induction r as [|[k u] r IH]; [intros []|]. cbn [map fst get]. destruct (beqb_spec c k) as [->|N]; [intros _; left; reflexivity|]. intros [E|I]; [congruence|right; exact (IH I)]. Qed.
Lemma In_combine_map {A} c (f : A -> value) (g : bytes -> A) l : In c l -> In (c, f (g c)) (combine l (map f (map g l))).
Proof. induction l as [|a l IH]; [intros []|]. intros [->|I]; [left; reflexivity|right; exact (IH I)]. Qed.
Lemma fst_combine (l : list bytes) (vs : list value) : length vs = length l -> map fst (combine l vs) = l.
Proof. revert vs. induction l as [|a l IH]; intros [|v vs] E; try discriminate E; [reflexivity|]. cbn [combine map fst]. f_equal. apply IH. cbn in E. lia. Qed.

Lemma sqlite_step13 now : step_keeps Sqlite now sqlite_v1 sqlite_migrations [] 13.
Proof.
  intros x y V C E. change (nth 13 sqlite_migrations []) with migration13 in E. unfold migration13 in E.
  destruct (rebuild _ _ _ _ _ _ _ _ _ _ _ E ltac:(discriminate) ltac:(discriminate)) as (Nn & s & t' & Es & Et & Nt & Rt & _ & O & _ & _ & C' & _). split; [|exact (C' C)].
  intros m u Em _. destruct (beqb_spec m network_t) as [->|M].
  - exists t'. split; [exact Et|]. rewrite Em in Es. injection Es as ->. rewrite Rt. unfold selected. rewrite map_map. apply Forall2_map. intros r R.
    assert (Ns : names s = [B "id"; B "name"; B "user"; B "addr"; B "nick"; B "username"; B "realname"; B "pass"; B "connect_commands"; B "sasl_mechanism"; B "sasl_plain_username"; B "sasl_plain_password"; B "sasl_external_cert"; B "sasl_external_key"; B "enabled"]).
    { pose proof (schema_names_eq _ _ _ _ _ _ network_t V) as H. rewrite Em in H. cbn [option_map] in H. assert (G : Some (names s) = Some [B "id"; B "name"; B "user"; B "addr"; B "nick"; B "username"; B "realname"; B "pass"; B "connect_commands"; B "sasl_mechanism"; B "sasl_plain_username"; B "sasl_plain_password"; B "sasl_external_cert"; B "sasl_external_key"; B "enabled"]) by (rewrite <- H; vm_compute; reflexivity). injection G as G. exact G. }
    assert (Kr : map fst r = names s) by exact (C network_t s r (tfind_In _ _ _ Em) R).
    set (L := [B "id"; B "name"; B "user"; B "addr"; B "nick"; B "username"; B "realname"; B "pass"; B "connect_commands"; B "sasl_mechanism"; B "sasl_plain_username"; B "sasl_plain_password"; B "sasl_external_cert"; B "sasl_external_key"; B "enabled"]) in *.
    change (krow now network_t [] r (combine L (map (eval r []) (map ECol L)))). split.
    + intros c v _ I. assert (D : NoDup (map fst r)) by (rewrite Kr, Ns; apply nodupb_NoDup; vm_compute; reflexivity). rewrite <- (In_get r c v D I). apply (In_combine_map c (eval r []) ECol L). rewrite <- Ns, <- Kr. exact (in_map fst _ _ I).
    + intros c v _ N I. exfalso. apply N. rewrite Kr, Ns. rewrite fst_combine in I; [exact I|]. rewrite !map_length. reflexivity.
  - assert (M2 : m <> network_new) by (intros ->; congruence). exists (refollow network_new network_t u). rewrite (O m M M2), Em. split; [reflexivity|]. cbn [refollow t_rows]. apply Forall2_refl. intros r. apply krow_refl.
Qed.
Lemma sqlite_steps now i : i < 25 -> i <> 6 -> i <> 7 -> step_keeps Sqlite now sqlite_v1 sqlite_migrations [] i.
Proof.
  intros L N6 N7. destruct (Nat.eq_dec i 13) as [->|N13]; [apply sqlite_step13|]. destruct (Nat.eq_dec i 16) as [->|N16]; [apply sqlite_step16|]. destruct (Nat.eq_dec i 20) as [->|N20]; [apply sqlite_step20|].
  intros x y V C E. refine (simple_all Sqlite now [] _ x y _ C E). do 25 (destruct i as [|i]; [first [vm_compute; reflexivity|exfalso; lia]|]). lia.
Qed.
Lemma sqlite_distinct now v : v <= 25 -> distinct Sqlite now sqlite_v1 sqlite_migrations v = true.
Proof. intros L. do 26 (destruct v as [|v]; [vm_compute; reflexivity|]). lia. Qed.
Lemma sqlite_complete now : complete Sqlite now sqlite_v1 sqlite_migrations = true.
Proof. vm_compute. reflexivity. Qed.

Lemma sqlite_chain now v k x y : 8 <= v -> v + k = 25 -> of_version Sqlite now sqlite_v1 sqlite_migrations v x -> conforms x ->
  exec_all Sqlite now (concat (skipn v sqlite_migrations)) x = Some y ->
  keeps now [] x y /\ conforms y /\ of_version Sqlite now sqlite_v1 sqlite_migrations 25 y.
Proof.
  intros L K V C E. rewrite <- (firstn_whole v sqlite_migrations) in E. replace (length sqlite_migrations - v) with k in E by (change (length sqlite_migrations) with 25; lia).
  destruct (chain Sqlite now sqlite_v1 sqlite_migrations [] k v x y ltac:(change (length sqlite_migrations) with 25; lia) ltac:(intros i I; apply sqlite_steps; lia) V C E) as (Ke & C' & V'). rewrite K in V'. auto.
Qed.
Lemma sqlite_kept now v x y w : 8 <= v < 25 -> of_version Sqlite now sqlite_v1 sqlite_migrations v x -> conforms x ->
  upgrade Sqlite now sqlite_schema sqlite_migrations (File v x) = (true, File w y) -> kept now [] x y.
Proof.
  intros L V C U. assert (L' : 1 <= v < length sqlite_migrations) by (change (length sqlite_migrations) with 25; lia). destruct (upgraded _ _ _ _ _ _ _ _ L' U) as [_ E].
  destruct (sqlite_chain now v (25 - v) x y ltac:(lia) ltac:(lia) V C E) as (Ke & C' & V').
  exact (kept_of _ _ _ _ _ _ _ _ (sqlite_distinct now v ltac:(lia)) (sqlite_distinct now 25 ltac:(lia)) (sqlite_complete now) V V' C' Ke).
Qed.

(** ** SQLite: old versions *)
Lemma In_combine_eval (c : bytes) (e : expr) r u (L : list bytes) (es : list expr) : In (c, e) (combine L es) -> In (c, eval r u e) (combine L (map (eval r u) es)).
Proof. revert es. induction L as [|a L IH]; intros [|b es]; cbn [combine map]; try tauto. intros [E|I]; [injection E as -> ->; left; reflexivity|right; exact (IH es I)]. Qed.
Definition expr_eqb (a b : expr) : bool := match a, b with ECol a, ECol b => beqb a b | EJoin a, EJoin b => beqb a b | _, _ => false end.
Lemma expr_eqb_eq a b : expr_eqb a b = true -> a = b.
Proof. destruct a, b; cbn; try discriminate; intros E; apply beqb_eq in E; subst; reflexivity. Qed.
Definition inb (c : bytes) (e : expr) (l : list (bytes * expr)) : bool := existsb (fun p => beqb c (fst p) && expr_eqb e (snd p)) l.
Lemma inb_In c e l : inb c e l = true -> In (c, e) l.
Proof. unfold inb. rewrite existsb_exists. intros ([a b] & I & E). cbn [fst snd] in E. apply andb_prop in E. destruct E as [E1 E2]. apply beqb_eq in E1. apply expr_eqb_eq in E2. subst. exact I. Qed.
Definition project_ok (n : bytes) (but K L : list bytes) (es : list expr) : bool :=
  nodupb K && Nat.eqb (length es) (length L) && forallb (fun c => bmem c but || inb c (ECol c) (combine L es)) K &&
  forallb (fun c => bmem c K || forallb (fun '(n', c', _) => negb (beqb n n' && beqb c c')) addl) L.
Lemma project now n but K L es r u : project_ok n but K L es = true -> map fst r = K -> krow now n but r (combine L (map (eval r u) es)).
Proof.
  unfold project_ok. intros H Kr. apply andb_prop in H. destruct H as [H H4]. apply andb_prop in H. destruct H as [H H3]. apply andb_prop in H. destruct H as [H1 H2]. apply nodupb_NoDup in H1. apply Nat.eqb_eq in H2.
  rewrite forallb_forall in H3, H4. split.
  - intros c v N I. assert (Ic : In c K) by (rewrite <- Kr; exact (in_map fst _ _ I)). specialize (H3 c Ic). apply orb_prop in H3. destruct H3 as [H3|H3]; [exfalso; apply N; apply bmem_In; exact H3|].
    apply inb_In in H3. rewrite <- (In_get r c v) ; [|rewrite Kr; exact H1|exact I]. exact (In_combine_eval c (ECol c) r u L es H3).
  - intros c v A N I. exfalso. rewrite fst_combine in I by (rewrite map_length; exact H2). specialize (H4 c I). apply orb_prop in H4. destruct H4 as [H4|H4]; [apply N; rewrite Kr; apply bmem_In; exact H4|].
    apply added_In in A. destruct A as (d0 & A & _). rewrite forallb_forall in H4. specialize (H4 _ A). cbn in H4. rewrite !beqb_refl in H4. discriminate.
Qed.

(** The relation between rows of tables other than networks. *)
Definition orow (now : value) (n : bytes) (r r' : row) : Prop := krow now n [B "rowid"] r r' /\ (n = B "User" -> forall v, In (B "rowid", v) r -> In (B "id", v) r').
Definition front (now : value) (x y : db) : Prop :=
  forall n t, tfind n (d_tables x) = Some t -> exists t', tfind n (d_tables y) = Some t' /\ Forall2 (orow now n) (t_rows t) (t_rows t').
Lemma no_rowid now n c v : added now n c v -> ~ In c [B "rowid"].
Proof. intros A [<-|[]]. apply added_In in A. destruct A as (d & A & _). revert A. vm_compute. intuition discriminate. Qed.
Lemma orow_before now n r r' r'' : krow now n [] r r' -> orow now n r' r'' -> orow now n r r''.
Proof. intros K [L U]. split; [exact (krow_trans now n [] [B "rowid"] _ _ _ (no_rowid now n) K L)|]. intros E v I. apply (U E). apply (proj1 K); [intros []|exact I]. Qed.
Lemma orow_after now n r r' r'' : orow now n r r' -> krow now n [] r' r'' -> orow now n r r''.
Proof. intros [L U] K. split; [exact (krow_trans now n [B "rowid"] [] _ _ _ (fun _ _ _ H => H) L K)|]. intros E v I. apply (proj1 K); [intros []|exact (U E v I)]. Qed.

Lemma sqlite_step6 now x y : of_version Sqlite now sqlite_v1 sqlite_migrations 6 x -> conforms x -> exec_all Sqlite now (nth 6 sqlite_migrations []) x = Some y -> front now x y /\ conforms y.
Proof.
  intros V C E. change (nth 6 sqlite_migrations []) with migration6 in E. unfold migration6 in E.
  destruct (rebuild _ _ _ _ _ _ _ _ _ _ _ E ltac:(discriminate) ltac:(discriminate)) as (Nn & s & t' & Es & Et & Nt & Rt & _ & O & _ & _ & C' & _). split; [|exact (C' C)].
  intros m u Em. destruct (beqb_spec m user_t) as [->|M].
  - exists t'. split; [exact Et|]. rewrite Em in Es. injection Es as ->. rewrite Rt. unfold selected. rewrite map_map. apply Forall2_map. intros r R.
    assert (Ns : names s = [B "rowid"; B "username"; B "password"; B "admin"]).
    { pose proof (schema_names_eq _ _ _ _ _ _ user_t V) as H. rewrite Em in H. cbn [option_map] in H. assert (G : Some (names s) = Some [B "rowid"; B "username"; B "password"; B "admin"]) by (rewrite <- H; vm_compute; reflexivity). injection G as G. exact G. }
    assert (Kr : map fst r = names s) by exact (C user_t s r (tfind_In _ _ _ Em) R). rewrite Ns in Kr. split.
    + apply (project now user_t [B "rowid"] [B "rowid"; B "username"; B "password"; B "admin"]); [vm_compute; reflexivity|exact Kr].
    + intros _ v I. rewrite <- (In_get r (B "rowid") v); [left; reflexivity| |exact I]. rewrite Kr. apply nodupb_NoDup. vm_compute. reflexivity.
  - assert (M2 : m <> user_new) by (intros ->; congruence). exists (refollow user_new user_t u). rewrite (O m M M2), Em. split; [reflexivity|]. cbn [refollow t_rows]. apply Forall2_refl. intros r. split; [apply krow_refl|]. intros X. contradiction.
Qed.
Lemma sqlite_front now v x y : 1 <= v <= 7 -> of_version Sqlite now sqlite_v1 sqlite_migrations v x -> conforms x ->
  exec_all Sqlite now (concat (firstn (7 - v) (skipn v sqlite_migrations))) x = Some y ->
  front now x y /\ conforms y /\ of_version Sqlite now sqlite_v1 sqlite_migrations 7 y.
Proof.
  intros L V C. destruct (Nat.eq_dec v 7) as [->|N].
  - intros E. injection E as <-. split; [|auto]. intros n t E. exists t. split; [exact E|]. assert (G : forall r, In r (t_rows t) -> orow now n r r).
    { intros r R. split; [apply krow_refl|]. intros -> w I. exfalso. pose proof (schema_names_eq _ _ _ _ _ _ user_t V) as H. change (tfind user_t (d_tables x)) with (tfind (B "User") (d_tables x)) in H. rewrite E in H. cbn [option_map] in H.
      assert (Ns : Some (names t) = Some [B "id"; B "username"; B "password"; B "admin"]) by (rewrite <- H; vm_compute; reflexivity). injection Ns as Ns.
      assert (Kr : In (B "rowid") (names t)) by (rewrite <- (C _ _ _ (tfind_In _ _ _ E) R : _ = names t); exact (in_map fst _ _ I)). rewrite Ns in Kr. revert Kr. vm_compute. intuition discriminate. }
    clear - G. induction (t_rows t) as [|r l IH]; constructor; [apply G; left; reflexivity|apply IH; intros r0 R; apply G; right; exact R].
  - assert (S : firstn (7 - v) (skipn v sqlite_migrations) = firstn (6 - v) (skipn v sqlite_migrations) ++ [nth 6 sqlite_migrations []]).
    { do 7 (destruct v as [|v]; [first [lia|reflexivity]|]). lia. }
    rewrite S, concat_app, exec_all_app. cbn [concat]. rewrite app_nil_r. destruct (exec_all Sqlite now (concat (firstn (6 - v) (skipn v sqlite_migrations))) x) as [z|] eqn:E; [|discriminate]. intros F.
    destruct (chain Sqlite now sqlite_v1 sqlite_migrations [] (6 - v) v x z ltac:(change (length sqlite_migrations) with 25; lia) ltac:(intros i I; apply sqlite_steps; lia) V C E) as (Ke & C' & V'). replace (v + (6 - v)) with 6 in V' by lia.
    destruct (sqlite_step6 now z y V' C' F) as [K6 C'']. split; [|split; [exact C''|refine (version_step _ _ _ _ _ _ _ V' _ F); change (length sqlite_migrations) with 25; lia]].
    intros n t Et. destruct (Ke n t Et (fun H => H)) as (t1 & E1 & F1). destruct (K6 n t1 E1) as (t2 & E2 & F2). exists t2. split; [exact E2|]. exact (Forall2_trans _ _ _ _ _ _ (orow_before now n) F1 F2).
Qed.

Lemma veqb_eq a b : veqb a b = true <-> a = b /\ a <> Null.
Proof.
  destruct a as [|z|s|s], b as [|z'|s'|s']; cbn [veqb]; split; try discriminate; try (intros [E _]; discriminate E).
  - intros [_ N]. congruence.
  - intros E. apply Z.eqb_eq in E. subst. split; [reflexivity|discriminate].
  - intros [E _]. injection E as ->. apply Z.eqb_refl.
  - intros E. apply beqb_eq in E. subst. split; [reflexivity|discriminate].
  - intros [E _]. injection E as ->. apply beqb_refl.
  - intros E. apply beqb_eq in E. subst. split; [reflexivity|discriminate].
  - intros [E _]. injection E as ->. apply beqb_refl.
Qed.
Lemma unique_app u a b : unique u (a ++ b) = true -> unique u a = true /\ unique u b = true.
Proof.
  induction a as [|r a IH]; [auto|]. cbn [app unique]. intros H. apply andb_prop in H. destruct H as [H1 H2]. destruct (IH H2) as [A B]. split; [|exact B]. rewrite A, andb_true_r. rewrite existsb_app in H1. destruct (existsb (same_key u r) a); [discriminate|reflexivity].
Qed.
Definition K7 := [B "id"; B "name"; B "user"; B "addr"; B "nick"; B "username"; B "realname"; B "pass"; B "sasl_mechanism"; B "sasl_plain_username"; B "sasl_plain_password"; B "connect_commands"; B "sasl_external_cert"; B "sasl_external_key"].
Definition L7 := [B "id"; B "name"; B "user"; B "addr"; B "nick"; B "username"; B "realname"; B "pass"; B "connect_commands"; B "sasl_mechanism"; B "sasl_plain_username"; B "sasl_plain_password"; B "sasl_external_cert"; B "sasl_external_key"].
Definition E7 := [ECol (B "id"); ECol (B "name"); EJoin (B "id"); ECol (B "addr"); ECol (B "nick"); ECol (B "username"); ECol (B "realname"); ECol (B "pass"); ECol (B "connect_commands");
     ECol (B "sasl_mechanism"); ECol (B "sasl_plain_username"); ECol (B "sasl_plain_password"); ECol (B "sasl_external_cert"); ECol (B "sasl_external_key")].
Definition ownedb (users : list row) (r : row) : bool := existsb (fun u => veqb (get (B "user") r) (get (B "username") u)) users.
Definition nrow (now : value) (users : list row) (r r' : row) : Prop :=
  krow now network_t [B "user"] r r' /\ exists u, In u users /\ veqb (get (B "user") r) (get (B "username") u) = true /\ In (B "user", get (B "id") u) r'.
Lemma sqlite_step7 now x y : of_version Sqlite now sqlite_v1 sqlite_migrations 7 x -> conforms x -> exec_all Sqlite now (nth 7 sqlite_migrations []) x = Some y ->
  exists nx ux ny, tfind network_t (d_tables x) = Some nx /\ tfind user_t (d_tables x) = Some ux /\ tfind network_t (d_tables y) = Some ny /\
    names nx = K7 /\ names ux = [B "id"; B "username"; B "password"; B "admin"] /\
    Forall2 (nrow now (t_rows ux)) (filter (ownedb (t_rows ux)) (t_rows nx)) (t_rows ny) /\
    (forall n t, n <> network_t -> tfind n (d_tables x) = Some t -> exists t', tfind n (d_tables y) = Some t' /\ t_rows t' = t_rows t) /\
    (forall n u, In (n, u) (d_tables x) -> n <> network_t -> forall f r, In f (t_fks u) -> f_table f = network_t -> In r (t_rows u) -> existsb (refers f r) (t_rows nx) = false) /\ conforms y.
Proof.
  intros V C E. change (nth 7 sqlite_migrations []) with migration7 in E. unfold migration7 in E.
  assert (J : forall t0 c1 c2, Some (user_t, B "user", B "username") = Some (t0, c1, c2) -> t0 <> network_new) by (intros t0 c1 c2 X; injection X as <- _ _; discriminate).
  destruct (rebuild _ _ _ _ _ _ _ _ _ _ _ E ltac:(discriminate) J) as (Nn & nx & ny & Enx & Eny & _ & Rt & _ & O & _ & Rf & C' & NN & UN).
  assert (N1 : names nx = K7). { pose proof (schema_names_eq _ _ _ _ _ _ network_t V) as H. rewrite Enx in H. cbn [option_map] in H. assert (G : Some (names nx) = Some K7) by (rewrite <- H; vm_compute; reflexivity). injection G as G. exact G. }
  destruct (schema_has _ _ _ _ _ _ user_t [B "id"; B "username"; B "password"; B "admin"] V ltac:(vm_compute; reflexivity)) as (ux & Eux & N2).
  exists nx, ux, ny. split; [exact Enx|]. split; [exact Eux|]. split; [exact Eny|]. split; [exact N1|]. split; [exact N2|]. split; [|split; [|split; [exact (Rf eq_refl)|exact (C' C)]]].
  - unfold selected in Rt. rewrite Eux in Rt. specialize (UN [B "id"] (B "id") ltac:(left; reflexivity) ltac:(left; reflexivity) ltac:(left; reflexivity)).
    pose proof (fun r => NN (req (B "id") IN) ltac:(left; reflexivity) eq_refl r) as ND. clear NN. rewrite Rt in *. clear Rt.
    assert (Kr : forall r, In r (t_rows nx) -> map fst r = K7) by (intros r R; rewrite <- N1; exact (C network_t nx r (tfind_In _ _ _ Enx) R)). clear - UN ND Kr.
    change (list (bytes * value)) with row in *. set (L := map c_name _) in *. change L with L7 in *. clear L. set (es := [ECol (B "id"); _; _; _; _; _; _; _; _; _; _; _; _; _]) in *. change es with E7 in *. clear es.
    induction (t_rows nx) as [|r l IH]; [constructor|]. cbn [flat_map filter] in *. rewrite !map_app in *. destruct (unique_app _ _ _ UN) as [U1 U2].
    specialize (IH U2 (fun r0 R => ND r0 (in_or_app _ _ _ (or_intror R))) (fun r0 R => Kr r0 (or_intror R))).
    assert (D : forall r0, In r0 (map (combine L7) (map (fun r2 : row => map (eval r r2) E7) (filter (fun r2 : row => veqb (get (B "user") r) (get (B "username") r2)) (t_rows ux)))) -> get (B "id") r0 <> Null) by (intros r0 R; exact (ND r0 (in_or_app _ _ _ (or_introl R)))).
    unfold ownedb at 1. assert (F : filter (fun r2 : row => veqb (get (B "user") r) (get (B "username") r2)) (t_rows ux) = [] /\ existsb (fun u : row => veqb (get (B "user") r) (get (B "username") u)) (t_rows ux) = false \/
      exists u0, filter (fun r2 : row => veqb (get (B "user") r) (get (B "username") r2)) (t_rows ux) = [u0] /\ existsb (fun u : row => veqb (get (B "user") r) (get (B "username") u)) (t_rows ux) = true).
    { destruct (filter (fun r2 : row => veqb (get (B "user") r) (get (B "username") r2)) (t_rows ux)) as [|u1 [|u2 us]] eqn:Fi.
      - left. split; [reflexivity|]. apply Bool.not_true_iff_false. rewrite existsb_exists. intros (u & I & H). assert (X : In u []) by (rewrite <- Fi; apply filter_In; auto). destruct X.
      - right. exists u1. split; [reflexivity|]. apply existsb_exists. exists u1. assert (X : In u1 [u1]) by (left; reflexivity). rewrite <- Fi in X. apply filter_In in X. exact X.
      - exfalso. cbn [map] in U1, D. cbn [unique existsb] in U1. assert (K : same_key [B "id"] (combine L7 (map (eval r u1) E7)) (combine L7 (map (eval r u2) E7)) = true).
        { unfold same_key. cbn [forallb]. rewrite andb_true_r. apply veqb_eq. split; [reflexivity|]. apply D. left. reflexivity. }
        rewrite K in U1. cbn [orb negb andb] in U1. discriminate. }
    destruct F as [[-> ->]|(u0 & Fi & ->)]; [cbn [map app]; exact IH|]. rewrite Fi. cbn [map app]. constructor; [|exact IH]. split.
    + apply (project now network_t [B "user"] K7 L7 E7); [vm_compute; reflexivity|]. apply Kr. left. reflexivity.
    + exists u0. assert (X : In u0 [u0]) by (left; reflexivity). rewrite <- Fi in X. apply filter_In in X. destruct X as [X1 X2]. split; [exact X1|]. split; [exact X2|]. right. right. left. reflexivity.
  - intros n t Nn' Et. assert (M2 : n <> network_new) by (intros ->; congruence). exists (refollow network_new network_t t). rewrite (O n Nn' M2), Et. split; reflexivity.
Qed.

Lemma Forall2_In_l {A} (P : A -> A -> Prop) a b x : Forall2 P a b -> In x a -> exists y, In y b /\ P x y.
Proof. induction 1 as [|x0 y0 a b H F IH]; [intros []|]. intros [->|I]; [exists y0; split; [left; reflexivity|exact H]|]. destruct (IH I) as (y & I' & H'). exists y. split; [right; exact I'|exact H']. Qed.
Lemma Forall2_In_r {A} (P : A -> A -> Prop) a b y : Forall2 P a b -> In y b -> exists x, In x a /\ P x y.
Proof. induction 1 as [|x0 y0 a b H F IH]; [intros []|]. intros [->|I]; [exists x0; split; [left; reflexivity|exact H]|]. destruct (IH I) as (x & I' & H'). exists x. split; [right; exact I'|exact H']. Qed.
Lemma Forall2_filter {A} (P : A -> A -> Prop) f g a b : Forall2 P a b -> (forall x y, In x a -> In y b -> P x y -> f x = g y) -> Forall2 P (filter f a) (filter g b).
Proof.
  induction 1 as [|x y a b H F IH]; intros G; [constructor|]. cbn [filter]. rewrite (G x y) by (try (left; reflexivity); exact H). destruct (g y); [constructor; [exact H|]|]; apply IH; intros x' y' I J; apply G; right; assumption.
Qed.
Lemma krow_kept now n but t' r r' : (forall c v, added now n c v -> In c (names t')) -> map fst r' = names t' -> krow now n but r r' -> kept_row now n but r r'.
Proof. intros H K [A1 A2]. split; [exact A1|]. intros c v A N. apply (A2 c v A N). rewrite K. exact (H c v A). Qed.
Lemma complete_names now y n t c v : of_version Sqlite now sqlite_v1 sqlite_migrations 25 y -> tfind n (d_tables y) = Some t -> added now n c v -> In c (names t).
Proof.
  intros V E A. apply added_In in A. destruct A as (d & A & _). pose proof (sqlite_complete now) as F. unfold complete in F. rewrite forallb_forall in F. specialize (F _ A). cbv beta iota in F.
  change (length sqlite_migrations) with 25 in F. rewrite (schema_names_eq _ _ _ _ _ _ n V), E in F. cbn [option_map] in F. apply bmem_In. exact F.
Qed.
Lemma Forall2_impl_In {A} (P Q : A -> A -> Prop) a b : (forall x y, In x a -> In y b -> P x y -> Q x y) -> Forall2 P a b -> Forall2 Q a b.
Proof. intros H F. induction F as [|x y a b Pxy F IH]; constructor; [apply H; [left; reflexivity|left; reflexivity|exact Pxy]|apply IH; intros x' y' I J; apply H; right; assumption]. Qed.
Lemma old_names now v x : 1 <= v <= 7 -> of_version Sqlite now sqlite_v1 sqlite_migrations v x ->
  exists nx ux, tfind network_t (d_tables x) = Some nx /\ tfind user_t (d_tables x) = Some ux /\ In (B "user") (names nx) /\ In (B "username") (names ux) /\ ~ In (B "rowid") (names nx).
Proof.
  intros L V. assert (G : exists a b, schema_names Sqlite now sqlite_v1 sqlite_migrations v network_t = Some a /\ schema_names Sqlite now sqlite_v1 sqlite_migrations v user_t = Some b /\ bmem (B "user") a = true /\ bmem (B "username") b = true /\ bmem (B "rowid") a = false).
  { do 8 (destruct v as [|v]; [first [lia|do 2 eexists; repeat (split; [vm_compute; reflexivity|]); vm_compute; reflexivity]|]). lia. }
  destruct G as (a & b & A & Bb & M1 & M2 & M3). destruct (schema_has _ _ _ _ _ _ _ _ V A) as (nx & E1 & <-). destruct (schema_has _ _ _ _ _ _ _ _ V Bb) as (ux & E2 & <-).
  exists nx, ux. split; [exact E1|]. split; [exact E2|]. split; [apply bmem_In; exact M1|]. split; [apply bmem_In; exact M2|exact (bmem_false _ _ M3)].
Qed.

Lemma get_kept now n but c (r r' : row) : krow now n but r r' -> ~ In c but -> In c (map fst r) -> NoDup (map fst r') -> get c r' = get c r.
Proof. intros [K _] N I D. apply In_get; [exact D|]. apply K; [exact N|]. apply get_In. exact I. Qed.
Lemma existsb_Forall2 {A} (P : A -> A -> Prop) f g a b : Forall2 P a b -> (forall x y, In x a -> In y b -> P x y -> f x = g y) -> existsb f a = existsb g b.
Proof. induction 1 as [|x y a b H F IH]; intros G; [reflexivity|]. cbn [existsb]. rewrite (G x y) by (try (left; reflexivity); exact H). rewrite IH; [reflexivity|]. intros x' y' I J. apply G; right; assumption. Qed.
Lemma row_keys now v x n t r : v <= 25 -> of_version Sqlite now sqlite_v1 sqlite_migrations v x -> conforms x -> tfind n (d_tables x) = Some t -> In r (t_rows t) -> map fst r = names t /\ NoDup (map fst r).
Proof.
  intros L V C E R. assert (K : map fst r = names t) by exact (C n t r (tfind_In _ _ _ E) R). split; [exact K|]. rewrite K. exact (proj2 (distinct_tables _ _ _ _ _ _ (sqlite_distinct now v L) V) n t (tfind_In _ _ _ E)).
Qed.
Lemma sqlite_kept_old now v x y w : 1 <= v <= 7 -> of_version Sqlite now sqlite_v1 sqlite_migrations v x -> conforms x ->
  upgrade Sqlite now sqlite_schema sqlite_migrations (File v x) = (true, File w y) -> kept_old now x y.
Proof.
  intros L V C U. assert (L' : 1 <= v < length sqlite_migrations) by (change (length sqlite_migrations) with 25; lia). destruct (upgraded _ _ _ _ _ _ _ _ L' U) as [_ E].
  assert (S : skipn v sqlite_migrations = firstn (7 - v) (skipn v sqlite_migrations) ++ nth 7 sqlite_migrations [] :: skipn 8 sqlite_migrations) by (do 8 (destruct v as [|v]; [first [lia|reflexivity]|]); lia).
  rewrite S, concat_app, exec_all_app in E. destruct (exec_all Sqlite now (concat (firstn (7 - v) (skipn v sqlite_migrations))) x) as [b|] eqn:Eb; [|discriminate]. cbn [concat] in E. rewrite exec_all_app in E.
  destruct (exec_all Sqlite now (nth 7 sqlite_migrations []) b) as [c|] eqn:Ec; [|discriminate]. destruct (sqlite_front now v x b L V C Eb) as (Fr & Cb & Vb).
  destruct (sqlite_step7 now b c Vb Cb Ec) as (nb & ub & nc & Enb & Eub & Enc & Nnb & Nub & Fn & Oth & _ & Cc).
  assert (Vc : of_version Sqlite now sqlite_v1 sqlite_migrations 8 c) by (refine (version_step _ _ _ _ _ _ _ Vb _ Ec); change (length sqlite_migrations) with 25; lia).
  destruct (sqlite_chain now 8 17 c y ltac:(lia) eq_refl Vc Cc E) as (Ke & Cy & Vy).
  destruct (distinct_tables _ _ _ _ _ _ (sqlite_distinct now v ltac:(lia)) V) as [Dx _]. split.
  - intros n t I N. pose proof (In_tfind _ _ _ Dx I) as Et. destruct (Fr n t Et) as (t1 & E1 & F1). destruct (Oth n t1 N E1) as (t2 & E2 & R2). destruct (Ke n t2 E2 (fun H => H)) as (t3 & E3 & F3). rewrite R2 in F3.
    exists t3. split; [exact (tfind_In _ _ _ E3)|]. apply (Forall2_impl_In (orow now n)); [|exact (Forall2_trans _ _ _ _ _ _ (orow_after now n) F1 F3)].
    intros r r' _ R' [K Id]. split; [|exact Id]. apply (krow_kept now n _ t3); [intros c0 v0 A; exact (complete_names now y n t3 c0 v0 Vy E3 A)|exact (proj1 (row_keys now 25 y n t3 r' (le_n _) Vy Cy E3 R'))|exact K].
  - intros nx ux In1 In2. pose proof (In_tfind _ _ _ Dx In1) as Enx. pose proof (In_tfind _ _ _ Dx In2) as Eux.
    destruct (Fr _ _ Enx) as (nb' & Enb' & Fnb). destruct (Fr _ _ Eux) as (ub' & Eub' & Fub). change (tfind (B "Network") (d_tables b)) with (tfind network_t (d_tables b)) in Enb'. change (tfind (B "User") (d_tables b)) with (tfind user_t (d_tables b)) in Eub'.
    rewrite Enb in Enb'. injection Enb' as <-. rewrite Eub in Eub'. injection Eub' as <-.
    destruct (Ke network_t nc Enc (fun H => H)) as (ny & Eny & Fny). destruct (Oth user_t ub ltac:(discriminate) Eub) as (uc & Euc & Ruc). destruct (Ke user_t uc Euc (fun H => H)) as (uy & Euy & Fuy). rewrite Ruc in Fuy.
    destruct (old_names now v x L V) as (nx' & ux' & X1 & X2 & Hu & Hn & Hr). change (tfind (B "Network") (d_tables x)) with (tfind network_t (d_tables x)) in Enx. change (tfind (B "User") (d_tables x)) with (tfind user_t (d_tables x)) in Eux.
    rewrite Enx in X1. injection X1 as <-. rewrite Eux in X2. injection X2 as <-.
    assert (Gu : forall r rb, In r (t_rows nx) -> In rb (t_rows nb) -> orow now network_t r rb -> get (B "user") rb = get (B "user") r).
    { intros r rb R Rb [K _]. apply (get_kept now network_t [B "rowid"]); [exact K|intros [X|[]]; discriminate X| |exact (proj2 (row_keys now 7 b network_t nb rb ltac:(lia) Vb Cb Enb Rb))]. rewrite (proj1 (row_keys now v x network_t nx r ltac:(lia) V C Enx R)). exact Hu. }
    assert (Gn : forall r rb, In r (t_rows ux) -> In rb (t_rows ub) -> orow now user_t r rb -> get (B "username") rb = get (B "username") r).
    { intros r rb R Rb [K _]. apply (get_kept now user_t [B "rowid"]); [exact K|intros [X|[]]; discriminate X| |exact (proj2 (row_keys now 7 b user_t ub rb ltac:(lia) Vb Cb Eub Rb))]. rewrite (proj1 (row_keys now v x user_t ux r ltac:(lia) V C Eux R)). exact Hn. }
    exists ny, uy, (filter (ownedb (t_rows ux)) (t_rows nx)). split; [exact (tfind_In _ _ _ Eny)|]. split; [exact (tfind_In _ _ _ Euy)|]. split.
    + intros r. rewrite filter_In. split.
      * intros [R O]. split; [exact R|]. unfold ownedb in O. apply existsb_exists in O. destruct O as (u & Iu & O). apply veqb_eq in O. destruct O as [O1 O2]. exists u, (get (B "user") r). split; [exact Iu|]. split; [exact O2|]. split.
        -- rewrite O1. apply get_In. rewrite (proj1 (row_keys now v x user_t ux u ltac:(lia) V C Eux Iu)). exact Hn.
        -- apply get_In. rewrite (proj1 (row_keys now v x network_t nx r ltac:(lia) V C Enx R)). exact Hu.
      * intros (R & u & name & Iu & Nm & I1 & I2). split; [exact R|]. unfold ownedb. apply existsb_exists. exists u. split; [exact Iu|]. apply veqb_eq.
        rewrite (In_get r _ _ (proj2 (row_keys now v x network_t nx r ltac:(lia) V C Enx R)) I2), (In_get u _ _ (proj2 (row_keys now v x user_t ux u ltac:(lia) V C Eux Iu)) I1). auto.
    + assert (F1 : Forall2 (orow now network_t) (filter (ownedb (t_rows ux)) (t_rows nx)) (filter (ownedb (t_rows ub)) (t_rows nb))).
      { apply Forall2_filter; [exact Fnb|]. intros r rb R Rb K. unfold ownedb. rewrite <- (Gu r rb R Rb K). apply (existsb_Forall2 (orow now user_t)); [exact Fub|]. intros u u' I I' K'. rewrite (Gn u u' I I' K'). reflexivity. }
      assert (F2 : Forall2 (fun r r'' => exists rb rc, In rb (t_rows nb) /\ orow now network_t r rb /\ nrow now (t_rows ub) rb rc /\ krow now network_t [] rc r'') (filter (ownedb (t_rows ux)) (t_rows nx)) (t_rows ny)).
      { assert (G : Forall2 (fun r rb => In rb (t_rows nb) /\ orow now network_t r rb) (filter (ownedb (t_rows ux)) (t_rows nx)) (filter (ownedb (t_rows ub)) (t_rows nb))).
        { apply (Forall2_impl_In (orow now network_t)); [|exact F1]. intros r rb _ Ib K. apply filter_In in Ib. split; [exact (proj1 Ib)|exact K]. }
        assert (G2 : Forall2 (fun r rc => exists rb, In rb (t_rows nb) /\ orow now network_t r rb /\ nrow now (t_rows ub) rb rc) (filter (ownedb (t_rows ux)) (t_rows nx)) (t_rows nc)).
        { apply (Forall2_trans (fun r rb => In rb (t_rows nb) /\ orow now network_t r rb) (nrow now (t_rows ub)) _ _ (filter (ownedb (t_rows ub)) (t_rows nb)) _); [|exact G|exact Fn]. intros r rb rc [I A] B'. exists rb. auto. }
        apply (Forall2_trans (fun r rc => exists rb, In rb (t_rows nb) /\ orow now network_t r rb /\ nrow now (t_rows ub) rb rc) (krow now network_t []) _ _ (t_rows nc) _); [|exact G2|exact Fny]. intros r rc ry (rb & I & A & B') K. exists rb, rc. auto. }
      apply (Forall2_impl_In _ _ _ _ ) with (2 := F2). intros r r'' Ir Iy (rb & rc & Ib & K0 & [K2 (u & Iu & Eu & Wu)] & K3). pose proof (proj1 K0) as K1. apply filter_In in Ir. destruct Ir as [Ir _].
      assert (Kr : map fst r = names nx) by exact (proj1 (row_keys now v x network_t nx r ltac:(lia) V C Enx Ir)). split.
      * apply (krow_kept now network_t _ ny); [intros c0 v0 A; exact (complete_names now y network_t ny c0 v0 Vy Eny A)|exact (proj1 (row_keys now 25 y network_t ny r'' (le_n _) Vy Cy Eny Iy))|].
        assert (NU : forall c0 v0, added now network_t c0 v0 -> ~ In c0 [B "user"]) by (intros c0 v0 A [<-|[]]; apply added_In in A; destruct A as (d0 & A & _); revert A; vm_compute; intuition discriminate).
        pose proof (krow_trans now network_t _ _ _ _ _ NU K1 K2) as K12. pose proof (krow_trans now network_t _ [] _ _ _ (fun _ _ _ H => H) K12 K3) as [Ka Kb]. split; [|exact Kb].
        intros c0 v0 N I. apply Ka; [|exact I]. cbn [app In]. intros [X|[X|[]]]; [apply Hr; rewrite <- Kr, X; exact (in_map fst _ _ I)|apply N; left; exact X].
      * destruct (Forall2_In_l _ _ _ u Fuy Iu) as (u' & Iu' & Ku). apply veqb_eq in Eu. destruct Eu as [Eu _]. exists u', (get (B "user") r), (get (B "id") u). split; [exact Iu'|]. split; [apply get_In; rewrite Kr; exact Hu|].
        assert (Ku2 : map fst u = names ub) by exact (proj1 (row_keys now 7 b user_t ub u ltac:(lia) Vb Cb Eub Iu)). rewrite Nub in Ku2. split; [|split].
        -- apply (proj1 Ku); [intros []|]. rewrite <- (Gu r rb Ir Ib K0), Eu. apply get_In. rewrite Ku2. right. left. reflexivity.
        -- apply (proj1 Ku); [intros []|]. apply get_In. rewrite Ku2. left. reflexivity.
        -- apply (proj1 K3); [intros []|exact Wu].
Qed.

(** ** Upgrades that fail *)
Definition fk_eqb (a b : fkey) : bool := beqb (f_col a) (f_col b) && beqb (f_table a) (f_table b) && beqb (f_key a) (f_key b) && Bool.eqb (f_cascade a) (f_cascade b).
Lemma fk_eqb_eq a b : fk_eqb a b = true -> a = b.
Proof.
  destruct a as [a1 a2 a3 a4], b as [b1 b2 b3 b4]. unfold fk_eqb. cbn [f_col f_table f_key f_cascade]. intros H. apply andb_prop in H. destruct H as [H H4]. apply andb_prop in H. destruct H as [H H3]. apply andb_prop in H. destruct H as [H1 H2].
  apply beqb_eq in H1, H2, H3. apply Bool.eqb_prop in H4. subst. reflexivity.
Qed.
Definition has_fk (d : dialect) (now : value) (v1 : list stmt) (ms : list (list stmt)) (v : nat) (n : bytes) (f : fkey) : bool :=
  match exec_all d now (v1 ++ concat (firstn v ms)) (Db [] []) with Some z => match tfind n (d_tables z) with Some t => existsb (fk_eqb f) (t_fks t) | None => true end | None => true end.
Lemma schema_fk d now v1 ms v x n t f : of_version d now v1 ms v x -> tfind n (d_tables x) = Some t -> has_fk d now v1 ms v n f = true -> In f (t_fks t).
Proof.
  unfold of_version, has_fk. intros -> E. rewrite erased_eq. cbn [d_tables]. rewrite tfind_erase, E. cbn [option_map blank t_fks]. rewrite existsb_exists. intros (g & I & H). apply fk_eqb_eq in H. subst. exact I.
Qed.
Definition used (x : db) : Prop := exists n t r networks w v, (n = channel_t \/ n = delivery_t) /\ tfind n (d_tables x) = Some t /\ In r (t_rows t) /\ In (B "network", v) r /\ v <> Null /\
  tfind network_t (d_tables x) = Some networks /\ In w (t_rows networks) /\ In (B "id", v) w.
Lemma stuck now i b : i = 7 \/ i = 13 -> of_version Sqlite now sqlite_v1 sqlite_migrations i b -> conforms b -> used b -> exec_all Sqlite now (nth i sqlite_migrations []) b = None.
Proof.
  intros I V C (n & t & r & networks & w & v & Hn & Et & R & Rn & Nn & En & W & Wi). destruct (exec_all Sqlite now (nth i sqlite_migrations []) b) as [y|] eqn:E; [|reflexivity]. exfalso.
  assert (L : i <= 25) by lia. assert (F : In (fk (B "network") network_t) (t_fks t)).
  { apply (schema_fk _ _ _ _ _ _ n t _ V Et). destruct I as [-> | ->], Hn as [-> | ->]; vm_compute; reflexivity. }
  assert (G : existsb (refers (fk (B "network") network_t) r) (t_rows networks) = false).
  { assert (Nt : n <> network_t) by (destruct Hn as [-> | ->]; discriminate). destruct I as [-> | ->].
    - change (nth 7 sqlite_migrations []) with migration7 in E. unfold migration7 in E.
      assert (J : forall t0 c1 c2, Some (user_t, B "user", B "username") = Some (t0, c1, c2) -> t0 <> network_new) by (intros t0 c1 c2 X; injection X as <- _ _; discriminate).
      destruct (rebuild _ _ _ _ _ _ _ _ _ _ _ E ltac:(discriminate) J) as (_ & s & t' & Es & _ & _ & _ & _ & _ & _ & Rf & _). rewrite En in Es. injection Es as <-. exact (Rf eq_refl n t (tfind_In _ _ _ Et) Nt _ r F eq_refl R).
    - change (nth 13 sqlite_migrations []) with migration13 in E. unfold migration13 in E.
      destruct (rebuild _ _ _ _ _ _ _ _ _ _ _ E ltac:(discriminate) ltac:(discriminate)) as (_ & s & t' & Es & _ & _ & _ & _ & _ & _ & Rf & _). rewrite En in Es. injection Es as <-. exact (Rf eq_refl n t (tfind_In _ _ _ Et) Nt _ r F eq_refl R). }
  apply Bool.not_true_iff_false in G. apply G. apply existsb_exists. exists w. split; [exact W|]. unfold refers. cbn [fk f_col f_key]. apply veqb_eq.
  rewrite (In_get r _ _ (proj2 (row_keys now i b n t r L V C Et R)) Rn), (In_get w _ _ (proj2 (row_keys now i b network_t networks w L V C En W)) Wi). auto.
Qed.
Lemma used_front now x y : front now x y -> used x -> used y.
Proof.
  intros Fr (n & t & r & networks & w & v & Hn & Et & R & Rn & Nn & En & W & Wi). destruct (Fr n t Et) as (t' & Et' & F). destruct (Fr _ _ En) as (networks' & En' & Fn).
  destruct (Forall2_In_l _ _ _ r F R) as (r' & R' & [[K _] _]). destruct (Forall2_In_l _ _ _ w Fn W) as (w' & W' & [[K' _] _]).
  exists n, t', r', networks', w', v. repeat (split; [assumption|]). split; [apply K; [intros [X|[]]; discriminate X|exact Rn]|]. repeat (split; [assumption|]). apply K'; [intros [X|[]]; discriminate X|exact Wi].
Qed.
Lemma used_keeps now x y : keeps now [] x y -> used x -> used y.
Proof.
  intros Fr (n & t & r & networks & w & v & Hn & Et & R & Rn & Nn & En & W & Wi). destruct (Fr n t Et (fun H => H)) as (t' & Et' & F). destruct (Fr _ _ En (fun H => H)) as (networks' & En' & Fn).
  destruct (Forall2_In_l _ _ _ r F R) as (r' & R' & [K _]). destruct (Forall2_In_l _ _ _ w Fn W) as (w' & W' & [K' _]).
  exists n, t', r', networks', w', v. repeat (split; [assumption|]). split; [apply K; [intros []|exact Rn]|]. repeat (split; [assumption|]). apply K'; [intros []|exact Wi].
Qed.
Lemma sqlite_fails now v x : 1 <= v <= 13 -> of_version Sqlite now sqlite_v1 sqlite_migrations v x -> conforms x -> in_use x ->
  upgrade Sqlite now sqlite_schema sqlite_migrations (File v x) = (false, File v x).
Proof.
  intros L V C (n & t & r & networks & w & u & Hn & It & R & Rn & Nn & Iw & W & Wi). destruct (distinct_tables _ _ _ _ _ _ (sqlite_distinct now v ltac:(lia)) V) as [D _].
  assert (Us : used x) by (exists n, t, r, networks, w, u; repeat (split; [first [assumption|apply In_tfind; assumption]|]); exact Wi). clear - L V C Us.
  assert (E : exec_all Sqlite now (concat (skipn v sqlite_migrations)) x = None).
  { destruct (le_lt_dec v 7) as [L7'|L8].
    - assert (S : skipn v sqlite_migrations = firstn (7 - v) (skipn v sqlite_migrations) ++ nth 7 sqlite_migrations [] :: skipn 8 sqlite_migrations) by (do 8 (destruct v as [|v]; [first [lia|reflexivity]|]); lia).
      rewrite S, concat_app, exec_all_app. destruct (exec_all Sqlite now (concat (firstn (7 - v) (skipn v sqlite_migrations))) x) as [b|] eqn:Eb; [|reflexivity]. cbn [concat]. rewrite exec_all_app.
      destruct (sqlite_front now v x b ltac:(lia) V C Eb) as (Fr & Cb & Vb). rewrite (stuck now 7 b ltac:(auto) Vb Cb (used_front _ _ _ Fr Us)). reflexivity.
    - assert (S : skipn v sqlite_migrations = firstn (13 - v) (skipn v sqlite_migrations) ++ nth 13 sqlite_migrations [] :: skipn 14 sqlite_migrations) by (do 14 (destruct v as [|v]; [first [lia|reflexivity]|]); lia).
      rewrite S, concat_app, exec_all_app. destruct (exec_all Sqlite now (concat (firstn (13 - v) (skipn v sqlite_migrations))) x) as [b|] eqn:Eb; [|reflexivity]. cbn [concat]. rewrite exec_all_app.
      destruct (chain Sqlite now sqlite_v1 sqlite_migrations [] (13 - v) v x b ltac:(change (length sqlite_migrations) with 25; lia) ltac:(intros i I; apply sqlite_steps; lia) V C Eb) as (Ke & Cb & Vb). replace (v + (13 - v)) with 13 in Vb by lia.
      rewrite (stuck now 13 b ltac:(auto) Vb Cb (used_keeps _ _ _ Ke Us)). reflexivity. }
  unfold upgrade. cbn [version contents]. change (length sqlite_migrations) with 25. rewrite (proj2 (Nat.eqb_neq v 25)) by lia. rewrite (proj2 (Nat.ltb_ge 25 v)) by lia. rewrite (proj2 (Nat.eqb_neq v 0)) by lia. rewrite E. reflexivity.
Qed.

(** ** Upgrades that succeed *)
Definition sonly (now : value) (s : stmt) : bool :=
  match s with
  | Create _ _ _ _ | Object _ | Clear _ => true
  | AddColumn _ c _ => negb (c_notnull c && is_null (eval_default now (c_default c)))
  | SetNotNull _ _ b => negb b
  | _ => false
  end.
Lemma sonly_exec d now s x z : sonly now s = true -> exec d now s (erased x) = Some z -> exists y, exec d now s x = Some y.
Proof.
  rewrite erased_eq. destruct s as [n cols us fks|n c fk|n es src joined|n|a b|n c|n c k t k2 c2|n|n c b|n c ty vs|o]; cbn [sonly]; intros S; try discriminate S; cbn [exec d_tables d_objects]; rewrite ?tfind_erase.
  - destruct (tfind n (d_tables x)); [discriminate|]. eauto.
  - destruct (tfind n (d_tables x)) as [t|]; cbn [option_map]; [|discriminate]. change (names (blank t)) with (names t). destruct (bmem (c_name c) (names t)); [discriminate|].
    destruct (c_notnull c && is_null (eval_default now (c_default c))); [discriminate|]. cbn [andb]. eauto.
  - destruct (tfind n (d_tables x)); [|discriminate]. eauto.
  - destruct (tfind n (d_tables x)) as [t|]; cbn [option_map]; [|discriminate]. change (names (blank t)) with (names t). destruct (bmem c (names t)); [|discriminate]. destruct b; [discriminate|]. rewrite !(forallb_true (fun r : row => negb (false && is_null (get c r)))) by reflexivity. cbn [andb]. eauto.
  - destruct (bmem o (d_objects x)); [discriminate|]. eauto.
Qed.
Lemma sonly_all d now l x z : forallb (sonly now) l = true -> exec_all d now l (erased x) = Some z -> exists y, exec_all d now l x = Some y.
Proof.
  revert x z. induction l as [|s l IH]; intros x z; cbn [forallb exec_all]; [eauto|]. intros H. apply andb_prop in H. destruct H as [H1 H2]. destruct (exec d now s (erased x)) as [z1|] eqn:E; [|discriminate].
  destruct (sonly_exec _ _ _ _ _ H1 E) as (y & Ey). rewrite Ey. rewrite (exec_erased _ _ _ _ _ Ey) in E. injection E as <-. apply IH. exact H2.
Qed.
Definition runs d now v1 ms i : bool := match exec_all d now (v1 ++ concat (firstn i ms)) (Db [] []) with Some _ => true | None => false end.
Lemma schema_next d now v1 ms i x : of_version d now v1 ms i x -> i < length ms -> runs d now v1 ms (S i) = true -> exists z, exec_all d now (nth i ms []) (erased x) = Some z.
Proof.
  unfold of_version, runs. intros V L. assert (F : firstn (S i) ms = firstn i ms ++ [nth i ms []]).
  { clear V. revert i L. induction ms as [|m ms IH]; intros v L; [cbn in L; lia|]. destruct v; [reflexivity|]. cbn [firstn nth app]. rewrite <- (IH v); [reflexivity|cbn in L; lia]. }
  rewrite F, concat_app, app_assoc, exec_all_app, V. cbn [concat]. rewrite app_nil_r. destruct (exec_all d now (nth i ms []) (erased x)); [eauto|discriminate].
Qed.
Definition step_runs d now v1 ms (P : nat -> db -> Prop) i := forall x,
  of_version d now v1 ms i x -> conforms x -> P i x -> exists y, exec_all d now (nth i ms []) x = Some y /\ conforms y /\ P (S i) y.
Lemma chain_runs d now v1 ms P k : forall v x,
  v + k <= length ms -> (forall i, v <= i < v + k -> step_runs d now v1 ms P i) -> of_version d now v1 ms v x -> conforms x -> P v x ->
  exists y, exec_all d now (concat (firstn k (skipn v ms))) x = Some y.
Proof.
  induction k as [|k IH]; intros v x L G V C Px; [cbn [firstn concat exec_all]; eauto|]. rewrite (nth_skipn [] v ms) by lia. cbn [firstn concat]. rewrite exec_all_app.
  destruct (G v ltac:(lia) x V C Px) as (y & E & C' & Py). rewrite E. apply (IH (S v)); [lia|intros i I; apply G; lia|exact (version_step _ _ _ _ _ _ _ V ltac:(lia) E)|exact C'|exact Py].
Qed.
Lemma upgrade_ok d now schema ms v x y : 1 <= v < length ms -> exec_all d now (concat (skipn v ms)) x = Some y -> upgrade d now schema ms (File v x) = (true, File (length ms) y).
Proof.
  intros L E. unfold upgrade. cbn [version contents]. rewrite (proj2 (Nat.eqb_neq v (length ms))) by lia. rewrite (proj2 (Nat.ltb_ge (length ms) v)) by lia. rewrite (proj2 (Nat.eqb_neq v 0)) by lia. rewrite E. reflexivity.
Qed.

(** PostgreSQL *)
Definition mechanisms (x : db) : Prop := forall t r, tfind network_t (d_tables x) = Some t -> In r (t_rows t) -> match get (B "sasl_mechanism") r with Null => True | Text b => b = B "PLAIN" \/ b = B "EXTERNAL" | _ => False end.
Definition pinv (i : nat) (x : db) : Prop := i <= 2 -> mechanisms x.
Lemma postgres_runs now i : i <= 15 -> runs Postgres now postgres_v1 postgres_migrations i = true.
Proof. intros L. do 16 (destruct i as [|i]; [destruct now; vm_compute; reflexivity|]). lia. Qed.
Lemma postgres_step_runs now i : now <> Null -> 1 <= i < 15 -> step_runs Postgres now postgres_v1 postgres_migrations pinv i.
Proof.
  intros N L x V C P.
  assert (G : exists y, exec_all Postgres now (nth i postgres_migrations []) x = Some y /\ pinv (S i) y).
  { destruct (schema_next _ _ _ _ _ _ V ltac:(change (length postgres_migrations) with 15; lia) (postgres_runs now (S i) ltac:(lia))) as (z & Z).
    destruct (Nat.eq_dec i 1) as [->|N1].
    - destruct (sonly_all _ _ _ _ _ (eq_refl : forallb (sonly now) (nth 1 postgres_migrations []) = true) Z) as (y & E). exists y. split; [exact E|]. intros _ t r Et R. revert E. change (nth 1 postgres_migrations []) with [SetNotNull network_t (B "nick") false].
      cbn [exec_all exec]. destruct (tfind network_t (d_tables x)) as [t0|] eqn:E0; [|discriminate]. match goal with |- match (if ?c then _ else _) with _ => _ end = _ -> _ => destruct c; [|discriminate] end. intros E. injection E as <-. cbn [d_tables] in Et. rewrite tfind_tset, beqb_refl, E0 in Et. injection Et as <-.
      exact (P ltac:(lia) t0 r E0 R).
    - destruct (Nat.eq_dec i 2) as [->|N2].
      + revert Z. change (nth 2 postgres_migrations []) with [mechanism; Retype network_t (B "sasl_mechanism") (B "sasl_mechanism") [B "PLAIN"; B "EXTERNAL"]]. rewrite erased_eq. unfold mechanism. cbn [exec_all exec d_tables d_objects].
        match goal with |- context [bmem ?o (d_objects x)] => destruct (bmem o (d_objects x)); [discriminate|] end. cbn [d_tables d_objects]. rewrite tfind_erase. destruct (tfind network_t (d_tables x)) as [t0|] eqn:E0; [|discriminate]. cbn [option_map]. change (names (blank t0)) with (names t0).
        destruct (bmem (B "sasl_mechanism") (names t0)); [|discriminate]. intros _. cbn [andb].
        assert (F : forallb (fun r : row => match get (B "sasl_mechanism") r with Null => true | Text b => bmem b [B "PLAIN"; B "EXTERNAL"] | _ => false end) (t_rows t0) = true).
        { apply forallb_forall. intros r R. specialize (P ltac:(lia) t0 r E0 R). destruct (get (B "sasl_mechanism") r); [reflexivity|destruct P| |destruct P]. apply bmem_In. destruct P as [-> | ->]; [left|right; left]; reflexivity. }
        rewrite F. eexists. split; [reflexivity|]. intros X. lia.
      + assert (H : exists y, exec_all Postgres now (nth i postgres_migrations []) x = Some y); [|destruct H as (y & E); exists y; split; [exact E|intros X; lia]].
        destruct (Nat.eq_dec i 7) as [->|N7].
        * revert Z. change (nth 7 postgres_migrations []) with [Clear subscription_t; SetNotNull subscription_t (B "user") true]. rewrite erased_eq. cbn [exec_all exec d_tables d_objects]. rewrite tfind_erase. destruct (tfind subscription_t (d_tables x)) as [t0|] eqn:E0; [|discriminate].
          cbn [option_map d_tables]. rewrite !tfind_tset, beqb_refl, tfind_erase, E0. cbn [option_map]. change (names (with_rows (blank t0) [])) with (names t0). change (names (with_rows t0 [])) with (names t0). destruct (bmem (B "user") (names t0)); [|discriminate]. intros _. cbn [andb with_rows t_rows forallb]. eauto.
        * apply (sonly_all _ _ _ _ z); [|exact Z]. destruct now as [|nz|nb|nb]; [congruence| | |]; (do 15 (destruct i as [|i]; [first [lia|vm_compute; reflexivity]|]); lia). }
  destruct G as (y & E & Py). exists y. split; [exact E|]. split; [|exact Py]. exact (proj2 (postgres_steps now i ltac:(lia) x y V C E)).
Qed.
Lemma postgres_succeeds now v x : now <> Null -> 1 <= v < 15 -> of_version Postgres now postgres_v1 postgres_migrations v x -> conforms x -> (v <= 2 -> mechanisms x) ->
  exists y, upgrade Postgres now postgres_schema postgres_migrations (File v x) = (true, File 15 y).
Proof.
  intros N L V C P. destruct (chain_runs Postgres now postgres_v1 postgres_migrations pinv (15 - v) v x ltac:(change (length postgres_migrations) with 15; lia) ltac:(intros i I; apply postgres_step_runs; [exact N|lia]) V C P) as (y & E).
  exists y. change 15 with (length postgres_migrations) in E. rewrite firstn_whole in E. exact (upgrade_ok _ _ _ _ _ _ _ (L : 1 <= v < length postgres_migrations) E).
Qed.

(** SQLite *)
Definition sinv (i : nat) (x : db) : Prop := i <= 16 -> forall nt ut r, tfind network_t (d_tables x) = Some nt -> tfind user_t (d_tables x) = Some ut -> In r (t_rows nt) ->
  get (B "user") r = Null \/ existsb (fun u => veqb (get (B "user") r) (get (B "id") u)) (t_rows ut) = true.
Lemma sqlite_runs now i : i <= 25 -> runs Sqlite now sqlite_v1 sqlite_migrations i = true.
Proof. intros L. do 26 (destruct i as [|i]; [vm_compute; reflexivity|]). lia. Qed.
Lemma create_find d now n cols us fks x y m t : exec d now (Create n cols us fks) x = Some y -> m <> n -> tfind m (d_tables y) = Some t -> tfind m (d_tables x) = Some t.
Proof. cbn [exec]. destruct (tfind n (d_tables x)); [discriminate|]. intros E. injection E as <-. intros N. cbn [d_tables]. rewrite tfind_app. cbn [tfind]. rewrite (proj2 (beqb_neq m n) N). destruct (tfind m (d_tables x)); [auto|discriminate]. Qed.
Lemma get_last c v (r : row) : ~ In c (map fst r) -> get c (r ++ [(c, v)]) = v.
Proof. induction r as [|[k u] r IH]; cbn [map fst app get]; intros N; [rewrite beqb_refl; reflexivity|]. rewrite (proj2 (beqb_neq c k)); [|intros ->; apply N; left; reflexivity]. apply IH. intros I. apply N. right. exact I. Qed.

Lemma bmem_one (a b : bytes) : a <> b -> bmem a [b] = false.
Proof. intros N. apply Bool.not_true_iff_false. intros H. apply bmem_In in H. destruct H as [H|[]]. congruence. Qed.
Lemma sqlite_run16 now x : of_version Sqlite now sqlite_v1 sqlite_migrations 16 x -> conforms x -> sinv 16 x -> exists y, exec_all Sqlite now (nth 16 sqlite_migrations []) x = Some y.
Proof.
  intros V C P.
  change (nth 16 sqlite_migrations []) with [AddColumn subscription_t (nul (B "user") IN) (Some (fk (B "user") user_t)); SetFrom subscription_t (B "user") (B "network") network_t (B "id") (B "user")].
  assert (E1 : exists x1, exec Sqlite now (AddColumn subscription_t (nul (B "user") IN) (Some (fk (B "user") user_t))) x = Some x1).
  { destruct (schema_next _ _ _ _ _ _ V ltac:(change (length sqlite_migrations) with 25; lia) (sqlite_runs now 17 ltac:(lia))) as (z & Z). revert Z.
    change (nth 16 sqlite_migrations []) with [AddColumn subscription_t (nul (B "user") IN) (Some (fk (B "user") user_t)); SetFrom subscription_t (B "user") (B "network") network_t (B "id") (B "user")].
    cbn [exec_all]. destruct (exec Sqlite now _ (erased x)) as [z1|] eqn:E1; [|discriminate]. intros _. refine (sonly_exec Sqlite now _ x z1 _ E1). reflexivity. }
  destruct E1 as (x1 & E1). destruct (filled _ _ _ _ _ _ _ C E1) as (t & Et & N & O & T). cbn [exec_all]. rewrite E1. cbn [exec]. rewrite T, !tfind_tset, beqb_refl, Et. change (beqb network_t subscription_t) with false. cbv iota.
  destruct (schema_has _ _ _ _ _ _ network_t _ V ltac:(vm_compute; reflexivity)) as (nt & En & Nn). destruct (schema_has _ _ _ _ _ _ user_t _ V ltac:(vm_compute; reflexivity)) as (ut & Eu & Nu). destruct (schema_has _ _ _ _ _ _ subscription_t _ V ltac:(vm_compute; reflexivity)) as (t' & Et' & Ns).
  rewrite Et in Et'. injection Et' as <-. rewrite En.
  match goal with |- exists y, match (if ?b && ?v then _ else _) with _ => _ end = _ => assert (Hb : b = true); [|assert (Hv : v = true); [|rewrite Hb, Hv; cbn [andb]; eauto]] end.
  - unfold names in *. cbn [t_cols]. rewrite map_app, Ns, Nn. vm_compute. reflexivity.
  - unfold valid_on. cbn [with_rows t_cols t_uniques t_fks t_rows]. rewrite !andb_true_iff. split; [split|].
    + apply forallb_forall. intros c I. apply in_app_or in I. destruct I as [I|[<-|[]]]; [|reflexivity]. destruct (beqb_spec (c_name c) (B "user")) as [Q|Q]; [exfalso; apply N; cbn [c_name nul]; rewrite <- Q; exact (in_map c_name _ _ I)|].
      rewrite (bmem_one _ _ Q). reflexivity.
    + apply forallb_forall. intros u I. assert (F : forall c, In c u -> c <> B "user").
      { pose proof V as V2. unfold of_version in V2. intros c Ic ->. assert (G : match exec_all Sqlite now (sqlite_v1 ++ concat (firstn 16 sqlite_migrations)) (Db [] []) with Some z => match tfind subscription_t (d_tables z) with Some t => forallb (fun u => negb (bmem (B "user") u)) (t_uniques t) | None => false end | None => false end = true) by (vm_compute; reflexivity).
        rewrite V2, erased_eq in G. cbn [d_tables] in G. rewrite tfind_erase, Et in G. cbn [option_map blank t_uniques] in G. rewrite forallb_forall in G. specialize (G u I). apply bmem_In in Ic. rewrite Ic in G. discriminate. }
      replace (existsb (fun c => bmem c [B "user"]) u) with false; [reflexivity|]. symmetry. apply Bool.not_true_iff_false. rewrite existsb_exists. intros (c & Ic & M). apply bmem_In in M. destruct M as [M|[]]. exact (F c Ic (eq_sym M)).
    + apply forallb_forall. intros f I. destruct (bmem (f_col f) [B "user"]) eqn:M; [|reflexivity]. cbn [negb orb]. apply bmem_In in M. destruct M as [M|[]]. apply in_app_or in I. destruct I as [I|[<-|[]]].
      { exfalso. assert (G : match exec_all Sqlite now (sqlite_v1 ++ concat (firstn 16 sqlite_migrations)) (Db [] []) with Some z => match tfind subscription_t (d_tables z) with Some t => forallb (fun f => negb (beqb (B "user") (f_col f))) (t_fks t) | None => false end | None => false end = true) by (vm_compute; reflexivity).
        unfold of_version in V. rewrite V, erased_eq in G. cbn [d_tables] in G. rewrite tfind_erase, Et in G. cbn [option_map blank t_fks] in G. rewrite forallb_forall in G. specialize (G f I). rewrite <- M, beqb_refl in G. discriminate. }
      apply forallb_forall. intros r R. rewrite map_map in R. apply in_map_iff in R. destruct R as (r0 & <- & R). unfold fk_ok. cbn [fk f_col f_table]. rewrite put_last by exact (not_in_row _ _ _ _ _ C Et R N). rewrite get_last by exact (not_in_row _ _ _ _ _ C Et R N).
      rewrite !tfind_tset. change (beqb user_t subscription_t) with false. cbv iota. rewrite Eu.
      destruct (find _ (t_rows nt)) as [r2|] eqn:Fi; [|reflexivity]. apply find_some in Fi. destruct Fi as [I2 _]. destruct (P ltac:(lia) nt ut r2 En Eu I2) as [Z|Z]; [rewrite Z; reflexivity|]. apply orb_true_iff. right.
      rewrite existsb_exists in Z |- *. destruct Z as (u & Iu & Z). exists u. split; [exact Iu|]. unfold refers. cbn [fk f_col f_key]. rewrite get_last by exact (not_in_row _ _ _ _ _ C Et R N). exact Z.
Qed.
Lemma sqlite_run20 now x : now <> Null -> of_version Sqlite now sqlite_v1 sqlite_migrations 20 x -> conforms x -> exists y, exec_all Sqlite now (nth 20 sqlite_migrations []) x = Some y.
Proof.
  intros NN V C. change (nth 20 sqlite_migrations []) with [AddColumn user_t (dfl (B "created_at") TX (Text [])) None; SetNow user_t (B "created_at")].
  assert (E1 : exists x1, exec Sqlite now (AddColumn user_t (dfl (B "created_at") TX (Text [])) None) x = Some x1).
  { destruct (schema_next _ _ _ _ _ _ V ltac:(change (length sqlite_migrations) with 25; lia) (sqlite_runs now 21 ltac:(lia))) as (z & Z). revert Z.
    change (nth 20 sqlite_migrations []) with [AddColumn user_t (dfl (B "created_at") TX (Text [])) None; SetNow user_t (B "created_at")].
    cbn [exec_all]. destruct (exec Sqlite now _ (erased x)) as [z1|] eqn:E1; [|discriminate]. intros _. refine (sonly_exec Sqlite now _ x z1 _ E1). reflexivity. }
  destruct E1 as (x1 & E1). destruct (filled _ _ _ _ _ _ _ C E1) as (t & Et & N & O & T). cbn [exec_all]. rewrite E1. cbn [exec]. rewrite T, !tfind_tset, beqb_refl, Et.
  match goal with |- exists y, match (if ?b && ?v then _ else _) with _ => _ end = _ => assert (Hb : b = true); [|assert (Hv : v = true); [|rewrite Hb, Hv; cbn [andb]; eauto]] end.
  - unfold names. cbn [t_cols]. rewrite map_app. apply bmem_In. apply in_or_app. right. left. reflexivity.
  - assert (G : match exec_all Sqlite now (sqlite_v1 ++ concat (firstn 20 sqlite_migrations)) (Db [] []) with Some z => match tfind user_t (d_tables z) with Some t => forallb (fun u => negb (bmem (B "created_at") u)) (t_uniques t) && forallb (fun f => negb (beqb (B "created_at") (f_col f))) (t_fks t) | None => false end | None => false end = true) by (vm_compute; reflexivity).
    unfold of_version in V. rewrite V, erased_eq in G. cbn [d_tables] in G. rewrite tfind_erase, Et in G. cbn [option_map blank t_fks t_uniques] in G. apply andb_prop in G. destruct G as [G1 G2].
    unfold valid_on. cbn [with_rows t_cols t_uniques t_fks t_rows]. rewrite app_nil_r, !andb_true_iff. split; [split|].
    + apply forallb_forall. intros c I. destruct (beqb_spec (c_name c) (B "created_at")) as [Q|Q]; [|rewrite (bmem_one _ _ Q); reflexivity].
      apply orb_true_iff. right. apply forallb_forall. intros r R. rewrite map_map in R. apply in_map_iff in R. destruct R as (r0 & <- & R). rewrite Q. rewrite put_last by exact (not_in_row _ _ _ _ _ C Et R N).
      rewrite get_last by exact (not_in_row _ _ _ _ _ C Et R N). destruct now; [congruence| | |]; reflexivity.
    + apply forallb_forall. intros u I. rewrite forallb_forall in G1. specialize (G1 u I). replace (existsb (fun c => bmem c [B "created_at"]) u) with false; [reflexivity|]. symmetry. apply Bool.not_true_iff_false. rewrite existsb_exists.
      intros (c & Ic & M). apply bmem_In in M. destruct M as [M|[]]. subst c. apply bmem_In in Ic. rewrite Ic in G1. discriminate.
    + apply forallb_forall. intros f I. rewrite forallb_forall in G2. specialize (G2 f I). destruct (bmem (f_col f) [B "created_at"]) eqn:M; [|reflexivity]. exfalso. apply bmem_In in M. destruct M as [M|[]]. rewrite <- M, beqb_refl in G2. discriminate.
Qed.
Lemma sqlite_step_runs now i : now <> Null -> 14 <= i < 25 -> step_runs Sqlite now sqlite_v1 sqlite_migrations sinv i.
Proof.
  intros N L x V C P. assert (G : exists y, exec_all Sqlite now (nth i sqlite_migrations []) x = Some y /\ sinv (S i) y).
  { destruct (schema_next _ _ _ _ _ _ V ltac:(change (length sqlite_migrations) with 25; lia) (sqlite_runs now (S i) ltac:(lia))) as (z & Z).
    destruct (Nat.eq_dec i 14) as [->|N14]; [|destruct (Nat.eq_dec i 15) as [->|N15]].
    - destruct (sonly_all _ _ _ _ _ (eq_refl : forallb (sonly now) (nth 14 sqlite_migrations []) = true) Z) as (y & E). exists y. split; [exact E|]. intros _ nt ut r En Eu R. revert E. change (nth 14 sqlite_migrations []) with [read_receipt]. unfold read_receipt. cbn [exec_all].
      destruct (exec Sqlite now _ x) as [x1|] eqn:E1; [|discriminate]. intros E. injection E as <-. 
      apply (P ltac:(lia) nt ut r); [apply (create_find _ _ _ _ _ _ _ _ _ _ E1); [discriminate|exact En]|apply (create_find _ _ _ _ _ _ _ _ _ _ E1); [discriminate|exact Eu]|exact R].
    - destruct (sonly_all _ _ _ _ _ (eq_refl : forallb (sonly now) (nth 15 sqlite_migrations []) = true) Z) as (y & E). exists y. split; [exact E|]. intros _ nt ut r En Eu R. revert E. unfold sqlite_migrations. cbn [nth]. unfold webpush_config. cbn [exec_all].
      destruct (exec Sqlite now _ x) as [x1|] eqn:E1; [|discriminate]. destruct (exec Sqlite now _ x1) as [x2|] eqn:E2; [|discriminate]. intros E. injection E as <-.
      apply (P ltac:(lia) nt ut r); [apply (create_find _ _ _ _ _ _ _ _ _ _ E1); [discriminate|]; apply (create_find _ _ _ _ _ _ _ _ _ _ E2); [discriminate|exact En]|apply (create_find _ _ _ _ _ _ _ _ _ _ E1); [discriminate|]; apply (create_find _ _ _ _ _ _ _ _ _ _ E2); [discriminate|exact Eu]|exact R].
    - assert (H : exists y, exec_all Sqlite now (nth i sqlite_migrations []) x = Some y); [|destruct H as (y & E); exists y; split; [exact E|intros X; lia]].
      destruct (Nat.eq_dec i 16) as [->|N16]; [exact (sqlite_run16 now x V C P)|]. destruct (Nat.eq_dec i 20) as [->|N20]; [exact (sqlite_run20 now x N V C)|].
      apply (sonly_all _ _ _ _ z); [|exact Z]. do 25 (destruct i as [|i]; [first [vm_compute; reflexivity|exfalso; lia]|]). lia. }
  destruct G as (y & E & Py). exists y. split; [exact E|]. split; [|exact Py]. exact (proj2 (sqlite_steps now i ltac:(lia) ltac:(lia) ltac:(lia) x y V C E)).
Qed.
Lemma sqlite_succeeds now v x : now <> Null -> 14 <= v < 25 -> of_version Sqlite now sqlite_v1 sqlite_migrations v x -> conforms x -> consistent x ->
  exists y, upgrade Sqlite now sqlite_schema sqlite_migrations (File v x) = (true, File 25 y).
Proof.
  intros N L V C K. assert (P : sinv v x).
  { intros L16 nt ut r En Eu R. assert (F : In (fk (B "user") user_t) (t_fks nt)) by (apply (schema_fk _ _ _ _ _ _ network_t nt _ V En); do 17 (destruct v as [|v]; [first [lia|vm_compute; reflexivity]|]); lia).
    destruct (K _ _ r (tfind_In _ _ _ En) R) as [_ KF]. assert (I : In (B "user") (map fst r)).
    { rewrite (C _ _ r (tfind_In _ _ _ En) R : _ = names nt). assert (G : match schema_names Sqlite now sqlite_v1 sqlite_migrations v network_t with Some l => bmem (B "user") l | None => false end = true) by (do 17 (destruct v as [|v]; [first [lia|vm_compute; reflexivity]|]); lia).
      rewrite (schema_names_eq _ _ _ _ _ _ _ V), En in G. apply bmem_In. exact G. }
    destruct (KF _ _ F (get_In r _ I)) as [Z|(t' & r' & I1 & I2 & I3)]; [left; exact Z|]. destruct (distinct_tables _ _ _ _ _ _ (sqlite_distinct now v ltac:(lia)) V) as [D D2]. cbn [fk f_table f_key] in I1, I3. pose proof (In_tfind _ _ _ D I1) as E1. rewrite Eu in E1. injection E1 as <-.
    destruct (get (B "user") r) eqn:Gv; [left; reflexivity| | |]; right; apply existsb_exists; exists r'; (split; [exact I2|]); rewrite (In_get r' _ _ (proj2 (row_keys now v x user_t ut r' ltac:(lia) V C Eu I2)) I3); apply veqb_eq; split; [reflexivity|discriminate|reflexivity|discriminate|reflexivity|discriminate]. }
  destruct (chain_runs Sqlite now sqlite_v1 sqlite_migrations sinv (25 - v) v x ltac:(change (length sqlite_migrations) with 25; lia) ltac:(intros i I; apply sqlite_step_runs; [exact N|lia]) V C P) as (y & E).
  exists y. change 25 with (length sqlite_migrations) in E. rewrite firstn_whole in E. refine (upgrade_ok _ _ _ _ _ _ _ _ E). change (length sqlite_migrations) with 25. lia.
Qed.

(** ** Schemas *)
Lemma final_version d now schema v1 ms v x y w : 1 <= v < length ms -> of_version d now v1 ms v x -> upgrade d now schema ms (File v x) = (true, File w y) -> of_version d now v1 ms (length ms) y.
Proof.
  intros L V U. destruct (upgraded _ _ _ _ _ _ _ _ L U) as [_ E]. unfold of_version in *. rewrite firstn_all. rewrite <- (firstn_skipn v ms) at 1. rewrite concat_app, app_assoc, exec_all_app, V. exact (exec_all_erased _ _ _ _ _ E).
Qed.
Definition subset {A} (dec : forall a b : A, {a = b} + {a <> b}) (a b : list A) : bool := forallb (fun x => if in_dec dec x b then true else false) a.
Lemma subset_same {A} dec (a b : list A) : subset dec a b && subset dec b a = true -> same_set a b.
Proof.
  intros H x. apply andb_prop in H. destruct H as [H1 H2]. unfold subset in *. rewrite forallb_forall in H1, H2. split; intros I; [specialize (H1 x I); destruct (in_dec dec x b); [assumption|discriminate]|specialize (H2 x I); destruct (in_dec dec x a); [assumption|discriminate]].
Qed.
Definition bdec : forall a b : bytes, {a = b} + {a <> b} := list_eq_dec Ascii.ascii_dec.
Definition vdec : forall a b : value, {a = b} + {a <> b}.
Proof. decide equality; try apply Z.eq_dec; apply bdec. Defined.
Definition ddec : forall a b : default, {a = b} + {a <> b}.
Proof. decide equality. apply vdec. Defined.
Definition cdec : forall a b : bytes * bytes * option (bool * default), {a = b} + {a <> b}.
Proof. decide equality; [decide equality; decide equality; [apply ddec|apply Bool.bool_dec]|decide equality; apply bdec]. Defined.
Definition fdec : forall a b : fkey, {a = b} + {a <> b}.
Proof. decide equality; try apply Bool.bool_dec; apply bdec. Defined.
Definition same_schemab (ty : bytes -> bytes) (but : list (bytes * bytes)) (x y : db) : bool :=
  subset bdec (d_objects x) (d_objects y) && subset bdec (d_objects y) (d_objects x) &&
  (subset bdec (map fst (d_tables x)) (map fst (d_tables y)) && subset bdec (map fst (d_tables y)) (map fst (d_tables x))) &&
  forallb (fun p => forallb (fun q => negb (beqb (fst p) (fst q)) ||
    (subset cdec (columns ty but (fst p) (snd p)) (columns ty but (fst p) (snd q)) && subset cdec (columns ty but (fst p) (snd q)) (columns ty but (fst p) (snd p)) &&
     (subset (list_eq_dec bdec) (t_uniques (snd p)) (t_uniques (snd q)) && subset (list_eq_dec bdec) (t_uniques (snd q)) (t_uniques (snd p))) &&
     (subset fdec (t_fks (snd p)) (t_fks (snd q)) && subset fdec (t_fks (snd q)) (t_fks (snd p))))) (d_tables y)) (d_tables x).
Lemma same_schemab_ok ty but x y : same_schemab ty but x y = true -> same_schema ty but x y.
Proof.
  unfold same_schemab. intros H. apply andb_prop in H. destruct H as [H H3]. apply andb_prop in H. destruct H as [H1 H2]. split; [exact (subset_same _ _ _ H1)|]. split; [exact (subset_same _ _ _ H2)|].
  intros n t t' I J. rewrite forallb_forall in H3. specialize (H3 _ I). rewrite forallb_forall in H3. specialize (H3 _ J). cbn [fst snd] in H3. rewrite beqb_refl in H3. cbn [negb orb] in H3.
  apply andb_prop in H3. destruct H3 as [H3 H6]. apply andb_prop in H3. destruct H3 as [H4 H5]. split; [exact (subset_same _ _ _ H4)|]. split; [exact (subset_same _ _ _ H5)|exact (subset_same _ _ _ H6)].
Qed.
Lemma same_erased ty but x y : same_schema ty but (erased x) y -> same_schema ty but x y.
Proof.
  intros (H1 & H2 & H3). split; [exact H1|]. split; [rewrite erased_eq in H2; cbn [d_tables] in H2; unfold eraset in H2; rewrite map_map in H2; exact H2|].
  intros n t t' I J. apply (H3 n (blank t) t'); [|exact J]. rewrite erased_eq. cbn [d_tables]. unfold eraset. apply in_map_iff. exists (n, t). auto.
Qed.
Lemma sqlite_same now v x y w : 1 <= v < 25 -> of_version Sqlite now sqlite_v1 sqlite_migrations v x ->
  upgrade Sqlite now sqlite_schema sqlite_migrations (File v x) = (true, File w y) ->
  exists z, upgrade Sqlite now sqlite_schema sqlite_migrations (File 0 (Db [] [])) = (true, File w z) /\ same_schema affinity [(B "User", B "created_at"); (B "WebPushSubscription", B "user")] y z.
Proof.
  intros L V U. pose proof (final_version _ _ _ _ _ _ _ _ _ (L : 1 <= v < length sqlite_migrations) V U) as Vy. destruct (upgraded _ _ _ _ _ _ _ _ (L : 1 <= v < length sqlite_migrations) U) as [-> _].
  eexists. split; [vm_compute; reflexivity|]. apply same_erased. unfold of_version in Vy. revert Vy. generalize (erased y). intros e. vm_compute exec_all. intros E. injection E as <-. apply same_schemab_ok. vm_compute. reflexivity.
Qed.
Lemma postgres_same now v x y w : 1 <= v < 15 -> of_version Postgres now postgres_v1 postgres_migrations v x ->
  upgrade Postgres now postgres_schema postgres_migrations (File v x) = (true, File w y) ->
  exists z, upgrade Postgres now postgres_schema postgres_migrations (File 0 (Db [] [])) = (true, File w z) /\ same_schema (fun ty => ty) [] y z.
Proof.
  intros L V U. pose proof (final_version _ _ _ _ _ _ _ _ _ (L : 1 <= v < length postgres_migrations) V U) as Vy. destruct (upgraded _ _ _ _ _ _ _ _ (L : 1 <= v < length postgres_migrations) U) as [-> _].
  eexists. split; [vm_compute; reflexivity|]. apply same_erased. unfold of_version in Vy. revert Vy. generalize (erased y). intros e. destruct now; vm_compute exec_all; intros E; injection E as <-; apply same_schemab_ok; vm_compute; reflexivity.
Qed.

(** ** Deciding these on concrete databases *)
Definition conformsb (x : db) : bool := forallb (fun p => forallb (fun r : row => if list_eq_dec bdec (map fst r) (map c_name (t_cols (snd p))) then true else false) (t_rows (snd p))) (d_tables x).
Lemma conformsb_ok x : conformsb x = true -> conforms x.
Proof. intros H n t r I R. unfold conformsb in H. rewrite forallb_forall in H. specialize (H _ I). cbn [snd] in H. rewrite forallb_forall in H. specialize (H _ R). destruct (list_eq_dec bdec (map fst r) (map c_name (t_cols t))); [assumption|discriminate]. Qed.
Definition pdec : forall a b : bytes * value, {a = b} + {a <> b}.
Proof. decide equality; [apply vdec|apply bdec]. Defined.
Definition consistentb (x : db) : bool :=
  forallb (fun p => forallb (fun r : row =>
    forallb (fun c => negb (c_notnull c) || if in_dec pdec (c_name c, Null) r then false else true) (t_cols (snd p)) &&
    forallb (fun f => forallb (fun q : bytes * value => if bdec (f_col f) (fst q) then is_null (snd q) || existsb (fun p' => (if bdec (f_table f) (fst p') then true else false) && existsb (fun r' : row => if in_dec pdec (f_key f, snd q) r' then true else false) (t_rows (snd p'))) (d_tables x) else true) r) (t_fks (snd p))) (t_rows (snd p))) (d_tables x).
Lemma consistentb_ok x : consistentb x = true -> consistent x.
Proof.
  intros H n t r I R. unfold consistentb in H. rewrite forallb_forall in H. specialize (H _ I). cbn [snd] in H. rewrite forallb_forall in H. specialize (H _ R). apply andb_prop in H. destruct H as [H1 H2]. rewrite forallb_forall in H1, H2. split.
  - intros c Ic Nn X. specialize (H1 c Ic). rewrite Nn in H1. destruct (in_dec pdec (c_name c, Null) r); [discriminate|contradiction].
  - intros f v If Iv. specialize (H2 f If). rewrite forallb_forall in H2. specialize (H2 _ Iv). cbn [fst snd] in H2. destruct (bdec (f_col f) (f_col f)); [|contradiction]. apply orb_prop in H2. destruct H2 as [H2|H2]; [left; destruct v; [reflexivity|discriminate|discriminate|discriminate]|].
    right. apply existsb_exists in H2. destruct H2 as ([n' t'] & I' & H2). cbn [fst snd] in H2. apply andb_prop in H2. destruct H2 as [H2 H3]. destruct (bdec (f_table f) n') as [<-|]; [|discriminate]. apply existsb_exists in H3. destruct H3 as (r' & R' & H3). exists t', r'. split; [exact I'|]. split; [exact R'|].
    destruct (in_dec pdec (f_key f, v) r'); [assumption|discriminate].
Qed.
(** A database with given rows. *)
Fixpoint rows_in (n : bytes) (l : list (bytes * list (list value))) : list (list value) := match l with [] => [] | (n', rows) :: l => if beqb n n' then rows else rows_in n l end.
Definition filled_with (x : option db) (l : list (bytes * list (list value))) : db :=
  match x with
  | Some x => Db (map (fun p => (fst p, Table (t_cols (snd p)) (t_uniques (snd p)) (t_fks (snd p)) (map (combine (map c_name (t_cols (snd p)))) (rows_in (fst p) l)))) (d_tables x)) (d_objects x)
  | None => Db [] []
  end.
Definition mechanismsb (x : db) : bool := forallb (fun p => if bdec (fst p) (B "Network") then forallb (fun r : row => forallb (fun q => if bdec (fst q) (B "sasl_mechanism") then if in_dec vdec (snd q) [Null; Text (B "PLAIN"); Text (B "EXTERNAL")] then true else false else true) r) (t_rows (snd p)) else true) (d_tables x).
Lemma mechanisms_ok x : mechanismsb x = true -> known_mechanisms x.
Proof.
  intros H t r v I R V. unfold mechanismsb in H. rewrite forallb_forall in H. specialize (H _ I). cbn [fst snd] in H. destruct (bdec (B "Network") (B "Network")); [|contradiction]. rewrite forallb_forall in H. specialize (H _ R). rewrite forallb_forall in H. specialize (H _ V). cbn [fst snd] in H.
  destruct (bdec (B "sasl_mechanism") (B "sasl_mechanism")); [|contradiction]. destruct (in_dec vdec v [Null; Text (B "PLAIN"); Text (B "EXTERNAL")]) as [J|]; [|discriminate]. destruct J as [J|[J|[J|[]]]]; auto.
Qed.
Lemma get_or r c : get c r = Null \/ In (c, get c r) r.
Proof. destruct (in_dec bdec c (map fst r)) as [I|N]; [right; exact (get_In r c I)|left]. induction r as [|[k v] r IH]; [reflexivity|]. cbn [get]. rewrite (proj2 (beqb_neq c k)); [|intros ->; apply N; left; reflexivity]. apply IH. intros J. apply N. right. exact J. Qed.
Lemma postgres_succeeds_spec now v x : now <> Null -> 1 <= v < 15 -> of_version Postgres now postgres_v1 postgres_migrations v x -> conforms x -> (v <= 2 -> known_mechanisms x) ->
  exists y, upgrade Postgres now postgres_schema postgres_migrations (File v x) = (true, File 15 y).
Proof.
  intros N L V C K. apply postgres_succeeds; [assumption|assumption|assumption|assumption|]. intros L2 t r E R. destruct (get_or r (B "sasl_mechanism")) as [Z|I]; [rewrite Z; exact Logic.I|].
  destruct (K L2 t r _ (tfind_In _ _ _ E) R I) as [Z|[Z|Z]]; rewrite Z; auto.
Qed.
Lemma upgrade_atomic d now schema ms f ok f' : upgrade d now schema ms f = (ok, f') ->
  (if ok then version f' = length ms else f' = f) /\ (version f = length ms -> ok = true /\ f' = f) /\ (length ms < version f -> ok = false).
Proof.
  unfold upgrade. destruct (Nat.eqb_spec (version f) (length ms)) as [Q|Q]; [intros E; injection E as <- <-; split; [exact Q|]; split; [auto|lia]|].
  destruct (Nat.ltb_spec (length ms) (version f)) as [L|L]; [intros E; injection E as <- <-; split; [reflexivity|]; split; [contradiction|auto]|].
  destruct (exec_all _ _ _ _); intros E; injection E as <- <-; (split; [reflexivity|]); (split; [contradiction|lia]).
Qed.
