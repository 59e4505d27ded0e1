(** Proofs for C104. *)
From Verif.Base Require Import Bytes.
From Verif.Model Require Import LogPath LogFiles.
From Verif.Spec Require Import LogFiles.
From Coq Require Import NArith Lia.
Open Scope nat_scope.

Lemma peqb_eq p q : peqb p q = true <-> p = q.
Proof.
  destruct p as [[a b] c], q as [[d e] f]. cbn [peqb]. rewrite !andb_true_iff, !beqb_eq. split; [intros ((-> & ->) & ->); reflexivity|intro E; injection E as -> -> ->; auto].
Qed.
Lemma peqb_refl p : peqb p p = true.
Proof. apply peqb_eq. reflexivity. Qed.

Section Map.
  Context {K V : Type} (eqb : K -> K -> bool) (Eq : forall a b, eqb a b = true <-> a = b).
  Lemma get_In k (l : list (K * V)) v : get eqb k l = Some v -> In (k, v) l.
  Proof.
    induction l as [|[a w] l IH]; cbn [get]; [discriminate|]. destruct (eqb a k) eqn:E; [|right; auto].
    apply Eq in E. subst a. injection 1 as ->. left. reflexivity.
  Qed.
  Lemma In_get k (l : list (K * V)) v : NoDup (map fst l) -> In (k, v) l -> get eqb k l = Some v.
  Proof.
    induction l as [|[a w] l IH]; intros N J; [destruct J|]. cbn [map fst] in N. apply NoDup_cons_iff in N as [N1 N2]. cbn [get]. destruct J as [J|J].
    - injection J as -> ->. rewrite (proj2 (Eq k k) eq_refl). reflexivity.
    - destruct (eqb a k) eqn:E; [|exact (IH N2 J)]. apply Eq in E. subst a. exfalso. apply N1. apply in_map_iff. exists (k, v). auto.
  Qed.
  Lemma get_none k (l : list (K * V)) : get eqb k l = None -> forall v, ~ In (k, v) l.
  Proof.
    induction l as [|[a w] l IH]; intros H v J; [destruct J|]. cbn [get] in H. destruct (eqb a k) eqn:E; [discriminate|]. destruct J as [J|J]; [|exact (IH H v J)].
    injection J as -> ->. rewrite (proj2 (Eq k k) eq_refl) in E. discriminate.
  Qed.
  Lemma none_get k (l : list (K * V)) : (forall v, ~ In (k, v) l) -> get eqb k l = None.
  Proof. destruct (get eqb k l) as [v|] eqn:E; [|reflexivity]. intro H. exfalso. exact (H v (get_In _ _ _ E)). Qed.
  Lemma In_del k (l : list (K * V)) x : In x (del eqb k l) <-> In x l /\ fst x <> k.
  Proof.
    unfold del. rewrite filter_In. split; intros [A B]; split; try exact A.
    - intro E. apply (proj2 (Eq _ _)) in E. rewrite E in B. discriminate.
    - destruct (eqb (fst x) k) eqn:E; [|reflexivity]. apply Eq in E. contradiction.
  Qed.
  Lemma NoDup_del k (l : list (K * V)) : NoDup (map fst l) -> NoDup (map fst (del eqb k l)).
  Proof.
    induction l as [|x l IH]; intro N; [exact N|]. cbn [map] in N. apply NoDup_cons_iff in N as [N1 N2]. cbn [del filter]. destruct (negb (eqb (fst x) k)); [|exact (IH N2)].
    cbn [map]. constructor; [|exact (IH N2)]. intro J. apply N1. apply in_map_iff in J as (y & <- & J). apply in_map. apply filter_In in J. exact (proj1 J).
  Qed.
  Lemma del_length k (l : list (K * V)) : length (del eqb k l) <= length l.
  Proof. unfold del. induction l as [|x l IH]; cbn [filter length]; [lia|]. destruct (negb _); cbn [length]; lia. Qed.
  Lemma del_shorter k v (l : list (K * V)) : In (k, v) l -> length (del eqb k l) < length l.
  Proof.
    induction l as [|x l IH]; intro J; [destruct J|]. cbn [del filter length]. destruct J as [->|J].
    - cbn [fst]. rewrite (proj2 (Eq k k) eq_refl). cbn [negb]. pose proof (del_length k l). unfold del in *. lia.
    - specialize (IH J). destruct (negb _); cbn [length]; unfold del in IH; lia.
  Qed.
End Map.

(** ** Closing files *)
Lemma oldest_In l x : oldest l = Some x -> In x l.
Proof.
  revert x. induction l as [|y l IH]; cbn [oldest]; [discriminate|]. intros x. destruct (oldest l) as [z|].
  - destruct (_ <? _)%N; injection 1 as <-; [left; reflexivity|right; auto].
  - injection 1 as <-. left. reflexivity.
Qed.
Lemma oldest_some x l : exists y, oldest (x :: l) = Some y.
Proof. cbn [oldest]. destruct (oldest l); [destruct (_ <? _)%N|]; eauto. Qed.
Lemma oldest_le l x : oldest l = Some x -> forall y, In y l -> (h_use (snd x) <= h_use (snd y))%N.
Proof.
  revert x. induction l as [|z l IH]; cbn [oldest]; [discriminate|]. intros x E y J. destruct (oldest l) as [w|] eqn:O.
  - destruct (N.ltb_spec (h_use (snd z)) (h_use (snd w))); injection E as <-; destruct J as [<-|J]; try lia; specialize (IH w eq_refl y J); lia.
  - injection E as <-. destruct J as [<-|J]; [lia|]. destruct l; [destruct J|]. destruct (oldest_some p l) as [q Q]. congruence.
Qed.
Lemma close_In n l x : In x (close n l) -> In x l.
Proof.
  revert l. induction n as [|n IH]; intros l J; [exact J|]. cbn [close] in J. destruct (oldest l) as [y|]; [|exact J]. apply IH in J. exact (proj1 (proj1 (In_del beqb beqb_eq _ _ _) J)).
Qed.
Lemma close_NoDup n l : NoDup (map fst l) -> NoDup (map fst (close n l)).
Proof. revert l. induction n as [|n IH]; intros l N; [exact N|]. cbn [close]. destruct (oldest l) as [y|]; [|exact N]. apply IH. apply NoDup_del. exact N. Qed.
Lemma close_length n l : length (close n l) <= length l - n.
Proof.
  revert l. induction n as [|n IH]; intro l; [cbn [close]; lia|]. cbn [close]. destruct (oldest l) as [y|] eqn:E.
  - pose proof (IH (del beqb (fst y) l)). pose proof (oldest_In _ _ E) as J. destruct y as [k v]. pose proof (del_shorter beqb beqb_eq k v l J). cbn [fst] in *. lia.
  - destruct l as [|p l]; [cbn; lia|]. destruct (oldest_some p l) as [q Q]. congruence.
Qed.
(** The file used last is kept, if any is. *)
Lemma close_keeps n l e h : NoDup (map fst l) -> In (e, h) l -> (forall x, In x l -> x <> (e, h) -> (h_use (snd x) < h_use h)%N) -> n < length l -> In (e, h) (close n l).
Proof.
  revert l. induction n as [|n IH]; intros l N J M L; [exact J|]. cbn [close]. destruct (oldest l) as [y|] eqn:E; [|exact J].
  pose proof (oldest_In _ _ E) as Y. destruct y as [k v]. cbn [fst].
  assert (D : (k, v) <> (e, h)).
  { intro X. injection X as -> ->. assert (exists z, In z l /\ z <> (e, h)) as (z & Z1 & Z2).
    { destruct l as [|a [|b l]]; [destruct J|cbn [length] in L; lia|]. destruct J as [J|J].
      - exists b. split; [right; left; reflexivity|]. intro X. subst b a. cbn [map fst] in N. apply NoDup_cons_iff in N as [N _]. apply N. left. reflexivity.
      - exists a. split; [left; reflexivity|]. intro X. subst a. cbn [map] in N. apply NoDup_cons_iff in N as [N _]. apply N. change (map fst (b :: l)) with (map fst (b :: l)). apply (in_map fst) in J. exact J. }
    pose proof (oldest_le _ _ E z Z1) as A. pose proof (M z Z1 Z2). cbn [snd] in A. lia. }
  assert (Ke : k <> e).
  { intro X. subst k. apply D. f_equal. pose proof (In_get beqb beqb_eq e l v N Y). pose proof (In_get beqb beqb_eq e l h N J). congruence. }
  apply IH.
  - apply NoDup_del. exact N.
  - apply (In_del beqb beqb_eq). split; [exact J|]. cbn [fst]. congruence.
  - intros x X. apply (In_del beqb beqb_eq) in X as [X _]. exact (M x X).
  - pose proof (del_shorter beqb beqb_eq k v l Y).
    assert (length l <= S (length (del beqb k l))); [|lia]. clear - N. unfold del. induction l as [|x l IHl]; cbn [filter length]; [lia|]. cbn [map] in N. apply NoDup_cons_iff in N as [N1 N2].
    destruct (beqb_spec (fst x) k) as [X|X]; cbn [negb length]; [|specialize (IHl N2); lia].
    assert (filter (fun x0 => negb (beqb (fst x0) k)) l = l) as ->; [|lia]. clear - N1 X. subst k. induction l as [|y l IHl]; [reflexivity|]. cbn [filter].
    destruct (beqb_spec (fst y) (fst x)) as [E|E]; [exfalso; apply N1; left; exact E|]. cbn [negb]. f_equal. apply IHl. intro J. apply N1. right. exact J.
Qed.

(** ** All runs *)
Record Files (s : st) : Prop := {
  f_nodup : NoDup (map fst (t_files s));
  f_use : forall x, In x (t_files s) -> (h_use (snd x) < t_clock s)%N;
  f_max : length (t_files s) <= max_files }.
Lemma open_files s e p : t_files (fst (open s e p)) = t_files s /\ t_clock (fst (open s e p)) = t_clock s /\ t_nets (fst (open s e p)) = t_nets s /\ t_data (fst (open s e p)) = t_data s.
Proof. unfold open. destruct (get beqb e (t_files s)) as [h|]; [destruct (peqb (h_name h) p); [auto|]|]; destruct (get peqb p (t_tree s)); cbn; auto. Qed.

Definition with_file (s : st) (e : bytes) (p : path) (i : N) : list (bytes * handle) := (e, Handle p i (t_clock s)) :: del beqb e (t_files s).
Definition kept (s : st) (e : bytes) (p : path) (i : N) := close (length (with_file s e p i) - max_files) (with_file s e p i).
Lemma with_file_ok s e p i : Files s -> NoDup (map fst (with_file s e p i)) /\ In (e, Handle p i (t_clock s)) (kept s e p i) /\ length (kept s e p i) <= max_files.
Proof.
  intros [F1 F2 F3]. assert (N : NoDup (map fst (with_file s e p i))).
  { unfold with_file. cbn [map fst]. constructor; [|apply NoDup_del; exact F1]. intro J. apply in_map_iff in J as (x & X & J). apply (In_del beqb beqb_eq) in J as [_ J]. contradiction. }
  split; [exact N|]. split.
  - unfold kept. apply close_keeps; [exact N|left; reflexivity| |].
    + intros x [<-|J] D; [contradiction|]. apply (In_del beqb beqb_eq) in J as [J _]. exact (F2 x J).
    + unfold with_file, max_files. cbn [length]. lia.
  - unfold kept. pose proof (close_length (length (with_file s e p i) - max_files) (with_file s e p i)). unfold max_files in *. lia.
Qed.
Lemma append_eq s id e day line name : Files s -> get N.eqb id (t_nets s) = Some name -> line <> [] ->
  let r := open s e (log_file name e day) in
  append s id e day line = (St (t_nets s) (t_tree (fst r)) (fun j => if N.eqb j (snd r) then t_data s (snd r) ++ line ++ [nl] else t_data s j) (t_next (fst r)) (kept s e (log_file name e day) (snd r)) (t_clock s + 1)%N,
    Some (N.of_nat (length (t_data s (snd r))))).
Proof.
  intros F G L. unfold append. rewrite G. destruct line as [|c line]; [contradiction|]. destruct (open_files s e (log_file name e day)) as (E1 & E2 & E3 & E4).
  destruct (open s e (log_file name e day)) as [s1 i] eqn:O. cbn [fst snd] in *. rewrite E1, E2, E3, E4.
  destruct (with_file_ok s e (log_file name e day) i F) as (N & J & _). unfold kept in *. fold (with_file s e (log_file name e day) i).
  rewrite (In_get beqb beqb_eq _ _ _ (close_NoDup _ _ N) J). reflexivity.
Qed.

Lemma files_step s o : Files s -> Files (step s o).
Proof.
  intro F. destruct o as [id name|id name|id|id e day line|]; cbn [step].
  - destruct (get N.eqb id (t_nets s)); [exact F|]. destruct (taken s id name); [exact F|]. destruct F. split; assumption.
  - destruct (get N.eqb id (t_nets s)) as [old|]; [|exact F]. destruct (taken s id name); [exact F|]. destruct (beqb old name); [exact F|]. destruct F. split; assumption.
  - destruct F. split; assumption.
  - destruct (get N.eqb id (t_nets s)) as [name|] eqn:G; [|unfold append; rewrite G; exact F]. destruct line as [|c line]; [unfold append; rewrite G; exact F|].
    rewrite (append_eq s id e day (c :: line) name F G) by discriminate. cbn [fst]. destruct (with_file_ok s e (log_file name e day) (snd (open s e (log_file name e day))) F) as (N & J & L).
    split; cbn [t_files t_clock]; [apply close_NoDup; exact N| |exact L]. intros x X. apply close_In in X. destruct X as [<-|X]; [cbn [snd h_use]; lia|].
    apply (In_del beqb beqb_eq) in X as [X _]. pose proof (f_use s F x X). lia.
  - split; cbn [t_files length map]; [constructor|intros x []|lia].
Qed.
Lemma run_snoc ops o : run (ops ++ [o]) = step (run ops) o.
Proof. unfold run. rewrite fold_left_app. reflexivity. Qed.
Theorem files_run ops : Files (run ops).
Proof.
  induction ops as [|o ops IH] using rev_ind.
  - split; cbn [t_files run fold_left start length map]; [constructor|intros x []|lia].
  - rewrite run_snoc. apply files_step. exact IH.
Qed.

(** ** Runs in which names are not used again *)
Section Clean.
  Variable all : list op.
  Variable Hall : own_names all.
  Definition owns (d : bytes) (id : N) : Prop := exists o n, In o all /\ named o id n /\ escape_filename n = d.
  Lemma owner d i j : owns d i -> owns d j -> i = j.
  Proof. intros (o1 & n1 & A1 & A2 & A3) (o2 & n2 & B1 & B2 & B3). apply (proj2 Hall o1 o2 i j n1 n2); congruence. Qed.

  (** The lines, by the directory of the entity. *)
  Definition dlines (l : logged) (id : N) (d day : bytes) : bytes :=
    concat (flat_map (fun '(i, e, dd, line) => if N.eqb i id && beqb (escape_filename e) d && beqb dd day then match line with [] => [] | _ => [line ++ [nl]] end else []) l).

  Record Inv (ops : list op) (s : st) : Prop := {
    v_nets : forall id, In id (networks ops) <-> In id (map fst (t_nets s));
    v_nodup : NoDup (map fst (t_nets s));
    v_used : forall id, In id (networks ops) -> In id (adds ops);
    v_name : forall id n, In (id, n) (t_nets s) -> owns (escape_filename n) id;
    v_fresh : forall i, (t_next s <= i)%N -> t_data s i = [];
    v_keys : exists K : N -> option (N * bytes * bytes),
      (forall i k, K i = Some k -> (i < t_next s)%N /\ In (fst (fst k)) (adds ops)) /\
      (forall i j k, K i = Some k -> K j = Some k -> i = j) /\
      NoDup (map fst (t_tree s)) /\ NoDup (map snd (t_tree s)) /\
      (forall d e f i, In ((d, e, f), i) (t_tree s) -> exists id, K i = Some (id, e, f) /\ owns d id) /\
      (forall id n e f i, In (id, n) (t_nets s) -> K i = Some (id, e, f) -> In ((escape_filename n, e, f), i) (t_tree s)) /\
      (forall x, In x (t_files s) -> exists d e f id, h_name (snd x) = (d, e, f) /\ K (h_inode (snd x)) = Some (id, e, f) /\ owns d id) /\
      (forall i id e f, K i = Some (id, e, f) -> t_data s i = dlines (snd (story ops)) id e f) /\
      (forall id e f, (forall i, K i <> Some (id, e, f)) -> dlines (snd (story ops)) id e f = []) }.

  Lemma start_inv : Inv [] start.
  Proof.
    split; cbn; [tauto|constructor|intros ? []|intros ? ? []|reflexivity|]. exists (fun _ => None). split; [discriminate|]. split; [discriminate|]. split; [constructor|]. split; [constructor|].
    split; [intros ? ? ? ? []|]. split; [intros ? ? ? ? ? []|]. split; [intros ? []|]. split; [discriminate|]. intros. reflexivity.
  Qed.

  Lemma story_snoc ops o : story (ops ++ [o]) = note (story ops) o.
  Proof. unfold story. rewrite fold_left_app. reflexivity. Qed.
  Lemma adds_snoc ops o : adds (ops ++ [o]) = adds ops ++ adds [o].
  Proof. unfold adds. rewrite flat_map_app. reflexivity. Qed.
  Lemma dlines_add l id e d line i ee g : line <> [] -> dlines (l ++ [(id, e, d, line)]) i ee g =
    dlines l i ee g ++ (if N.eqb id i && beqb (escape_filename e) ee && beqb d g then line ++ [nl] else []).
  Proof.
    intro L. unfold dlines. rewrite flat_map_app, concat_app. f_equal. cbn [flat_map]. rewrite app_nil_r. destruct (N.eqb id i && _ && _); [|reflexivity].
    destruct line; [contradiction|]. cbn [concat]. rewrite app_nil_r. reflexivity.
  Qed.
  Lemma dlines_empty l id e d i ee g : dlines (l ++ [(id, e, d, [])]) i ee g = dlines l i ee g.
  Proof. unfold dlines. rewrite flat_map_app, concat_app. cbn [flat_map]. destruct (N.eqb id i && _ && _); cbn [app concat]; apply app_nil_r. Qed.

  Lemma get_net_none id (l : list (N * bytes)) : get N.eqb id l = None -> ~ In id (map fst l).
  Proof. intros G J. apply in_map_iff in J as ([a b] & E & J). cbn [fst] in E. subst a. exact (get_none N.eqb N.eqb_eq id l G b J). Qed.

  (** A step that changes no network and no file. *)
  Lemma add_step ops s id name : Inv ops s -> In (Add id name) all -> NoDup (adds (ops ++ [Add id name])) -> Inv (ops ++ [Add id name]) (step s (Add id name)).
  Proof.
    intros V A N. destruct V as [V1 V2 V3 V4 V6 (K & K1 & K2 & K3 & K4 & K5 & K6 & K7 & K8 & K9)].
    assert (Fr : ~ In id (adds ops)).
    { rewrite adds_snoc in N. cbn [adds flat_map app] in N. apply NoDup_remove_2 in N. rewrite app_nil_r in N. exact N. }
    assert (G : get N.eqb id (t_nets s) = None).
    { apply none_get with (1 := N.eqb_eq). intros n J. apply Fr. apply V3. apply V1. apply (in_map fst) in J. exact J. }
    assert (O : owns (escape_filename name) id) by (exists (Add id name), name; split; [exact A|split; [left; reflexivity|reflexivity]]).
    assert (T : taken s id name = false).
    { unfold taken. destruct (existsb _ (t_nets s)) eqn:X; [|reflexivity]. apply existsb_exists in X as ([j n] & J & X). cbn [fst snd] in X. apply andb_prop in X as [X1 X2]. apply beqb_eq in X1. subst n.
      rewrite (owner _ _ _ (V4 _ _ J) O), N.eqb_refl in X2. discriminate. }
    cbn [step]. rewrite G, T.
    assert (St : story (ops ++ [Add id name]) = (id :: fst (story ops), snd (story ops))) by (rewrite story_snoc; destruct (story ops); reflexivity).
    split; cbn [t_nets t_tree t_data t_next t_files map fst].
    - intro i. unfold networks in *. rewrite St. cbn [fst In]. rewrite V1. reflexivity.
    - constructor; [apply get_net_none; exact G|exact V2].
    - intros i J. unfold networks in J. rewrite St in J. cbn [fst] in J. rewrite adds_snoc. apply in_or_app. destruct J as [<-|J]; [right; left; reflexivity|left; exact (V3 i J)].
    - intros i n [J|J]; [injection J as <- <-; exact O|exact (V4 i n J)].
    - exact V6.
    - exists K. rewrite St. cbn [snd]. split; [intros i k E; destruct (K1 i k E) as [E1 E2]; split; [exact E1|rewrite adds_snoc; apply in_or_app; left; exact E2]|].
      split; [exact K2|]. split; [exact K3|]. split; [exact K4|]. split; [exact K5|]. split; [|split; [exact K7|split; [exact K8|exact K9]]].
      intros i n e f j [J|J] E; [|exact (K6 i n e f j J E)]. injection J as -> ->. exfalso. apply Fr. exact (proj2 (K1 j _ E)).
  Qed.

  Lemma move_fst old new x : snd (move old new x) = snd x.
  Proof. unfold move. destruct (in_dir old x); reflexivity. Qed.
  Lemma move_eq old new d e f i : move old new ((d, e, f), i) = ((if beqb d old then new else d, e, f), i).
  Proof. unfold move, in_dir. cbn [fst snd]. destruct (beqb d old); reflexivity. Qed.
  Lemma in_dir_iff d e f i x : in_dir x ((d, e, f), i) = true <-> d = x.
  Proof. unfold in_dir. cbn [fst]. apply beqb_eq. Qed.

  Lemma rename_step ops s id name : Inv ops s -> In (Rename id name) all -> Inv (ops ++ [Rename id name]) (step s (Rename id name)).
  Proof.
    intros V A. assert (St : story (ops ++ [Rename id name]) = story ops) by (rewrite story_snoc; destruct (story ops); reflexivity).
    assert (Ad : adds (ops ++ [Rename id name]) = adds ops) by (rewrite adds_snoc; cbn; apply app_nil_r).
    assert (Sk : Inv (ops ++ [Rename id name]) s).
    { destruct V as [V1 V2 V3 V4 V5 V6]. split; unfold networks in *; rewrite ?St, ?Ad; assumption. }
    cbn [step]. destruct (get N.eqb id (t_nets s)) as [old|] eqn:G; [|exact Sk]. destruct (taken s id name); [exact Sk|]. destruct (beqb_spec old name) as [E|E]; [exact Sk|]. clear V.
    destruct Sk as [V1 V2 V3 V4 V6 (K & K1 & K2 & K3 & K4 & K5 & K6 & K7 & K8 & K9)]. apply (get_In N.eqb N.eqb_eq) in G.
    assert (O : owns (escape_filename name) id) by (exists (Rename id name), name; split; [exact A|split; [right; reflexivity|reflexivity]]).
    pose proof (V4 _ _ G) as Oo.
    assert (M : map fst (t_nets s) = map fst (t_nets s)) by reflexivity.
    assert (Tr : NoDup (map fst (rename (escape_filename old) (escape_filename name) (t_tree s))) /\ NoDup (map snd (rename (escape_filename old) (escape_filename name) (t_tree s))) /\
      (forall d e f i, In ((d, e, f), i) (rename (escape_filename old) (escape_filename name) (t_tree s)) -> exists j, K i = Some (j, e, f) /\ owns d j) /\
      (forall e f i, K i = Some (id, e, f) -> In ((escape_filename name, e, f), i) (rename (escape_filename old) (escape_filename name) (t_tree s))) /\
      (forall d e f i, In ((d, e, f), i) (t_tree s) -> d <> escape_filename old -> In ((d, e, f), i) (rename (escape_filename old) (escape_filename name) (t_tree s)))).
    { unfold rename. destruct (existsb (in_dir (escape_filename name)) (t_tree s)) eqn:X.
      - split; [exact K3|]. split; [exact K4|]. split; [exact K5|]. split; [|auto].
        apply existsb_exists in X as ([[[d e0] f0] i0] & X1 & X2). apply in_dir_iff in X2. subst d. destruct (K5 _ _ _ _ X1) as (j & J1 & J2).
        rewrite (owner _ _ _ J2 O) in J1. pose proof (K6 _ _ _ _ _ G J1) as X2.
        assert (escape_filename name = escape_filename old) as ->; [|intros e f i; apply K6; exact G].
        clear - K4 X1 X2. induction (t_tree s) as [|y l IH]; [destruct X1|]. cbn [map] in K4. apply NoDup_cons_iff in K4 as [N1 N2]. destruct X1 as [->|X1], X2 as [X2|X2].
        + injection X2 as ->. reflexivity.
        + exfalso. apply N1. apply (in_map snd) in X2. exact X2.
        + subst y. exfalso. apply N1. apply (in_map snd) in X1. exact X1.
        + exact (IH N2 X1 X2).
      - assert (Nn : forall d e f i, In ((d, e, f), i) (t_tree s) -> d <> escape_filename name).
        { intros d e f i J D. subst d. assert (existsb (in_dir (escape_filename name)) (t_tree s) = true); [|congruence]. apply existsb_exists. exists ((escape_filename name, e, f), i). split; [exact J|apply in_dir_iff; reflexivity]. }
        split.
        { clear - K3 Nn. induction (t_tree s) as [|y l IH]; [constructor|]. cbn [map] in *. apply NoDup_cons_iff in K3 as [N1 N2]. constructor; [|apply IH; [exact N2|intros d e f i J; apply (Nn d e f i); right; exact J]].
          intro J. apply in_map_iff in J as (z & E & J). apply in_map_iff in J as (w & <- & J). destruct y as [[[d1 e1] f1] i1], w as [[[d2 e2] f2] i2].
          rewrite !move_eq in E. cbn [fst] in E. destruct (beqb_spec d1 (escape_filename old)) as [->|D1], (beqb_spec d2 (escape_filename old)) as [->|D2].
          - injection E as -> ->. apply N1. apply (in_map fst) in J. exact J.
          - injection E as -> -> ->. exact (Nn _ _ _ _ (or_intror J) eq_refl).
          - injection E as <- <- <-. exact (Nn _ _ _ _ (or_introl eq_refl) eq_refl).
          - injection E as -> -> ->. apply N1. apply (in_map fst) in J. exact J. }
        split; [rewrite map_map; erewrite map_ext; [exact K4|intro; apply move_fst]|].
        split.
        { intros d e f i J. apply in_map_iff in J as ([[[d1 e1] f1] i1] & E1 & J). destruct (K5 _ _ _ _ J) as (j & J1 & J2). rewrite move_eq in E1. destruct (beqb_spec d1 (escape_filename old)) as [->|D]; injection E1 as <- <- <- <-.
          - exists j. split; [exact J1|]. rewrite (owner _ _ _ J2 Oo). exact O.
          - exists j. auto. }
        split.
        { intros e f i E1. apply (K6 _ _ _ _ _ G) in E1. apply in_map_iff. exists ((escape_filename old, e, f), i). split; [|exact E1]. rewrite move_eq, beqb_refl. reflexivity. }
        intros d e f i J D. apply in_map_iff. exists ((d, e, f), i). split; [|exact J]. rewrite move_eq. destruct (beqb_spec d (escape_filename old)); [contradiction|reflexivity]. }
    destruct Tr as (T1 & T2 & T3 & T4 & T5).
    assert (Dn : forall x, In x (del N.eqb id (t_nets s)) <-> In x (t_nets s) /\ fst x <> id) by (apply (In_del N.eqb N.eqb_eq)).
    split; cbn [t_nets t_tree t_data t_next t_files map fst].
    - intro i. rewrite V1. split.
      + intro J. apply in_map_iff in J as ([a n] & <- & J). cbn [fst]. destruct (N.eq_dec a id) as [->|D]; [left; reflexivity|right]. apply in_map_iff. exists (a, n). split; [reflexivity|]. apply Dn. auto.
      + intros [<-|J]; [apply (in_map fst) in G; exact G|]. apply in_map_iff in J as (x & <- & J). apply Dn in J as [J _]. apply in_map. exact J.
    - constructor; [|apply NoDup_del; exact V2]. intro J. apply in_map_iff in J as (x & X & J). apply Dn in J as [_ J]. contradiction.
    - exact V3.
    - intros i n [J|J]; [injection J as <- <-; exact O|]. apply Dn in J as [J _]. exact (V4 i n J).
    - exact V6.
    - exists K. split; [exact K1|]. split; [exact K2|]. split; [exact T1|]. split; [exact T2|]. split; [exact T3|]. split; [|split; [exact K7|split; [exact K8|exact K9]]].
      intros i n e f j [J|J] E1; [injection J as <- <-; exact (T4 e f j E1)|]. apply Dn in J as [J D]. cbn [fst] in D. apply T5; [exact (K6 i n e f j J E1)|].
      intro X. apply D. pose proof (V4 _ _ J) as Y. rewrite X in Y. exact (owner _ _ _ Y Oo).
  Qed.

  Lemma delete_step ops s id : Inv ops s -> Inv (ops ++ [Delete id]) (step s (Delete id)).
  Proof.
    intros [V1 V2 V3 V4 V6 (K & K1 & K2 & K3 & K4 & K5 & K6 & K7 & K8 & K9)].
    assert (St : story (ops ++ [Delete id]) = (filter (fun y => negb (N.eqb y id)) (fst (story ops)), snd (story ops))) by (rewrite story_snoc; destruct (story ops); reflexivity).
    assert (Ad : adds (ops ++ [Delete id]) = adds ops) by (rewrite adds_snoc; cbn; apply app_nil_r).
    assert (Dn : forall x, In x (del N.eqb id (t_nets s)) <-> In x (t_nets s) /\ fst x <> id) by (apply (In_del N.eqb N.eqb_eq)).
    unfold networks in *. split; cbn [step t_nets t_tree t_data t_next t_files]; unfold networks; rewrite ?St, ?Ad; cbn [fst snd].
    - intro i. rewrite filter_In, V1. split.
      + intros [J X]. apply in_map_iff in J as (x & <- & J). apply in_map. apply Dn. split; [exact J|]. intro Y. rewrite Y, N.eqb_refl in X. discriminate.
      + intro J. apply in_map_iff in J as (x & <- & J). apply Dn in J as [J D]. split; [apply in_map; exact J|]. destruct (N.eqb_spec (fst x) id); [contradiction|reflexivity].
    - apply NoDup_del. exact V2.
    - intros i J. apply filter_In in J as [J _]. exact (V3 i J).
    - intros i n J. apply Dn in J as [J _]. exact (V4 i n J).
    - exact V6.
    - exists K. split; [exact K1|]. split; [exact K2|]. split; [exact K3|]. split; [exact K4|]. split; [exact K5|]. split; [|split; [exact K7|split; [exact K8|exact K9]]].
      intros i n e f j J. apply Dn in J as [J _]. exact (K6 i n e f j J).
  Qed.

  Lemma restart_step ops s : Inv ops s -> Inv (ops ++ [Restart]) (step s Restart).
  Proof.
    intros [V1 V2 V3 V4 V6 (K & K1 & K2 & K3 & K4 & K5 & K6 & K7 & K8 & K9)].
    assert (St : story (ops ++ [Restart]) = story ops) by (rewrite story_snoc; destruct (story ops); reflexivity).
    assert (Ad : adds (ops ++ [Restart]) = adds ops) by (rewrite adds_snoc; cbn; apply app_nil_r).
    split; cbn [step t_nets t_tree t_data t_next t_files]; unfold networks in *; rewrite ?St, ?Ad; try assumption.
    exists K. split; [exact K1|]. split; [exact K2|]. split; [exact K3|]. split; [exact K4|]. split; [exact K5|]. split; [exact K6|]. split; [intros x []|]. split; [exact K8|exact K9].
  Qed.

  Lemma append_step ops s id e day line : Inv ops s -> Files s -> Inv (ops ++ [Append id e day line]) (step s (Append id e day line)).
  Proof.
    intros V F. assert (Ad : adds (ops ++ [Append id e day line]) = adds ops) by (rewrite adds_snoc; cbn; apply app_nil_r).
    destruct (get N.eqb id (t_nets s)) as [name|] eqn:G.
    2:{ assert (Hs : story (ops ++ [Append id e day line]) = story ops).
        { rewrite story_snoc. destruct V as [V1 _ _ _ _ _]. specialize (V1 id). unfold networks in V1. destruct (story ops) as [nets l]. cbn [fst note] in *. destruct (existsb (N.eqb id) nets) eqn:X; [|reflexivity].
          apply existsb_exists in X as (y & Y & X). apply N.eqb_eq in X. subst y. exfalso. exact (get_net_none _ _ G (proj1 V1 Y)). }
        cbn [step]. unfold append. rewrite G. cbn [fst]. destruct V as [V1 V2 V3 V4 V5 V6]. split; unfold networks in *; rewrite ?Hs, ?Ad; assumption. }
    pose proof (get_In N.eqb N.eqb_eq _ _ _ G) as Gi.
    assert (Hs : story (ops ++ [Append id e day line]) = (fst (story ops), snd (story ops) ++ [(id, e, day, line)])).
    { rewrite story_snoc. destruct V as [V1 _ _ _ _ _]. specialize (V1 id). unfold networks in V1. destruct (story ops) as [nets l]. cbn [fst snd note] in *.
      assert (existsb (N.eqb id) nets = true) as ->; [|reflexivity]. apply existsb_exists. exists id. split; [|apply N.eqb_refl]. apply V1. apply (in_map fst) in Gi. exact Gi. }
    destruct line as [|c line].
    { cbn [step]. unfold append. rewrite G. cbn [fst]. destruct V as [V1 V2 V3 V4 V6 (K & K1 & K2 & K3 & K4 & K5 & K6 & K7 & K8 & K9)]. unfold networks in *. split; unfold networks; rewrite ?Hs, ?Ad; cbn [fst snd]; try assumption.
      exists K. split; [exact K1|]. split; [exact K2|]. split; [exact K3|]. split; [exact K4|]. split; [exact K5|]. split; [exact K6|]. split; [exact K7|].
      split; [intros i id0 e0 f0 X; rewrite dlines_empty; exact (K8 _ _ _ _ X)|intros id0 e0 f0 X; rewrite dlines_empty; exact (K9 _ _ _ X)]. }
    cbn [step]. rewrite (append_eq s id e day (c :: line) name F G) by discriminate. cbn [fst]. set (ln := c :: line) in *. assert (Ln : ln <> []) by discriminate. clearbody ln.
    destruct V as [V1 V2 V3 V4 V6 (K & K1 & K2 & K3 & K4 & K5 & K6 & K7 & K8 & K9)]. pose proof (V4 _ _ Gi) as Oo.
    set (p := log_file name e day). set (i := snd (open s e p)).
    set (ee := escape_filename e).
    assert (Op : exists K' : N -> option (N * bytes * bytes), let s1 := fst (open s e p) in K' i = Some (id, ee, day) /\ (forall j, K j <> None -> K' j = K j) /\ (forall j k, K' j = Some k -> K j = Some k \/ (j = i /\ k = (id, ee, day) /\ K i = None /\ t_data s i = t_data s i)) /\
      (forall j k, K' j = Some k -> (j < t_next s1)%N /\ In (fst (fst k)) (adds ops)) /\
      (forall i j k, K' i = Some k -> K' j = Some k -> i = j) /\
      NoDup (map fst (t_tree s1)) /\ NoDup (map snd (t_tree s1)) /\
      (forall d e f i, In ((d, e, f), i) (t_tree s1) -> exists id, K' i = Some (id, e, f) /\ owns d id) /\
      (forall id n e f i, In (id, n) (t_nets s) -> K' i = Some (id, e, f) -> In ((escape_filename n, e, f), i) (t_tree s1)) /\
      (K i = None -> i = t_next s /\ forall j, K j <> Some (id, ee, day)) /\ (t_next s <= t_next s1)%N).
    { assert (Old : forall j, K j = Some (id, ee, day) -> open s e p = (s, j) -> exists K' : N -> option (N * bytes * bytes), let s1 := fst (open s e p) in K' i = Some (id, ee, day) /\ (forall j, K j <> None -> K' j = K j) /\ (forall j k, K' j = Some k -> K j = Some k \/ (j = i /\ k = (id, ee, day) /\ K i = None /\ t_data s i = t_data s i)) /\
      (forall j k, K' j = Some k -> (j < t_next s1)%N /\ In (fst (fst k)) (adds ops)) /\
      (forall i j k, K' i = Some k -> K' j = Some k -> i = j) /\
      NoDup (map fst (t_tree s1)) /\ NoDup (map snd (t_tree s1)) /\
      (forall d e f i, In ((d, e, f), i) (t_tree s1) -> exists id, K' i = Some (id, e, f) /\ owns d id) /\
      (forall id n e f i, In (id, n) (t_nets s) -> K' i = Some (id, e, f) -> In ((escape_filename n, e, f), i) (t_tree s1)) /\
      (K i = None -> i = t_next s /\ forall j, K j <> Some (id, ee, day)) /\ (t_next s <= t_next s1)%N).
      { intros j Kj E. exists K. unfold i. rewrite E. cbn [fst snd]. split; [exact Kj|]. split; [auto|]. split; [auto|]. split; [exact K1|]. split; [exact K2|]. split; [exact K3|]. split; [exact K4|]. split; [exact K5|]. split; [exact K6|]. split; [congruence|lia]. }
      assert (New : get peqb p (t_tree s) = None -> open s e p = (St (t_nets s) ((p, t_next s) :: t_tree s) (t_data s) (t_next s + 1)%N (t_files s) (t_clock s), t_next s) ->
        exists K' : N -> option (N * bytes * bytes), let s1 := fst (open s e p) in K' i = Some (id, ee, day) /\ (forall j, K j <> None -> K' j = K j) /\ (forall j k, K' j = Some k -> K j = Some k \/ (j = i /\ k = (id, ee, day) /\ K i = None /\ t_data s i = t_data s i)) /\
      (forall j k, K' j = Some k -> (j < t_next s1)%N /\ In (fst (fst k)) (adds ops)) /\
      (forall i j k, K' i = Some k -> K' j = Some k -> i = j) /\
      NoDup (map fst (t_tree s1)) /\ NoDup (map snd (t_tree s1)) /\
      (forall d e f i, In ((d, e, f), i) (t_tree s1) -> exists id, K' i = Some (id, e, f) /\ owns d id) /\
      (forall id n e f i, In (id, n) (t_nets s) -> K' i = Some (id, e, f) -> In ((escape_filename n, e, f), i) (t_tree s1)) /\
      (K i = None -> i = t_next s /\ forall j, K j <> Some (id, ee, day)) /\ (t_next s <= t_next s1)%N).
      { intros Gn E. pose proof (get_none peqb peqb_eq _ _ Gn) as Nt.
        assert (Nk : forall j, K j <> Some (id, ee, day)) by (intros j X; exact (Nt j (K6 _ _ _ _ _ Gi X))).
        assert (Kn : K (t_next s) = None) by (destruct (K (t_next s)) as [k|] eqn:X; [destruct (K1 _ _ X); lia|reflexivity]).
        exists (fun j => if N.eqb j (t_next s) then Some (id, ee, day) else K j). unfold i. rewrite E. cbn [fst snd t_tree t_next map].
        split; [rewrite N.eqb_refl; reflexivity|].
        split; [intros j X; destruct (N.eqb_spec j (t_next s)) as [->|_]; [congruence|reflexivity]|].
        split; [intros j k; destruct (N.eqb_spec j (t_next s)) as [->|_]; [injection 1 as <-; auto|auto]|].
        split; [intros j k; destruct (N.eqb_spec j (t_next s)) as [->|_]; [injection 1 as <-; split; [lia|cbn [fst]; apply V3, V1; apply (in_map fst) in Gi; exact Gi]|intro X; destruct (K1 _ _ X); split; [lia|assumption]]|].
        split; [intros a b k; destruct (N.eqb_spec a (t_next s)) as [->|_], (N.eqb_spec b (t_next s)) as [->|_]; [auto| | |apply K2]; intros X Y; [injection X as <-; exfalso; exact (Nk _ Y)|injection Y as <-; exfalso; exact (Nk _ X)]|].
        split; [constructor; [intro J; apply in_map_iff in J as ([q j] & Q & J); cbn [fst] in Q; subst q; exact (Nt j J)|exact K3]|].
        split; [constructor; [intro J; apply in_map_iff in J as ([[[d1 e1] f1] j] & Q & J); cbn [snd] in Q; subst j; destruct (K5 _ _ _ _ J) as (x & X & _); congruence|exact K4]|].
        split.
        - intros d e1 f1 j [J|J].
          + unfold p, log_file in J. injection J as <- <- <- <-. exists id. rewrite N.eqb_refl. split; [reflexivity|exact Oo].
          + destruct (K5 _ _ _ _ J) as (x & X & Y). exists x. destruct (N.eqb_spec j (t_next s)) as [->|_]; [congruence|auto].
        - split; [|split; [intros _; split; [reflexivity|exact Nk]|lia]]. intros x n e1 f1 j J. destruct (N.eqb_spec j (t_next s)) as [->|_].
          + injection 1 as <- <- <-. left. unfold p, log_file. f_equal. f_equal. f_equal. f_equal. pose proof (In_get N.eqb N.eqb_eq _ _ _ V2 J) as A1. congruence.
          + intro X. right. exact (K6 _ _ _ _ _ J X). }
      assert (Tree : forall j, get peqb p (t_tree s) = Some j -> K j = Some (id, ee, day)).
      { intros j X. apply (get_In peqb peqb_eq) in X. unfold p, log_file in X. destruct (K5 _ _ _ _ X) as (x & Y & Z). rewrite (owner _ _ _ Z Oo) in Y. exact Y. }
      unfold open in Old, New |- *. destruct (get beqb e (t_files s)) as [h|] eqn:Gh.
      - destruct (peqb (h_name h) p) eqn:Ph.
        + apply (Old (h_inode h)); [|reflexivity]. apply peqb_eq in Ph. apply (get_In beqb beqb_eq) in Gh. destruct (K7 _ Gh) as (d & e1 & f1 & x & X1 & X2 & X3). cbn [snd] in *. rewrite Ph in X1. unfold p, log_file in X1. injection X1 as <- <- <-.
          rewrite (owner _ _ _ X3 Oo) in X2. exact X2.
        + destruct (get peqb p (t_tree s)) as [j|] eqn:Gt; [exact (Old j (Tree j eq_refl) eq_refl)|exact (New eq_refl eq_refl)].
      - destruct (get peqb p (t_tree s)) as [j|] eqn:Gt; [exact (Old j (Tree j eq_refl) eq_refl)|exact (New eq_refl eq_refl)]. }
    destruct Op as (K' & P1 & P2 & P3 & P4 & P5 & P6 & P7 & P8 & P9 & P10 & P11).
    unfold networks in *. split; cbn [t_nets t_tree t_data t_next t_files]; unfold networks; rewrite ?Hs, ?Ad; cbn [fst snd]; try assumption.
    { intros j X. destruct (P4 i _ P1) as [P12 _]. destruct (N.eqb_spec j i) as [->|_]; [lia|]. apply V6. lia. }
    exists K'. split; [exact P4|]. split; [exact P5|]. split; [exact P6|]. split; [exact P7|]. split; [exact P8|]. split; [exact P9|].
    split.
    { intros x X. apply close_In in X. destruct X as [<-|X]; cbn [snd h_name h_inode].
      - exists (escape_filename name), ee, day, id. split; [reflexivity|]. split; [exact P1|exact Oo].
      - apply (In_del beqb beqb_eq) in X as [X _]. destruct (K7 x X) as (d & e1 & f1 & y & Y1 & Y2 & Y3). exists d, e1, f1, y. split; [exact Y1|]. split; [rewrite P2; [exact Y2|congruence]|exact Y3]. }
    split.
    - intros j id0 e0 f0 X. rewrite dlines_add by exact Ln. fold ee. destruct (N.eqb_spec j i) as [->|Nj].
      + rewrite P1 in X. injection X as <- <- <-. rewrite N.eqb_refl, !beqb_refl. cbn [andb]. f_equal.
        destruct (K i) as [k|] eqn:Ki.
        * assert (k = (id, ee, day)) as -> by (rewrite (P2 i) in P1 by congruence; congruence). exact (K8 _ _ _ _ Ki).
        * destruct (P10 eq_refl) as [P12 P13]. rewrite (K9 id ee day P13), P12. apply V6. lia.
      + destruct (P3 j _ X) as [X'|(-> & _)]; [|contradiction]. rewrite (K8 _ _ _ _ X').
        destruct (N.eqb_spec id id0) as [->|]; [|symmetry; apply app_nil_r]. destruct (beqb_spec ee e0) as [E1|]; [|symmetry; apply app_nil_r]. destruct (beqb_spec day f0) as [E2|]; [|symmetry; apply app_nil_r].
        exfalso. apply Nj. subst e0 f0. exact (P5 _ _ _ X P1).
    - intros id0 e0 f0 X. rewrite dlines_add by exact Ln. fold ee. rewrite (K9 id0 e0 f0).
      + destruct (N.eqb_spec id id0) as [->|]; [|reflexivity]. destruct (beqb_spec ee e0) as [E1|]; [|reflexivity]. destruct (beqb_spec day f0) as [E2|]; [|reflexivity]. subst e0 f0. exfalso. exact (X i P1).
      + intros j Y. apply (X j). rewrite P2 by congruence. exact Y.
  Qed.

  Lemma reached ops : forall rest, all = ops ++ rest -> Inv ops (run ops).
  Proof.
    induction ops as [|o ops IH] using rev_ind; intros rest E; [apply start_inv|]. rewrite <- app_assoc in E. specialize (IH _ E). rewrite run_snoc.
    assert (Io : In o all) by (rewrite E; apply in_or_app; right; left; reflexivity).
    destruct o as [id name|id name|id|id e day line|].
    - apply add_step; [exact IH|exact Io|]. destruct Hall as [Hn _]. rewrite E in Hn. clear - Hn. change ([Add id name] ++ rest) with ([Add id name] ++ rest) in Hn. rewrite app_assoc in Hn. unfold adds in *. rewrite flat_map_app in Hn.
      remember (flat_map (fun o => match o with Add id0 _ => [id0] | _ => [] end) (ops ++ [Add id name])) as A. clear HeqA. induction A as [|x A IHA]; [constructor|]. cbn [app] in Hn. apply NoDup_cons_iff in Hn as [H1 H2]. constructor; [|exact (IHA H2)]. intro J. apply H1. apply in_or_app. left. exact J.
    - apply rename_step; assumption.
    - apply delete_step; exact IH.
    - apply append_step; [exact IH|apply files_run].
    - apply restart_step; exact IH.
  Qed.
End Clean.

Lemma dlines_lines ops id e day : own_entity ops e -> dlines (snd (story ops)) id (escape_filename e) day = concat (lines ops id e day).
Proof.
  intro O. unfold dlines, lines. f_equal.
  assert (H : forall i e' d l, In (i, e', d, l) (snd (story ops)) -> escape_filename e' = escape_filename e -> e' = e).
  { intros i e' d l J. assert (In (Append i e' d l) ops) as A; [|exact (O _ _ _ _ A)]. clear O. revert J. induction ops as [|o ops IH] using rev_ind; [intros []|].
    rewrite story_snoc. intro J. apply in_or_app. destruct (story ops) as [nets g]. cbn [snd] in IH. destruct o as [a b|a b|a|a b c f|]; cbn [note snd] in J; try (left; exact (IH J)).
    destruct (existsb (N.eqb a) nets); cbn [snd] in J; [|left; exact (IH J)]. apply in_app_or in J as [J|[J|[]]]; [left; exact (IH J)|]. injection J as -> -> -> ->. right. left. reflexivity. }
  induction (snd (story ops)) as [|[[[i e'] d] l] g IH]; [reflexivity|]. cbn [flat_map]. f_equal; [|apply IH; intros i0 e0 d0 l0 J; apply (H i0 e0 d0 l0); right; exact J].
  assert (beqb (escape_filename e') (escape_filename e) = beqb e' e) as ->; [|reflexivity].
  destruct (beqb_spec e' e) as [->|D]; [apply beqb_refl|]. destruct (beqb_spec (escape_filename e') (escape_filename e)) as [E|E]; [|reflexivity]. exfalso. apply D. exact (H i e' d l (or_introl eq_refl) E).
Qed.

Theorem read_back ops id e day : own_names ops -> own_entity ops e -> In id (networks ops) -> read (run ops) id e day = concat (lines ops id e day).
Proof.
  intros O Oe J. destruct (reached ops O ops [] (eq_sym (app_nil_r ops))) as [V1 V2 V3 V4 V6 (K & K1 & K2 & K3 & K4 & K5 & K6 & K7 & K8 & K9)]. rewrite <- (dlines_lines ops id e day Oe).
  apply V1 in J. apply in_map_iff in J as ([x n] & <- & J). cbn [fst]. unfold read. rewrite (In_get N.eqb N.eqb_eq _ _ _ V2 J).
  destruct (get peqb (log_file n e day) (t_tree (run ops))) as [i|] eqn:G.
  - apply (get_In peqb peqb_eq) in G. unfold log_file in G. destruct (K5 _ _ _ _ G) as (y & Y1 & Y2). rewrite (owner ops O _ _ _ Y2 (V4 _ _ J)) in Y1. exact (K8 _ _ _ _ Y1).
  - symmetry. apply K9. intros i X. exact (get_none peqb peqb_eq _ _ G i (K6 _ _ _ _ _ J X)).
Qed.

Lemma own_entity_prefix a b e : own_entity (a ++ b) e -> own_entity a e.
Proof. intros O id e' d l J. apply (O id e' d l). apply in_or_app. left. exact J. Qed.
Lemma logged_prefix a b : exists g, snd (story (a ++ b)) = snd (story a) ++ g.
Proof.
  induction b as [|o b IH] using rev_ind; [exists []; rewrite !app_nil_r; reflexivity|]. destruct IH as [g G]. rewrite app_assoc, story_snoc. destruct (story (a ++ b)) as [nets l]. cbn [snd] in G. subst l.
  destruct o as [i n|i n|i|i e d l|]; cbn [note snd]; eauto. destruct (existsb (N.eqb i) nets); cbn [snd]; [|eauto]. exists (g ++ [(i, e, d, l)]). rewrite app_assoc. reflexivity.
Qed.
Lemma dlines_app g h i e d : dlines (g ++ h) i e d = dlines g i e d ++ dlines h i e d.
Proof. unfold dlines. rewrite flat_map_app, concat_app. reflexivity. Qed.

Theorem ids a b id e day line : own_names (a ++ Append id e day line :: b) -> own_entity (a ++ Append id e day line :: b) e -> In id (networks a) -> line <> [] ->
  exists off, snd (append (run a) id e day line) = Some off /\
    (In id (networks (a ++ Append id e day line :: b)) -> firstn (length line) (skipn (N.to_nat off) (read (run (a ++ Append id e day line :: b)) id e day)) = line).
Proof.
  intros O Oe J L. set (all := a ++ Append id e day line :: b) in *.
  pose proof (reached all O a (Append id e day line :: b) eq_refl) as Va.
  assert (E : all = (a ++ [Append id e day line]) ++ b) by (unfold all; rewrite <- app_assoc; reflexivity).
  pose proof (reached all O (a ++ [Append id e day line]) b E) as Vb. rewrite run_snoc in Vb. cbn [step] in Vb.
  destruct Va as [A1 A2 A3 A4 _ _]. pose proof (proj1 (A1 id) J) as Ja. apply in_map_iff in Ja as ([x n] & X & Ja). cbn [fst] in X. subst x.
  pose proof (In_get N.eqb N.eqb_eq _ _ _ A2 Ja) as G. pose proof (A4 _ _ Ja) as Ow. pose proof (files_run a) as F.
  rewrite (append_eq (run a) id e day line n F G L) in *. cbn [fst snd] in *. set (p := log_file n e day) in *. set (i := snd (open (run a) e p)) in *. eexists. split; [reflexivity|]. intro Jf.
  rewrite Nnat.Nat2N.id.
  destruct Vb as [B1 B2 B3 B4 B6 (K & K1 & K2 & K3 & K4 & K5 & K6 & K7 & K8 & K9)]. cbn [t_files t_data] in *.
  destruct (with_file_ok (run a) e p i F) as (_ & W & _). destruct (K7 _ W) as (d & e1 & f1 & y & Y1 & Y2 & Y3). cbn [snd h_name h_inode] in *. unfold p, log_file in Y1. injection Y1 as <- <- <-.
  rewrite (owner all O _ _ _ Y3 Ow) in Y2. specialize (K8 _ _ _ _ Y2). rewrite N.eqb_refl in K8.
  assert (Hs : snd (story (a ++ [Append id e day line])) = snd (story a) ++ [(id, e, day, line)]).
  { rewrite story_snoc. unfold networks in J. destruct (story a) as [nets l]. cbn [fst note] in *. assert (existsb (N.eqb id) nets = true) as -> by (apply existsb_exists; exists id; split; [exact J|apply N.eqb_refl]). reflexivity. }
  rewrite Hs, (dlines_add _ _ _ _ _ _ _ _ L), N.eqb_refl, !beqb_refl in K8. cbn [andb] in K8. apply app_inv_tail in K8. rewrite K8.
  rewrite (read_back all id e day O Oe Jf), <- (dlines_lines all id e day Oe). destruct (logged_prefix (a ++ [Append id e day line]) b) as [g Hg]. rewrite E, Hg, Hs, dlines_app, (dlines_add _ _ _ _ _ _ _ _ L), N.eqb_refl, !beqb_refl. cbn [andb].
  rewrite <- !app_assoc. rewrite skipn_app, skipn_all, Nat.sub_diag. cbn [app skipn]. rewrite firstn_app, firstn_all, Nat.sub_diag. cbn [firstn]. apply app_nil_r.
Qed.
