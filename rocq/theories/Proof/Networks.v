From Verif.Base Require Import Bytes.
From Verif.Model Require Import Networks.
From Verif.Spec Require Import Networks.
From Coq Require Import ZArith Permutation Lia.
Local Open Scope Z_scope.

(** ** Lists *)
Lemma add_perm r nets : Permutation (add_network r nets) (r :: nets).
Proof.
  induction nets as [|x nets IH]; [reflexivity|]. cbn [add_network].
  destruct (n_id r <? n_id x); [reflexivity|]. rewrite IH. apply perm_swap.
Qed.

Lemma remove_perm id nets n : get_network_by_id nets id = Some n -> Permutation nets (n :: remove_network id nets) /\ n_id n = id.
Proof.
  unfold get_network_by_id. induction nets as [|x nets IH]; [discriminate|]. cbn [find remove_network].
  destruct (n_id x =? id) eqn:E.
  - intros [= ->]. split; [reflexivity|]. apply Z.eqb_eq, E.
  - intros H. destruct (IH H) as [P I]. split; [|exact I]. rewrite P at 1. apply perm_swap.
Qed.

Definition ids (nets : list netrec) : list Z := map n_id nets.

Lemma find_none_notin id nets : get_network_by_id nets id = None -> ~ In id (ids nets).
Proof.
  unfold get_network_by_id, ids. induction nets as [|x nets IH]; [easy|]. cbn [find map].
  destruct (n_id x =? id) eqn:E; [discriminate|]. intros H [A|A]; [subst; rewrite Z.eqb_refl in E; discriminate|exact (IH H A)].
Qed.

Lemma notin_find_none id nets : ~ In id (ids nets) -> get_network_by_id nets id = None.
Proof.
  unfold get_network_by_id, ids. induction nets as [|x nets IH]; [easy|]. cbn [find map]. intros H.
  destruct (n_id x =? id) eqn:E; [apply Z.eqb_eq in E; destruct H; left; exact E|apply IH; intros A; apply H; right; exact A].
Qed.

Lemma notin_assign r nets : ~ In (n_id r) (ids nets) -> assign r nets = nets.
Proof.
  unfold assign, ids. induction nets as [|x nets IH]; [easy|]. cbn [map]. intros H.
  destruct (n_id x =? n_id r) eqn:E; [apply Z.eqb_eq in E; destruct H; left; exact E|].
  f_equal. apply IH. intros A; apply H; right; exact A.
Qed.

Lemma remove_notin id nets : NoDup (ids nets) -> ~ In id (ids (remove_network id nets)).
Proof.
  induction nets as [|x nets IH]; [easy|]. cbn [remove_network ids map]. intros H.
  inversion_clear H as [|? ? N D]. destruct (n_id x =? id) eqn:E.
  - apply Z.eqb_eq in E. subst id. exact N.
  - intros [A|A]; [subst; rewrite Z.eqb_refl in E; discriminate|exact (IH D A)].
Qed.

Lemma assign_perm r nets n : NoDup (ids nets) -> get_network_by_id nets (n_id r) = Some n ->
  Permutation (assign r nets) (r :: remove_network (n_id r) nets).
Proof.
  intros D F. destruct (remove_perm _ _ _ F) as [P I].
  etransitivity; [apply (Permutation_map (fun x => if n_id x =? n_id r then r else x)), P|].
  cbn [map]. rewrite I, Z.eqb_refl. apply perm_skip.
  change (map (fun x => if n_id x =? n_id r then r else x) (remove_network (n_id r) nets)) with (assign r (remove_network (n_id r) nets)).
  rewrite (notin_assign r); [reflexivity|apply remove_notin, D].
Qed.

Lemma row_of_mutate r : row_of (store_mutate r) = row_of r.
Proof.
  unfold store_mutate. destruct (beqb (n_mech r) PLAIN) eqn:E; [|reflexivity].
  unfold row_of, set_sasl.
  cbn [n_mech n_id n_name n_addr n_nick n_username n_realname n_certfp n_pass n_cmds n_plain_user n_plain_pass n_cert n_key n_autoaway n_enabled].
  rewrite E. reflexivity.
Qed.

(** The facts about a record that do not depend on SASL. *)
Definition same_face (r r' : netrec) : Prop :=
  n_id r = n_id r' /\ n_name r = n_name r' /\ n_addr r = n_addr r' /\ n_enabled r = n_enabled r'.

Lemma same_face_name r r' : same_face r r' -> get_name r = get_name r'.
Proof. intros (_ & A & A' & _). unfold get_name. rewrite A, A'. reflexivity. Qed.

Lemma mutate_face r : same_face (store_mutate r) r.
Proof. unfold store_mutate. destruct (beqb _ _); (split; [|split; [|split]]); reflexivity. Qed.

(** ** What the database operation does *)
Lemma store_new rows r nid io rows' r' : n_id r = 0 -> store_network rows r nid io = Some (rows', r') ->
  r' = set_id nid (store_mutate r) /\ 0 < nid /\ rows' = rows ++ [row_of r'] /\
  (forall w, In w rows -> r_id w <> nid /\ conflict w (row_of r') = false) /\ mech_ok r = true.
Proof.
  intros Z0. unfold store_network. destruct (mech_ok r) eqn:M; [cbn [negb]|discriminate].
  destruct io; [cbn [negb]|discriminate].
  assert (I0 : n_id (store_mutate r) = 0) by (rewrite (proj1 (mutate_face r)); exact Z0).
  rewrite I0. cbn [Z.eqb].
  destruct (nid <=? 0) eqn:E; [discriminate|]. cbn [orb].
  destruct (existsb _ rows) eqn:X; [discriminate|].
  intros [= <- <-]. split; [reflexivity|]. split; [apply Z.leb_gt in E; lia|]. split; [reflexivity|]. split; [|reflexivity].
  intros w W. assert (Y : (r_id w =? nid) || conflict w (row_of (set_id nid (store_mutate r))) = false).
  { destruct ((r_id w =? nid) || _) eqn:Y; [|reflexivity].
    rewrite <- X. symmetry. apply existsb_exists. exists w. split; [exact W|exact Y]. }
  apply orb_false_elim in Y as [Y1 Y2]. split; [apply Z.eqb_neq, Y1|exact Y2].
Qed.

Lemma store_old rows r nid io rows' r' : n_id r <> 0 -> store_network rows r nid io = Some (rows', r') ->
  r' = store_mutate r /\ rows' = map (fun w => if r_id w =? n_id r then row_of r else w) rows /\ mech_ok r = true /\
  (forall w, In w rows -> r_id w <> n_id r -> conflict w (row_of r) = false).
Proof.
  intros Z0. unfold store_network. destruct (mech_ok r) eqn:M; [cbn [negb]|discriminate].
  destruct io; [cbn [negb]|discriminate].
  assert (I0 : n_id (store_mutate r) = n_id r) by apply (proj1 (mutate_face r)).
  rewrite I0, row_of_mutate. destruct (n_id r =? 0) eqn:E; [apply Z.eqb_eq in E; contradiction|].
  destruct (existsb _ rows) eqn:X; [discriminate|].
  intros [= <- <-]. split; [reflexivity|]. split; [reflexivity|]. split; [reflexivity|].
  intros w W N. destruct (conflict w (row_of r)) eqn:C; [|reflexivity].
  rewrite <- X. symmetry. apply existsb_exists. exists w. split; [exact W|].
  rewrite C. apply Z.eqb_neq in N. rewrite N. reflexivity.
Qed.

(** ** The invariant on identifiers and names *)
Record inv (u : ust) : Prop := Inv {
  i_ids : NoDup (ids (us_nets u));
  i_pos : forall n, In n (us_nets u) -> 0 < n_id n;
  i_rows : Permutation (map r_id (us_rows u)) (ids (us_nets u));
  i_names : NoDup (map get_name (us_nets u));
  i_ok : forall n, In n (us_nets u) -> get_name n <> [] /\ has_prefix (get_name n) (B "-") = false
}.

Section Proofs.
  Variable parse_url : bytes -> option url.
  Variable split_host_port : bytes -> option (bytes * bytes).
  Variable command_ok : bytes -> bool.
  Variable config_max : Z.

  Notation check_network := (check_network parse_url).
  Notation create_network := (create_network parse_url config_max).
  Notation update_network := (update_network parse_url config_max).
  Notation apply := (apply parse_url split_host_port command_ok config_max).
  Notation step := (step parse_url split_host_port command_ok config_max).
  Notation run := (run parse_url split_host_port command_ok config_max).

  Lemma check_names u r : check_network u r = true ->
    get_name r <> [] /\ has_prefix (get_name r) (B "-") = false /\
    forall x, In x (us_nets u) -> n_id x <> n_id r -> get_name x <> get_name r.
  Proof.
    intros H. unfold Networks.check_network in H.
    apply andb_prop in H as [H A]. apply andb_prop in H as [H N2]. apply andb_prop in H as [_ N1].
    apply negb_true_iff, beqb_neq in N1. apply negb_true_iff in N2.
    split; [exact N1|]. split; [exact N2|].
    intros x Hx I E. rewrite forallb_forall in A. specialize (A x Hx).
    rewrite E, beqb_refl in A. apply Z.eqb_neq in I. rewrite I in A. discriminate A.
  Qed.

  Lemma check_face u r r' : same_face r r' -> check_network u r = check_network u r'.
  Proof.
    intros F. unfold Networks.check_network, net_url. rewrite (same_face_name _ _ F).
    destruct F as (-> & _ & -> & _). reflexivity.
  Qed.

  (** What create_network and update_network do. *)
  Lemma create_some u r enforce nid io u' : n_id r = 0 -> create_network u r enforce nid io = Some u' ->
    exists r', r' = set_id nid (store_mutate r) /\ 0 < nid /\
      u' = with_nets u (add_network r' (us_nets u)) (us_rows u ++ [row_of r']) /\
      (forall w, In w (us_rows u) -> r_id w <> nid /\ conflict w (row_of r') = false) /\
      check_network u r = true /\ mech_ok r = true /\
      (enforce = true -> n_enabled r = true -> can_enable config_max u = true).
  Proof.
    intros Z0 H. unfold Networks.create_network in H.
    destruct (enforce && n_enabled r && negb (can_enable config_max u)) eqn:E; [discriminate|].
    destruct (check_network u r) eqn:C; [cbn [negb] in H|discriminate].
    destruct (store_network (us_rows u) r nid io) as [[rows' r']|] eqn:S; [|discriminate].
    injection H as <-. destruct (store_new _ _ _ _ _ _ Z0 S) as (R & P & W & N & M).
    exists r'. split; [exact R|]. split; [exact P|]. split; [rewrite W; reflexivity|]. split; [exact N|]. split; [reflexivity|].
    split; [exact M|].
    intros -> En. rewrite En in E. destruct (can_enable config_max u); [reflexivity|discriminate E].
  Qed.

  Definition norm_defaults (u : ust) (r : netrec) : netrec :=
    let r := if beqb (n_nick r) (us_nick u) then set_nick [] r else r in
    if beqb (n_realname r) (us_realname u) then set_realname [] r else r.

  Lemma norm_face u r : same_face (norm_defaults u r) r.
  Proof.
    unfold norm_defaults. destruct (beqb (n_nick r) _); destruct (beqb (n_realname _) _);
      (split; [|split; [|split]]); reflexivity.
  Qed.

  Lemma update_some u r enforce io u' : inv u -> update_network u r enforce io = Some u' ->
    exists n r', get_network_by_id (us_nets u) (n_id r) = Some n /\
      r' = store_mutate (norm_defaults u r) /\ same_face r' r /\
      u' = with_nets u (add_network r' (remove_network (n_id r) (us_nets u)))
             (map (fun w => if r_id w =? n_id r then row_of r' else w) (us_rows u)) /\
      check_network u r' = true /\ mech_ok (norm_defaults u r) = true /\
      (forall w, In w (us_rows u) -> r_id w <> n_id r -> conflict w (row_of r') = false) /\
      (enforce = true -> n_enabled r = true -> can_enable config_max u = true).
  Proof.
    intros I H. unfold Networks.update_network in H.
    destruct (enforce && n_enabled r && negb (can_enable config_max u)) eqn:E; [discriminate|].
    fold (norm_defaults u r) in H.
    destruct (check_network u (norm_defaults u r)) eqn:C; [cbn [negb] in H|discriminate].
    rewrite (proj1 (norm_face u r)) in H.
    destruct (get_network_by_id (us_nets u) (n_id r)) as [n|] eqn:G; [|discriminate].
    destruct (store_network _ _ _ _) as [[rows' r']|] eqn:S; [|discriminate].
    injection H as <-. destruct (remove_perm _ _ _ G) as [P Id].
    assert (Pos : 0 < n_id n) by (apply (i_pos u I); rewrite P; left; reflexivity).
    assert (NZ : n_id (norm_defaults u r) <> 0) by (rewrite (proj1 (norm_face u r)); lia).
    destruct (store_old _ _ _ _ _ _ NZ S) as (R & W & M & Cf).
    assert (F : same_face r' r).
    { subst r'. pose proof (mutate_face (norm_defaults u r)) as (A1 & A2 & A3 & A4). pose proof (norm_face u r) as (B1 & B2 & B3 & B4).
      (split; [|split; [|split]]); congruence. }
    exists n, r'. split; [reflexivity|]. split; [exact R|]. split; [exact F|].
    split. { rewrite W, R, row_of_mutate, (proj1 (mutate_face (norm_defaults u r))), (proj1 (norm_face u r)). reflexivity. }
    split. { rewrite <- C. apply check_face. subst r'. apply mutate_face. }
    split; [exact M|].
    split. { rewrite R, row_of_mutate. rewrite <- (proj1 (norm_face u r)). exact Cf. }
    intros -> En. rewrite En in E. destruct (can_enable config_max u); [reflexivity|discriminate E].
  Qed.

  (** ** Preservation *)
  Lemma nodup_perm {A} (l l' : list A) : Permutation l l' -> NoDup l' -> NoDup l.
  Proof. intros P D. exact (Permutation_NoDup (Permutation_sym P) D). Qed.

  Lemma inv_create u r enforce nid io u' : n_id r = 0 -> inv u -> create_network u r enforce nid io = Some u' -> inv u'.
  Proof.
    intros Z0 I H. destruct (create_some _ _ _ _ _ _ Z0 H) as (r' & R & P & U & W & C & _ & _).
    assert (F : get_name r' = get_name r).
    { subst r'. pose proof (same_face_name _ _ (mutate_face r)) as E. unfold get_name in *. exact E. }
    assert (Id : n_id r' = nid) by (subst r'; reflexivity).
    assert (Fresh : ~ In nid (ids (us_nets u))).
    { intros A. apply (Permutation_in _ (Permutation_sym (i_rows u I))) in A. apply in_map_iff in A as (w & E & A).
      destruct (W w A) as [X _]. contradiction. }
    destruct (check_names _ _ C) as (N1 & N2 & N3).
    subst u'. split; unfold with_nets; cbn [us_nets us_rows].
    - unfold ids. eapply nodup_perm; [apply Permutation_map, add_perm|]. cbn [map]. constructor; [rewrite Id; exact Fresh|apply i_ids, I].
    - intros n A. apply (Permutation_in _ (add_perm _ _)) in A as [<-|A]; [rewrite Id; exact P|exact (i_pos u I n A)].
    - unfold ids. rewrite map_app. cbn [map]. rewrite (Permutation_map n_id (add_perm r' (us_nets u))). cbn [map].
      rewrite <- Permutation_cons_append. change (r_id (row_of r')) with (n_id r'). apply perm_skip, i_rows, I.
    - eapply nodup_perm; [apply Permutation_map, add_perm|]. cbn [map]. constructor; [|apply i_names, I].
      rewrite F. intros A. apply in_map_iff in A as (x & E & A). apply (N3 x A); [|exact E].
      pose proof (i_pos u I x A). lia.
    - intros n A. apply (Permutation_in _ (add_perm _ _)) in A as [<-|A]; [rewrite F; split; assumption|exact (i_ok u I n A)].
  Qed.

  (** Replacing a network by one with the same ID. *)
  Lemma inv_replace u n r' nets' rows' : inv u -> get_network_by_id (us_nets u) (n_id r') = Some n ->
    Permutation nets' (r' :: remove_network (n_id r') (us_nets u)) ->
    map r_id rows' = map r_id (us_rows u) ->
    get_name r' <> [] -> has_prefix (get_name r') (B "-") = false ->
    (forall x, In x (us_nets u) -> n_id x <> n_id r' -> get_name x <> get_name r') ->
    inv (with_nets u nets' rows').
  Proof.
    intros I G P R N1 N2 N3. destruct (remove_perm _ _ _ G) as [Q Id].
    assert (Old : forall x, In x (remove_network (n_id r') (us_nets u)) -> In x (us_nets u))
      by (intros x A; rewrite Q; right; exact A).
    pose proof (remove_notin (n_id r') (us_nets u) (i_ids u I)) as NI.
    pose proof (i_ids u I) as D. unfold ids in D. rewrite Q in D. cbn [map] in D. inversion_clear D as [|? ? _ D'].
    split; unfold with_nets; cbn [us_nets us_rows].
    - unfold ids. eapply nodup_perm; [apply Permutation_map, P|]. cbn [map]. constructor; [exact NI|exact D'].
    - intros x A. apply (Permutation_in _ P) in A as [<-|A].
      + rewrite <- Id. apply (i_pos u I). rewrite Q. left; reflexivity.
      + apply (i_pos u I), Old, A.
    - rewrite R. etransitivity; [apply i_rows, I|]. unfold ids. rewrite (Permutation_map n_id P). rewrite (Permutation_map n_id Q) at 1.
      cbn [map]. rewrite Id. reflexivity.
    - eapply nodup_perm; [apply Permutation_map, P|]. cbn [map].
      pose proof (i_names u I) as D2. rewrite (Permutation_map get_name Q) in D2. cbn [map] in D2. inversion_clear D2 as [|? ? _ D2'].
      constructor; [|exact D2'].
      intros A. apply in_map_iff in A as (x & E & A). apply (N3 x (Old x A)); [|exact E].
      intros E2. apply NI. apply in_map_iff. exists x. split; [exact E2|exact A].
    - intros x A. apply (Permutation_in _ P) in A as [<-|A]; [split; assumption|apply (i_ok u I), Old, A].
  Qed.

  Lemma replace_ids r' id rows : n_id r' = id ->
    map r_id (map (fun w => if r_id w =? id then row_of r' else w) rows) = map r_id rows.
  Proof.
    intros <-. induction rows as [|w rows IH]; [reflexivity|]. cbn [map]. rewrite IH. f_equal.
    destruct (r_id w =? n_id r') eqn:E; [apply Z.eqb_eq in E; symmetry; exact E|reflexivity].
  Qed.

  Lemma inv_update u r enforce io u' : inv u -> update_network u r enforce io = Some u' -> inv u'.
  Proof.
    intros I H. destruct (update_some _ _ _ _ _ I H) as (n & r' & G & _ & F & -> & C & _ & _).
    destruct (check_names _ _ C) as (N1 & N2 & N3). pose proof (proj1 F) as Id.
    apply (inv_replace u n r'); [exact I|rewrite Id; exact G|rewrite Id; apply add_perm|apply replace_ids, Id|exact N1|exact N2|exact N3].
  Qed.

  Lemma inv_delete u id io u' : inv u -> delete_network u id io = Some u' -> inv u'.
  Proof.
    intros I H. unfold delete_network in H. destruct (get_network_by_id (us_nets u) id) as [n|] eqn:G; [|discriminate].
    destruct io; [|discriminate]. injection H as <-. destruct (remove_perm _ _ _ G) as [Q Id].
    assert (Old : forall x, In x (remove_network id (us_nets u)) -> In x (us_nets u))
      by (intros x A; rewrite Q; right; exact A).
    pose proof (i_ids u I) as D. unfold ids in D. rewrite Q in D. cbn [map] in D. inversion_clear D as [|? ? D0 D'].
    pose proof (i_names u I) as D2. rewrite (Permutation_map get_name Q) in D2. cbn [map] in D2. inversion_clear D2 as [|? ? _ D2'].
    split; unfold with_nets; cbn [us_nets us_rows].
    - exact D'.
    - intros x A. apply (i_pos u I), Old, A.
    - assert (E : forall rows, map r_id (filter (fun w => negb (r_id w =? id)) rows) = filter (fun i => negb (i =? id)) (map r_id rows)).
      { intros rows. induction rows as [|w rows IH]; [reflexivity|]. cbn [filter map]. destruct (r_id w =? id); cbn [negb map]; [exact IH|f_equal; exact IH]. }
      rewrite E.
      assert (PF : forall (f : Z -> bool) l l', Permutation l l' -> Permutation (filter f l) (filter f l')).
      { intros f l l' P. induction P; cbn [filter]; [constructor|destruct (f x); [apply perm_skip|]; assumption| |etransitivity; eassumption].
        destruct (f x), (f y); try reflexivity. apply perm_swap. }
      rewrite (PF _ _ _ (i_rows u I)). unfold ids. rewrite (PF _ _ _ (Permutation_map n_id Q)). cbn [map filter]. rewrite Id, Z.eqb_refl. cbn [negb].
      rewrite Id in D0. clear - D0. induction (map n_id (remove_network id (us_nets u))) as [|i l IH]; [reflexivity|].
      cbn [filter]. destruct (i =? id) eqn:E; [apply Z.eqb_eq in E; destruct D0; left; exact E|]. cbn [negb]. apply perm_skip, IH.
      intros A; apply D0; right; exact A.
    - exact D2'.
    - intros x A. apply (i_ok u I), Old, A.
  Qed.

  Lemma inv_assign u n r' rows' : inv u -> get_network_by_id (us_nets u) (n_id r') = Some n -> same_face r' n ->
    map r_id rows' = map r_id (us_rows u) -> inv (with_nets u (assign r' (us_nets u)) rows').
  Proof.
    intros I G F R. pose proof (same_face_name _ _ F) as E. destruct (remove_perm _ _ _ G) as [Q Id].
    assert (Hn : In n (us_nets u)) by (rewrite Q; left; reflexivity).
    destruct (i_ok u I n Hn) as [O1 O2].
    apply (inv_replace u n r'); [exact I|exact G|eapply assign_perm; [apply i_ids, I|exact G]|exact R|rewrite E; exact O1|rewrite E; exact O2|].
    intros x A NE E2. rewrite E in E2.
    pose proof (i_names u I) as D. rewrite (Permutation_map get_name Q) in D. cbn [map] in D. inversion_clear D as [|? ? D0 _].
    apply D0. rewrite <- E2. apply in_map. apply (Permutation_in _ Q) in A as [A|A]; [subst x; contradiction|exact A].
  Qed.

  Lemma change_some u r n io : inv u -> get_network_by_id (us_nets u) (n_id r) = Some n ->
    exists r' rows', change_and_store u r io = with_nets u (assign r' (us_nets u)) rows' /\ same_face r' r /\
      row_of r' = row_of r /\ (mech_ok r = true -> r' = store_mutate r) /\
      (rows' = us_rows u \/
       rows' = map (fun w => if r_id w =? n_id r then row_of r' else w) (us_rows u)).
  Proof.
    intros I G. unfold change_and_store. destruct (remove_perm _ _ _ G) as [P Id].
    assert (Pos : 0 < n_id n) by (apply (i_pos u I); rewrite P; left; reflexivity).
    assert (NZ : n_id r <> 0) by lia.
    destruct (store_network (us_rows u) r 0 io) as [[rows' r']|] eqn:S.
    - destruct (store_old _ _ _ _ _ _ NZ S) as (R & W & M & Cf). exists r', rows'.
      split; [reflexivity|]. split; [subst r'; apply mutate_face|]. split; [subst r'; apply row_of_mutate|].
      split; [intros _; exact R|]. right. subst r'. rewrite row_of_mutate. exact W.
    - exists (if mech_ok r then store_mutate r else r), (us_rows u). split; [reflexivity|].
      split; [destruct (mech_ok r); [apply mutate_face|(split; [|split; [|split]]); reflexivity]|].
      split; [destruct (mech_ok r); [apply row_of_mutate|reflexivity]|].
      split; [intros ->; reflexivity|left; reflexivity].
  Qed.

  Lemma inv_change u r n io : inv u -> get_network_by_id (us_nets u) (n_id r) = Some n -> same_face r n -> inv (change_and_store u r io).
  Proof.
    intros I G F. destruct (change_some u r n io I G) as (r' & rows' & -> & F' & _ & _ & R).
    pose proof (proj1 F') as Id. apply (inv_assign u n r').
    - exact I.
    - rewrite Id. exact G.
    - destruct F' as (A1 & A2 & A3 & A4), F as (B1 & B2 & B3 & B4). (split; [|split; [|split]]); congruence.
    - destruct R as [->| ->]; [reflexivity|apply replace_ids, Id].
  Qed.

  (** The records made by the flags and by the attributes keep the ID. *)
  Lemma upd_id {A} (o : option A) f r : (forall x r, n_id (f x r) = n_id r) -> n_id (upd o f r) = n_id r.
  Proof. intros H. destruct o; [apply H|reflexivity]. Qed.

  Lemma cmds_some o r r' : cmds_update command_ok o r = Some r' ->
    r' = r \/ r' = set_cmds [] r \/ exists l, o = Some l /\ l <> [[]] /\ Forall (fun c => command_ok c = true) l /\ r' = set_cmds l r.
  Proof.
    unfold cmds_update. destruct o as [l|]; [|intros H; injection H as <-; left; reflexivity].
    destruct (leqb beqb l [[]]) eqn:E; [intros H; injection H as <-; right; left; reflexivity|].
    destruct (Nat.ltb 20 (length l)); [discriminate|].
    destruct (forallb command_ok l) eqn:F; [|discriminate]. intros H; injection H as <-. right; right. exists l.
    split; [reflexivity|]. split. { intros ->. discriminate E. }
    split; [|reflexivity]. apply Forall_forall. apply forallb_forall. exact F.
  Qed.

  Lemma certfp_some o r r' : certfp_update o r = Some r' -> exists c, r' = set_certfp c r.
  Proof.
    unfold certfp_update. destruct o as [c|]; [|intros H; injection H as <-; exists (n_certfp r); destruct r; reflexivity].
    destruct (norm_certfp c) as [d|]; [|discriminate]. intros H; injection H as <-. exists d; reflexivity.
  Qed.

  Lemma flags_id fs r r' : flags_update command_ok fs r = Some r' -> n_id r' = n_id r.
  Proof.
    unfold flags_update. destruct (bad_addr _); [discriminate|]. destruct (bad_name _); [discriminate|].
    destruct (certfp_update _ _) as [r2|] eqn:E; [|discriminate]. apply certfp_some in E as [c ->].
    intros H. apply cmds_some in H as [->|[->|(l & _ & _ & _ & ->)]]; cbn [set_cmds n_id];
      repeat (rewrite upd_id by (intros; reflexivity)); cbn [set_certfp n_id];
      repeat (rewrite upd_id by (intros; reflexivity)); reflexivity.
  Qed.

  Lemma attrs_id a r r' : attrs_update parse_url split_host_port a r = Some r' -> n_id r' = n_id r /\ n_enabled r' = n_enabled r.
  Proof.
    unfold attrs_update. destruct (a_unknown a); [discriminate|].
    destruct (addr_attrs parse_url split_host_port r) as [[h p] t].
    set (r1 := upd (a_pass a) _ _).
    assert (E1 : n_id r1 = n_id r /\ n_enabled r1 = n_enabled r).
    { unfold r1. destruct (a_pass a), (a_realname a), (a_username a), (a_nick a), (a_name a); split; reflexivity. }
    clearbody r1. destruct (_ || _); [|intros [= <-]; exact E1].
    destruct (addr_from _ _ _); [discriminate|]. intros [= <-]. exact E1.
  Qed.

  Lemma wipe_face u r : same_face (wipe_defaults u r) r.
  Proof.
    unfold wipe_defaults. destruct (beqb (n_nick r) _); destruct (beqb (n_realname _) _);
      (split; [|split; [|split]]); reflexivity.
  Qed.

  Lemma select_in u cur name n : select u cur name = Some n -> In n (us_nets u).
  Proof.
    unfold select. destruct name.
    - destruct cur; [|discriminate]. intros H. destruct (remove_perm _ _ _ H) as [P _]. rewrite P. left; reflexivity.
    - unfold get_network. intros H. apply find_some in H as [H _]. exact H.
  Qed.

  Lemma in_get u n : inv u -> In n (us_nets u) -> get_network_by_id (us_nets u) (n_id n) = Some n.
  Proof.
    intros I. pose proof (i_ids u I) as D. revert D. unfold ids, get_network_by_id. generalize (us_nets u) as l. clear u I.
    induction l as [|x l IH]; [easy|]. cbn [map find]. intros D A. inversion_clear D as [|? ? N D'].
    destruct A as [<-|A]; [rewrite Z.eqb_refl; reflexivity|].
    destruct (n_id x =? n_id n) eqn:E; [|apply IH; assumption].
    apply Z.eqb_eq in E. destruct N. rewrite E. apply in_map, A.
  Qed.

  (** Any property kept by the basic operations is kept by every command. The
      premises say with which arguments these are used: [adm] holds if the command may
      ignore the limit, [okuser] restricts changes of the user, [split] tells that the database and
      the memory can change separately, and [good] holds of the connect commands in the flags. *)
  Definition user_change u nick realname admin enabled max : ust :=
    Ust (us_username u) nick realname admin enabled max (us_nets u) (us_rows u).

  Section Basic.
  Variables adm split : Prop.
  Variable okuser : bool -> Z -> Prop.
  Variable good : list bytes -> Prop.
  Hypothesis good_nil : good [].

  (** Same except for SASL. *)
  Definition but_sasl (r n : netrec) : Prop :=
    set_sasl [] [] [] [] [] r = set_sasl [] [] [] [] [] n.

  Inductive basic (u : ust) : ust -> Prop :=
  | b_create r enforce nid io u' : n_id r = 0 -> good (n_cmds r) -> enforce = true \/ adm ->
      create_network u r enforce nid io = Some u' -> basic u u'
  | b_update n r enforce io u' : In n (us_nets u) -> n_id r = n_id n -> good (n_cmds r) \/ n_cmds r = n_cmds n ->
      enforce = true \/ n_enabled n = true \/ n_enabled r = false \/ adm ->
      update_network u r enforce io = Some u' -> basic u u'
  | b_delete id io u' : delete_network u id io = Some u' -> basic u u'
  | b_change n r io : In n (us_nets u) -> but_sasl r n -> mech_ok r = true -> io = true \/ split -> basic u (change_and_store u r io)
  | b_nick n nick io rows r' : In n (us_nets u) -> store_network (us_rows u) (set_nick nick n) 0 io = Some (rows, r') ->
      basic u (with_nets u (assign (set_nick nick n) (us_nets u)) rows)
  | b_setname n x io rows r' : In n (us_nets u) -> split -> store_network (us_rows u) (set_realname x n) 0 io = Some (rows, r') ->
      basic u (with_nets u (us_nets u) rows)
  | b_user nick realname admin enabled max : okuser admin max -> basic u (user_change u nick realname admin enabled max).

  Inductive basics (u : ust) : ust -> Prop :=
  | bs_refl : basics u u
  | bs_step u1 u2 : basics u u1 -> basic u1 u2 -> basics u u2.

  Lemma get_in u id n : get_network_by_id (us_nets u) id = Some n -> In n (us_nets u).
  Proof. intros H. destruct (remove_perm _ _ _ H) as [P _]. rewrite P. left; reflexivity. Qed.

  Lemma but_sasl_face r n : but_sasl r n -> same_face r n /\ n_cmds r = n_cmds n /\ n_nick r = n_nick n.
  Proof.
    unfold but_sasl, same_face. intros E.
    pose proof (f_equal n_id E) as E1. pose proof (f_equal n_name E) as E2. pose proof (f_equal n_addr E) as E3.
    pose proof (f_equal n_enabled E) as E4. pose proof (f_equal n_cmds E) as E5. pose proof (f_equal n_nick E) as E6.
    cbn [set_sasl n_id n_name n_addr n_enabled n_cmds n_nick] in *.
    split; [|split; assumption]. (split; [|split; [|split]]); assumption.
  Qed.

  Lemma inv_basic u u' : inv u -> basic u u' -> inv u'.
  Proof.
    intros I X. destruct X as [r enforce nid io u' Z0 _ _ H|n r enforce io u' _ _ _ _ H|id io u' H|n r io A F _ _|n nick io rows r' A H|n x io rows r' A _ H|nick realname admin enabled max _].
    - exact (inv_create _ _ _ _ _ _ Z0 I H).
    - exact (inv_update _ _ _ _ _ I H).
    - exact (inv_delete _ _ _ _ I H).
    - destruct (but_sasl_face _ _ F) as [F' _]. apply (inv_change u r n); [exact I| |exact F']. rewrite (proj1 F'). apply in_get; assumption.
    - assert (NZ : n_id (set_nick nick n) <> 0) by (cbn [set_nick n_id]; pose proof (i_pos u I n A); lia).
      destruct (store_old _ _ _ _ _ _ NZ H) as (_ & -> & _).
      apply (inv_assign u n (set_nick nick n)); [exact I|exact (in_get u n I A)|(split; [|split; [|split]]); reflexivity|apply replace_ids; reflexivity].
    - assert (NZ : n_id (set_realname x n) <> 0) by (cbn [set_realname n_id]; pose proof (i_pos u I n A); lia).
      destruct (store_old _ _ _ _ _ _ NZ H) as (_ & -> & _).
      destruct I as [I1 I2 I3 I4 I5]. split; unfold with_nets; cbn [us_nets us_rows]; try assumption.
      rewrite (replace_ids (set_realname x n)); [exact I3|reflexivity].
    - destruct I. split; assumption.
  Qed.

  Lemma inv_basics u u' : inv u -> basics u u' -> inv u'.
  Proof. intros I X. induction X; [exact I|eapply inv_basic; eassumption]. Qed.

  Lemma norm_cmds u r : n_cmds (norm_defaults u r) = n_cmds r.
  Proof. unfold norm_defaults. destruct (beqb (n_nick r) _); destruct (beqb (n_realname _) _); reflexivity. Qed.
  Lemma mutate_cmds r : n_cmds (store_mutate r) = n_cmds r.
  Proof. unfold store_mutate. destruct (beqb _ _); reflexivity. Qed.

  (** The updates of updateUser keep what the other records need. *)
  Definition kept (u : ust) (n : netrec) : Prop :=
    exists m, get_network_by_id (us_nets u) (n_id n) = Some m /\ n_enabled m = n_enabled n /\ n_cmds m = n_cmds n.

  Lemma get_perm nets nets' id : NoDup (ids nets) -> Permutation nets nets' -> get_network_by_id nets id = get_network_by_id nets' id.
  Proof.
    intros D P. induction P as [|x l l' P IH|x y l|l1 l2 l3 P1 IH1 P2 IH2]; unfold get_network_by_id in *; cbn [find].
    - reflexivity.
    - destruct (n_id x =? id); [reflexivity|]. apply IH. cbn [ids map] in D. inversion D; assumption.
    - destruct (n_id x =? id) eqn:E1, (n_id y =? id) eqn:E2; try reflexivity.
      apply Z.eqb_eq in E1, E2. cbn [ids map] in D. inversion_clear D as [|? ? N _]. destruct N. left. congruence.
    - rewrite IH1 by exact D. apply IH2. unfold ids. rewrite <- P1. exact D.
  Qed.

  Lemma fold_basics ios l : forall u0 u, inv u -> basics u0 u -> Forall (kept u) l ->
    basics u0 (fold_left (fun u n => match update_network u n false (ios (n_id n)) with None => u | Some u' => u' end) l u).
  Proof.
    induction l as [|n l IH]; intros u0 u I H K; [exact H|]. cbn [fold_left]. inversion_clear K as [|? ? K1 K2].
    destruct (update_network u n false (ios (n_id n))) as [u'|] eqn:E; [|apply IH; assumption].
    destruct K1 as (m & G & En & Cm). pose proof (remove_perm _ _ _ G) as [_ Id].
    apply IH.
    - eapply inv_update; eassumption.
    - eapply bs_step; [exact H|]. apply (b_update u m n false (ios (n_id n)) u').
      + exact (get_in _ _ _ G).
      + symmetry; exact Id.
      + right; symmetry; exact Cm.
      + rewrite En. destruct (n_enabled n); [right; left; reflexivity|right; right; left; reflexivity].
      + exact E.
    - pose proof (inv_update _ _ _ _ _ I E) as I'.
      destruct (update_some _ _ _ _ _ I E) as (m' & r' & G' & R & F & U & _).
      rewrite G in G'. injection G' as <-.
      eapply Forall_impl; [|exact K2]. intros x (y & Gx & Ex & Cx).
      destruct (Z.eq_dec (n_id x) (n_id n)) as [Eq|Ne].
      + exists r'. assert (y = m) by (rewrite Eq, G in Gx; congruence). subst y.
        split.
        * rewrite Eq, <- (proj1 F). apply (in_get u' r' I'). subst u'. cbn [with_nets us_nets].
          apply (Permutation_in _ (Permutation_sym (add_perm _ _))). left; reflexivity.
        * split; [destruct F as (_ & _ & _ & ->); congruence|]. rewrite R, mutate_cmds, norm_cmds. congruence.
      + exists y. split; [|split; assumption].
        assert (Id' : n_id y = n_id x) by (destruct (remove_perm _ _ _ Gx); assumption).
        rewrite <- Id'. apply (in_get u' y I'). subst u'. cbn [with_nets us_nets].
        apply (Permutation_in _ (Permutation_sym (add_perm _ _))). right.
        destruct (remove_perm _ _ _ G) as [P _]. pose proof (get_in _ _ _ Gx) as A.
        apply (Permutation_in _ P) in A as [A|A]; [subst y; congruence|exact A].
  Qed.

  (** What a command may do. *)
  Definition allowed (o : op) : Prop :=
    match o with
    | SvcCreate a fs _ _ | SvcUpdate a _ _ fs _ =>
        (a = true -> adm) /\ (forall l, f_cmds fs = Some l -> l <> [[]] -> Forall (fun c => command_ok c = true) l -> good l)
    | DcSetname _ _ cap _ => cap = true -> split
    | SvcSaslSet _ _ _ _ io | SvcSaslReset _ _ io | SvcCertfp _ _ _ _ io | AutoSave _ _ _ io => io = false -> split
    | UserUpdate _ _ a _ m _ _ _ => okuser a m
    | _ => True
    end.

  Lemma flags_cmds fs r r' : flags_update command_ok fs r = Some r' ->
    (forall l, f_cmds fs = Some l -> l <> [[]] -> Forall (fun c => command_ok c = true) l -> good l) ->
    good (n_cmds r') \/ n_cmds r' = n_cmds r.
  Proof.
    unfold flags_update. destruct (bad_addr _); [discriminate|]. destruct (bad_name _); [discriminate|].
    destruct (certfp_update _ _) as [r2|] eqn:E; [|discriminate]. apply certfp_some in E as [c ->].
    assert (U : forall A (o : option A) f r, (forall x r, n_cmds (f x r) = n_cmds r) -> n_cmds (upd o f r) = n_cmds r)
      by (intros A o f r0 H; destruct o; [apply H|reflexivity]).
    intros H K. apply cmds_some in H as [->|[->|(l & L1 & L2 & L3 & ->)]]; cbn [set_cmds n_cmds].
    - right. repeat (rewrite U by (intros; reflexivity)). cbn [set_certfp n_cmds]. repeat (rewrite U by (intros; reflexivity)). reflexivity.
    - left. exact good_nil.
    - left. exact (K l L1 L2 L3).
  Qed.

  Lemma attrs_cmds a r r' : attrs_update parse_url split_host_port a r = Some r' -> n_cmds r' = n_cmds r.
  Proof.
    unfold attrs_update. destruct (a_unknown a); [discriminate|].
    destruct (addr_attrs parse_url split_host_port r) as [[h p] t].
    set (r1 := upd (a_pass a) _ _).
    assert (E1 : n_cmds r1 = n_cmds r).
    { unfold r1. destruct (a_pass a), (a_realname a), (a_username a), (a_nick a), (a_name a); reflexivity. }
    clearbody r1. destruct (_ || _); [|intros [= <-]; exact E1].
    destruct (addr_from _ _ _); [discriminate|]. intros [= <-]. exact E1.
  Qed.

  Lemma wipe_cmds u r : n_cmds (wipe_defaults u r) = n_cmds r.
  Proof. unfold wipe_defaults. destruct (beqb (n_nick r) _); destruct (beqb (n_realname _) _); reflexivity. Qed.

  Lemma io_cases (io : bool) : (io = false -> split) -> io = true \/ split.
  Proof. destruct io; [left; reflexivity|right; auto]. Qed.

  Lemma step_basics u o : inv u -> allowed o -> basics u (step u o).
  Proof.
    intros I Al. unfold Networks.step. destruct (apply u o) as [u'|] eqn:E; [|constructor].
    assert (One : basic u u' -> basics u u') by (intros X; eapply bs_step; [constructor|exact X]).
    destruct o; cbn [Networks.apply] in E; cbn [allowed] in Al.
    - unfold svc_create in E. destruct (f_addr fs) as [addr|]; [|discriminate].
      destruct (f_ignore_limit fs && negb admin) eqn:Ad; [discriminate|].
      destruct (flags_update command_ok fs (new_network addr)) as [r|] eqn:F; [|discriminate].
      destruct Al as [Al1 Al2].
      apply One. eapply b_create; [exact (flags_id _ _ _ F)| | |exact E].
      + destruct (flags_cmds _ _ _ F Al2) as [G|G]; [exact G|rewrite G; exact good_nil].
      + destruct (f_ignore_limit fs); [|left; reflexivity]. right. apply Al1. destruct admin; [reflexivity|discriminate Ad].
    - unfold svc_update in E. destruct (select u cur name) as [n|] eqn:S; [|discriminate].
      destruct (f_ignore_limit fs && negb admin) eqn:Ad; [discriminate|].
      destruct (flags_update command_ok fs n) as [r|] eqn:F; [|discriminate].
      destruct Al as [Al1 Al2].
      apply One. eapply b_update; [exact (select_in _ _ _ _ S)|exact (flags_id _ _ _ F)|exact (flags_cmds _ _ _ F Al2)| |exact E].
      destruct (f_ignore_limit fs).
      + right; right; right. apply Al1. destruct admin; [reflexivity|discriminate Ad].
      + destruct (n_enabled n); [right; left; reflexivity|left; reflexivity].
    - unfold svc_delete in E. destruct (select u cur name) as [n|]; [|discriminate]. apply One. eapply b_delete, E.
    - unfold svc_sasl_set in E. destruct (select u cur name) as [n|] eqn:S; [|discriminate]. injection E as <-.
      apply One. eapply b_change; [exact (select_in _ _ _ _ S)|reflexivity|reflexivity|apply io_cases, Al].
    - unfold svc_sasl_reset in E. destruct (select u cur name) as [n|] eqn:S; [|discriminate]. injection E as <-.
      apply One. eapply b_change; [exact (select_in _ _ _ _ S)|reflexivity|reflexivity|apply io_cases, Al].
    - unfold svc_certfp in E. destruct (select u cur name) as [n|] eqn:S; [|discriminate]. injection E as <-.
      apply One. eapply b_change; [exact (select_in _ _ _ _ S)|reflexivity|reflexivity|apply io_cases, Al].
    - unfold auto_save in E. destruct (get_network_by_id (us_nets u) id) as [n|] eqn:S; [|discriminate].
      destruct (_ && _); [discriminate|]. injection E as <-.
      apply One. eapply b_change; [exact (get_in _ _ _ S)|reflexivity|reflexivity|apply io_cases, Al].
    - unfold bnc_add in E. destruct (attrs_update parse_url split_host_port a _) as [r|] eqn:F; [|discriminate].
      apply One. eapply b_create; [| | |exact E].
      + rewrite (proj1 (wipe_face u r)). exact (proj1 (attrs_id _ _ _ F)).
      + rewrite wipe_cmds, (attrs_cmds _ _ _ F). exact good_nil.
      + left; reflexivity.
    - unfold bnc_change in E. destruct (get_network_by_id (us_nets u) id) as [n|] eqn:S; [|discriminate].
      destruct (attrs_update parse_url split_host_port a n) as [r|] eqn:F; [|discriminate].
      destruct (attrs_id _ _ _ F) as [F1 F2]. destruct (wipe_face u r) as (W1 & _ & _ & W4).
      apply One. eapply b_update; [exact (get_in _ _ _ S)| | | |exact E].
      + congruence.
      + right. rewrite wipe_cmds. exact (attrs_cmds _ _ _ F).
      + destruct (n_enabled n); [right; left; reflexivity|left; reflexivity].
    - apply One. eapply b_delete, E.
    - unfold login in E. destruct (_ || _); [discriminate|]. destruct (get_network (us_nets u) name); [discriminate|].
      destruct reachable; [|discriminate]. apply One. apply (b_create u (set_nick nick (new_network name)) true nid io u'); [reflexivity|exact good_nil|left; reflexivity|exact E].
    - unfold dc_nick in E. destruct (get_network_by_id (us_nets u) id) as [n|] eqn:S; [|discriminate].
      destruct (store_network _ _ _ _) as [[rows r']|] eqn:T; [|discriminate]. injection E as <-.
      apply One. eapply b_nick; [exact (get_in _ _ _ S)|exact T].
    - unfold dc_setname in E. destruct (get_network_by_id (us_nets u) id) as [n|] eqn:S; [|discriminate].
      destruct cap.
      + destruct (store_network _ _ _ _) as [[rows r']|] eqn:T; [|discriminate]. injection E as <-.
        apply One. eapply b_setname; [exact (get_in _ _ _ S)|exact (Al eq_refl)|exact T].
      + apply One. refine (b_update u n _ _ _ u' (get_in _ _ _ S) _ _ _ E); [reflexivity|right; reflexivity|].
        cbn [set_realname n_enabled]. destruct (n_enabled n); [right; left; reflexivity|right; right; left; reflexivity].
    - unfold dc_anonymous in E. destruct (get_network_by_id (us_nets u) id) as [n|] eqn:S; [|discriminate].
      destruct (beqb _ _); [discriminate|].
      apply One. refine (b_update u n _ _ _ u' (get_in _ _ _ S) _ _ _ E); [reflexivity|right; reflexivity|].
      cbn [set_sasl n_enabled]. destruct (n_enabled n); [right; left; reflexivity|right; right; left; reflexivity].
    - unfold update_user in E. destruct io; [cbn [negb] in E|discriminate].
      assert (X : basic u (user_change u nick realname admin enabled max)) by (constructor; exact Al).
      assert (Q : basics u (user_change u nick realname admin enabled max)) by (apply (bs_step u u); [constructor|exact X]).
      destruct (_ || _); injection E as <-; [|exact Q].
      apply fold_basics; [exact (inv_basic _ _ I X)|exact Q|].
      apply Forall_forall. intros n A. apply filter_In in A as [A _]. exists n.
      split; [exact (in_get u n I A)|split; reflexivity].
  Qed.

  (** Invariants over runs. *)
  Lemma run_invariant (P : ust -> Prop) : (forall u u', inv u -> P u -> basic u u' -> P u') ->
    forall os u, inv u -> P u -> Forall allowed os -> inv (run u os) /\ P (run u os).
  Proof.
    intros Pb os. induction os as [|o os IH]; intros u I Pu A; [split; assumption|].
    inversion_clear A as [|? ? A1 A2]. cbn [Networks.run fold_left].
    assert (Q : inv (step u o) /\ P (step u o)).
    { pose proof (step_basics u o I A1) as X. revert X. generalize (step u o). intros u' X.
      induction X as [|u1 u2 X [IH1 IH2] B]; [split; assumption|].
      split; [exact (inv_basic _ _ IH1 B)|exact (Pb _ _ IH1 IH2 B)]. }
    apply IH; [apply Q|apply Q|exact A2].
  Qed.
  End Basic.

  Lemma allowed_any o : allowed True True (fun _ _ => True) (fun _ => True) o.
  Proof. destruct o; cbn [allowed]; auto. Qed.

  Lemma inv_run u os : inv u -> inv (run u os).
  Proof.
    intros I.
    refine (proj1 (run_invariant True True (fun _ _ => True) (fun _ => True) Logic.I (fun _ => True) _ os u I Logic.I _)).
    - intros; exact Logic.I.
    - apply Forall_forall. intros o _. apply allowed_any.
  Qed.

  Lemma inv_new username nick realname admin enabled max : inv (new_user username nick realname admin enabled max).
  Proof. split; cbn; try constructor; try easy. Qed.

  (** ** Names *)
  Lemma shown_name r x : shown r x <-> x = get_name r.
  Proof.
    unfold shown, get_name. destruct (n_name r) eqn:E.
    - split; [intros [[A _]|[_ A]]; [contradiction|exact A]|right; auto].
    - split; [intros [[_ A]|[A _]]; [exact A|discriminate A]|left; split; [discriminate|assumption]].
  Qed.

  Lemma nodup_distinct nets : NoDup (map get_name nets) -> names_distinct nets.
  Proof.
    intros D a n b m c x -> A1 A2. apply shown_name in A1, A2. subst x.
    rewrite map_app in D. cbn [map] in D. apply NoDup_remove_2 in D. apply D.
    apply in_or_app; right. rewrite map_app. cbn [map]. apply in_or_app; right. left. symmetry; exact A2.
  Qed.

  (** A name finds its network, unless another network has it as its address. *)
  Lemma lookup_name u n : inv u -> In n (us_nets u) ->
    (forall m, In m (us_nets u) -> n_addr m = get_name n -> m = n) ->
    get_network (us_nets u) (get_name n) = Some n.
  Proof.
    intros I A Sh. pose proof (i_names u I) as D. revert D A Sh. unfold get_network. generalize (us_nets u) as l. clear u I.
    induction l as [|x l IH]; [easy|]. intros D A Sh. cbn [map] in D. inversion_clear D as [|? ? N D'].
    cbn [find]. set (b := _ || _). destruct b eqn:E; unfold b in E; clear b.
    - f_equal. apply orb_prop in E as [E|E].
      + apply beqb_eq in E. apply Sh; [left; reflexivity|exact E].
      + apply andb_prop in E as [E1 E2]. apply negb_true_iff, beqb_neq in E1. apply beqb_eq in E2.
        destruct A as [A|A]; [exact A|]. destruct N.
        assert (Q : get_name x = get_name n) by (rewrite <- E2; unfold get_name; destruct (n_name x); [contradiction|reflexivity]).
        rewrite Q. apply in_map, A.
    - destruct A as [->|A].
      + exfalso. apply orb_false_elim in E as [E1 E2]. unfold get_name in *.
        destruct (n_name n) eqn:F; [rewrite beqb_refl in E1; discriminate|].
        rewrite beqb_refl in E2. discriminate E2.
      + apply IH; [exact D'|exact A|]. intros m Hm. apply Sh. right; exact Hm.
  Qed.

  (** ** The limit *)
  Lemma count_spec nets : count_enabled nets = enabled_count nets.
  Proof.
    unfold count_enabled. induction nets as [|r nets IH]; [reflexivity|]. cbn [filter enabled_count].
    destruct (n_enabled r); [cbn [length]; lia|rewrite IH; lia].
  Qed.

  Lemma count_perm l l' : Permutation l l' -> enabled_count l = enabled_count l'.
  Proof. intros P. induction P; cbn [enabled_count]; try lia. Qed.

  Lemma can_enable_spec u : can_enable config_max u = true -> 0 <= limit config_max u -> enabled_count (us_nets u) + 1 <= limit config_max u.
  Proof.
    unfold can_enable. intros H L. rewrite count_spec in H. apply orb_prop in H as [H|H]; [apply Z.ltb_lt in H; lia|apply Z.ltb_lt in H; lia].
  Qed.

  Lemma limit_basic m u u' : 0 <= (if m <? 0 then config_max else m) -> us_max u = m -> inv u ->
    basic False True (fun _ max => max = m) (fun _ => True) u u' ->
    us_max u' = m /\ enabled_count (us_nets u') <= Z.max (enabled_count (us_nets u)) (if m <? 0 then config_max else m).
  Proof.
    intros L Mx I X. set (lim := if m <? 0 then config_max else m) in *.
    assert (Lu : limit config_max u = lim) by (unfold limit; rewrite Mx; reflexivity).
    assert (Rep : forall n r' nets', get_network_by_id (us_nets u) (n_id r') = Some n ->
              Permutation nets' (r' :: remove_network (n_id r') (us_nets u)) ->
              enabled_count nets' = enabled_count (us_nets u) + (if n_enabled r' then 1 else 0) - (if n_enabled n then 1 else 0)).
    { intros n r' nets' G P. destruct (remove_perm _ _ _ G) as [Q _]. rewrite (count_perm _ _ P), (count_perm _ _ Q). cbn [enabled_count]. lia. }
    destruct X as [r enforce nid io u' Z0 _ Ad H|n r enforce io u' A Id _ Ad H|id io u' H|n r io A F _ _|n nick io rows r' A H|n x io rows r' A _ H|nick realname admin enabled max Ou].
    - destruct (create_some _ _ _ _ _ _ Z0 H) as (r' & R & _ & -> & _ & _ & _ & En).
      split; [exact Mx|]. cbn [with_nets us_nets]. rewrite (count_perm _ _ (add_perm _ _)). cbn [enabled_count].
      assert (E : n_enabled r' = n_enabled r) by (subst r'; destruct (mutate_face r) as (_ & _ & _ & <-); reflexivity).
      rewrite E. destruct (n_enabled r) eqn:Er; [|lia].
      destruct Ad as [Ad|[]]. specialize (En Ad eq_refl). pose proof (can_enable_spec u En) as C. rewrite Lu in C. specialize (C L). lia.
    - destruct (update_some _ _ _ _ _ I H) as (n' & r' & G & _ & F & -> & _ & _ & _ & En).
      pose proof (in_get u n I A) as G'. rewrite <- Id, G in G'. injection G' as ->.
      split; [exact Mx|]. cbn [with_nets us_nets].
      pose proof (proj1 F) as Idr. destruct F as (_ & _ & _ & Fe).
      rewrite (Rep n r' _); [|rewrite Idr; exact G|rewrite Idr; apply add_perm]. rewrite Fe.
      destruct (n_enabled r) eqn:Er; [|destruct (n_enabled n); lia].
      destruct (n_enabled n) eqn:Enn; [lia|].
      destruct Ad as [Ad|[Ad|[Ad|[]]]]; [|discriminate|discriminate].
      specialize (En Ad eq_refl). pose proof (can_enable_spec u En) as C. rewrite Lu in C. specialize (C L). lia.
    - unfold delete_network in H. destruct (get_network_by_id (us_nets u) id) as [n|] eqn:G; [|discriminate].
      destruct io; [|discriminate]. injection H as <-. split; [exact Mx|]. cbn [with_nets us_nets].
      destruct (remove_perm _ _ _ G) as [Q _]. rewrite (count_perm _ _ Q). cbn [enabled_count]. destruct (n_enabled n); lia.
    - destruct (but_sasl_face _ _ F) as [F' _]. pose proof (in_get u n I A) as G. rewrite <- (proj1 F') in G.
      destruct (change_some u r n io I G) as (r' & rows' & -> & F2 & _).
      split; [exact Mx|]. cbn [with_nets us_nets]. rewrite <- (proj1 F2) in G.
      rewrite (Rep n r' _ G (assign_perm _ _ _ (i_ids u I) G)).
      destruct F' as (_ & _ & _ & F'), F2 as (_ & _ & _ & F2). rewrite F2, F'. lia.
    - split; [exact Mx|]. cbn [with_nets us_nets].
      rewrite (Rep n (set_nick nick n) _ (in_get u n I A) (assign_perm (set_nick nick n) _ n (i_ids u I) (in_get u n I A))).
      cbn [set_nick n_enabled]. lia.
    - split; [exact Mx|]. cbn [with_nets us_nets]. lia.
    - split; [exact Ou|]. cbn [user_change us_nets]. lia.
  Qed.

  Lemma ordinary_allowed m o : ordinary m o -> allowed False True (fun _ max => max = m) (fun _ => True) o.
  Proof.
    destruct o; cbn [ordinary allowed]; auto.
    - intros ->. split; [discriminate|auto].
    - intros ->. split; [discriminate|auto].
    - intros [_ H]; exact H.
  Qed.

  Lemma limit_run u os : inv u -> 0 <= limit config_max u -> Forall (ordinary (us_max u)) os ->
    enabled_count (us_nets (run u os)) <= Z.max (enabled_count (us_nets u)) (limit config_max u).
  Proof.
    intros I L A.
    set (P := fun u' => us_max u' = us_max u /\ enabled_count (us_nets u') <= Z.max (enabled_count (us_nets u)) (limit config_max u)).
    enough (X : P (run u os)) by apply X.
    refine (proj2 (run_invariant False True (fun _ max => max = us_max u) (fun _ => True) Logic.I P _ os u I _ _)).
    - intros u1 u2 I1 [P1 P2] B. destruct (limit_basic (us_max u) u1 u2 L P1 I1 B) as [Q1 Q2].
      split; [exact Q1|]. unfold limit in *. lia.
    - split; [reflexivity|lia].
    - eapply Forall_impl; [|exact A]. intros o. apply ordinary_allowed.
  Qed.

  (** ** Unix sockets *)
  Definition internet (r : netrec) : Prop :=
    exists v, net_url parse_url r = Some v /\ (u_scheme v = B "ircs" \/ u_scheme v = B "irc+insecure") /\ u_host v <> [].

  Lemma check_internet u r : us_admin u = false -> check_network u r = true -> internet r.
  Proof.
    intros Ad H. unfold Networks.check_network in H.
    apply andb_prop in H as [H _]. apply andb_prop in H as [H _]. apply andb_prop in H as [H _].
    unfold internet. destruct (net_url parse_url r) as [v|]; [|discriminate]. exists v. split; [reflexivity|].
    apply andb_prop in H as [_ H]. destruct (_ || _) eqn:E.
    - apply andb_prop in H as [H _]. apply negb_true_iff, beqb_neq in H. split; [|exact H].
      apply orb_prop in E as [E|E]; apply beqb_eq in E; [left|right]; exact E.
    - destruct (unix_scheme _); [rewrite Ad in H|]; discriminate H.
  Qed.

  Lemma internet_face r r' : n_addr r = n_addr r' -> internet r -> internet r'.
  Proof. unfold internet, net_url. intros ->. auto. Qed.

  Lemma internet_basic u u' : inv u -> us_admin u = false /\ Forall internet (us_nets u) ->
    basic True True (fun a _ => a = false) (fun _ => True) u u' -> us_admin u' = false /\ Forall internet (us_nets u').
  Proof.
    intros I [Ad Fi] X.
    assert (Rep : forall n r' nets', get_network_by_id (us_nets u) (n_id r') = Some n -> internet r' ->
              Permutation nets' (r' :: remove_network (n_id r') (us_nets u)) -> Forall internet nets').
    { intros n r' nets' G Ir P. destruct (remove_perm _ _ _ G) as [Q _]. rewrite P. constructor; [exact Ir|].
      rewrite Q in Fi. inversion Fi; assumption. }
    rewrite Forall_forall in Fi.
    assert (Fn : forall n r, In n (us_nets u) -> n_addr r = n_addr n -> internet r)
      by (intros n r A E; eapply internet_face; [symmetry; exact E|exact (Fi n A)]).
    destruct X as [r enforce nid io u' Z0 _ _ H|n r enforce io u' A Id _ _ H|id io u' H|n r io A F _ _|n nick io rows r' A H|n x io rows r' A _ H|nick realname admin enabled max Ou].
    - destruct (create_some _ _ _ _ _ _ Z0 H) as (r' & R & _ & -> & _ & C & _).
      split; [exact Ad|]. cbn [with_nets us_nets]. rewrite (add_perm _ _). constructor; [|rewrite Forall_forall; exact Fi].
      apply (internet_face r); [|exact (check_internet u r Ad C)]. subst r'. destruct (mutate_face r) as (_ & _ & <- & _). reflexivity.
    - destruct (update_some _ _ _ _ _ I H) as (n' & r' & G & _ & F & -> & C & _).
      split; [exact Ad|]. cbn [with_nets us_nets]. rewrite <- (proj1 F) in *.
      apply (Rep n' r' _ G (check_internet u r' Ad C) (add_perm _ _)).
    - unfold delete_network in H. destruct (get_network_by_id (us_nets u) id) as [n|] eqn:G; [|discriminate].
      destruct io; [|discriminate]. injection H as <-. split; [exact Ad|]. cbn [with_nets us_nets].
      destruct (remove_perm _ _ _ G) as [Q _]. apply Forall_forall. intros y B. apply Fi. rewrite Q. right; exact B.
    - destruct (but_sasl_face _ _ F) as [F' _]. pose proof (in_get u n I A) as G. rewrite <- (proj1 F') in G.
      destruct (change_some u r n io I G) as (r' & rows' & -> & F2 & _).
      split; [exact Ad|]. cbn [with_nets us_nets]. rewrite <- (proj1 F2) in G.
      apply (Rep n r' _ G); [|exact (assign_perm _ _ _ (i_ids u I) G)].
      apply (Fn n r' A). destruct F' as (_ & _ & F' & _), F2 as (_ & _ & F2 & _). congruence.
    - split; [exact Ad|]. cbn [with_nets us_nets].
      apply (Rep n (set_nick nick n) _ (in_get u n I A)); [exact (Fn n _ A eq_refl)|].
      exact (assign_perm (set_nick nick n) _ n (i_ids u I) (in_get u n I A)).
    - split; [exact Ad|]. cbn [with_nets us_nets]. rewrite Forall_forall; exact Fi.
    - split; [exact Ou|]. cbn [user_change us_nets]. rewrite Forall_forall; exact Fi.
  Qed.

  Lemma internet_run m u os : inv u -> us_admin u = false -> Forall internet (us_nets u) -> Forall (ordinary m) os ->
    Forall internet (us_nets (run u os)).
  Proof.
    intros I Ad Fi A.
    refine (proj2 (proj2 (run_invariant True True (fun a _ => a = false) (fun _ => True) Logic.I
              (fun u => us_admin u = false /\ Forall internet (us_nets u)) _ os u I (conj Ad Fi) _))).
    - intros u1 u2 I1 P1 B. exact (internet_basic u1 u2 I1 P1 B).
    - eapply Forall_impl; [|exact A]. intros o. destruct o; cbn [ordinary allowed]; auto. intros [H _]; exact H.
  Qed.

  (** ** Restarts *)
  Definition good_cmds (l : list bytes) : Prop := l <> [[]] /\ Forall (fun c => ~ In "010"%char c) l.

  Lemma split_crlf_nolf s : ~ In "010"%char s -> split_crlf s = [s].
  Proof.
    induction s as [|c s IH]; [reflexivity|]. intros H. cbn [split_crlf].
    destruct s as [|d s']; [reflexivity|].
    assert (E : aeqb d "010" = false) by (apply aeqb_neq; intros ->; apply H; right; left; reflexivity).
    rewrite E, andb_false_r. rewrite IH; [reflexivity|]. intros A; apply H; right; exact A.
  Qed.

  Lemma split_crlf_app a s : ~ In "010"%char a -> split_crlf (a ++ crlf2 ++ s) = a :: split_crlf s.
  Proof.
    induction a as [|c a IH]; intros H; [reflexivity|]. cbn [app].
    assert (IHa : split_crlf (a ++ crlf2 ++ s) = a :: split_crlf s) by (apply IH; intros A; apply H; right; exact A).
    destruct a as [|d a']; cbn [app] in *.
    - change (crlf2 ++ s) with ("013" :: "010" :: s)%char in *. cbn [split_crlf].
      change (aeqb "013" "010") with false. rewrite andb_false_r.
      change (aeqb "013" "013" && aeqb "010" "010") with true. cbv iota. reflexivity.
    - assert (E : aeqb d "010" = false) by (apply aeqb_neq; intros ->; apply H; right; left; reflexivity).
      change (split_crlf (c :: d :: a' ++ crlf2 ++ s)) with
        (if aeqb c "013" && aeqb d "010" then [] :: split_crlf (a' ++ crlf2 ++ s)
         else match split_crlf (d :: a' ++ crlf2 ++ s) with [] => [[c]] | x :: l => (c :: x) :: l end).
      rewrite E, andb_false_r, IHa. reflexivity.
  Qed.

  Lemma split_join_crlf l : l <> [] -> Forall (fun c => ~ In "010"%char c) l -> split_crlf (join crlf2 l) = l.
  Proof.
    induction l as [|a l IH]; [contradiction|]. intros _ F. inversion_clear F as [|? ? F1 F2].
    destruct l as [|b l]; [apply split_crlf_nolf, F1|].
    change (join crlf2 (a :: b :: l)) with (a ++ crlf2 ++ join crlf2 (b :: l)).
    rewrite split_crlf_app by exact F1. rewrite IH; [reflexivity|discriminate|exact F2].
  Qed.

  Lemma cmds_roundtrip l : good_cmds l ->
    match null (join crlf2 l) with None => [] | Some s => split_crlf s end = l.
  Proof.
    intros [N F]. destruct l as [|a l]; [reflexivity|].
    assert (NE : join crlf2 (a :: l) <> []).
    { destruct l as [|b l].
      - cbn [join]. intros ->. apply N. reflexivity.
      - change (join crlf2 (a :: b :: l)) with (a ++ crlf2 ++ join crlf2 (b :: l)).
        intros E. apply app_eq_nil in E as [_ E]. apply app_eq_nil in E as [E _]. discriminate E. }
    pose proof (split_join_crlf (a :: l) ltac:(discriminate) F) as S.
    destruct (join crlf2 (a :: l)); [contradiction|exact S].
  Qed.

  Lemma of_null_null s : of_null (null s) = s.
  Proof. destruct s; reflexivity. Qed.

  Definition sound (r : netrec) : Prop :=
    good_cmds (n_cmds r) /\ mech_ok r = true /\ (n_mech r = PLAIN -> n_cert r = [] /\ n_key r = []).

  Lemma reload_one r : sound r -> rec_of (row_of r) = persistent r.
  Proof.
    intros (G & M & C). unfold rec_of, row_of, persistent.
    cbn [r_id r_name r_addr r_nick r_username r_realname r_certfp r_pass r_cmds r_mech r_plain_user r_plain_pass r_cert r_key r_autoaway r_enabled].
    rewrite !of_null_null, cmds_roundtrip by exact G. change (B "PLAIN") with PLAIN.
    destruct (beqb (n_mech r) PLAIN) eqn:E.
    - apply beqb_eq in E. destruct (C E) as [C1 C2]. rewrite !of_null_null, <- C1, <- C2 at 1. rewrite C2. destruct r; cbn in *. subst. reflexivity.
    - reflexivity.
  Qed.

  Record synced (u : ust) : Prop := Synced {
    s_rows : Permutation (us_rows u) (map row_of (us_nets u));
    s_conf : forall w w', In w (us_rows u) -> In w' (us_rows u) -> r_id w <> r_id w' -> conflict w w' = false;
    s_sound : Forall sound (us_nets u)
  }.

  Lemma null_eqb_sym a b : null_eqb a b = null_eqb b a.
  Proof. destruct a, b; cbn [null_eqb]; try reflexivity. apply beqb_sym. Qed.
  Lemma conflict_sym a b : conflict a b = conflict b a.
  Proof. unfold conflict. rewrite (beqb_sym (r_addr a)), (null_eqb_sym (r_nick a)), (null_eqb_sym (r_name a)). reflexivity. Qed.

  Lemma rows_replace u n r' : inv u -> Permutation (us_rows u) (map row_of (us_nets u)) ->
    get_network_by_id (us_nets u) (n_id r') = Some n ->
    Permutation (map (fun w => if r_id w =? n_id r' then row_of r' else w) (us_rows u))
                (map row_of (r' :: remove_network (n_id r') (us_nets u))).
  Proof.
    intros I P G. destruct (remove_perm _ _ _ G) as [Q Id].
    rewrite (Permutation_map (fun w => if r_id w =? n_id r' then row_of r' else w) P).
    rewrite (Permutation_map (fun w => if r_id w =? n_id r' then row_of r' else w) (Permutation_map row_of Q)). cbn [map].
    change (r_id (row_of n)) with (n_id n). rewrite Id, Z.eqb_refl. apply perm_skip.
    pose proof (remove_notin (n_id r') (us_nets u) (i_ids u I)) as NI. rewrite map_map. unfold ids in NI. clear Q.
    induction (remove_network (n_id r') (us_nets u)) as [|x l IH]; [reflexivity|]. cbn [map].
    change (r_id (row_of x)) with (n_id x). destruct (n_id x =? n_id r') eqn:E.
    - apply Z.eqb_eq in E. destruct NI. left; exact E.
    - apply perm_skip, IH. intros A; apply NI; right; exact A.
  Qed.

  Lemma sync_replace u n r' nets' : inv u -> synced u -> get_network_by_id (us_nets u) (n_id r') = Some n -> sound r' ->
    Permutation nets' (r' :: remove_network (n_id r') (us_nets u)) ->
    (forall w, In w (us_rows u) -> r_id w <> n_id r' -> conflict w (row_of r') = false) ->
    synced (with_nets u nets' (map (fun w => if r_id w =? n_id r' then row_of r' else w) (us_rows u))).
  Proof.
    intros I S G So P Cf. destruct (remove_perm _ _ _ G) as [Q Id]. destruct S as [S1 S2 S3].
    split; cbn [with_nets us_nets us_rows].
    - rewrite (rows_replace u n r' I S1 G). apply Permutation_map. symmetry; exact P.
    - assert (Ch : forall w, In w (map (fun w => if r_id w =? n_id r' then row_of r' else w) (us_rows u)) ->
                w = row_of r' \/ (In w (us_rows u) /\ r_id w <> n_id r')).
      { intros w A. apply in_map_iff in A as (w0 & E & A). destruct (r_id w0 =? n_id r') eqn:X; [left; symmetry; exact E|].
        right. subst w0. split; [exact A|]. apply Z.eqb_neq, X. }
      intros w w' A A' Ne. destruct (Ch w A) as [->|[B1 B2]], (Ch w' A') as [->|[B1' B2']].
      + contradiction.
      + rewrite conflict_sym. apply Cf; assumption.
      + apply Cf; assumption.
      + apply S2; assumption.
    - rewrite P. constructor; [exact So|]. rewrite Q in S3. inversion S3; assumption.
  Qed.

  Lemma mutate_sound r : good_cmds (n_cmds r) -> mech_ok r = true -> sound (store_mutate r).
  Proof.
    intros G M. split; [rewrite mutate_cmds; exact G|]. unfold store_mutate. destruct (beqb (n_mech r) PLAIN) eqn:E.
    - split; [exact M|]. intros _. split; reflexivity.
    - split; [exact M|]. intros X. rewrite X in E. rewrite beqb_refl in E. discriminate E.
  Qed.

  Lemma conflict_face w r n : n_name r = n_name n -> n_addr r = n_addr n -> n_nick r = n_nick n ->
    conflict w (row_of r) = conflict w (row_of n).
  Proof. intros A1 A2 A3. unfold conflict, row_of. cbn [r_addr r_nick r_name]. rewrite A1, A2, A3. reflexivity. Qed.

  Lemma synced_basic u u' : inv u -> synced u -> basic True False (fun _ _ => True) good_cmds u u' -> synced u'.
  Proof.
    intros I S X.
    destruct X as [r enforce nid io u' Z0 Gd _ H|n r enforce io u' A Id Gd _ H|id io u' H|n r io A F M Io|n nick io rows r' A H|n x io rows r' A Sp H|nick realname admin enabled max Ou].
    - destruct (create_some _ _ _ _ _ _ Z0 H) as (r' & R & P & -> & W & C & M & _). destruct S as [S1 S2 S3].
      assert (So : sound r').
      { pose proof (mutate_sound r Gd M) as So. subst r'. exact So. }
      split; cbn [with_nets us_nets us_rows].
      + rewrite (Permutation_map row_of (add_perm r' (us_nets u))). cbn [map]. rewrite <- Permutation_cons_append. apply perm_skip, S1.
      + intros w w' B B' Ne. apply in_app_or in B, B'.
        destruct B as [B|[<-|[]]], B' as [B'|[<-|[]]].
        * apply S2; assumption.
        * apply (W w B).
        * rewrite conflict_sym. apply (W w' B').
        * contradiction.
      + rewrite (add_perm _ _). constructor; assumption.
    - destruct (update_some _ _ _ _ _ I H) as (n' & r' & G & R & F & -> & C & M & Cf & _).
      pose proof (in_get u n I A) as G'. rewrite <- Id, G in G'. injection G' as ->.
      rewrite <- (proj1 F) in *. apply (sync_replace u n r').
      + exact I.
      + exact S.
      + exact G.
      + subst r'. apply mutate_sound; [|exact M]. rewrite norm_cmds. destruct Gd as [Gd|Gd]; [exact Gd|].
        rewrite Gd. pose proof (s_sound u S) as So. rewrite Forall_forall in So. apply (So n A).
      + apply add_perm.
      + exact Cf.
    - unfold delete_network in H. destruct (get_network_by_id (us_nets u) id) as [n|] eqn:G; [|discriminate].
      destruct io; [|discriminate]. injection H as <-. destruct (remove_perm _ _ _ G) as [Q Id]. destruct S as [S1 S2 S3].
      split; cbn [with_nets us_nets us_rows].
      + assert (PF : forall (f : row -> bool) l l', Permutation l l' -> Permutation (filter f l) (filter f l')).
        { intros f l l' P. induction P; cbn [filter]; [constructor|destruct (f x); [apply perm_skip|]; assumption| |etransitivity; eassumption].
          destruct (f x), (f y); try reflexivity. apply perm_swap. }
        rewrite (PF _ _ _ S1). rewrite (PF _ _ _ (Permutation_map row_of Q)). cbn [map filter].
        change (r_id (row_of n)) with (n_id n). rewrite Id, Z.eqb_refl. cbn [negb].
        pose proof (remove_notin id (us_nets u) (i_ids u I)) as NI. unfold ids in NI. clear Q.
        induction (remove_network id (us_nets u)) as [|x l IH]; [reflexivity|]. cbn [map filter].
        change (r_id (row_of x)) with (n_id x). destruct (n_id x =? id) eqn:E.
        * apply Z.eqb_eq in E. destruct NI. left; exact E.
        * cbn [negb]. apply perm_skip, IH. intros B; apply NI; right; exact B.
      + intros w w' B B'. apply filter_In in B as [B _], B' as [B' _]. apply S2; assumption.
      + rewrite Q in S3. inversion S3; assumption.
    - destruct (but_sasl_face _ _ F) as (F' & Fc & Fn). pose proof (in_get u n I A) as G. rewrite <- (proj1 F') in G.
      destruct Io as [->|[]].
      assert (NZ : n_id r <> 0) by (rewrite (proj1 F'); pose proof (i_pos u I n A); lia).
      assert (Cf : forall w, In w (us_rows u) -> r_id w <> n_id r -> conflict w (row_of r) = false).
      { destruct F' as (Fi & F1 & F2 & _). intros w B Ne. rewrite (conflict_face w r n F1 F2 Fn).
        apply (s_conf u S); [exact B| |change (r_id (row_of n)) with (n_id n); congruence].
        apply (Permutation_in _ (Permutation_sym (s_rows u S))). apply in_map, A. }
      assert (T : store_network (us_rows u) r 0 true = Some (map (fun w => if r_id w =? n_id r then row_of r else w) (us_rows u), store_mutate r)).
      { unfold store_network. rewrite M. cbn [negb]. rewrite (proj1 (mutate_face r)), row_of_mutate.
        destruct (n_id r =? 0) eqn:E; [apply Z.eqb_eq in E; contradiction|].
        destruct (existsb _ (us_rows u)) eqn:E2; [|reflexivity]. exfalso.
        apply existsb_exists in E2 as (w & B & E2). apply andb_prop in E2 as [E2 E3]. apply negb_true_iff, Z.eqb_neq in E2.
        rewrite (Cf w B E2) in E3. discriminate E3. }
      unfold change_and_store. rewrite T. pose proof (mutate_face r) as (Mi & _).
      rewrite <- Mi in *. rewrite <- (row_of_mutate r) in *. apply (sync_replace u n (store_mutate r)).
      + exact I.
      + exact S.
      + exact G.
      + apply mutate_sound; [|exact M]. rewrite Fc. pose proof (s_sound u S) as So. rewrite Forall_forall in So. apply (So n A).
      + exact (assign_perm _ _ _ (i_ids u I) G).
      + exact Cf.
    - assert (NZ : n_id (set_nick nick n) <> 0) by (cbn [set_nick n_id]; pose proof (i_pos u I n A); lia).
      destruct (store_old _ _ _ _ _ _ NZ H) as (_ & -> & M & Cf).
      pose proof (s_sound u S) as So. rewrite Forall_forall in So. specialize (So n A).
      apply (sync_replace u n (set_nick nick n)).
      + exact I.
      + exact S.
      + exact (in_get u n I A).
      + exact So.
      + exact (assign_perm (set_nick nick n) _ n (i_ids u I) (in_get u n I A)).
      + exact Cf.
    - destruct Sp.
    - destruct S as [S1 S2 S3]. split; assumption.
  Qed.

  Lemma restart_run u os : inv u -> synced u -> Forall typed os -> Forall (fun o => ~ split_update o) os ->
    restart_safe (run u os).
  Proof.
    intros I S Ty Ns.
    assert (Al : Forall (allowed True False (fun _ _ => True) good_cmds) os).
    { rewrite Forall_forall in *. intros o A. specialize (Ty o A). specialize (Ns o A).
      assert (Gf : forall fs, typed_flags fs -> forall l, f_cmds fs = Some l -> l <> [[]] -> Forall (fun c => command_ok c = true) l -> good_cmds l).
      { intros fs T l E N _. unfold typed_flags in T. rewrite E in T. split; [exact N|]. apply Forall_forall. exact T. }
      destruct o; cbn [typed split_update allowed] in *;
        first [exact Logic.I | exact Ns | split; [intros _; exact Logic.I|apply Gf; exact Ty]]. }
    assert (Gn : good_cmds []) by (split; [discriminate|constructor]).
    destruct (run_invariant True False (fun _ _ => True) good_cmds Gn synced synced_basic os u I S Al) as [_ [S1 _ S3]].
    unfold restart_safe, reloaded. rewrite (Permutation_map rec_of S1), map_map.
    rewrite Forall_forall in S3. apply Permutation_refl'. apply map_ext_in. intros r A. apply reload_one, S3, A.
  Qed.

  Lemma synced_new username nick realname admin enabled max : synced (new_user username nick realname admin enabled max).
  Proof. split; cbn; [constructor|easy|constructor]. Qed.
End Proofs.

(** ** Fingerprints *)
Lemma hex_lower c : is_hex (lower_byte c) = true -> In (lower_byte c) hexdigits.
Proof.
  intros H. apply amem_In.
  assert (X : forall c, (negb (is_hex (lower_byte c)) || amem (lower_byte c) hexdigits) = true).
  { apply byte_forall. vm_compute. reflexivity. }
  specialize (X c). rewrite H in X. exact X.
Qed.

Lemma certfp_out s t : norm_certfp s = Some t ->
  let d := to_lower (filter (fun c => negb (aeqb c ":")) s) in
  (forall c, In c d -> In c hexdigits) /\
  ((d = [] /\ t = []) \/ (length d = 64%nat /\ t = B "sha-256:" ++ d) \/ (length d = 128%nat /\ t = B "sha-512:" ++ d)).
Proof.
  intros H d. unfold norm_certfp in H. fold d in H. destruct (hex_ok d) eqn:E; [cbn [negb] in H|discriminate].
  split.
  - intros c A. unfold hex_ok in E. apply andb_prop in E as [E _]. rewrite forallb_forall in E. specialize (E c A).
    unfold d, to_lower in A. apply in_map_iff in A as (c0 & <- & _). apply hex_lower, E.
  - destruct (Nat.eqb (length d) 0) eqn:L0; [left|destruct (Nat.eqb (length d) 64) eqn:L1; [right; left|destruct (Nat.eqb (length d) 128) eqn:L2; [right; right|discriminate]]];
      injection H as <-; (split; [|reflexivity]).
    + apply Nat.eqb_eq in L0. destruct d; [reflexivity|discriminate].
    + apply Nat.eqb_eq, L1.
    + apply Nat.eqb_eq, L2.
Qed.

Lemma certfp_ext s s' : to_lower (filter (fun c => negb (aeqb c ":")) s) = to_lower (filter (fun c => negb (aeqb c ":")) s') ->
  norm_certfp s = norm_certfp s'.
Proof. unfold norm_certfp. intros ->. reflexivity. Qed.

Lemma certfp_colons a b : norm_certfp (a ++ B ":" ++ b) = norm_certfp (a ++ b).
Proof. apply certfp_ext. rewrite !filter_app. reflexivity. Qed.

Lemma certfp_upper s : norm_certfp (to_upper s) = norm_certfp s.
Proof.
  apply certfp_ext. unfold to_lower, to_upper.
  assert (X : forall c, aeqb (upper_byte c) ":" = aeqb c ":" /\ lower_byte (upper_byte c) = lower_byte c).
  { assert (Y : forall c, Bool.eqb (aeqb (upper_byte c) ":") (aeqb c ":") && aeqb (lower_byte (upper_byte c)) (lower_byte c) = true)
      by (apply byte_forall; vm_compute; reflexivity).
    intros c. specialize (Y c). apply andb_prop in Y as [Y1 Y2]. split; [apply Bool.eqb_prop, Y1|apply aeqb_eq, Y2]. }
  induction s as [|c s IH]; [reflexivity|]. cbn [map filter]. destruct (X c) as [-> X2].
  destruct (aeqb c ":"); cbn [negb map]; [exact IH|]. rewrite X2, IH. reflexivity.
Qed.
