From Verif.Base Require Import Bytes.
From Verif.Model Require Import Message Networks NetView.
From Verif.Spec Require Import NetView.
From Coq Require Import ZArith NArith Permutation Lia.
Local Open Scope Z_scope.

(** ** Text *)

Lemma decode_encode v : tag_decode (tag_encode v) = v.
Proof.
  induction v as [|c v IH]; [reflexivity|].
  unfold tag_encode. cbn [flat_map]. fold (tag_encode v).
  assert (H : forall r, tag_decode (tag_escape c ++ r) = c :: tag_decode r).
  { intros r. unfold tag_escape.
    destruct (aeqb c ";") eqn:E1; [apply aeqb_eq in E1; subst; reflexivity|].
    destruct (aeqb c " ") eqn:E2; [apply aeqb_eq in E2; subst; reflexivity|].
    destruct (aeqb c "\") eqn:E3; [apply aeqb_eq in E3; subst; reflexivity|].
    destruct (aeqb c "013") eqn:E4; [apply aeqb_eq in E4; subst; reflexivity|].
    destruct (aeqb c "010") eqn:E5; [apply aeqb_eq in E5; subst; reflexivity|].
    cbn [app tag_decode]. rewrite E3. reflexivity. }
  rewrite H, IH. reflexivity.
Qed.

Lemma encode_nosemi v : ~ In ";"%char (tag_encode v).
Proof.
  intros H. unfold tag_encode in H. apply in_flat_map in H as (c & _ & H).
  unfold tag_escape in H.
  destruct (aeqb c ";") eqn:E1; [simpl in H; intuition discriminate|].
  destruct (aeqb c " ") eqn:E2; [simpl in H; intuition discriminate|].
  destruct (aeqb c "\") eqn:E3; [simpl in H; intuition discriminate|].
  destruct (aeqb c "013") eqn:E4; [simpl in H; intuition discriminate|].
  destruct (aeqb c "010") eqn:E5; [simpl in H; intuition discriminate|].
  destruct H as [->|[]]. discriminate E1.
Qed.

Definition known : list bytes :=
  [B "name"; B "state"; B "nickname"; B "username"; B "realname"; B "error"; B "tls"; B "host"; B "port"].
Definition plain (k : bytes) : bool := negb (amem ";" k) && negb (amem "=" k) && negb (beqb k (B "*")).
Lemma known_plain k : In k known -> plain k = true.
Proof. intros H. assert (A : forallb plain known = true) by (vm_compute; reflexivity). rewrite forallb_forall in A. apply A. exact H. Qed.

Lemma parse_format_attr a : plain (fst a) = true -> parse_attr (format_attr a) = a.
Proof.
  intros H. unfold plain in H. apply andb_prop in H as [H _]. apply andb_prop in H as [_ H].
  apply Bool.negb_true_iff, amem_nIn in H. destruct a as [k v]. unfold format_attr, parse_attr. cbn [fst snd] in *.
  destruct v as [|c v].
  - rewrite cut_on_nosep by exact H. reflexivity.
  - rewrite cut_on_app by exact H. rewrite decode_encode. reflexivity.
Qed.
Lemma format_attr_nosemi a : plain (fst a) = true -> ~ In ";"%char (format_attr a).
Proof.
  intros H. unfold plain in H. apply andb_prop in H as [H _]. apply andb_prop in H as [H _].
  apply Bool.negb_true_iff, amem_nIn in H. destruct a as [k v]. unfold format_attr. cbn [fst snd] in *.
  destruct v as [|c v]; [exact H|]. rewrite in_app_iff. intros [K|K]; [tauto|].
  destruct K as [K|K]; [discriminate|]. exact (encode_nosemi _ K).
Qed.
Lemma parse_format_attrs l : l <> [] -> (forall a, In a l -> plain (fst a) = true) -> parse_attrs (format_attrs l) = l.
Proof.
  intros Hn H. unfold parse_attrs, format_attrs. change (B ";") with [";"%char]. rewrite split_join.
  - rewrite map_map. rewrite <- (map_id l) at 2. apply map_ext_in. intros a Ha. apply parse_format_attr, H, Ha.
  - destruct l; [congruence|discriminate].
  - apply Forall_forall. intros x Hx. apply in_map_iff in Hx as (a & <- & Ha). apply format_attr_nosemi, H, Ha.
Qed.

Definition keyed (k : bytes) (a : bytes * bytes) : bool := beqb (fst a) k.
Lemma find_keyed k l a : NoDup (map fst l) -> (find (keyed k) l = Some a <-> In a l /\ fst a = k).
Proof.
  induction l as [|b l IH]; cbn [find map]; intros N.
  - split; [discriminate|intros [[] _]].
  - apply NoDup_cons_iff in N as [N1 N2]. unfold keyed at 1. destruct (beqb_spec (fst b) k) as [E|E].
    + split; [intros [= <-]; split; [now left|exact E]|]. intros [[->|H] K]; [reflexivity|].
      exfalso. apply N1. rewrite E, <- K. apply in_map, H.
    + rewrite IH by exact N2. split; [intros [H K]; split; [now right|exact K]|].
      intros [[->|H] K]; [congruence|now split].
Qed.
Lemma find_keyed_perm k l l' : NoDup (map fst l) -> Permutation l' l -> find (keyed k) l' = find (keyed k) l.
Proof.
  intros N P. assert (N' : NoDup (map fst l')) by (eapply Permutation_NoDup; [apply Permutation_map, Permutation_sym, P|exact N]).
  destruct (find (keyed k) l) as [a|] eqn:E.
  - apply find_keyed in E as [E K]; [|exact N]. apply find_keyed; [exact N'|]. split; [|exact K]. eapply Permutation_in; [apply Permutation_sym, P|exact E].
  - destruct (find (keyed k) l') as [a|] eqn:E'; [|reflexivity]. apply find_keyed in E' as [E' K]; [|exact N'].
    assert (X : find (keyed k) l = Some a) by (apply find_keyed; [exact N|split; [eapply Permutation_in; [exact P|exact E']|exact K]]). congruence.
Qed.

Definition val (k : bytes) (l : list (bytes * bytes)) : bytes := match find (keyed k) l with Some a => snd a | None => [] end.
Definition good (l : list (bytes * bytes)) : Prop := l <> [] /\ NoDup (map fst l) /\ incl (map fst l) known.

Section Proofs.
  Variable parse_url : bytes -> option url.
  Variable split_host_port : bytes -> option (bytes * bytes).
  Variable shuffle : list (bytes * bytes) -> list (bytes * bytes).
  Hypothesis shuffled : forall l, Permutation (shuffle l) l.
  Notation vstep := (vstep parse_url split_host_port shuffle).
  Notation vsteps := (vsteps parse_url split_host_port shuffle).
  Notation net_attrs := (net_attrs parse_url split_host_port).
  Notation notify := (notify shuffle).
  Notation network_msg := (network_msg shuffle).
  Notation truth := (truth parse_url split_host_port shuffle).
  Notation update := (update parse_url split_host_port shuffle).
  Notation disconnected := (disconnected shuffle).
  Notation updates := (updates parse_url split_host_port shuffle).
  Notation create := (create parse_url split_host_port shuffle).
  Notation update_user := (update_user parse_url split_host_port shuffle).
  Notation listing := (listing parse_url split_host_port shuffle).

  (** *** Hearing *)
  Definition put (id : bytes) (l : list (bytes * bytes)) (v : view) : view :=
    fun i => if beqb i id then Some (fun k => match find (keyed k) l with Some a => snd a | None => match v i with Some f => f k | None => [] end end) else v i.

  (** Equality of views. *)
  Definition veq (v w : view) : Prop := forall i, match v i, w i with Some f, Some g => forall k, f k = g k | None, None => True | _, _ => False end.
  Lemma veq_refl v : veq v v. Proof. intros i. destruct (v i); auto. Qed.
  Lemma veq_trans u v w : veq u v -> veq v w -> veq u w.
  Proof. intros H K i. specialize (H i). specialize (K i). destruct (u i), (v i), (w i); try tauto. intros k. rewrite H. apply K. Qed.
  Lemma veq_sym u v : veq u v -> veq v u.
  Proof. intros H i. specialize (H i). destruct (u i), (v i); try tauto. intros k. symmetry. apply H. Qed.

  Lemma hear_network id l v : good l -> veq (hear (network_msg id l) v) (put (net_id id) l v).
  Proof.
    intros (Hn & Hd & Hk) i. unfold hear, NetView.network_msg, msg. cbn [m_params].
    rewrite beqb_refl. unfold put.
    assert (P := shuffled l).
    assert (Hk' : forall a, In a (shuffle l) -> plain (fst a) = true).
    { intros a Ha. apply known_plain, Hk, in_map. eapply Permutation_in; [exact P|exact Ha]. }
    assert (Hn' : shuffle l <> []).
    { intros E. rewrite E in P. apply Permutation_nil in P. congruence. }
    assert (Hp := parse_format_attrs _ Hn' Hk').
    assert (Hs : beqb (format_attrs (shuffle l)) (B "*") = false).
    { apply beqb_neq. intros E. rewrite E in Hp.
      assert (X : In (B "*", []) (shuffle l)) by (rewrite <- Hp; left; reflexivity).
      apply Hk' in X. vm_compute in X. discriminate. }
    rewrite Hs, Hp. destruct (beqb i (net_id id)); [|apply (veq_refl v)].
    intros k. change (find _ (shuffle l)) with (find (keyed k) (shuffle l)). rewrite (find_keyed_perm k _ _ Hd P). reflexivity.
  Qed.
  Lemma hear_veq m v w : veq v w -> veq (hear m v) (hear m w).
  Proof.
    intros H i. unfold hear. destruct (m_params m) as [|a [|b [|c [|d l]]]]; try apply H.
    destruct (beqb a (B "NETWORK")); [|apply H]. destruct (beqb i b); [|apply H]. destruct (beqb c (B "*")); [exact I|].
    intros k. destruct (find _ _); [reflexivity|]. specialize (H i). destruct (v i), (w i); try tauto. apply H.
  Qed.
  Lemma put_veq id l v w : veq v w -> veq (put id l v) (put id l w).
  Proof.
    intros H i. unfold put. destruct (beqb i id); [|apply H]. intros k. destruct (find _ _); [reflexivity|].
    specialize (H i). destruct (v i), (w i); try tauto. apply H.
  Qed.

  (** *** The client *)
  Definition listens (c : N) (s : vst) : Prop := filter (fun x => N.eqb (vc_id x) c) (vs_cls s) = [VCl c true].
  Lemma heard_app c l1 l2 v : heard c (l1 ++ l2) v = heard c l2 (heard c l1 v).
  Proof. apply fold_left_app. Qed.
  Lemma heard_others c m l v : filter (fun x => N.eqb (vc_id x) c) l = [] -> heard c (map (fun x => VMsg (vc_id x) m) l) v = v.
  Proof.
    revert v. induction l as [|x l IH]; intros v H; [reflexivity|]. cbn [filter] in H. cbn [map]. unfold heard. cbn [fold_left hear_out].
    destruct (N.eqb (vc_id x) c); [discriminate|]. apply IH, H.
  Qed.
  Lemma heard_told c m l x v : filter (fun x => N.eqb (vc_id x) c) l = [x] -> heard c (map (fun x => VMsg (vc_id x) m) l) v = hear m v.
  Proof.
    revert v. induction l as [|y l IH]; intros v H; [discriminate|]. cbn [filter] in H. cbn [map]. unfold heard. cbn [fold_left hear_out].
    destruct (N.eqb (vc_id y) c) eqn:E.
    - injection H as _ H. apply (heard_others c m l (hear m v) H).
    - apply IH, H.
  Qed.
  Lemma filter_comm {A} (f g : A -> bool) l : filter f (filter g l) = filter g (filter f l).
  Proof. induction l as [|x l IH]; [reflexivity|]. cbn [filter]. destruct (g x) eqn:G, (f x) eqn:F; cbn [filter]; rewrite ?F, ?G, IH; reflexivity. Qed.
  Lemma listens_notifying c s : listens c s -> filter (fun x => N.eqb (vc_id x) c) (notifying s) = [VCl c true].
  Proof. intros H. unfold notifying. rewrite filter_comm. unfold listens in H. rewrite H. reflexivity. Qed.

  Definition has_id (id : Z) (s : vst) : bool := existsb (fun o => n_id (v_rec o) =? id) (vs_nets s).
  Lemma heard_notify c s id l v : listens c s -> good l ->
    veq (heard c (notify s id l) v) (if has_id id s then put (net_id id) l v else v).
  Proof.
    intros H G. unfold NetView.notify. fold (has_id id s). destruct (has_id id s); [|apply veq_refl].
    rewrite (heard_told _ _ _ _ _ (listens_notifying _ _ H)). apply hear_network, G.
  Qed.
  Lemma heard_veq c l v w : veq v w -> veq (heard c l v) (heard c l w).
  Proof.
    revert v w. induction l as [|o l IH]; intros v w H; [exact H|]. unfold heard. cbn [fold_left]. apply IH.
    destruct o as [c' m|c' l']; cbn [hear_out]; destruct (N.eqb c' c); auto using hear_veq, veq_refl.
  Qed.

  (** *** The networks *)
  Record wf (s : vst) : Prop := {
    wf_ids : NoDup (map (fun o => n_id (v_rec o)) (vs_nets s));
    wf_pos : forall o, In o (vs_nets s) -> 0 < n_id (v_rec o);
    wf_objs : NoDup (map v_obj (vs_nets s ++ vs_old s));
    wf_next : forall o, In o (vs_nets s ++ vs_old s) -> (v_obj o < vs_next s)%N }.

  Definition at_i (i : bytes) (l : list vobj) : option vobj := find (fun o => beqb i (net_id (n_id (v_rec o)))) l.
  Definition T (s : vst) : view := fun i => option_map (fun o k => val k (net_attrs s o)) (at_i i (vs_nets s)).

  Lemma net_id_inj a b : 0 < a -> 0 < b -> net_id a = net_id b -> a = b.
  Proof. unfold net_id. intros Ha Hb H. apply dec_inj in H. lia. Qed.

  Lemma attrs_good s o : good (net_attrs s o).
  Proof.
    unfold NetView.net_attrs. destruct (addr_attrs parse_url split_host_port (v_rec o)) as [[h p] t].
    split; [discriminate|].
    set (a := get_name _). set (b := match v_conn o with Some _ => _ | None => _ end). set (c := get_nick _ _).
    destruct (null (n_username (v_rec o))), (null (get_realname s (v_rec o))), (v_error o), h, p, t; cbn [opt_attr app map fst];
      (split; [repeat (apply NoDup_cons; [intros H; cbn [In] in H; intuition discriminate|]); apply NoDup_nil
              |intros x H; cbn [In] in H; unfold known; cbn [In]; tauto]).
  Qed.

  (** Attributes of a network, one by one. *)
  Definition ov (o : option bytes) : bytes := match o with Some x => x | None => [] end.
  Definition attr_fun (name state nickname username realname error tls host port k : bytes) : bytes :=
    if beqb k (B "name") then name else if beqb k (B "state") then state else if beqb k (B "nickname") then nickname
    else if beqb k (B "username") then username else if beqb k (B "realname") then realname else if beqb k (B "error") then error
    else if beqb k (B "tls") then tls else if beqb k (B "host") then host else if beqb k (B "port") then port else [].
  Lemma ov_null x : ov (null x) = x. Proof. destruct x; reflexivity. Qed.
  Lemma val_nil k : val k [] = []. Proof. reflexivity. Qed.
  Lemma val_cons k a l : val k (a :: l) = if beqb k (fst a) then snd a else val k l.
  Proof.
    unfold val. cbn [find]. unfold keyed at 1. destruct (beqb_spec (fst a) k) as [->|E]; [rewrite beqb_refl; reflexivity|].
    rewrite (proj2 (beqb_neq _ _)) by congruence. reflexivity.
  Qed.
  Lemma val_opt k n o l : ~ In n (map fst l) -> val k (opt_attr n o ++ l) = if beqb k n then ov o else val k l.
  Proof.
    intros H. destruct o as [x|]; cbn [opt_attr app]; [rewrite val_cons; reflexivity|].
    destruct (beqb_spec k n) as [->|E]; [|reflexivity]. cbn [ov]. unfold val.
    destruct (find (keyed n) l) as [a|] eqn:F; [|reflexivity]. apply find_some in F as [F K]. unfold keyed in K.
    apply beqb_eq in K. exfalso. apply H. rewrite <- K. apply in_map, F.
  Qed.
  Lemma keys_opt n o : map fst (opt_attr n o) = [] \/ map fst (opt_attr n o) = [n].
  Proof. destruct o; [right|left]; reflexivity. Qed.

  Lemma attrs_val s o k :
    val k (net_attrs s o) =
    let '(h, p, t) := addr_attrs parse_url split_host_port (v_rec o) in
    attr_fun (get_name (v_rec o)) (match v_conn o with Some _ => B "connected" | None => B "disconnected" end) (get_nick s (v_rec o))
      (n_username (v_rec o)) (get_realname s (v_rec o)) (ov (v_error o)) (ov t) (ov h) (ov p) k.
  Proof.
    unfold NetView.net_attrs. destruct (addr_attrs parse_url split_host_port (v_rec o)) as [[h p] t].
    cbn [app]. rewrite !val_cons. cbn [fst snd]. unfold attr_fun.
    destruct (beqb k (B "name")); [reflexivity|]. destruct (beqb k (B "state")); [reflexivity|]. destruct (beqb k (B "nickname")); [reflexivity|].
    rewrite <- (ov_null (n_username (v_rec o))) at 2. rewrite <- (ov_null (get_realname s (v_rec o))) at 2.
    replace (opt_attr (B "port") p) with (opt_attr (B "port") p ++ []) by apply app_nil_r.
    Ltac fresh_key := intros H; rewrite ?map_app, ?in_app_iff in H;
      repeat match type of H with context [In _ (map fst (opt_attr ?n ?o))] => let E := fresh in destruct (keys_opt n o) as [E|E]; rewrite E in H; clear E end;
      cbn [In map] in H; intuition discriminate.
    rewrite val_opt by fresh_key. destruct (beqb k (B "username")); [reflexivity|].
    rewrite val_opt by fresh_key. destruct (beqb k (B "realname")); [reflexivity|].
    rewrite val_opt by fresh_key. destruct (beqb k (B "error")); [reflexivity|].
    rewrite val_opt by fresh_key. destruct (beqb k (B "tls")); [reflexivity|].
    rewrite val_opt by fresh_key. destruct (beqb k (B "host")); [reflexivity|].
    rewrite val_opt by fresh_key. destruct (beqb k (B "port")); reflexivity.
  Qed.

  Lemma at_i_In i l o : at_i i l = Some o -> In o l /\ i = net_id (n_id (v_rec o)).
  Proof. intros H. apply find_some in H as [H K]. apply beqb_eq in K. now split. Qed.
  Lemma at_i_found l o : NoDup (map (fun o => n_id (v_rec o)) l) -> (forall o, In o l -> 0 < n_id (v_rec o)) -> In o l ->
    at_i (net_id (n_id (v_rec o))) l = Some o.
  Proof.
    induction l as [|x l IH]; cbn [map]; intros N P H; [destruct H|]. apply NoDup_cons_iff in N as [N1 N2]. unfold at_i. cbn [find].
    destruct (beqb_spec (net_id (n_id (v_rec o))) (net_id (n_id (v_rec x)))) as [E|E].
    - apply net_id_inj in E; [|apply P, H|apply P; now left]. destruct H as [H|H]; [congruence|].
      exfalso. apply N1. rewrite <- E. apply (in_map (fun o => n_id (v_rec o))), H.
    - destruct H as [H|H]; [congruence|]. apply IH; auto. intros y Hy. apply P. now right.
  Qed.
  Lemma at_i_none l i : at_i i l = None <-> (forall o, In o l -> i <> net_id (n_id (v_rec o))).
  Proof.
    split.
    - intros H o Ho E. pose proof (find_none _ _ H o Ho) as K. cbv beta in K. rewrite E, beqb_refl in K. discriminate.
    - intros H. destruct (at_i i l) as [o|] eqn:E; [|reflexivity]. apply at_i_In in E as [E1 E2]. exfalso. exact (H o E1 E2).
  Qed.

  (** *** What is listed *)
  Lemma hear_listing s l v : NoDup (map (fun o => n_id (v_rec o)) l) -> (forall o, In o l -> 0 < n_id (v_rec o)) ->
    (forall o, In o l -> v (net_id (n_id (v_rec o))) = None) ->
    veq (hear_all (map (fun o => network_msg (n_id (v_rec o)) (net_attrs s o)) l) v)
        (fun i => match at_i i l with Some o => Some (fun k => val k (net_attrs s o)) | None => v i end).
  Proof.
    revert v. induction l as [|o l IH]; intros v N P E.
    - apply veq_refl.
    - cbn [map] in *. apply NoDup_cons_iff in N as [N1 N2]. unfold hear_all. cbn [fold_left].
      assert (Hne : forall x, In x l -> net_id (n_id (v_rec x)) <> net_id (n_id (v_rec o))).
      { intros x Hx X. apply net_id_inj in X; [|apply P; now right|apply P; now left]. apply N1. rewrite <- X.
        apply (in_map (fun o => n_id (v_rec o))), Hx. }
      assert (Hm := hear_network (n_id (v_rec o)) (net_attrs s o) v (attrs_good s o)).
      eapply veq_trans; [apply IH; [exact N2|intros x Hx; apply P; now right|]|].
      + intros x Hx. specialize (Hm (net_id (n_id (v_rec x)))). unfold put in Hm.
        rewrite (proj2 (beqb_neq _ _) (Hne x Hx)) in Hm. rewrite (E x (or_intror Hx)) in Hm.
        destruct (hear _ v _); [destruct Hm|reflexivity].
      + intros i. cbv beta. specialize (Hm i). unfold put in Hm.
        assert (Ha : at_i i (o :: l) = if beqb i (net_id (n_id (v_rec o))) then Some o else at_i i l) by reflexivity.
        rewrite Ha. clear Ha. destruct (beqb i (net_id (n_id (v_rec o)))) eqn:Ei.
        * apply beqb_eq in Ei. subst i.
          assert (Ha : at_i (net_id (n_id (v_rec o))) l = None)
            by (apply at_i_none; intros x Hx X; apply (Hne x Hx); symmetry; exact X).
          rewrite Ha. destruct (hear _ v _); [|destruct Hm]. intros k. rewrite Hm. rewrite (E o (or_introl eq_refl)). reflexivity.
        * destruct (at_i i l); [reflexivity|exact Hm].
  Qed.
  Lemma listing_T s : wf s -> veq (hear_all (listing s) blank) (T s).
  Proof.
    intros W. eapply veq_trans; [apply hear_listing; [apply (wf_ids s W)|apply (wf_pos s W)|reflexivity]|].
    intros i. cbv beta. unfold T. destruct (at_i i (vs_nets s)); cbn [option_map]; [reflexivity|exact I].
  Qed.
  Lemma truth_T c s : wf s -> veq (truth c s) (T s).
  Proof.
    intros W. unfold NetView.truth. unfold Spec.NetView.truth. cbn [NetView.vstep]. unfold heard. cbn [fold_left hear_out]. rewrite N.eqb_refl. apply listing_T, W.
  Qed.

  (** *** Changes of the list *)
  Lemma at_i_map i f l : (forall o, n_id (v_rec (f o)) = n_id (v_rec o)) -> at_i i (map f l) = option_map f (at_i i l).
  Proof.
    intros H. induction l as [|x l IH]; [reflexivity|]. unfold at_i. cbn [map find]. rewrite H.
    destruct (beqb i (net_id (n_id (v_rec x)))); [reflexivity|exact IH].
  Qed.
  Lemma at_i_insert i o l : (forall x, In x l -> net_id (n_id (v_rec x)) <> net_id (n_id (v_rec o))) ->
    at_i i (insert o l) = if beqb i (net_id (n_id (v_rec o))) then Some o else at_i i l.
  Proof.
    induction l as [|x l IH]; intros H; cbn [insert].
    - unfold at_i. cbn [find]. reflexivity.
    - destruct (n_id (v_rec o) <? n_id (v_rec x)); [reflexivity|].
      unfold at_i. cbn [find]. destruct (beqb_spec i (net_id (n_id (v_rec x)))) as [->|E].
      + rewrite (proj2 (beqb_neq _ _) (H x (or_introl eq_refl))). reflexivity.
      + change (find _ (insert o l)) with (at_i i (insert o l)). change (find _ l) with (at_i i l). apply IH. intros y Hy. apply H. now right.
  Qed.
  Lemma insert_In o l x : In x (insert o l) <-> x = o \/ In x l.
  Proof.
    induction l as [|y l IH]; cbn [insert]; [cbn [In]; intuition congruence|].
    destruct (n_id (v_rec o) <? n_id (v_rec y)); cbn [In]; [intuition congruence|]. rewrite IH. cbn [In]. intuition congruence.
  Qed.
  Lemma insert_perm o l : Permutation (insert o l) (o :: l).
  Proof.
    induction l as [|y l IH]; cbn [insert]; [reflexivity|]. destruct (_ <? _); [reflexivity|].
    rewrite IH. apply perm_swap.
  Qed.
  Lemma without_In n l x : In x (without n l) <-> In x l /\ v_obj x <> n.
  Proof. unfold without. rewrite filter_In, Bool.negb_true_iff, N.eqb_neq. tauto. Qed.
  Lemma by_id_In id l o : by_id id l = Some o -> In o l /\ n_id (v_rec o) = id.
  Proof. intros H. apply find_some in H as [H K]. apply Z.eqb_eq in K. now split. Qed.
  Lemma find_obj_In n l o : find_obj n l = Some o -> In o l /\ v_obj o = n.
  Proof. intros H. apply find_some in H as [H K]. apply N.eqb_eq in K. now split. Qed.
  Lemma find_obj_none n l o : find_obj n l = None -> In o l -> v_obj o <> n.
  Proof. intros H Ho E. pose proof (find_none _ _ H o Ho) as K. cbv beta in K. rewrite E, N.eqb_refl in K. discriminate. Qed.
  Lemma at_obj_none n f l : find_obj n l = None -> at_obj n f l = l.
  Proof.
    intros H. unfold at_obj. rewrite <- (map_id l) at 2. apply map_ext_in. intros o Ho.
    destruct (N.eqb_spec (v_obj o) n) as [E|E]; [|reflexivity]. exfalso. exact (find_obj_none _ _ _ H Ho E).
  Qed.

  Lemma same_obj s x y : wf s -> In x (vs_nets s ++ vs_old s) -> In y (vs_nets s ++ vs_old s) -> v_obj x = v_obj y -> x = y.
  Proof.
    intros W Hx Hy E. assert (N := wf_objs s W). revert N Hx Hy. generalize (vs_nets s ++ vs_old s).
    induction l as [|z l IH]; cbn [map]; intros N Hx Hy; [destruct Hx|]. apply NoDup_cons_iff in N as [N1 N2].
    destruct Hx as [->|Hx], Hy as [->|Hy].
    - reflexivity.
    - exfalso. apply N1. rewrite E. apply in_map, Hy.
    - exfalso. apply N1. rewrite <- E. apply in_map, Hx.
    - apply IH; assumption.
  Qed.
  Lemma same_id s x y : wf s -> In x (vs_nets s) -> In y (vs_nets s) -> n_id (v_rec x) = n_id (v_rec y) -> x = y.
  Proof.
    intros W Hx Hy E. pose proof (at_i_found _ _ (wf_ids s W) (wf_pos s W) Hx) as A.
    pose proof (at_i_found _ _ (wf_ids s W) (wf_pos s W) Hy) as C. rewrite E in A. congruence.
  Qed.
  Lemma at_i_without s i o : wf s -> In o (vs_nets s) ->
    at_i i (without (v_obj o) (vs_nets s)) = if beqb i (net_id (n_id (v_rec o))) then None else at_i i (vs_nets s).
  Proof.
    intros W Ho. destruct (beqb_spec i (net_id (n_id (v_rec o)))) as [->|E].
    - apply at_i_none. intros x Hx X. apply without_In in Hx as [Hx Hn].
      apply net_id_inj in X; [|apply (wf_pos s W), Ho|apply (wf_pos s W), Hx]. apply Hn. f_equal. symmetry. apply (same_id s); assumption.
    - destruct (at_i i (vs_nets s)) as [x|] eqn:F.
      + apply at_i_In in F as [F ->].
        assert (Hx : In x (without (v_obj o) (vs_nets s))).
        { apply without_In. split; [exact F|]. intros X. apply E.
          rewrite (same_obj s x o W); [reflexivity|apply in_or_app; now left|apply in_or_app; now left|exact X]. }
        apply at_i_found; [|intros y Hy; apply without_In in Hy as [Hy _]; apply (wf_pos s W), Hy|exact Hx].
        pose proof (wf_ids s W) as N. clear -N. unfold without. induction (vs_nets s) as [|y l IH]; [constructor|].
        cbn [map filter] in *. apply NoDup_cons_iff in N as [N1 N2]. destruct (negb _); [|apply IH, N2]. cbn [map]. constructor; [|apply IH, N2].
        intros X. apply N1. apply in_map_iff in X as (z & <- & Hz). apply filter_In in Hz as [Hz _]. apply (in_map (fun o => n_id (v_rec o))), Hz.
      + apply at_i_none. intros x Hx. apply without_In in Hx as [Hx _]. apply (proj1 (at_i_none _ _) F x Hx).
  Qed.

  (** *** Well-formed states *)
  Lemma wf_map g s s1 : wf s -> (forall o, v_obj (g o) = v_obj o) -> (forall o, n_id (v_rec (g o)) = n_id (v_rec o)) ->
    vs_nets s1 = map g (vs_nets s) -> vs_old s1 = map g (vs_old s) -> vs_next s1 = vs_next s -> wf s1.
  Proof.
    intros [W1 W2 W3 W4] Ho Hi En Eo Ex. constructor; rewrite ?En, ?Eo, ?Ex.
    - rewrite map_map. erewrite map_ext; [exact W1|]. intros o. apply Hi.
    - intros o H. apply in_map_iff in H as (x & <- & H). rewrite Hi. apply W2, H.
    - rewrite <- map_app, map_map. erewrite map_ext; [exact W3|]. intros o. apply Ho.
    - rewrite <- map_app. intros o H. apply in_map_iff in H as (x & <- & H). rewrite Ho. apply W4, H.
  Qed.
  Lemma wf_same s s1 : wf s -> vs_nets s1 = vs_nets s -> vs_old s1 = vs_old s -> vs_next s1 = vs_next s -> wf s1.
  Proof. intros W A C D. apply (wf_map (fun o => o) s s1 W); rewrite ?map_id; auto. Qed.
  Lemma wf_on_obj n f s : wf s -> (forall o, v_obj (f o) = v_obj o) -> (forall o, v_obj o = n -> In o (vs_nets s ++ vs_old s) -> n_id (v_rec (f o)) = n_id (v_rec o)) -> wf (on_obj n f s).
  Proof.
    intros W Ho Hi. destruct W as [W1 W2 W3 W4].
    assert (E : forall o, v_obj (if N.eqb (v_obj o) n then f o else o) = v_obj o) by (intros o; destruct (N.eqb (v_obj o) n); auto).
    assert (E' : forall o, In o (vs_nets s ++ vs_old s) -> n_id (v_rec (if N.eqb (v_obj o) n then f o else o)) = n_id (v_rec o)).
    { intros o H. destruct (N.eqb_spec (v_obj o) n); auto. }
    constructor; cbn [on_obj with_objs vs_nets vs_old vs_next]; unfold at_obj.
    - rewrite map_map. erewrite map_ext_in; [exact W1|]. intros o H. apply E'. apply in_or_app. now left.
    - intros o H. apply in_map_iff in H as (x & <- & H). rewrite E' by (apply in_or_app; now left). apply W2, H.
    - rewrite <- map_app, map_map. erewrite map_ext; [exact W3|]. exact E.
    - rewrite <- map_app. intros o H. apply in_map_iff in H as (x & <- & H). rewrite E. apply W4, H.
  Qed.
  Lemma without_perm o l : In o l -> NoDup (map v_obj l) -> Permutation (o :: without (v_obj o) l) l.
  Proof.
    induction l as [|x l IH]; cbn [map]; intros H N; [destruct H|]. apply NoDup_cons_iff in N as [N1 N2].
    unfold without. cbn [filter]. destruct (N.eqb_spec (v_obj x) (v_obj o)) as [E|E].
    - cbn [negb]. destruct H as [->|H]; [|exfalso; apply N1; rewrite E; apply in_map, H]. apply perm_skip.
      assert (X : filter (fun y => negb (N.eqb (v_obj y) (v_obj o))) l = l); [|rewrite X; reflexivity].
      clear -N1. induction l as [|y l IH]; [reflexivity|]. cbn [filter]. destruct (N.eqb_spec (v_obj y) (v_obj o)) as [E|E].
      + exfalso. apply N1. left. exact E.
      + cbn [negb]. f_equal. apply IH. intros X. apply N1. now right.
    - cbn [negb]. destruct H as [->|H]; [congruence|]. rewrite perm_swap. apply perm_skip, IH; assumption.
  Qed.
  Lemma wf_replace s o o1 s1 : wf s -> In o (vs_nets s) -> v_obj o1 = v_obj o ->
    vs_nets s1 = without (v_obj o) (vs_nets s) -> vs_old s1 = o1 :: vs_old s -> vs_next s1 = vs_next s -> wf s1.
  Proof.
    intros [W1 W2 W3 W4] Ho E1 En Eo Ex.
    assert (N : NoDup (map v_obj (vs_nets s))).
    { rewrite map_app in W3. clear -W3. induction (vs_nets s) as [|x l IH]; [constructor|]. cbn [map app] in *.
      apply NoDup_cons_iff in W3 as [A C]. constructor; [|apply IH, C]. intros X. apply A, in_or_app. now left. }
    assert (P := without_perm o _ Ho N).
    constructor; rewrite ?En, ?Eo, ?Ex.
    - apply (Permutation_map (fun o => n_id (v_rec o))) in P. cbn [map] in P.
      apply Permutation_sym in P. apply (Permutation_NoDup P) in W1. apply NoDup_cons_iff in W1. tauto.
    - intros x Hx. apply without_In in Hx as [Hx _]. apply W2, Hx.
    - eapply Permutation_NoDup; [|exact W3]. rewrite !map_app. cbn [map]. rewrite E1.
      apply (Permutation_map v_obj) in P. cbn [map] in P. rewrite <- Permutation_middle, app_comm_cons.
      apply Permutation_app_tail, Permutation_sym, P.
    - intros x Hx. apply in_app_or in Hx as [Hx|[<-|Hx]].
      + apply without_In in Hx as [Hx _]. apply W4, in_or_app. now left.
      + rewrite E1. apply W4, in_or_app. now left.
      + apply W4, in_or_app. now right.
  Qed.
  Lemma wf_insert s o : wf s -> v_obj o = vs_next s -> 0 < n_id (v_rec o) -> (forall x, In x (vs_nets s) -> n_id (v_rec x) <> n_id (v_rec o)) ->
    wf (with_objs s (insert o (vs_nets s)) (vs_old s) (vs_next s + 1)%N).
  Proof.
    intros [W1 W2 W3 W4] Eo Hp Hf. assert (P := insert_perm o (vs_nets s)).
    constructor; cbn [with_objs vs_nets vs_old vs_next].
    - eapply Permutation_NoDup; [apply Permutation_map, Permutation_sym, P|]. cbn [map]. constructor; [|exact W1].
      intros X. apply in_map_iff in X as (x & E & Hx). exact (Hf x Hx E).
    - intros x Hx. apply insert_In in Hx as [->|Hx]; [exact Hp|apply W2, Hx].
    - eapply Permutation_NoDup; [apply Permutation_map, Permutation_app_tail, Permutation_sym, P|]. cbn [map app]. constructor; [|exact W3].
      intros X. apply in_map_iff in X as (x & E & Hx). specialize (W4 x Hx). lia.
    - intros x Hx. apply in_app_or in Hx as [Hx|Hx].
      + apply insert_In in Hx as [->|Hx]; [lia|]. assert (v_obj x < vs_next s)%N by (apply W4, in_or_app; now left). lia.
      + assert (v_obj x < vs_next s)%N by (apply W4, in_or_app; now right). lia.
  Qed.

  (** *** Agreement *)
  Definition agree (Q : bytes -> Prop) (v w : view) : Prop :=
    forall i, match v i, w i with Some f, Some g => forall k, Q k -> f k = g k | None, None => True | _, _ => False end.
  Lemma agree_veq Q u v w : agree Q u v -> veq v w -> agree Q u w.
  Proof. intros H K i. specialize (H i). specialize (K i). destruct (u i), (v i), (w i); try tauto. intros k q. rewrite <- K. apply H, q. Qed.
  Lemma agree_veq_l Q u v w : veq u v -> agree Q v w -> agree Q u w.
  Proof. intros H K i. specialize (H i). specialize (K i). destruct (u i), (v i), (w i); try tauto. intros k q. rewrite H. apply K, q. Qed.

  (** A network was announced with [l]. *)
  Lemma announce Q s s1 v id l :
    agree Q (T s) v ->
    (forall i, i <> net_id id -> match T s1 i, T s i with Some f, Some g => forall k, Q k -> f k = g k | None, None => True | _, _ => False end) ->
    (exists g, T s1 (net_id id) = Some g /\ forall k, Q k -> match find (keyed k) l with Some a => g k = snd a | None => g k = match T s (net_id id) with Some f => f k | None => [] end end) ->
    agree Q (T s1) (put (net_id id) l v).
  Proof.
    intros A O (g & Eg & H) i. unfold put. destruct (beqb_spec i (net_id id)) as [E|E].
    - subst i. rewrite Eg. intros k q. specialize (H k q). specialize (A (net_id id)).
      destruct (find (keyed k) l); [exact H|]. rewrite H. destruct (T s (net_id id)), (v (net_id id)); try tauto. apply A, q.
    - specialize (O i E). specialize (A i).
      destruct (T s1 i), (T s i), (v i); try tauto. intros k q. rewrite (O k q). apply A, q.
  Qed.

  (** *** Events *)
  Definition same_user (s s1 : vst) : Prop := vs_username s1 = vs_username s /\ vs_nick s1 = vs_nick s /\ vs_realname s1 = vs_realname s.
  Lemma attrs_user s s1 o : same_user s s1 -> net_attrs s1 o = net_attrs s o.
  Proof. intros (A & C & D). unfold NetView.net_attrs, get_realname, get_nick. rewrite A, C, D. reflexivity. Qed.
  Lemma T_same s s1 : same_user s s1 -> vs_nets s1 = vs_nets s -> forall i, T s1 i = T s i.
  Proof. intros U E i. unfold T. rewrite E. destruct (at_i i (vs_nets s)); cbn [option_map]; [|reflexivity]. rewrite (attrs_user s s1 _ U). reflexivity. Qed.
  Lemma agree_same Q s s1 v : same_user s s1 -> vs_nets s1 = vs_nets s -> agree Q (T s) v -> agree Q (T s1) v.
  Proof. intros U E A i. rewrite (T_same s s1 U E). apply A. Qed.

  Lemma at_i_map_in i f l : (forall o, In o l -> n_id (v_rec (f o)) = n_id (v_rec o)) -> at_i i (map f l) = option_map f (at_i i l).
  Proof.
    induction l as [|x l IH]; intros H; [reflexivity|]. unfold at_i. cbn [map find]. rewrite H by now left.
    destruct (beqb i (net_id (n_id (v_rec x)))); [reflexivity|]. apply IH. intros o Ho. apply H. now right.
  Qed.

  Section Object.
    Variables (Q : bytes -> Prop) (s : vst) (o : vobj) (f : vobj -> vobj) (v : view).
    Hypothesis (W : wf s) (Ho : In o (vs_nets s)) (Hf : n_id (v_rec (f o)) = n_id (v_rec o)) (A : agree Q (T s) v).
    Let s1 := on_obj (v_obj o) f s.
    Lemma T_on_obj i : T s1 i = if beqb i (net_id (n_id (v_rec o))) then Some (fun k => val k (net_attrs s (f o))) else T s i.
    Proof.
      unfold T. cbn [s1 on_obj with_objs vs_nets]. unfold at_obj. rewrite at_i_map_in.
      - destruct (beqb_spec i (net_id (n_id (v_rec o)))) as [->|E].
        + rewrite (at_i_found _ _ (wf_ids s W) (wf_pos s W) Ho). cbn [option_map]. rewrite N.eqb_refl. reflexivity.
        + destruct (at_i i (vs_nets s)) as [x|] eqn:F; [|reflexivity]. cbn [option_map]. apply at_i_In in F as [F1 F2].
          destruct (N.eqb_spec (v_obj x) (v_obj o)) as [E'|E']; [|reflexivity]. exfalso. apply E. rewrite F2.
          rewrite (same_obj s x o W); [reflexivity| | |exact E']; apply in_or_app; now left.
      - intros x Hx. destruct (N.eqb_spec (v_obj x) (v_obj o)) as [E|E]; [|reflexivity].
        rewrite (same_obj s x o W); [exact Hf| | |exact E]; apply in_or_app; now left.
    Qed.
    Lemma T_here : T s (net_id (n_id (v_rec o))) = Some (fun k => val k (net_attrs s o)).
    Proof. unfold T. rewrite (at_i_found _ _ (wf_ids s W) (wf_pos s W) Ho). reflexivity. Qed.
    Lemma changed l :
      (forall k, Q k -> match find (keyed k) l with Some a => val k (net_attrs s (f o)) = snd a | None => val k (net_attrs s (f o)) = val k (net_attrs s o) end) ->
      agree Q (T s1) (put (net_id (n_id (v_rec o))) l v).
    Proof.
      intros H. apply (announce Q s s1 v _ l A).
      - intros i E. rewrite T_on_obj. rewrite (proj2 (beqb_neq _ _) E). destruct (T s i); auto.
      - eexists. rewrite T_on_obj, beqb_refl. split; [reflexivity|]. intros k q. rewrite T_here. apply H, q.
    Qed.
    Lemma unchanged : (forall k, Q k -> val k (net_attrs s (f o)) = val k (net_attrs s o)) -> agree Q (T s1) v.
    Proof.
      intros H i. rewrite T_on_obj. destruct (beqb_spec i (net_id (n_id (v_rec o)))) as [->|E]; [|apply A].
      specialize (A (net_id (n_id (v_rec o)))). rewrite T_here in A. destruct (v _); [|exact A]. intros k q. rewrite H by exact q. apply A, q.
    Qed.
    Lemma has_id_on_obj : has_id (n_id (v_rec o)) s1 = true.
    Proof.
      unfold has_id. apply existsb_exists. cbn [s1 on_obj with_objs vs_nets]. exists (f o). split.
      - unfold at_obj. apply in_map_iff. exists o. rewrite N.eqb_refl. now split.
      - rewrite Hf. apply Z.eqb_refl.
    Qed.
    Lemma wf_on : (forall x, v_obj (f x) = v_obj x) -> wf s1.
    Proof.
      intros K. apply wf_on_obj; [exact W|exact K|]. intros x E Hx.
      rewrite (same_obj s x o W Hx); [exact Hf|apply in_or_app; now left|exact E].
    Qed.
  End Object.
  Lemma on_old Q s n f v : find_obj n (vs_nets s) = None -> agree Q (T s) v -> agree Q (T (on_obj n f s)) v.
  Proof. intros H. apply agree_same; [repeat split|]. cbn [on_obj with_objs vs_nets]. apply at_obj_none, H. Qed.

  Lemma find_one k n x : find (keyed k) [(n, x)] = if beqb k n then Some (n, x) else None.
  Proof. cbn [find]. unfold keyed. cbn [fst]. destruct (beqb_spec n k) as [->|E]; [rewrite beqb_refl; reflexivity|]. rewrite (proj2 (beqb_neq _ _)) by congruence. reflexivity. Qed.
  Lemma find_two k n x m y : find (keyed k) [(n, x); (m, y)] = if beqb k n then Some (n, x) else if beqb k m then Some (m, y) else None.
  Proof.
    cbn [find]. unfold keyed. cbn [fst]. destruct (beqb_spec n k) as [->|E]; [rewrite beqb_refl; reflexivity|].
    rewrite (proj2 (beqb_neq k n)) by congruence. destruct (beqb_spec m k) as [->|E']; [rewrite beqb_refl; reflexivity|]. rewrite (proj2 (beqb_neq _ _)) by congruence. reflexivity.
  Qed.

  (** Changes of the connection and the error show in these attributes only. *)
  Lemma attrs_conn s o c k : val k (net_attrs s (set_conn c o)) =
    if beqb k (B "state") then match c with Some _ => B "connected" | None => B "disconnected" end else val k (net_attrs s o).
  Proof.
    rewrite !attrs_val. cbn [set_conn v_rec v_conn v_error].
    destruct (addr_attrs parse_url split_host_port (v_rec o)) as [[h p] t]. unfold attr_fun.
    destruct (beqb_spec k (B "state")) as [->|E]; [reflexivity|]. reflexivity.
  Qed.
  Lemma attrs_error s o e k : val k (net_attrs s (set_error e o)) = if beqb k (B "error") then ov e else val k (net_attrs s o).
  Proof.
    rewrite !attrs_val. cbn [set_error v_rec v_conn v_error].
    destruct (addr_attrs parse_url split_host_port (v_rec o)) as [[h p] t]. unfold attr_fun.
    destruct (beqb_spec k (B "error")) as [->|E]; [reflexivity|]. reflexivity.
  Qed.

  Lemma good_state x : good [(B "state", x)].
  Proof. split; [discriminate|]. split; [repeat constructor; intros []|]. intros k [<-|[]]. unfold known. cbn [In]. tauto. Qed.
  Lemma good_error x : good [(B "error", x)].
  Proof. split; [discriminate|]. split; [repeat constructor; intros []|]. intros k [<-|[]]. unfold known. cbn [In]. tauto. Qed.
  Lemma good_up x y : good [(B "state", x); (B "error", y)].
  Proof.
    split; [discriminate|]. split.
    - constructor; [intros [H|[]]; discriminate|]. repeat constructor. intros [].
    - intros k [<-|[<-|[]]]; unfold known; cbn [In]; tauto.
  Qed.

  Definition ok (Q : bytes -> Prop) (c : N) (s : vst) (v : view) : Prop := wf s /\ listens c s /\ agree Q (T s) v.

  Lemma disconnected_ok Q c s n v : ok Q c s v ->
    let r := disconnected s n in ok Q c (fst r) (heard c (snd r) v) /\ same_user s (fst r).
  Proof.
    intros (W & L & A) r. unfold r, NetView.disconnected. clear r.
    assert (W1 : wf (on_obj n (set_conn None) s)) by (apply wf_on_obj; [exact W|reflexivity|reflexivity]).
    destruct (find_obj n (vs_nets s)) as [o|] eqn:F; cbn [fst snd]; (split; [|repeat split]); (split; [exact W1|split; [exact L|]]).
    - apply find_obj_In in F as [F <-]. eapply agree_veq; [|apply veq_sym, heard_notify; [exact L|apply good_state]].
      rewrite (has_id_on_obj s o); [|exact F|reflexivity].
      apply changed; [exact W|exact F|reflexivity|exact A|]. intros k q. rewrite find_one, attrs_conn.
      destruct (beqb k (B "state")); reflexivity.
    - unfold heard. cbn [fold_left]. apply on_old; assumption.
  Qed.

  Definition wipe (s : vst) (r : netrec) : netrec :=
    let r := if beqb (n_nick r) (vs_nick s) then set_nick [] r else r in
    if beqb (n_realname r) (vs_realname s) then set_realname [] r else r.
  Lemma wipe_id s r : n_id (wipe s r) = n_id r.
  Proof. unfold wipe. cbv zeta. destruct (beqb (n_nick r) (vs_nick s)); destruct (beqb _ (vs_realname s)); reflexivity. Qed.

  Lemma put_new Q s s2 v o : wf s ->
    agree Q (T s) v -> same_user s s2 -> 
    (forall i, at_i i (vs_nets s2) = if beqb i (net_id (n_id (v_rec o))) then Some o else at_i i (vs_nets s)) ->
    (forall k, Q k -> val k (net_attrs s o) = [] -> k <> B "state" -> match T s (net_id (n_id (v_rec o))) with Some f => f k = [] | None => True end) ->
    agree Q (T s2) (put (net_id (n_id (v_rec o))) (net_attrs s2 o) v).
  Proof.
    intros W A U N C. apply (announce Q s s2 v _ _ A).
    - intros i E. unfold T. rewrite N. rewrite (proj2 (beqb_neq _ _) E). destruct (at_i i (vs_nets s)); cbn [option_map]; [|exact I].
      intros k _. rewrite (attrs_user s s2 _ U). reflexivity.
    - eexists. unfold T at 1. rewrite N, beqb_refl. cbn [option_map]. split; [reflexivity|]. intros k q.
      rewrite (attrs_user s s2 _ U). unfold val. destruct (find (keyed k) (net_attrs s o)) as [a|] eqn:F; [reflexivity|].
      assert (V : val k (net_attrs s o) = []) by (unfold val; rewrite F; reflexivity).
      assert (K : k <> B "state").
      { intros ->. rewrite attrs_val in V. destruct (addr_attrs parse_url split_host_port (v_rec o)) as [[h p] t].
        unfold attr_fun in V. destruct (v_conn o); vm_compute in V; discriminate. }
      specialize (C k q V K). destruct (T s (net_id (n_id (v_rec o)))); [symmetry; exact C|reflexivity].
  Qed.

  Lemma update_ok Q c s o r v : ok Q c s v -> In o (vs_nets s) -> n_id r = n_id (v_rec o) ->
    (forall k, Q k -> val k (net_attrs s (VObj 0 (wipe s r) None None)) = [] -> val k (net_attrs s o) = []) ->
    let x := update s o r in
    ok Q c (fst x) (heard c (snd x) v) /\ same_user s (fst x) /\
    (forall y, In y (vs_nets (fst x)) <-> y = VObj (vs_next s) (wipe s r) None None \/ (In y (vs_nets s) /\ v_obj y <> v_obj o)).
  Proof.
    intros H Ho Hr C x. unfold x. clear x. unfold NetView.update. fold (wipe s r).
    set (d := match v_conn o with Some _ => disconnected s (v_obj o) | None => (s, []) end).
    assert (D : exists s1 out1 o1, d = (s1, out1) /\ ok Q c s1 (heard c out1 v) /\ same_user s s1 /\ vs_next s1 = vs_next s /\
              In o1 (vs_nets s1) /\ v_obj o1 = v_obj o /\ v_rec o1 = v_rec o /\ (forall k, k <> B "state" -> val k (net_attrs s o1) = val k (net_attrs s o)) /\
              (forall y, v_obj y <> v_obj o -> In y (vs_nets s1) <-> In y (vs_nets s))).
    { unfold d. destruct (v_conn o) eqn:Ec.
      - destruct (disconnected s (v_obj o)) as [s1 out1] eqn:E. exists s1, out1, (set_conn None o).
        pose proof (disconnected_ok Q c s (v_obj o) v H) as K. cbv zeta in K. rewrite E in K. cbn [fst snd] in K. destruct K as [K1 K2].
        unfold NetView.disconnected in E.
        assert (E1 : s1 = on_obj (v_obj o) (set_conn None) s) by (destruct (find_obj (v_obj o) (vs_nets s)); injection E as <- _; reflexivity).
        split; [reflexivity|]. split; [exact K1|]. split; [exact K2|]. split; [rewrite E1; reflexivity|]. split.
        + rewrite E1. cbn [on_obj with_objs vs_nets]. unfold at_obj. apply in_map_iff. exists o. rewrite N.eqb_refl. now split.
        + split; [reflexivity|]. split; [reflexivity|]. split.
          * intros k Hk. rewrite attrs_conn. rewrite (proj2 (beqb_neq _ _) Hk). reflexivity.
          * intros y Hy. rewrite E1. cbn [on_obj with_objs vs_nets]. unfold at_obj. rewrite in_map_iff. split.
            -- intros (z & Ez & Hz). destruct (N.eqb_spec (v_obj z) (v_obj o)) as [X|X]; [exfalso; apply Hy; rewrite <- Ez; cbn [set_conn v_obj]; exact X|].
               rewrite <- Ez. exact Hz.
            -- intros Hz. exists y. destruct (N.eqb_spec (v_obj y) (v_obj o)) as [X|X]; [congruence|]. now split.
      - exists s, [], o. split; [reflexivity|]. split; [exact H|]. split; [repeat split|]. split; [reflexivity|]. split; [exact Ho|].
        split; [reflexivity|]. split; [reflexivity|]. split; [reflexivity|]. intros y _. tauto. }
    destruct D as (s1 & out1 & o1 & -> & (W1 & L1 & A1) & U & En & Ho1 & Eo & Er & Ev & Eys). cbn [fst snd].
    set (o' := VObj (vs_next s1) (wipe s r) None None).
    set (s2 := with_objs s1 (insert o' (without (v_obj o) (vs_nets s1))) (set_conn None o :: vs_old s1) (vs_next s1 + 1)%N).
    assert (I1 : n_id (wipe s r) = n_id (v_rec o1)) by (rewrite wipe_id, Er; exact Hr).
    pose proof (wf_replace s1 o1 (set_conn None o) (with_objs s1 (without (v_obj o1) (vs_nets s1)) (set_conn None o :: vs_old s1) (vs_next s1)) W1 Ho1) as W1'.
    cbn [with_objs vs_nets vs_old vs_next] in W1'. rewrite Eo in W1'. specialize (W1' eq_refl eq_refl eq_refl eq_refl).
    assert (Hnew : forall y, In y (without (v_obj o) (vs_nets s1)) -> n_id (v_rec y) <> n_id (v_rec o')).
    { intros y Hy E. apply without_In in Hy as [Hy Hn]. cbn [o' v_rec] in E. rewrite I1 in E. apply Hn. rewrite <- Eo. f_equal. apply (same_id s1); assumption. }
    assert (P1 : 0 < n_id (v_rec o1)) by (apply (wf_pos s1 W1), Ho1).
    assert (W2 : wf s2).
    { pose proof (wf_insert _ o' W1') as K. cbn [with_objs vs_nets vs_old vs_next] in K.
      assert (K' := K eq_refl). cbn [o' v_rec] in K'. rewrite I1 in K' at 1. specialize (K' P1 Hnew). exact K'. }
    assert (U2 : same_user s s2) by exact U.
    assert (U12 : same_user s1 s2) by (repeat split).
    split; [split; [exact W2|split; [exact L1|]]|split; [exact U2|]].
    - rewrite heard_app.
      assert (Hh : has_id (n_id (wipe s r)) s2 = true).
      { unfold has_id. apply existsb_exists. exists o'. split; [|apply Z.eqb_refl]. cbn [s2 with_objs vs_nets]. apply insert_In. now left. }
      eapply agree_veq; [|apply veq_sym, heard_notify; [exact L1|apply attrs_good]]. rewrite Hh.
      change (wipe s r) with (v_rec o') at 1.
      apply (put_new Q s1 s2); [exact W1|exact A1|exact U12| |].
      + intros i. cbn [s2 with_objs vs_nets]. rewrite at_i_insert.
        * destruct (beqb_spec i (net_id (n_id (v_rec o')))) as [E|E]; [reflexivity|].
          rewrite <- Eo, (at_i_without s1 i o1 W1 Ho1). cbn [o' v_rec] in E. rewrite I1 in E. rewrite (proj2 (beqb_neq _ _) E). reflexivity.
        * intros y Hy E. apply net_id_inj in E; [exact (Hnew y Hy E)| |].
          -- apply without_In in Hy as [Hy _]. apply (wf_pos s1 W1), Hy.
          -- cbn [o' v_rec]. rewrite I1. exact P1.
      + intros k q V K. cbn [o' v_rec]. rewrite I1, (T_here s1 o1 W1 Ho1). rewrite (attrs_user s s1 _ U), (Ev k K). apply (C k q).
        rewrite (attrs_user s s1 _ U) in V. rewrite attrs_val in V |- *. exact V.
    - intros y. cbn [s2 with_objs vs_nets]. rewrite insert_In, without_In. rewrite <- En. fold o'.
      split; (intros [E|[E1 E2]]; [left; exact E|right; split; [apply (Eys y E2), E1|exact E2]]).
  Qed.

  Lemma create_ok Q c s r v : ok Q c s v -> 0 < n_id r -> by_id (n_id r) (vs_nets s) = None ->
    let x := create s r in ok Q c (fst x) (heard c (snd x) v).
  Proof.
    intros (W & L & A) P N x. unfold x, NetView.create. clear x. cbn [fst snd].
    set (o := VObj (vs_next s) r None None).
    assert (Hn : forall y, In y (vs_nets s) -> n_id (v_rec y) <> n_id (v_rec o)).
    { intros y Hy E. unfold by_id in N. apply (find_none _ _ N) in Hy. cbn [o v_rec] in E. rewrite E, Z.eqb_refl in Hy. discriminate. }
    set (s1 := with_objs s (insert o (vs_nets s)) (vs_old s) (vs_next s + 1)%N).
    split; [apply (wf_insert s o W eq_refl P Hn)|]. split; [exact L|].
    assert (Hh : has_id (n_id r) s1 = true).
    { unfold has_id. apply existsb_exists. exists o. split; [|apply Z.eqb_refl]. cbn [s1 with_objs vs_nets]. apply insert_In. now left. }
    eapply agree_veq; [|apply veq_sym, heard_notify; [exact L|apply attrs_good]]. rewrite Hh.
    change r with (v_rec o) at 1.
    assert (Hi : forall y, In y (vs_nets s) -> net_id (n_id (v_rec y)) <> net_id (n_id (v_rec o))).
    { intros y Hy E. apply net_id_inj in E; [exact (Hn y Hy E)|apply (wf_pos s W), Hy|exact P]. }
    apply (put_new Q s s1); [exact W|exact A|repeat split| |].
    - intros i. cbn [s1 with_objs vs_nets]. apply at_i_insert, Hi.
    - intros k q V K. unfold T. assert (E : at_i (net_id (n_id (v_rec o))) (vs_nets s) = None).
      { apply at_i_none. intros y Hy E. exact (Hi y Hy (eq_sym E)). }
      rewrite E. exact I.
  Qed.

  Lemma delete_ok Q c s o v : ok Q c s v -> In o (vs_nets s) -> let x := delete s o in ok Q c (fst x) (heard c (snd x) v).
  Proof.
    intros (W & L & A) Ho x. unfold x, NetView.delete. clear x. cbn [fst snd].
    set (s1 := with_objs s (without (v_obj o) (vs_nets s)) (o :: vs_old s) (vs_next s)).
    split; [apply (wf_replace s o o s1 W Ho); reflexivity|]. split; [exact L|].
    rewrite (heard_told _ _ _ _ _ (listens_notifying c s1 L)). intros i. unfold T at 1. cbn [s1 with_objs vs_nets]. rewrite (at_i_without s i o W Ho).
    unfold hear, msg. cbn [m_params]. change (beqb (B "NETWORK") (B "NETWORK")) with true. change (beqb (B "*") (B "*")) with true. cbv iota.
    cbv beta.
    destruct (beqb i (net_id (n_id (v_rec o)))); [exact I|]. specialize (A i). unfold T in A.
    destruct (at_i i (vs_nets s)) as [y|]; cbn [option_map] in *; [|exact A]. destruct (v i); [|exact A].
    intros k q. rewrite (attrs_user s s1) by repeat split. apply A, q.
  Qed.

  (** Attributes other than these do not depend on the user. *)
  Lemma attrs_other s s1 o o1 k : v_conn o1 = v_conn o -> v_error o1 = v_error o -> get_name (v_rec o1) = get_name (v_rec o) ->
    n_username (v_rec o1) = n_username (v_rec o) ->
    addr_attrs parse_url split_host_port (v_rec o1) = addr_attrs parse_url split_host_port (v_rec o) ->
    k <> B "nickname" -> k <> B "realname" -> val k (net_attrs s1 o1) = val k (net_attrs s o).
  Proof.
    intros C E G U A K1 K2. rewrite !attrs_val, A, C, E, G, U. destruct (addr_attrs parse_url split_host_port (v_rec o)) as [[h p] t]. unfold attr_fun.
    rewrite (proj2 (beqb_neq _ _) K1), (proj2 (beqb_neq _ _) K2). reflexivity.
  Qed.
  Lemma set_nick_addr x r : addr_attrs parse_url split_host_port (set_nick x r) = addr_attrs parse_url split_host_port r.
  Proof. reflexivity. Qed.
  Lemma wipe_same s r : get_name (wipe s r) = get_name r /\ n_username (wipe s r) = n_username r /\
    addr_attrs parse_url split_host_port (wipe s r) = addr_attrs parse_url split_host_port r.
  Proof. unfold wipe. cbv zeta. destruct (beqb (n_nick r) (vs_nick s)); destruct (beqb _ (vs_realname s)); repeat split. Qed.

  Lemma update_same s o k : k <> B "nickname" -> k <> B "realname" -> k <> B "error" ->
    val k (net_attrs s (VObj 0 (wipe s (v_rec o)) None None)) = [] -> val k (net_attrs s o) = [].
  Proof.
    intros K1 K2 K3 H. destruct (wipe_same s (v_rec o)) as (G & U & A).
    assert (K4 : k <> B "state").
    { intros ->. rewrite attrs_val in H. destruct (addr_attrs _ _ _) as [[h p] t]. vm_compute in H. discriminate. }
    rewrite <- H. rewrite !attrs_val. cbn [v_rec v_conn v_error]. rewrite A, G, U. destruct (addr_attrs parse_url split_host_port (v_rec o)) as [[h p] t]. unfold attr_fun.
    rewrite (proj2 (beqb_neq _ _) K1), (proj2 (beqb_neq _ _) K2), (proj2 (beqb_neq _ _) K3), (proj2 (beqb_neq _ _) K4). reflexivity.
  Qed.

  Lemma updates_ok (Q : bytes -> Prop) c okf rs : (forall k, Q k -> k <> B "nickname" /\ k <> B "realname" /\ k <> B "error") ->
    forall s v, ok Q c s v -> NoDup (map n_id rs) -> (forall r o, In r rs -> In o (vs_nets s) -> n_id (v_rec o) = n_id r -> v_rec o = r) ->
    let x := updates okf rs s in ok Q c (fst x) (heard c (snd x) v).
  Proof.
    intros HQ. induction rs as [|r rs IH]; intros s v H ND HR x; unfold x; clear x; cbn [NetView.updates]; [exact H|].
    cbn [map] in ND. apply NoDup_cons_iff in ND as [NI ND].
    set (y := match by_id (n_id r) (vs_nets s) with Some o => if okf (n_id r) then update s o r else (s, []) | None => (s, []) end).
    assert (Y : ok Q c (fst y) (heard c (snd y) v) /\ (forall r' o, In r' rs -> In o (vs_nets (fst y)) -> n_id (v_rec o) = n_id r' -> v_rec o = r')).
    { assert (Z0 : ok Q c (fst (s, @nil vout)) (heard c (snd (s, @nil vout)) v) /\ (forall r' o, In r' rs -> In o (vs_nets (fst (s, @nil vout))) -> n_id (v_rec o) = n_id r' -> v_rec o = r')).
      { split; [exact H|]. intros r' o Hr. apply HR. now right. }
      unfold y. destruct (by_id (n_id r) (vs_nets s)) as [o|] eqn:F; [|exact Z0]. destruct (okf (n_id r)); [|exact Z0].
      apply by_id_In in F as [Ho Hi]. assert (Er : v_rec o = r) by (apply HR; [now left|exact Ho|exact Hi]).
      destruct (update_ok Q c s o r v H Ho (eq_sym Hi)) as (U1 & U2 & U3).
      - intros k q. rewrite <- Er. destruct (HQ k q) as (K1 & K2 & K3). apply update_same; assumption.
      - split; [exact U1|]. intros r' z Hr Hz E. apply U3 in Hz as [->|[Hz _]].
        + cbn [v_rec] in E. rewrite wipe_id in E. exfalso. apply NI. rewrite E. apply in_map, Hr.
        + apply HR; [now right|exact Hz|exact E]. }
    destruct y as [s1 o1]. cbn [fst snd] in Y. destruct Y as [Y1 Y2].
    specialize (IH s1 (heard c o1 v) Y1 ND Y2). cbv zeta in IH.
    destruct (updates okf rs s1) as [s2 o2]. cbn [fst snd] in *. rewrite heard_app. exact IH.
  Qed.

  Lemma NoDup_filter_map {A C} (f : A -> C) p l : NoDup (map f l) -> NoDup (map f (filter p l)).
  Proof.
    induction l as [|x l IH]; cbn [map filter]; [auto|]. intros N. apply NoDup_cons_iff in N as [N1 N2].
    destruct (p x); [|auto]. cbn [map]. constructor; [|auto]. intros H. apply N1. apply in_map_iff in H as (y & E & H). apply filter_In in H as [H _]. rewrite <- E. apply in_map, H.
  Qed.

  Lemma update_user_ok (Q : bytes -> Prop) c s nick realname enabled okf v : (forall k, Q k -> k <> B "nickname" /\ k <> B "realname" /\ k <> B "error") ->
    ok Q c s v -> let x := update_user s nick realname enabled okf in ok Q c (fst x) (heard c (snd x) v).
  Proof.
    intros HQ (W & L & A) x. unfold x, NetView.update_user. clear x.
    set (s1 := VSt (vs_username s) nick realname enabled (vs_nets s) (vs_old s) (vs_cls s) (vs_next s)).
    assert (H1 : ok Q c s1 v).
    { split; [apply (wf_same s s1 W); reflexivity|]. split; [exact L|]. intros i. specialize (A i). unfold T in *. cbn [s1 vs_nets].
      destruct (at_i i (vs_nets s)) as [o|]; cbn [option_map] in *; [|exact A]. destruct (v i); [|exact A]. intros k q.
      destruct (HQ k q) as (K1 & K2 & _). rewrite (attrs_other s s1 o o) by (reflexivity || assumption). apply A, q. }
    destruct (_ || _); [|exact H1]. apply updates_ok; [exact HQ|exact H1| |].
    - rewrite map_map. apply (NoDup_filter_map (fun o => n_id (v_rec o))). apply (wf_ids s W).
    - intros r o Hr Ho E. apply in_map_iff in Hr as (z & <- & Hz). apply filter_In in Hz as [Hz _]. f_equal. apply (same_id s); assumption.
  Qed.

  Lemma has_id_in s id : has_id id s = true <-> exists x, In x (vs_nets s) /\ n_id (v_rec x) = id.
  Proof.
    unfold has_id. rewrite existsb_exists. split; intros (x & H & E); exists x; split; try exact H; [apply Z.eqb_eq, E|apply Z.eqb_eq; exact E].
  Qed.

  Lemma in_put (Q : bytes -> Prop) s v x l : wf s -> In x (vs_nets s) -> (forall k, ~ Q k) -> agree Q (T s) v -> agree Q (T s) (put (net_id (n_id (v_rec x))) l v).
  Proof.
    intros W Hx NQ A i. specialize (A i). unfold put. destruct (beqb_spec i (net_id (n_id (v_rec x)))) as [->|E]; [|exact A].
    rewrite (T_here s x W Hx). intros k q. destruct (NQ k q).
  Qed.

  Lemma any_obj_old s n o : find_obj n (vs_nets s) = None -> any_obj n s = Some o -> find_obj n (vs_old s) = Some o.
  Proof.
    unfold any_obj, find_obj. intros N. induction (vs_nets s) as [|x l IH]; [auto|]. cbn [app find] in *.
    destruct (N.eqb (v_obj x) n); [discriminate|]. auto.
  Qed.
  Lemma any_obj_new s n o o1 : find_obj n (vs_nets s) = Some o -> any_obj n s = Some o1 -> o1 = o.
  Proof.
    unfold any_obj, find_obj. induction (vs_nets s) as [|x l IH]; [discriminate|]. cbn [app find] in *.
    destruct (N.eqb (v_obj x) n); [congruence|]. auto.
  Qed.

  (** An announcement about an object that was replaced. *)
  Lemma late_ok (Q : bytes -> Prop) c s s0 n o l v : (forall k, ~ Q k) \/ ~ late s0 n -> wf s0 -> wf s -> vs_nets s = vs_nets s0 -> listens c s -> good l ->
    find_obj n (vs_nets s0) = None -> find_obj n (vs_old s0) = Some o -> agree Q (T s) v ->
    agree Q (T s) (heard c (notify s (n_id (v_rec o)) l) v).
  Proof.
    intros H W0 W E L G F1 F2 A. eapply agree_veq; [|apply veq_sym, heard_notify; assumption].
    destruct (has_id (n_id (v_rec o)) s) eqn:Hh; [|exact A]. apply has_id_in in Hh as (x & Hx & Ex). destruct H as [H|H].
    - rewrite <- Ex. apply in_put; assumption.
    - exfalso. apply H. exists o, x. rewrite E in Hx. repeat split; assumption.
  Qed.

  Definition mine (c : N) (e : vev) : Prop := match e with VOpen c' _ | VClose c' | VCap c' _ => c' <> c | _ => True end.

  Lemma listens_open c s c' on : c' <> c -> listens c s -> listens c (with_cls s (vs_cls s ++ [VCl c' on])).
  Proof.
    intros E L. unfold listens in *. cbn [with_cls vs_cls]. rewrite filter_app, L. cbn [filter vc_id]. rewrite (proj2 (N.eqb_neq _ _) E). reflexivity.
  Qed.
  Lemma listens_close c s c' : c' <> c -> listens c s -> listens c (with_cls s (filter (fun x => negb (N.eqb (vc_id x) c')) (vs_cls s))).
  Proof.
    intros E L. unfold listens in *. cbn [with_cls vs_cls]. rewrite <- L. clear L. induction (vs_cls s) as [|x l IH]; [reflexivity|]. cbn [filter].
    destruct (N.eqb_spec (vc_id x) c') as [X|X]; cbn [negb filter].
    - destruct (N.eqb_spec (vc_id x) c) as [Y|Y]; [congruence|exact IH].
    - destruct (N.eqb_spec (vc_id x) c) as [Y|Y]; [rewrite IH; reflexivity|exact IH].
  Qed.
  Lemma listens_cap c s c' on : c' <> c -> listens c s -> listens c (with_cls s (map (fun x => if N.eqb (vc_id x) c' then VCl c' on else x) (vs_cls s))).
  Proof.
    intros E L. unfold listens in *. cbn [with_cls vs_cls]. rewrite <- L. clear L. induction (vs_cls s) as [|x l IH]; [reflexivity|]. cbn [map filter].
    destruct (N.eqb_spec (vc_id x) c') as [X|X].
    - cbn [vc_id]. rewrite (proj2 (N.eqb_neq c' c) E), (proj2 (N.eqb_neq (vc_id x) c)) by congruence. exact IH.
    - destruct (N.eqb_spec (vc_id x) c) as [Y|Y]; [rewrite IH; reflexivity|exact IH].
  Qed.

  Lemma heard_other c c' l v : c' <> c -> heard c [VBatch c' l] v = v.
  Proof. intros E. unfold heard. cbn [fold_left hear_out]. rewrite (proj2 (N.eqb_neq _ _) E). reflexivity. Qed.

  Lemma heard_list c s v : wf s -> veq (heard c [VBatch c (listing s)] v) (T s).
  Proof.
    intros W. eapply veq_trans; [|apply (truth_T c), W]. unfold truth. cbn [vstep]. unfold heard. cbn [fold_left hear_out]. rewrite N.eqb_refl. apply veq_refl.
  Qed.
  Lemma agree_T Q s v : veq v (T s) -> agree Q (T s) v.
  Proof. intros H. eapply agree_veq; [|apply veq_sym, H]. intros i. destruct (T s i); auto. Qed.

  Lemma step_ok (Q : bytes -> Prop) c e s s1 o v :
    (forall k, Q k -> loud parse_url split_host_port shuffle k s e) -> (forall k, ~ Q k) \/ fresh s e -> mine c e ->
    ok Q c s v -> vstep e s = Some (s1, o) -> ok Q c s1 (heard c o v).
  Proof.
    intros LQ FQ M H E. pose proof H as (W & L & A). destruct e; cbn [NetView.vstep] in E.
    - (* open *)
      destruct (existsb _ _); [discriminate|]. injection E as <- <-. split; [apply (wf_same s _ W); reflexivity|].
      split; [apply listens_open; assumption|].
      assert (X : heard c (if on then [VBatch c0 (listing s)] else []) v = v) by (destruct on; [apply heard_other, M|reflexivity]).
      rewrite X. apply (agree_same Q s); [repeat split|reflexivity|exact A].
    - (* close *)
      injection E as <- <-. split; [apply (wf_same s _ W); reflexivity|]. split; [apply listens_close; assumption|].
      apply (agree_same Q s); [repeat split|reflexivity|exact A].
    - (* cap *)
      injection E as <- <-. split; [apply (wf_same s _ W); reflexivity|]. split; [apply listens_cap; assumption|].
      apply (agree_same Q s); [repeat split|reflexivity|exact A].
    - (* list *)
      injection E as <- <-. split; [exact W|]. split; [exact L|]. destruct (N.eq_dec c0 c) as [->|X].
      + apply agree_T, heard_list, W.
      + rewrite heard_other by exact X. exact A.
    - (* create *)
      destruct (n_id r <=? 0) eqn:P; [discriminate|]. destruct (beqb (get_name r) []); [discriminate|].
      destruct (by_id (n_id r) (vs_nets s)) eqn:F; [discriminate|]. cbn [orb] in E. apply (f_equal (fun x => match x with Some y => y | None => (s1, o) end)) in E.
      pose proof (create_ok Q c s r v H (proj1 (Z.leb_gt _ _) P) F) as K. cbv zeta in K. rewrite E in K. exact K.
    - (* update *)
      destruct (by_id (n_id r) (vs_nets s)) as [x|] eqn:F; [|discriminate]. apply by_id_In in F as [Hx Ex].
      destruct (beqb (get_name r) []) eqn:G; [discriminate|].
      apply (f_equal (fun x => match x with Some y => y | None => (s1, o) end)) in E. cbv beta iota in E.
      assert (C : forall k, Q k -> val k (net_attrs s (VObj 0 (wipe s r) None None)) = [] -> val k (net_attrs s x) = []).
      { intros k q V.
        destruct (update_ok (fun _ => False) c s x r (T s)) as ((W1 & _ & _) & U & I1); [|exact Hx|symmetry; exact Ex|tauto|].
        { split; [exact W|]. split; [exact L|]. intros i. destruct (T s i); auto. }
        rewrite E in W1, U, I1. cbn [fst] in W1, U, I1.
        pose proof (proj2 (I1 _) (or_introl eq_refl)) as Hn.
        pose proof (truth_T 0%N s W (net_id (n_id (v_rec x)))) as Q1. rewrite (T_here s x W Hx) in Q1.
        pose proof (truth_T 0%N s1 W1 (net_id (n_id (v_rec x)))) as Q2.
        pose proof (T_here s1 _ W1 Hn) as Q3. cbn [v_rec] in Q3. rewrite wipe_id, <- Ex in Q3. rewrite Q3 in Q2. clear Q3.
        destruct (truth 0 s (net_id (n_id (v_rec x)))) as [f|] eqn:T1; [|destruct Q1].
        destruct (truth 0 s1 (net_id (n_id (v_rec x)))) as [g|] eqn:T2; [|destruct Q2].
        rewrite <- Q1. apply (LQ k q s1 o (net_id (n_id (v_rec x))) f g); [|exact T1|exact T2|].
        - cbn [NetView.vstep]. rewrite G.
          assert (F : by_id (n_id r) (vs_nets s) = Some x).
          { destruct (by_id (n_id r) (vs_nets s)) as [y|] eqn:F.
            - apply by_id_In in F as [Hy Ey]. f_equal. apply (same_id s); [exact W|exact Hy|exact Hx|congruence].
            - unfold by_id in F. apply (find_none _ _ F) in Hx. rewrite Ex, Z.eqb_refl in Hx. discriminate. }
          rewrite F, E. reflexivity.
        - rewrite Q2, (attrs_user s s1 _ U). rewrite attrs_val in V |- *. exact V. }
      destruct (update_ok Q c s x r v H Hx (eq_sym Ex) C) as (K & _). rewrite E in K. exact K.
    - (* delete *)
      destruct (by_id id (vs_nets s)) as [x|] eqn:F; [|discriminate]. apply by_id_In in F as [Hx Ex].
      apply (f_equal (fun x => match x with Some y => y | None => (s1, o) end)) in E. cbv beta iota in E.
      pose proof (delete_ok Q c s x v H Hx) as K. cbv zeta in K. rewrite E in K. exact K.
    - (* nick *)
      destruct (by_id id (vs_nets s)) as [x|] eqn:F; [|discriminate]. apply by_id_In in F as [Hx Ex].
      injection E as <- <-. split; [apply wf_on; [exact W|exact Hx|reflexivity|reflexivity]|]. split; [exact L|].
      unfold heard. cbn [fold_left]. apply unchanged; [exact W|exact Hx|reflexivity|exact A|].
      intros k q. destruct (LQ k q) as [K1 K2]. apply attrs_other; reflexivity || assumption.
    - (* user *)
      apply (f_equal (fun x => match x with Some y => y | None => (s1, o) end)) in E. cbv beta iota in E.
      pose proof (update_user_ok Q c s nick realname enabled ok0 v LQ H) as K. cbv zeta in K. rewrite E in K. exact K.
    - (* up *)
      destruct (any_obj n s) as [x|] eqn:F; [|discriminate].
      apply (f_equal (fun x => match x with Some y => y | None => (s1, o) end)) in E. cbv beta iota in E. apply pair_equal_spec in E as [<- <-].
      set (s2 := on_obj n (set_conn (Some setname)) s).
      assert (W2 : wf s2) by (apply wf_on_obj; [exact W|reflexivity|reflexivity]).
      assert (W3 : wf (on_obj n (set_error None) s2)) by (apply wf_on_obj; [exact W2|reflexivity|reflexivity]).
      split; [exact W3|]. split; [exact L|]. destruct (find_obj n (vs_nets s)) as [y|] eqn:F1.
      + rewrite (any_obj_new s n y x F1 F). clear x F. apply find_obj_In in F1 as [Hy <-].
        eapply agree_veq; [|apply veq_sym, heard_notify; [exact L|apply good_up]].
        assert (Hh : has_id (n_id (v_rec y)) s2 = true) by exact (has_id_on_obj s y (set_conn (Some setname)) Hy eq_refl). rewrite Hh.
        assert (Hy2 : In (set_conn (Some setname) y) (vs_nets s2)).
        { cbn [s2 on_obj with_objs vs_nets]. unfold at_obj. apply in_map_iff. exists y. rewrite N.eqb_refl. now split. }
        assert (T3 : forall i, T (on_obj (v_obj y) (set_error None) s2) i = T (on_obj (v_obj y) (fun z => set_error None (set_conn (Some setname) z)) s) i).
        { intros i. rewrite (T_on_obj s2 (set_conn (Some setname) y) (set_error None) W2 Hy2 eq_refl).
          rewrite (T_on_obj s y (fun z => set_error None (set_conn (Some setname) z)) W Hy eq_refl). cbn [set_conn v_rec].
          destruct (beqb_spec i (net_id (n_id (v_rec y)))) as [X|X]; [reflexivity|].
          unfold s2. rewrite (T_on_obj s y (set_conn (Some setname)) W Hy eq_refl). rewrite (proj2 (beqb_neq _ _) X). reflexivity. }
        intros i. rewrite T3. revert i.
        apply (changed Q s y (fun z => set_error None (set_conn (Some setname) z)) v W Hy eq_refl A).
        intros k q. rewrite find_two, attrs_error, attrs_conn. destruct (beqb k (B "state")) eqn:X.
        * apply beqb_eq in X. rewrite X. reflexivity.
        * destruct (beqb k (B "error")); reflexivity.
      + pose proof (any_obj_old s n x F1 F) as F2.
        assert (E2 : vs_nets s2 = vs_nets s) by (apply at_obj_none, F1).
        assert (A2 : agree Q (T s2) v) by (apply (agree_same Q s); [repeat split|exact E2|exact A]).
        apply (agree_same Q s2); [repeat split| |].
        * cbn [on_obj with_objs vs_nets] in E2 |- *. rewrite E2. apply at_obj_none, F1.
        * apply (late_ok Q c s2 s n x); try assumption. apply good_up.
    - (* down *)
      destruct (any_obj n s); [|discriminate]. apply (f_equal (fun x => match x with Some y => y | None => (s1, o) end)) in E. cbv beta iota in E.
      destruct (disconnected_ok Q c s n v H) as [K _]. rewrite E in K. exact K.
    - (* fail *)
      destruct (any_obj n s) as [x|] eqn:F; [|discriminate].
      apply (f_equal (fun x => match x with Some y => y | None => (s1, o) end)) in E. cbv beta iota in E. apply pair_equal_spec in E as [<- <-].
      set (er := (B "connection error: " ++ text)%list).
      assert (W2 : wf (on_obj n (set_error (Some er)) s)) by (apply wf_on_obj; [exact W|reflexivity|reflexivity]).
      split; [exact W2|]. split; [exact L|]. destruct (find_obj n (vs_nets s)) as [y|] eqn:F1.
      + rewrite (any_obj_new s n y x F1 F). clear x F. apply find_obj_In in F1 as [Hy <-].
        eapply agree_veq; [|apply veq_sym, heard_notify; [exact L|apply good_error]].
        rewrite (has_id_on_obj s y (set_error (Some er)) Hy eq_refl).
        apply (changed Q s y (set_error (Some er)) v W Hy eq_refl A).
        intros k q. rewrite find_one, attrs_error. destruct (beqb k (B "error")); reflexivity.
      + pose proof (any_obj_old s n x F1 F) as F2.
        assert (E2 : vs_nets (on_obj n (set_error (Some er)) s) = vs_nets s) by (apply at_obj_none, F1).
        assert (A2 : agree Q (T (on_obj n (set_error (Some er)) s)) v) by (apply (agree_same Q s); [repeat split|exact E2|exact A]).
        apply (late_ok Q c _ s n x); try assumption. apply good_error.
  Qed.

  (** *** Runs *)
  Lemma some_eq {A} (a b : A) : Some a = Some b -> a = b.
  Proof. congruence. Qed.

  Lemma wf_disconnected s n : wf s -> wf (fst (disconnected s n)) /\ vs_next (fst (disconnected s n)) = vs_next s.
  Proof.
    intros W. unfold NetView.disconnected. destruct (find_obj n (vs_nets s)); cbn [fst]; (split; [|reflexivity]); (apply wf_on_obj; [exact W|reflexivity|reflexivity]).
  Qed.
  Lemma wf_update s o r : wf s -> In o (vs_nets s) -> n_id r = n_id (v_rec o) -> wf (fst (update s o r)).
  Proof.
    intros W Ho Hr. unfold NetView.update. fold (wipe s r).
    set (d := match v_conn o with Some _ => disconnected s (v_obj o) | None => (s, []) end).
    assert (D : wf (fst d) /\ exists o1, In o1 (vs_nets (fst d)) /\ v_obj o1 = v_obj o /\ v_rec o1 = v_rec o).
    { unfold d. destruct (v_conn o); [|split; [exact W|exists o; auto]].
      split; [apply wf_disconnected, W|]. exists (set_conn None o). split; [|split; reflexivity].
      unfold NetView.disconnected. destruct (find_obj (v_obj o) (vs_nets s)); cbn [fst on_obj with_objs vs_nets]; unfold at_obj; apply in_map_iff; exists o; rewrite N.eqb_refl; now split. }
    destruct d as [s1 out1]. cbn [fst] in D. destruct D as (W1 & o1 & Ho1 & Eo & Er). cbn [fst].
    pose proof (wf_replace s1 o1 (set_conn None o) (with_objs s1 (without (v_obj o1) (vs_nets s1)) (set_conn None o :: vs_old s1) (vs_next s1)) W1 Ho1) as W1'.
    cbn [with_objs vs_nets vs_old vs_next] in W1'. rewrite Eo in W1'. specialize (W1' eq_refl eq_refl eq_refl eq_refl).
    set (o' := VObj (vs_next s1) (wipe s r) None None).
    assert (I1 : n_id (v_rec o') = n_id (v_rec o1)) by (cbn [o' v_rec]; rewrite wipe_id, Er; exact Hr).
    assert (P1 : 0 < n_id (v_rec o')) by (rewrite I1; apply (wf_pos s1 W1), Ho1).
    refine (wf_insert _ o' W1' eq_refl P1 _). cbn [with_objs vs_nets]. intros y Hy E.
    apply without_In in Hy as [Hy Hn]. rewrite I1 in E. apply Hn. rewrite <- Eo. f_equal. apply (same_id s1); assumption.
  Qed.
  Lemma wf_updates okf rs : forall s, wf s -> wf (fst (updates okf rs s)).
  Proof.
    induction rs as [|r rs IH]; intros s W; cbn [NetView.updates]; [exact W|].
    set (y := match by_id (n_id r) (vs_nets s) with Some o => if okf (n_id r) then update s o r else (s, []) | None => (s, []) end).
    assert (Y : wf (fst y)).
    { unfold y. destruct (by_id (n_id r) (vs_nets s)) as [o|] eqn:F; [|exact W]. destruct (okf (n_id r)); [|exact W].
      apply by_id_In in F as [F1 F2]. apply wf_update; auto. }
    destruct y as [s1 o1]. cbn [fst] in Y. specialize (IH s1 Y). destruct (updates okf rs s1). exact IH.
  Qed.
  Lemma wf_step e s s1 o : wf s -> vstep e s = Some (s1, o) -> wf s1.
  Proof.
    intros W E. destruct e; cbn [NetView.vstep] in E.
    - destruct (existsb _ _); [discriminate|]. injection E as <- <-. apply (wf_same s _ W); reflexivity.
    - injection E as <- <-. apply (wf_same s _ W); reflexivity.
    - injection E as <- <-. apply (wf_same s _ W); reflexivity.
    - injection E as <- <-. exact W.
    - destruct (n_id r <=? 0) eqn:P; [discriminate|]. destruct (beqb (get_name r) []); [discriminate|].
      destruct (by_id (n_id r) (vs_nets s)) eqn:F; [discriminate|]. cbn [orb] in E. unfold NetView.create in E. apply some_eq, pair_equal_spec in E as [<- _].
      apply (wf_insert s (VObj (vs_next s) r None None) W eq_refl); [apply Z.leb_gt, P|].
      intros y Hy E. unfold by_id in F. apply (find_none _ _ F) in Hy. cbn [v_rec] in E. rewrite E, Z.eqb_refl in Hy. discriminate.
    - destruct (by_id (n_id r) (vs_nets s)) as [x|] eqn:F; [|discriminate]. apply by_id_In in F as [Hx Ex].
      destruct (beqb (get_name r) []); [discriminate|]. apply some_eq in E. pose proof (wf_update s x r W Hx (eq_sym Ex)) as K. rewrite E in K. exact K.
    - destruct (by_id id (vs_nets s)) as [x|] eqn:F; [|discriminate]. apply by_id_In in F as [Hx Ex].
      unfold delete in E. apply some_eq, pair_equal_spec in E as [<- _]. apply (wf_replace s x x _ W Hx); reflexivity.
    - destruct (by_id id (vs_nets s)) as [x|] eqn:F; [|discriminate]. apply by_id_In in F as [Hx Ex].
      injection E as <- <-. apply wf_on; [exact W|exact Hx|reflexivity|reflexivity].
    - apply some_eq in E. unfold NetView.update_user in E. destruct (_ || _).
      + apply (f_equal fst) in E. cbn [fst] in E. rewrite <- E. apply wf_updates. apply (wf_same s _ W); reflexivity.
      + apply pair_equal_spec in E as [<- _]. apply (wf_same s _ W); reflexivity.
    - destruct (any_obj n s); [|discriminate]. apply some_eq, pair_equal_spec in E as [<- _].
      apply wf_on_obj; [|reflexivity|reflexivity]. apply wf_on_obj; [exact W|reflexivity|reflexivity].
    - destruct (any_obj n s); [|discriminate]. apply some_eq in E. pose proof (proj1 (wf_disconnected s n W)) as K. rewrite E in K. exact K.
    - destruct (any_obj n s); [|discriminate]. apply some_eq, pair_equal_spec in E as [<- _]. apply wf_on_obj; [exact W|reflexivity|reflexivity].
  Qed.
  Lemma wf_steps l : forall s s1 o, wf s -> vsteps l s = Some (s1, o) -> wf s1.
  Proof.
    induction l as [|e l IH]; intros s s1 o W E; cbn [NetView.vsteps] in E; [congruence|].
    destruct (vstep e s) as [[s2 o2]|] eqn:E1; [|discriminate]. destruct (vsteps l s2) as [[s3 o3]|] eqn:E2; [|discriminate].
    injection E as <- _. eapply IH; [|exact E2]. eapply wf_step; eassumption.
  Qed.
  Lemma wf_reachable s : reachable parse_url split_host_port shuffle s -> wf s.
  Proof.
    intros (u & n & r & en & recs & l & out & P & D & E). eapply wf_steps; [|exact E]. clear E.
    unfold new_vst.
    assert (G : forall rs k, map v_rec (number k rs) = rs /\ (forall o, In o (number k rs) -> (k <= v_obj o < k + N.of_nat (length rs))%N) /\ NoDup (map v_obj (number k rs))).
    { induction rs as [|r0 rs IH]; intros k; cbn [number map length]; [split; [reflexivity|split; [intros ? []|constructor]]|].
      destruct (IH (k + 1)%N) as (A1 & A2 & A3). split; [rewrite A1; reflexivity|]. split.
      - intros o [<-|Ho]; [cbn [v_obj]; lia|]. specialize (A2 o Ho). lia.
      - constructor; [|exact A3]. intros H. apply in_map_iff in H as (o & Eo & Ho). specialize (A2 o Ho). cbn [v_obj] in Eo. lia. }
    destruct (G recs 0%N) as (A1 & A2 & A3). constructor; cbn [vs_nets vs_old vs_next]; rewrite ?app_nil_r.
    - rewrite <- (map_map v_rec n_id), A1. exact D.
    - intros o Ho. apply P. rewrite <- A1. apply in_map, Ho.
    - exact A3.
    - intros o Ho. specialize (A2 o Ho). lia.
  Qed.

  Notation loud := (loud parse_url split_host_port shuffle).
  Notation along := (along parse_url split_host_port shuffle).
  Notation reachable := (reachable parse_url split_host_port shuffle).

  Lemma run_ok (Q : bytes -> Prop) c l : forall s v s1 o, ok Q c s v -> stays c l ->
    along (fun s e => (forall k, Q k -> loud k s e) /\ ((forall k, ~ Q k) \/ fresh s e)) l s ->
    vsteps l s = Some (s1, o) -> ok Q c s1 (heard c o v).
  Proof.
    induction l as [|e l IH]; intros s v s1 o H ST AL E; cbn [NetView.vsteps] in E.
    - injection E as <- <-. exact H.
    - inversion AL as [|e' l' s' s2 o2 E1 [P1 P2] AL']; subst. rewrite E1 in E.
      destruct (vsteps l s2) as [[s3 o3]|] eqn:E2; [|discriminate]. apply some_eq, pair_equal_spec in E as [<- <-].
      rewrite heard_app. eapply IH; [|intros x Hx; apply ST; now right|exact AL'|exact E2].
      eapply step_ok; [exact P1|exact P2| |exact H|exact E1].
      pose proof (ST e (or_introl eq_refl)) as S. destruct e; try exact S. cbn [mine]. intros ->.
      cbn [NetView.vstep] in E1. destruct H as (_ & L & _). unfold listens in L.
      assert (X : existsb (fun x => N.eqb (vc_id x) c) (vs_cls s) = true).
      { apply existsb_exists. exists (VCl c true). split; [|apply N.eqb_refl].
        apply (proj1 (filter_In (fun x => N.eqb (vc_id x) c) _ _)). rewrite L. now left. }
      rewrite X in E1. discriminate.
  Qed.

  Lemma open_ok Q c s s1 o v : wf s -> vstep (VOpen c true) s = Some (s1, o) -> ok Q c s1 (heard c o v).
  Proof.
    intros W E. cbn [NetView.vstep] in E. destruct (existsb _ _) eqn:X; [discriminate|]. apply some_eq, pair_equal_spec in E as [<- <-].
    assert (W1 : wf (with_cls s (vs_cls s ++ [VCl c true]))) by (apply (wf_same s _ W); reflexivity).
    split; [exact W1|]. split.
    - unfold listens. cbn [with_cls vs_cls]. rewrite filter_app. cbn [filter vc_id]. rewrite N.eqb_refl.
      assert (N : filter (fun x => N.eqb (vc_id x) c) (vs_cls s) = []).
      { clear W W1. induction (vs_cls s) as [|y l IH]; [reflexivity|]. cbn [existsb filter] in *. apply orb_false_iff in X as [X1 X2]. rewrite X1. auto. }
      rewrite N. reflexivity.
    - apply agree_T. apply (heard_list c _ v W1).
  Qed.

  Lemma session (Q : bytes -> Prop) c s l s1 o : reachable s -> stays c l ->
    along (fun s e => (forall k, Q k -> loud k s e) /\ ((forall k, ~ Q k) \/ fresh s e)) (VOpen c true :: l) s ->
    vsteps (VOpen c true :: l) s = Some (s1, o) -> wf s1 /\ agree Q (T s1) (heard c o blank).
  Proof.
    intros R ST AL E. pose proof (wf_reachable s R) as W. cbn [NetView.vsteps] in E.
    inversion AL as [|e' l' s' s2 o2 E1 _ AL']; subst. rewrite E1 in E.
    destruct (vsteps l s2) as [[s3 o3]|] eqn:E2; [|discriminate]. apply some_eq, pair_equal_spec in E as [<- <-]. rewrite heard_app.
    pose proof (run_ok Q c l s2 _ s3 o3 (open_ok Q c s s2 o2 blank W E1) ST AL' E2) as (W1 & _ & A). now split.
  Qed.

  Lemma along_any (P : vst -> vev -> Prop) l : forall s s1 o, vsteps l s = Some (s1, o) -> wf s -> (forall s e, wf s -> P s e) -> along P l s.
  Proof.
    induction l as [|e l IH]; intros s s1 o E W H; [constructor|]. cbn [NetView.vsteps] in E.
    destruct (vstep e s) as [[s2 o2]|] eqn:E1; [|discriminate]. destruct (vsteps l s2) as [[s3 o3]|] eqn:E2; [|discriminate].
    econstructor; [exact E1|apply H, W|]. eapply IH; [exact E2| |exact H]. eapply wf_step; eassumption.
  Qed.
  Lemma along_impl (P P' : vst -> vev -> Prop) l : forall s, wf s -> (forall s e, wf s -> P s e -> P' s e) -> along P l s -> along P' l s.
  Proof.
    induction l as [|e l IH]; intros s W H A; [constructor|]. inversion A as [|e' l' s' s2 o2 E1 P1 AL']; subst.
    econstructor; [exact E1|apply H; assumption|]. eapply IH; [|exact H|exact AL']. eapply wf_step; eassumption.
  Qed.

  Theorem networks c s l s1 o : reachable s -> stays c l -> vsteps (VOpen c true :: l) s = Some (s1, o) ->
    same_nets (heard c o blank) (truth c s1).
  Proof.
    intros R ST E. destruct (session (fun _ => False) c s l s1 o R ST) as [W A]; [|exact E|].
    - eapply along_any; [exact E|apply wf_reachable, R|]. intros. split; [intros ? []|left; intros ? []].
    - intros i. specialize (A i). pose proof (truth_T c s1 W i) as K.
      destruct (T s1 i), (heard c o blank i), (truth c s1 i); try (destruct A; fail); try (destruct K; fail); split; congruence.
  Qed.

  Theorem attr k c s l s1 o : reachable s -> stays c l ->
    along (fun s e => fresh s e /\ loud k s e) (VOpen c true :: l) s ->
    vsteps (VOpen c true :: l) s = Some (s1, o) -> same_attr k (heard c o blank) (truth c s1).
  Proof.
    intros R ST AL E. destruct (session (fun x => x = k) c s l s1 o R ST) as [W A]; [|exact E|].
    - eapply along_impl; [apply wf_reachable, R| |exact AL]. intros s0 e0 _ [F L]. split; [intros x ->; exact L|right; exact F].
    - intros i f g Hf Hg. specialize (A i). pose proof (truth_T c s1 W i) as K. rewrite Hf in A. rewrite Hg in K.
      destruct (T s1 i); [|destruct A]. rewrite K. symmetry. apply A. reflexivity.
  Qed.

  (** The name and the state are always announced. *)
  Lemma loud_state s e : wf s -> loud (B "state") s e.
  Proof.
    intros W. destruct e; cbn [Spec.NetView.loud]; try exact I; try (repeat split; discriminate).
    intros s1 o i f g E _ G K. exfalso. pose proof (wf_step _ _ _ _ W E) as W1. pose proof (truth_T 0%N s1 W1 i) as X. rewrite G in X.
    unfold T in X. destruct (at_i i (vs_nets s1)) as [x|]; cbn [option_map] in X; [|exact X]. rewrite X, attrs_val in K.
    destruct (addr_attrs _ _ _) as [[h p] t]. unfold attr_fun in K. destruct (v_conn x); vm_compute in K; discriminate.
  Qed.
  Lemma update_nets s o r y : In y (vs_nets (fst (update s o r))) ->
    v_rec y = wipe s r \/ (In y (vs_nets s) /\ v_obj y <> v_obj o).
  Proof.
    unfold NetView.update. fold (wipe s r).
    set (d := match v_conn o with Some _ => disconnected s (v_obj o) | None => (s, []) end).
    assert (D : forall y, v_obj y <> v_obj o -> In y (vs_nets (fst d)) -> In y (vs_nets s)).
    { intros x N H. unfold d in H. destruct (v_conn o); [|exact H]. unfold NetView.disconnected in H.
      assert (H' : In x (at_obj (v_obj o) (set_conn None) (vs_nets s))) by (destruct (find_obj (v_obj o) (vs_nets s)); exact H).
      unfold at_obj in H'. apply in_map_iff in H' as (z & <- & Hz). destruct (N.eqb_spec (v_obj z) (v_obj o)) as [X|X]; [|exact Hz].
      exfalso. apply N. cbn [set_conn v_obj]. exact X. }
    destruct d as [s1 out1]. cbn [fst with_objs vs_nets] in *. intros H. apply insert_In in H as [->|H]; [left; reflexivity|].
    apply without_In in H as [H N]. right. split; [apply D; assumption|exact N].
  Qed.
  Lemma update_user_same s o r : same_user s (fst (update s o r)).
  Proof.
    unfold NetView.update. destruct (v_conn o); [|repeat split]. unfold NetView.disconnected. destruct (find_obj _ _); repeat split.
  Qed.
  Lemma loud_name s e : wf s -> loud (B "name") s e.
  Proof.
    intros W. destruct e; cbn [Spec.NetView.loud]; try exact I; try (repeat split; discriminate).
    intros s1 o i f g E F G K. pose proof (wf_step _ _ _ _ W E) as W1. pose proof (truth_T 0%N s1 W1 i) as X. rewrite G in X.
    pose proof (truth_T 0%N s W i) as Y. rewrite F in Y.
    cbn [NetView.vstep] in E. destruct (by_id (n_id r) (vs_nets s)) as [z|] eqn:Z1; [|discriminate].
    destruct (beqb (get_name r) []) eqn:R; [discriminate|]. apply some_eq in E.
    unfold T in X at 1. destruct (at_i i (vs_nets s1)) as [x|] eqn:A1; cbn [option_map] in X; [|destruct X].
    apply at_i_In in A1 as [Hx Ei]. assert (Hx' := Hx). replace s1 with (fst (update s z r)) in Hx' by (rewrite E; reflexivity).
    apply update_nets in Hx' as [Er|[Hx' _]].
    - exfalso. rewrite X, attrs_val, Er in K. destruct (addr_attrs _ _ _) as [[h p] t]. unfold attr_fun in K. change (beqb (B "name") (B "name")) with true in K. cbv iota in K.
      rewrite (proj1 (wipe_same s r)) in K. rewrite K in R. discriminate.
    - rewrite Ei, (T_here s x W Hx') in Y. rewrite Y, <- K, X. rewrite (attrs_user s s1); [reflexivity|].
      replace s1 with (fst (update s z r)) by (rewrite E; reflexivity). apply update_user_same.
  Qed.
  Theorem always k c s l s1 o : k = B "name" \/ k = B "state" -> reachable s -> stays c l ->
    along fresh (VOpen c true :: l) s -> vsteps (VOpen c true :: l) s = Some (s1, o) -> same_attr k (heard c o blank) (truth c s1).
  Proof.
    intros K R ST AL E. eapply attr; [exact R|exact ST| |exact E]. eapply along_impl; [apply wf_reachable, R| |exact AL].
    intros s0 e0 W F. split; [exact F|]. destruct K as [->| ->]; [apply loud_name, W|apply loud_state, W].
  Qed.

  (** *** Clients without the capability *)
  Definition told_by (s : vst) (o : list vout) : Prop := forall x, In x o -> exists c m, x = VMsg c m /\ In (VCl c true) (vs_cls s).
  Lemma told_map s m : told_by s (map (fun c => VMsg (vc_id c) m) (notifying s)).
  Proof.
    intros x H. apply in_map_iff in H as ([c b] & <- & H). unfold notifying in H. apply filter_In in H as [H E]. cbn [vc_notify] in E. subst b.
    exists c, m. now split.
  Qed.
  Lemma told_notify s id l : told_by s (notify s id l).
  Proof. unfold NetView.notify. destruct (existsb _ _); [apply told_map|intros x []]. Qed.
  Lemma told_app s a b : told_by s a -> told_by s b -> told_by s (a ++ b).
  Proof. intros A C x H. apply in_app_or in H as [H|H]; auto. Qed.
  Lemma told_disconnected s n : vs_cls (fst (disconnected s n)) = vs_cls s /\ told_by s (snd (disconnected s n)).
  Proof. unfold NetView.disconnected. destruct (find_obj _ _) as [o|]; cbn [fst snd]; (split; [reflexivity|]); [exact (told_notify (on_obj n (set_conn None) s) _ _)|intros x []]. Qed.
  Lemma told_update s o r : vs_cls (fst (update s o r)) = vs_cls s /\ told_by s (snd (update s o r)).
  Proof.
    unfold NetView.update. cbv zeta.
    set (d := match v_conn o with Some _ => disconnected s (v_obj o) | None => (s, []) end).
    assert (D : vs_cls (fst d) = vs_cls s /\ told_by s (snd d)).
    { unfold d. destruct (v_conn o); [apply told_disconnected|]. split; [reflexivity|intros x []]. }
    destruct d as [s1 o1]. cbn [fst snd] in *. destruct D as [D1 D2]. split; [exact D1|]. apply told_app; [exact D2|].
    intros x H. apply told_notify in H. cbn [with_objs vs_cls] in H. rewrite D1 in H. exact H.
  Qed.
  Lemma told_updates okf rs : forall s, told_by s (snd (updates okf rs s)).
  Proof.
    induction rs as [|r rs IH]; intros s; cbn [NetView.updates]; [intros x []|].
    set (y := match by_id (n_id r) (vs_nets s) with Some o => if okf (n_id r) then update s o r else (s, []) | None => (s, []) end).
    assert (Y : vs_cls (fst y) = vs_cls s /\ told_by s (snd y)).
    { assert (Z0 : vs_cls (fst (s, @nil vout)) = vs_cls s /\ told_by s (snd (s, @nil vout))) by (split; [reflexivity|intros x []]).
      unfold y. destruct (by_id _ _); [|exact Z0]. destruct (okf _); [apply told_update|exact Z0]. }
    destruct y as [s1 o1]. cbn [fst snd] in Y. destruct Y as [Y1 Y2]. specialize (IH s1). destruct (updates okf rs s1) as [s2 o2]. cbn [snd] in *.
    apply told_app; [exact Y2|]. intros x H. apply IH in H. rewrite Y1 in H. exact H.
  Qed.
  Theorem quiet e s s1 o x : vstep e s = Some (s1, o) -> In x o ->
    match x with
    | VMsg c m => In (VCl c true) (vs_cls s)
    | VBatch c l => e = VList c \/ e = VOpen c true
    end.
  Proof.
    intros E H. assert (G : told_by s o -> match x with VMsg c m => In (VCl c true) (vs_cls s) | VBatch c l => e = VList c \/ e = VOpen c true end).
    { intros K. destruct (K x H) as (c & m & -> & Hc). exact Hc. }
    destruct e; cbn [NetView.vstep] in E.
    - destruct (existsb _ _); [discriminate|]. apply some_eq, pair_equal_spec in E as [<- <-]. destruct on; [|destruct H].
      destruct H as [<-|[]]. now right.
    - apply some_eq, pair_equal_spec in E as [<- <-]. destruct H.
    - apply some_eq, pair_equal_spec in E as [<- <-]. destruct H.
    - apply some_eq, pair_equal_spec in E as [<- <-]. destruct H as [<-|[]]. now left.
    - destruct (_ || _ || _); [discriminate|]. apply some_eq, pair_equal_spec in E as [<- <-]. apply G. exact (told_notify _ _ _).
    - destruct (by_id _ _) as [z|]; [|discriminate]. destruct (beqb _ _); [discriminate|]. apply some_eq in E. apply G.
      pose proof (proj2 (told_update s z r)) as K. rewrite E in K. exact K.
    - destruct (by_id _ _); [|discriminate]. apply some_eq, pair_equal_spec in E as [<- <-]. apply G. exact (told_map _ _).
    - destruct (by_id _ _); [|discriminate]. apply some_eq, pair_equal_spec in E as [<- <-]. destruct H.
    - apply some_eq in E. apply G. unfold NetView.update_user in E. destruct (_ || _).
      + pose proof (fun okf rs => told_updates okf rs (VSt (vs_username s) nick realname enabled (vs_nets s) (vs_old s) (vs_cls s) (vs_next s))) as K.
        apply (f_equal snd) in E. cbn [snd] in E. rewrite <- E. exact (K _ _).
      + apply pair_equal_spec in E as [_ <-]. intros y [].
    - destruct (any_obj _ _); [|discriminate]. apply some_eq, pair_equal_spec in E as [<- <-]. apply G. exact (told_notify _ _ _).
    - destruct (any_obj _ _); [|discriminate]. apply some_eq in E. apply G. pose proof (proj2 (told_disconnected s n)) as K. rewrite E in K. exact K.
    - destruct (any_obj _ _); [|discriminate]. apply some_eq, pair_equal_spec in E as [<- <-]. apply G. exact (told_notify _ _ _).
  Qed.
End Proofs.
