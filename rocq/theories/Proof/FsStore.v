From Verif.Base Require Import Bytes.
From Verif.Model Require Import Message TimeFmt ZncLog FsStore.
From Verif.Spec Require Import ZncLog FsStore.
From Verif.Proof Require Import MemStore.
From Verif.Proof Require TimeFmt ZncLog.
From Coq Require Import ZArith Sorting.Sorted Arith.
Open Scope nat_scope.

(** ** Lines of a file *)

Lemma split_file ls rest :
  Forall (fun l => ~ In lf l) ls ->
  split_on lf (file_of ls ++ rest) = ls ++ split_on lf rest.
Proof.
  induction 1 as [|l ls Hl _ IH]; [reflexivity|].
  unfold file_of. cbn [flat_map]. rewrite <- !app_assoc. cbn [app]. change "010"%char with lf.
  rewrite split_on_app by exact Hl. f_equal. exact IH.
Qed.

Lemma drop_cr_id l : (forall l', l <> l' ++ [cr]) -> drop_cr l = l.
Proof.
  intros H. unfold drop_cr. destruct (rev l) as [|c l'] eqn:E; [reflexivity|].
  destruct (aeqb c cr) eqn:Ec; [|reflexivity]. apply aeqb_eq in Ec. subst c.
  exfalso. apply (H (rev l')). rewrite <- (rev_involutive l), E. reflexivity.
Qed.

Lemma map_drop_cr ls : Forall line_ok ls -> map drop_cr ls = ls.
Proof.
  induction 1 as [|l ls [_ Hl] _ IH]; [reflexivity|]. cbn [map]. rewrite IH, drop_cr_id by exact Hl. reflexivity.
Qed.

Lemma line_ok_nolf ls : Forall line_ok ls -> Forall (fun l => ~ In lf l) ls.
Proof. intros H. eapply Forall_impl; [|exact H]. intros l [Hl _]. exact Hl. Qed.

Lemma scan_lines_file ls : Forall line_ok ls -> scan_lines (file_of ls) = ls.
Proof.
  intros H. unfold scan_lines. pose proof (split_file ls [] (line_ok_nolf _ H)) as E.
  rewrite app_nil_r in E. rewrite E. change (split_on lf []) with [@nil ascii].
  rewrite last_last, removelast_last. apply map_drop_cr. exact H.
Qed.

Lemma file_of_app a b : file_of (a ++ b) = file_of a ++ file_of b.
Proof. apply flat_map_app. Qed.

(** Skipping to the next line from the start of a line. *)
Lemma scan_from_line a l b :
  Forall line_ok (a ++ l :: b) ->
  tl (scan_lines (skipn (Z.to_nat (Z.of_nat (length (file_of a)))) (file_of (a ++ l :: b)))) = b.
Proof.
  intros H. rewrite Nat2Z.id, file_of_app, skipn_app, skipn_all, Nat.sub_diag. cbn [app skipn].
  apply Forall_app in H as [_ H]. rewrite scan_lines_file by exact H. reflexivity.
Qed.

(** Skipping to the next line from the last byte of the previous line. *)
Lemma scan_from_end a b :
  a <> [] -> Forall line_ok (a ++ b) ->
  tl (scan_lines (skipn (Z.to_nat (Z.of_nat (length (file_of a)) - 1)) (file_of (a ++ b)))) = b.
Proof.
  intros Ha H. destruct (exists_last Ha) as (a' & l & ->). rewrite !file_of_app.
  assert (E : file_of [l] = l ++ [lf]) by (unfold file_of; cbn [flat_map]; rewrite app_nil_r; reflexivity).
  rewrite E, app_assoc, !app_length. cbn [length].
  replace (Z.to_nat _) with (length (file_of a' ++ l)) by (rewrite app_length; lia).
  rewrite <- app_assoc, skipn_app, skipn_all, Nat.sub_diag. cbn [app skipn].
  apply Forall_app in H as [_ H].
  change (lf :: file_of b) with (file_of ([] :: b)).
  rewrite scan_lines_file; [reflexivity|]. constructor; [|exact H].
  split; [intros []|]. intros l'. destruct l'; discriminate.
Qed.

(** ** The ring *)

Section Ring.
  Context {A : Type}.
  Variable cap : nat.
  Hypothesis Hcap : 0 < cap.

  Definition ring_ok (ring : list (option A)) (l : list A) : Prop :=
    length ring = cap /\
    forall k m, length l <= k + cap -> nth_error l k = Some m -> nth (k mod cap) ring None = Some m.

  Lemma ring_ok_new : ring_ok (repeat None cap) [].
  Proof. split; [apply repeat_length|]. intros [|k] m _ H; discriminate. Qed.

  Lemma ring_ok_put ring l m : ring_ok ring l -> ring_ok (updnth (length l mod cap) (Some m) ring) (l ++ [m]).
  Proof.
    intros [H1 H2]. split; [rewrite updnth_length; exact H1|]. intros k x Hk Hx.
    rewrite app_length in Hk. simpl in Hk.
    rewrite nth_updnth by (rewrite H1; apply Nat.mod_upper_bound; lia).
    destruct (Nat.eq_dec k (length l)) as [->|Hne].
    - rewrite nth_error_app2, Nat.sub_diag in Hx by lia. injection Hx as ->. rewrite Nat.eqb_refl. reflexivity.
    - assert (k < length l).
      { assert (nth_error (l ++ [m]) k <> None) by congruence. apply nth_error_Some in H.
        rewrite app_length in H. simpl in H. lia. }
      rewrite nth_error_app1 in Hx by lia.
      destruct (Nat.eqb_spec (k mod cap) (length l mod cap)) as [E|_].
      + exfalso. eapply (mod_distinct cap Hcap); [| |exact E]; lia.
      + apply H2; [lia|exact Hx].
  Qed.

  Lemma nth_skipn_ (l : list (option A)) s i : nth i (skipn s l) None = nth (s + i) l None.
  Proof.
    revert l; induction s as [|s IH]; intros l; [reflexivity|]. destruct l as [|x l]; [destruct i; reflexivity|].
    cbn [skipn]. rewrite IH. reflexivity.
  Qed.
  Lemma nth_firstn_ (l : list (option A)) n i : i < n -> nth i (firstn n l) None = nth i l None.
  Proof.
    revert l i; induction n as [|n IH]; intros l i H; [lia|]. destruct l as [|x l]; [destruct i; reflexivity|].
    destruct i as [|i]; [reflexivity|]. cbn [firstn nth]. apply IH. lia.
  Qed.

  Lemma read_ring_spec ring (l : list A) : ring_ok ring l -> read_ring cap ring (length l) = map Some (lastn cap l).
  Proof.
    intros [H1 H2]. unfold read_ring.
    set (n := if length l <? cap then length l else cap).
    assert (Hn : n = min cap (length l)) by (subst n; destruct (Nat.ltb_spec (length l) cap); lia).
    clearbody n.
    assert (Estart : (length l - n + cap) mod cap = (length l - n) mod cap).
    { replace (length l - n + cap) with (length l - n + 1 * cap) by lia. apply Nat.mod_add. lia. }
    rewrite Estart. set (start := (length l - n) mod cap).
    assert (Hs : start < cap) by (apply Nat.mod_upper_bound; lia).
    assert (Hnth : forall i, i < n ->
              nth i (map Some (lastn cap l)) None = nth ((start + i) mod cap) ring None).
    { intros i Hi. unfold start. rewrite Nat.add_mod_idemp_l by lia. symmetry.
      destruct (nth_error l (length l - n + i)) as [m|] eqn:E.
      - rewrite (H2 _ m); [|lia|exact E].
        unfold lastn. symmetry. apply nth_error_nth. rewrite nth_error_map.
        replace (length l - n) with (length l - cap) in E by lia.
         
        assert (nth_error (skipn (length l - cap) l) i = nth_error l (length l - cap + i)) as ->; [|rewrite E; reflexivity].
        generalize (length l - cap) as q. clear. intros q. revert l. induction q as [|q IH]; intros l; [reflexivity|].
        destruct l as [|y l]; [destruct i; reflexivity|]. apply IH.
      - apply nth_error_None in E. lia. }
    assert (Hlen : length (map Some (lastn cap l)) = n) by (rewrite map_length, lastn_length; lia).
    destruct (Nat.leb_spec (start + n) cap) as [Hle|Hgt].
    - apply nth_ext with (d := None) (d' := None).
      + rewrite firstn_length, skipn_length, H1, Hlen. lia.
      + intros i Hi. rewrite firstn_length, skipn_length, H1 in Hi.
        rewrite nth_firstn_, nth_skipn_, Hnth by lia. rewrite Nat.mod_small by lia. reflexivity.
    - apply nth_ext with (d := None) (d' := None).
      + rewrite app_length, firstn_length, skipn_length, H1, Hlen. lia.
      + intros i Hi. rewrite app_length, firstn_length, skipn_length, H1 in Hi.
        rewrite Hnth by lia.
        destruct (Nat.ltb_spec i (cap - start)).
        * rewrite app_nth1 by (rewrite skipn_length; lia). rewrite nth_skipn_, Nat.mod_small by lia. reflexivity.
        * rewrite app_nth2 by (rewrite skipn_length; lia). rewrite skipn_length, H1.
          rewrite nth_firstn_ by lia.
          replace (start + i) with (i - (cap - start) + 1 * cap) by lia.
          rewrite Nat.mod_add, Nat.mod_small by lia. reflexivity.
  Qed.
End Ring.

(** ** One file *)

Section Store.
  Context {M : Type}.
  Variable parse : bytes -> option (option (M * Z)).

  Definition line_messages (d : Z) (ls : list bytes) : list (Z * M) :=
    flat_map (fun l => match parse l with Some (Some (m, tod)) => [((d * 86400000000000 + tod)%Z, m)] | _ => [] end) ls.

  Definition pick (lo hi : Z) (sel : M -> bool) (es : list (Z * M)) : list M :=
    map snd (filter (fun e => Z.ltb lo (fst e) && Z.ltb (fst e) hi && sel (snd e)) es).

  Definition le_time (a b : Z * M) : Prop := (fst a <= fst b)%Z.

  Lemma pick_late lo hi sel es : Forall (fun e => (hi <= fst e)%Z) es -> pick lo hi sel es = [].
  Proof.
    unfold pick. induction 1 as [|e es He _ IH]; [reflexivity|]. cbn [filter].
    destruct (Z.ltb_spec (fst e) hi); [lia|]. rewrite andb_false_r. exact IH.
  Qed.

  Lemma pick_app lo hi sel a b : pick lo hi sel (a ++ b) = pick lo hi sel a ++ pick lo hi sel b.
  Proof. unfold pick. rewrite filter_app, map_app. reflexivity. Qed.

  Lemma scan_before_spec d ref end_ limit sel ls ring l0 :
    0 < limit ->
    Forall (fun l => parse l <> None) ls ->
    StronglySorted le_time (line_messages d ls) ->
    ring_ok limit ring l0 ->
    exists ring', scan_before parse d ref end_ limit sel ls ring (length l0)
       = Some (ring', length (l0 ++ pick end_ ref sel (line_messages d ls)))
      /\ ring_ok limit ring' (l0 ++ pick end_ ref sel (line_messages d ls)).
  Proof.
    intros Hlim. revert ring l0; induction ls as [|l ls IH]; intros ring l0 Hp Hs Hr.
    - exists ring. cbn [scan_before]. unfold line_messages, pick. cbn [flat_map filter map].
      rewrite app_nil_r. split; [reflexivity|exact Hr].
    - inversion Hp as [|? ? Hl Hp']; subst. cbn [scan_before].
      unfold line_messages in Hs |- *. cbn [flat_map] in Hs |- *.
      fold (line_messages d ls) in Hs |- *.
      destruct (parse l) as [[[m tod]|]|]; [| |congruence].
      2:{ cbn [app] in Hs |- *. apply IH; assumption. }
      cbn [app] in Hs |- *. apply StronglySorted_inv in Hs as [Hs1 Hs2].
      unfold day_start. change ns_per_day with 86400000000000%Z. set (t := (d * 86400000000000 + tod)%Z) in *.
      unfold pick at 1 2. cbn [filter fst snd]. fold (pick end_ ref sel (line_messages d ls)).
      destruct (Z.ltb_spec end_ t) as [H1|H1]; cbn [negb andb].
      2:{ apply IH; assumption. }
      destruct (Z.ltb_spec t ref) as [H2|H2]; cbn [negb andb].
      2:{ exists ring. fold (pick end_ ref sel (line_messages d ls)).
          rewrite pick_late, app_nil_r; [split; [reflexivity|exact Hr]|].
          eapply Forall_impl; [|exact Hs2]. intros e He. unfold le_time in He. cbn [fst] in He. lia. }
      destruct (sel m); cbn [negb map snd].
      2:{ apply IH; assumption. }
      fold (pick end_ ref sel (line_messages d ls)).
      specialize (IH (updnth (length l0 mod limit) (Some m) ring) (l0 ++ [m]) Hp' Hs1 (ring_ok_put limit Hlim ring l0 m Hr)).
      rewrite <- app_assoc in IH. cbn [app] in IH.
      replace (length (l0 ++ [m])) with (S (length l0)) in IH by (rewrite app_length; simpl; lia).
      exact IH.
  Qed.

  Lemma scan_after_spec d ref end_ limit sel ls acc :
    Forall (fun l => parse l <> None) ls ->
    StronglySorted le_time (line_messages d ls) ->
    length acc <= limit ->
    scan_after parse d ref end_ limit sel ls acc
      = Some (firstn limit (acc ++ pick ref end_ sel (line_messages d ls))).
  Proof.
    revert acc; induction ls as [|l ls IH]; intros acc Hp Hs Ha.
    - cbn [scan_after]. unfold line_messages, pick. cbn [flat_map filter map].
      rewrite app_nil_r, firstn_all2 by lia. reflexivity.
    - inversion Hp as [|? ? Hl Hp']; subst. cbn [scan_after].
      unfold line_messages in Hs |- *. cbn [flat_map] in Hs |- *.
      fold (line_messages d ls) in Hs |- *.
      destruct (Nat.ltb_spec (length acc) limit) as [Hlt|Hge].
      2:{ rewrite firstn_app. replace (limit - length acc) with 0 by lia. cbn [firstn].
          rewrite app_nil_r, firstn_all2 by lia. reflexivity. }
      destruct (parse l) as [[[m tod]|]|]; [| |congruence].
      2:{ cbn [app] in Hs |- *. apply IH; assumption. }
      cbn [app] in Hs |- *. apply StronglySorted_inv in Hs as [Hs1 Hs2].
      unfold day_start. change ns_per_day with 86400000000000%Z. set (t := (d * 86400000000000 + tod)%Z) in *.
      unfold pick at 1. cbn [filter fst snd]. fold (pick ref end_ sel (line_messages d ls)).
      destruct (Z.ltb_spec ref t) as [H1|H1]; cbn [negb andb].
      2:{ apply IH; assumption. }
      destruct (Z.ltb_spec t end_) as [H2|H2]; cbn [negb andb].
      2:{ fold (pick ref end_ sel (line_messages d ls)).
          rewrite pick_late, app_nil_r, firstn_all2; [reflexivity|lia|].
          eapply Forall_impl; [|exact Hs2]. intros e He. unfold le_time in He. cbn [fst] in He. lia. }
      destruct (sel m); cbn [negb map snd].
      2:{ apply IH; assumption. }
      fold (pick ref end_ sel (line_messages d ls)).
      rewrite IH; [|assumption|assumption|rewrite app_length; simpl; lia].
      rewrite <- app_assoc. reflexivity.
  Qed.

  (** ** Loops over days *)

  Fixpoint down_loop {A} (f : Z -> list A) (fuel : nat) (d : Z) (remaining tries : nat) (acc : list A) : list A :=
    match fuel with
    | O => acc
    | S fuel' =>
        if Nat.ltb 0 remaining && Nat.ltb tries max_tries then
          let buf := lastn remaining (f d) in
          down_loop f fuel' (d - 1)%Z (remaining - length buf) (match buf with [] => S tries | _ => 0 end) (buf ++ acc)
        else acc
    end.

  Lemma lastn_0 {A} (l : list A) : lastn 0 l = [].
  Proof. unfold lastn. rewrite Nat.sub_0_r. apply skipn_all. Qed.

  Lemma lastn_app_ {A} n (a b : list A) : lastn n (a ++ b) = lastn (n - length b) a ++ lastn n b.
  Proof.
    unfold lastn. rewrite app_length, skipn_app. f_equal.
    - destruct (Nat.le_gt_cases (length b) n); [f_equal; lia|].
      rewrite !skipn_all2 by lia. reflexivity.
    - destruct (Nat.le_gt_cases (length b) n); f_equal; lia.
  Qed.

  Lemma lastn_nil_iff {A} n (l : list A) : 0 < n -> lastn n l = [] -> l = [].
  Proof.
    intros Hn H. apply (f_equal (@length A)) in H. rewrite lastn_length in H.
    destruct l; [reflexivity|]. cbn [length] in H. lia.
  Qed.

  Lemma days_snoc n d : days (S n) d = days n d ++ [(d + Z.of_nat n)%Z].
  Proof.
    revert d; induction n as [|n IH]; intros d; [cbn; do 2 f_equal; lia|].
    change (days (S (S n)) d) with (d :: days (S n) (d + 1)%Z). rewrite IH. cbn [days app]. do 3 f_equal. lia.
  Qed.

  Definition gaps_k {A} (f : Z -> list A) (top : Z) (n : nat) (k : nat) : Prop :=
    forall d, (top - Z.of_nat n < d <= top)%Z -> f d <> [] ->
      (top - d + Z.of_nat k < 100)%Z \/ (exists d', d < d' <= top /\ d' - d <= 100 /\ f d' <> [])%Z.

  Lemma gaps_exhausted {A} (f : Z -> list A) top n k :
    100 <= k -> gaps_k f top n k -> flat_map f (days n (top - Z.of_nat n + 1)) = [].
  Proof.
    intros Hk Hg.
    assert (H : forall j, (j < n)%nat -> f (top - Z.of_nat j)%Z = []).
    { intros j. induction j as [j IHj] using lt_wf_ind. intros Hj.
      destruct (f (top - Z.of_nat j)%Z) eqn:E; [reflexivity|]. exfalso.
      destruct (Hg (top - Z.of_nat j)%Z) as [H|(d' & H1 & H2 & H3)]; [lia|congruence|lia|].
      apply H3. replace d' with (top - Z.of_nat (Z.to_nat (top - d')))%Z by lia. apply IHj; lia. }
    clear Hg. revert top H. induction n as [|n IH]; intros top H; [reflexivity|].
    replace (top - Z.of_nat (S n) + 1)%Z with (top - Z.of_nat n)%Z by lia.
    rewrite days_snoc, flat_map_app. cbn [flat_map]. rewrite app_nil_r.
    replace (top - Z.of_nat n + Z.of_nat n)%Z with (top - Z.of_nat 0)%Z by lia. rewrite (H 0) by lia. rewrite app_nil_r.
    replace (top - Z.of_nat n)%Z with (top - 1 - Z.of_nat n + 1)%Z by lia. apply IH.
    intros j Hj. replace (top - 1 - Z.of_nat j)%Z with (top - Z.of_nat (S j))%Z by lia. apply H. lia.
  Qed.

  Lemma down_loop_spec {A} (f : Z -> list A) n top r k acc :
    gaps_k f top n k ->
    down_loop f n top r k acc = lastn r (flat_map f (days n (top - Z.of_nat n + 1))) ++ acc.
  Proof.
    revert top r k acc; induction n as [|n IH]; intros top r k acc Hg.
    - cbn [down_loop days flat_map]. unfold lastn. rewrite skipn_nil. reflexivity.
    - cbn [down_loop].
      destruct (Nat.ltb_spec 0 r) as [Hr|Hr]; cbn [andb].
      2:{ replace r with 0 by lia. rewrite lastn_0. reflexivity. }
      unfold max_tries. destruct (Nat.ltb_spec k 100) as [Hk|Hk].
      2:{ rewrite (gaps_exhausted f top (S n) k Hk Hg). unfold lastn. rewrite skipn_nil. reflexivity. }
      replace (top - Z.of_nat (S n) + 1)%Z with (top - Z.of_nat n)%Z by lia.
      rewrite days_snoc, flat_map_app. cbn [flat_map]. rewrite app_nil_r.
      replace (top - Z.of_nat n + Z.of_nat n)%Z with top by lia.
      rewrite lastn_app_, <- app_assoc, lastn_length.
      rewrite IH.
      { replace (top - 1 - Z.of_nat n + 1)%Z with (top - Z.of_nat n)%Z by lia. f_equal. f_equal. lia. }
      intros d Hd Hf.
      destruct (Hg d ltac:(lia) Hf) as [H|(d' & H1 & H2 & H3)].
      + left. destruct (lastn r (f top)); cbn [length]; lia.
      + destruct (Z.eq_dec d' top) as [->|Hne].
        * left. destruct (lastn r (f top)) eqn:E; [exfalso; apply H3; eapply lastn_nil_iff; [exact Hr|exact E]|]. lia.
        * right. exists d'. repeat split; try lia. exact H3.
  Qed.

  Fixpoint up_loop {A} (f : Z -> list A) (fuel : nat) (d : Z) (remaining tries : nat) (acc : list A) : list A :=
    match fuel with
    | O => acc
    | S fuel' =>
        if Nat.ltb 0 remaining && Nat.ltb tries max_tries then
          let buf := firstn remaining (f d) in
          up_loop f fuel' (d + 1)%Z (remaining - length buf) (match buf with [] => S tries | _ => 0 end) (acc ++ buf)
        else acc
    end.

  Definition gaps_up_k {A} (f : Z -> list A) (bot : Z) (n : nat) (k : nat) : Prop :=
    forall d, (bot <= d < bot + Z.of_nat n)%Z -> f d <> [] ->
      (d - bot + Z.of_nat k < 100)%Z \/ (exists d', bot <= d' < d /\ d - d' <= 100 /\ f d' <> [])%Z.

  Lemma gaps_up_exhausted {A} (f : Z -> list A) bot n k :
    100 <= k -> gaps_up_k f bot n k -> flat_map f (days n bot) = [].
  Proof.
    intros Hk Hg.
    assert (H : forall j, (j < n)%nat -> f (bot + Z.of_nat j)%Z = []).
    { intros j. induction j as [j IHj] using lt_wf_ind. intros Hj.
      destruct (f (bot + Z.of_nat j)%Z) eqn:E; [reflexivity|]. exfalso.
      destruct (Hg (bot + Z.of_nat j)%Z) as [H|(d' & H1 & H2 & H3)]; [lia|congruence|lia|].
      apply H3. replace d' with (bot + Z.of_nat (Z.to_nat (d' - bot)))%Z by lia. apply IHj; lia. }
    clear Hg. revert bot H. induction n as [|n IH]; intros bot H; [reflexivity|].
    cbn [days flat_map]. replace bot with (bot + Z.of_nat 0)%Z at 1 by lia. rewrite (H 0) by lia. cbn [app].
    apply IH. intros j Hj. replace (bot + 1 + Z.of_nat j)%Z with (bot + Z.of_nat (S j))%Z by lia. apply H. lia.
  Qed.

  Lemma up_loop_spec {A} (f : Z -> list A) n bot r k acc :
    gaps_up_k f bot n k ->
    up_loop f n bot r k acc = acc ++ firstn r (flat_map f (days n bot)).
  Proof.
    revert bot r k acc; induction n as [|n IH]; intros bot r k acc Hg.
    - cbn [up_loop days flat_map]. rewrite firstn_nil, app_nil_r. reflexivity.
    - cbn [up_loop].
      destruct (Nat.ltb_spec 0 r) as [Hr|Hr]; cbn [andb].
      2:{ replace r with 0 by lia. cbn [firstn]. rewrite app_nil_r. reflexivity. }
      unfold max_tries. destruct (Nat.ltb_spec k 100) as [Hk|Hk].
      2:{ rewrite (gaps_up_exhausted f bot (S n) k Hk Hg). rewrite firstn_nil, app_nil_r. reflexivity. }
      cbn [days flat_map]. rewrite firstn_app.
      rewrite IH.
      { rewrite <- app_assoc, firstn_length. do 3 f_equal. lia. }
      intros d Hd Hf.
      destruct (Hg d ltac:(lia) Hf) as [H|(d' & H1 & H2 & H3)].
      + left. destruct (firstn r (f bot)); cbn [length]; lia.
      + destruct (Z.eq_dec d' bot) as [->|Hne].
        * left. destruct (firstn r (f bot)) eqn:E.
          { exfalso; apply H3. destruct r; [lia|]. destruct (f bot); [reflexivity|discriminate]. }
          lia.
        * right. exists d'. repeat split; try lia. exact H3.
  Qed.

  (** ** Queries by time *)

  Lemma line_messages_eq lg d : day_messages parse lg d = line_messages d (lg d).
  Proof. reflexivity. Qed.

  Lemma between_pick lg lo hi sel d : in_window parse lg lo hi sel d = pick lo hi sel (day_messages parse lg d).
  Proof. reflexivity. Qed.

  Lemma good_lines lg d : good_log parse lg -> Forall line_ok (lg d) /\ Forall (fun l => parse l <> None) (lg d).
  Proof.
    intros [H _]. split; apply Forall_forall; intros l Hl; apply (H d l Hl).
  Qed.

  Lemma good_times lg d : good_log parse lg ->
    Forall (fun e : Z * M => (d * 86400000000000 <= fst e < (d + 1) * 86400000000000 - 1)%Z) (day_messages parse lg d).
  Proof.
    intros [H _]. apply Forall_forall. intros [t m] Hin. unfold day_messages in Hin.
    apply in_flat_map in Hin as (l & Hl & Hin). destruct (parse l) as [[[m' tod]|]|] eqn:E; [|destruct Hin|destruct Hin].
    destruct Hin as [Hin|[]]. injection Hin as <- <-. destruct (H d l Hl) as (_ & _ & H3).
    destruct (H3 _ _ E) as (s & -> & Hs). cbn [fst]. lia.
  Qed.

  Lemma pick_ext lo hi lo' hi' sel es :
    Forall (fun e : Z * M => (lo < fst e <-> lo' < fst e)%Z /\ (fst e < hi <-> fst e < hi')%Z) es ->
    pick lo hi sel es = pick lo' hi' sel es.
  Proof.
    unfold pick. induction 1 as [|e es [H1 H2] _ IH]; [reflexivity|]. cbn [filter].
    assert (E1 : Z.ltb lo (fst e) = Z.ltb lo' (fst e)).
    { destruct (Z.ltb_spec lo (fst e)), (Z.ltb_spec lo' (fst e)); try reflexivity; exfalso; lia. }
    assert (E2 : Z.ltb (fst e) hi = Z.ltb (fst e) hi').
    { destruct (Z.ltb_spec (fst e) hi), (Z.ltb_spec (fst e) hi'); try reflexivity; exfalso; lia. }
    rewrite E1, E2. destruct (_ && _ && _); cbn [map]; rewrite IH; reflexivity.
  Qed.

  Lemma pick_nil lo hi sel es :
    Forall (fun e : Z * M => (fst e <= lo \/ hi <= fst e)%Z) es -> pick lo hi sel es = [].
  Proof.
    unfold pick. induction 1 as [|e es H _ IH]; [reflexivity|]. cbn [filter].
    destruct (Z.ltb_spec lo (fst e)); cbn [andb]; [|exact IH].
    destruct (Z.ltb_spec (fst e) hi); cbn [andb]; [exfalso; lia|exact IH].
  Qed.

  Lemma parse_before_lines fs ref end_ limit off sel ls content :
    0 < limit ->
    fs (day_of ref) = Some content ->
    (if (0 <=? off)%Z then tl (scan_lines (skipn (Z.to_nat off) content)) else scan_lines content) = ls ->
    Forall (fun l => parse l <> None) ls ->
    StronglySorted le_time (line_messages (day_of ref) ls) ->
    parse_before parse fs ref end_ limit off sel
      = Some (map Some (lastn limit (pick end_ ref sel (line_messages (day_of ref) ls)))).
  Proof.
    intros Hlim Hf Hls Hp Hs. unfold parse_before. rewrite Hf, Hls.
    destruct (scan_before_spec (day_of ref) ref end_ limit sel ls (repeat None limit) [] Hlim Hp Hs (ring_ok_new limit))
      as (ring' & E & Hr).
    cbn [length app] in E, Hr. rewrite E. f_equal. apply read_ring_spec; assumption.
  Qed.

  Lemma parse_before_spec fs lg ref end_ limit sel :
    holds fs lg -> good_log parse lg -> 0 < limit ->
    parse_before parse fs ref end_ limit (-1) sel
      = Some (map Some (lastn limit (pick end_ ref sel (day_messages parse lg (day_of ref))))).
  Proof.
    intros Hh Hg Hlim. specialize (Hh (day_of ref)). destruct (good_lines lg (day_of ref) Hg) as [Hl Hp].
    destruct (fs (day_of ref)) as [c|] eqn:E.
    - eapply parse_before_lines; [exact Hlim|exact E| |exact Hp|apply Hg].
      cbn [Z.leb]. change (0 <=? -1)%Z with false. cbn iota. rewrite Hh. apply scan_lines_file. exact Hl.
    - unfold parse_before. rewrite E. rewrite line_messages_eq, Hh. unfold lastn. reflexivity.
  Qed.

  Lemma day_prev d : day_of (day_start d - 1) = (d - 1)%Z.
  Proof.
    unfold day_of, day_start. change ns_per_day with 86400000000000%Z.
    symmetry. apply Z.div_unique with (r := 86399999999999%Z); lia.
  Qed.
  Lemma day_next d : day_of (day_start d) = d.
  Proof. unfold day_of, day_start. apply Z.div_mul. vm_compute. discriminate. Qed.
  Lemma day_bounds t : (day_of t * 86400000000000 <= t < (day_of t + 1) * 86400000000000)%Z.
  Proof.
    unfold day_of. change ns_per_day with 86400000000000%Z.
    pose proof (Z.div_mod t 86400000000000 ltac:(discriminate)).
    pose proof (Z.mod_pos_bound t 86400000000000 ltac:(reflexivity)). lia.
  Qed.

  Lemma before_loop_down fs lg lo hi sel :
    holds fs lg -> good_log parse lg ->
    forall n s r k acc,
      n = Z.to_nat (day_of s - day_of lo + 1) ->
      (s = hi \/ s = (day_start (day_of s + 1) - 1)%Z /\ (s < hi)%Z) ->
      before_loop parse n fs s lo r k sel (map Some acc)
        = Some (map Some (down_loop (in_window parse lg lo hi sel) n (day_of s) r k acc)).
  Proof.
    intros Hh Hg. induction n as [|n IH]; intros s r k acc Hn Hs; [reflexivity|].
    cbn [before_loop down_loop].
    assert (Ef : in_window parse lg lo hi sel (day_of s) = pick lo s sel (day_messages parse lg (day_of s))).
    { rewrite between_pick. destruct Hs as [->|[Hs1 Hs2]]; [reflexivity|].
      apply pick_ext. eapply Forall_impl; [|exact (good_times lg (day_of s) Hg)].
      intros e He. cbn beta in He. unfold day_start in Hs1. change ns_per_day with 86400000000000%Z in Hs1. lia. }
    destruct (Nat.ltb_spec 0 r) as [Hr|Hr]; cbn [andb]; [|reflexivity].
    destruct (Nat.ltb k max_tries); cbn [andb]; [|reflexivity].
    destruct (Z.ltb_spec lo s) as [Hlo|Hlo].
    - rewrite (parse_before_spec fs lg s lo r sel Hh Hg Hr). rewrite <- Ef.
      set (buf := lastn r (in_window parse lg lo hi sel (day_of s))).
      rewrite map_length, <- map_app.
      replace (match map Some buf with [] => S k | _ => 0 end) with (match buf with [] => S k | _ => 0 end) by (destruct buf; reflexivity).
      rewrite IH.
      + rewrite day_prev. reflexivity.
      + rewrite day_prev. lia.
      + right. rewrite day_prev. replace (day_of s - 1 + 1)%Z with (day_of s) by lia. split; [reflexivity|].
        pose proof (day_bounds s). unfold day_start. change ns_per_day with 86400000000000%Z. destruct Hs as [<-|[_ Hs]]; lia.
    - assert (day_of s <= day_of lo)%Z by (apply Z.div_le_mono; [reflexivity|exact Hlo]).
      replace n with 0 by lia. cbn [down_loop]. rewrite Ef.
      rewrite pick_nil; [unfold lastn; reflexivity|]. apply Forall_forall. intros e _. lia.
  Qed.

  Lemma get_before_spec fs lg lo hi limit sel :
    holds fs lg -> good_log parse lg -> gaps_down (in_window parse lg lo hi sel) (hi / 86400000000000) ->
    get_before_time parse fs hi lo limit sel = Some (map Some (lastn limit (window parse lg lo hi sel))).
  Proof.
    intros Hh Hg Hgap. unfold get_before_time.
    change (@nil (option M)) with (map (@Some M) []).
    rewrite (before_loop_down fs lg lo hi sel Hh Hg _ _ _ _ _ eq_refl (or_introl eq_refl)).
    rewrite down_loop_spec.
    2:{ intros d Hd Hf. destruct (Hgap d) as [H|H]; [apply Hd|exact Hf|left|right; exact H].
        unfold day_of in *. change ns_per_day with 86400000000000%Z in *. lia. }
    rewrite app_nil_r. unfold window. do 4 f_equal.
    unfold day_of. change ns_per_day with 86400000000000%Z.
    set (a := (hi / 86400000000000)%Z). set (b := (lo / 86400000000000)%Z).
    destruct (Z.le_gt_cases 0 (a - b + 1)); [f_equal; lia|].
    replace (Z.to_nat (a - b + 1)) with 0 by lia. reflexivity.
  Qed.

  Lemma parse_after_spec fs lg ref end_ limit sel :
    holds fs lg -> good_log parse lg ->
    parse_after parse fs ref end_ limit sel
      = Some (firstn limit (pick ref end_ sel (day_messages parse lg (day_of ref)))).
  Proof.
    intros Hh Hg. specialize (Hh (day_of ref)). destruct (good_lines lg (day_of ref) Hg) as [Hl Hp].
    unfold parse_after. destruct (fs (day_of ref)) as [c|] eqn:E.
    - rewrite Hh, scan_lines_file by exact Hl.
      rewrite scan_after_spec; [reflexivity|exact Hp|apply Hg|cbn [length]; lia].
    - rewrite line_messages_eq, Hh. rewrite firstn_nil. reflexivity.
  Qed.

  Lemma after_loop_up fs lg lo hi sel :
    holds fs lg -> good_log parse lg ->
    (forall d t m, (day_of lo < d)%Z -> In (t, m) (day_messages parse lg d) -> t <> (d * 86400000000000)%Z) ->
    forall n s r k acc,
      n = Z.to_nat (day_of hi - day_of s + 1) ->
      (s = lo \/ s = day_start (day_of s) /\ (day_of lo < day_of s)%Z) ->
      after_loop parse n fs s hi r k sel acc
        = Some (up_loop (in_window parse lg lo hi sel) n (day_of s) r k acc).
  Proof.
    intros Hh Hg Hmid. induction n as [|n IH]; intros s r k acc Hn Hs; [reflexivity|].
    cbn [after_loop up_loop].
    assert (Ef : in_window parse lg lo hi sel (day_of s) = pick s hi sel (day_messages parse lg (day_of s))).
    { rewrite between_pick. destruct Hs as [->|[Hs1 Hs2]]; [reflexivity|].
      apply pick_ext. pose proof (good_times lg (day_of s) Hg) as Ht. rewrite Forall_forall in Ht |- *.
      intros [t m] He. specialize (Ht _ He). cbn [fst] in Ht |- *. pose proof (Hmid _ _ _ Hs2 He).
      unfold day_start in Hs1. change ns_per_day with 86400000000000%Z in Hs1.
      pose proof (day_bounds lo). lia. }
    destruct (Nat.ltb_spec 0 r) as [Hr|Hr]; cbn [andb]; [|reflexivity].
    destruct (Nat.ltb k max_tries); cbn [andb]; [|reflexivity].
    destruct (Z.ltb_spec s hi) as [Hlo|Hlo].
    - rewrite (parse_after_spec fs lg s hi r sel Hh Hg). rewrite <- Ef.
      rewrite IH.
      + rewrite day_next. reflexivity.
      + rewrite day_next. lia.
      + right. rewrite day_next. split; [reflexivity|]. destruct Hs as [->|[_ Hs]]; lia.
    - assert (day_of hi <= day_of s)%Z by (apply Z.div_le_mono; [reflexivity|exact Hlo]).
      replace n with 0 by lia. cbn [up_loop]. rewrite Ef.
      rewrite pick_nil; [rewrite firstn_nil, app_nil_r; reflexivity|]. apply Forall_forall. intros e _. lia.
  Qed.

  Lemma get_after_spec fs lg lo hi limit sel :
    holds fs lg -> good_log parse lg ->
    (forall d t m, (lo / 86400000000000 < d)%Z -> In (t, m) (day_messages parse lg d) -> t <> (d * 86400000000000)%Z) ->
    gaps_up (in_window parse lg lo hi sel) (lo / 86400000000000) ->
    get_after_time parse fs lo hi limit sel = Some (firstn limit (window parse lg lo hi sel)).
  Proof.
    intros Hh Hg Hmid Hgap. unfold get_after_time.
    rewrite (after_loop_up fs lg lo hi sel Hh Hg Hmid _ _ _ _ _ eq_refl (or_introl eq_refl)).
    rewrite up_loop_spec; [reflexivity|].
    intros d Hd Hf. destruct (Hgap d) as [H|H]; [apply Hd|exact Hf|left|right; exact H].
    unfold day_of in *. change ns_per_day with 86400000000000%Z in *. lia.
  Qed.

  (** ** Histories of appended messages *)

  Notation dns := 86400000000000%Z.
  Definition lines_on (h : list entry) (d : Z) : list bytes :=
    map snd (filter (fun e => Z.eqb (fst e / dns) d) h).

  Lemma lines_on_app a b d : lines_on (a ++ b) d = lines_on a d ++ lines_on b d.
  Proof. unfold lines_on. rewrite filter_app, map_app. reflexivity. Qed.
  Lemma lines_on_one e d : lines_on [e] d = if Z.eqb (fst e / dns) d then [snd e] else [].
  Proof. unfold lines_on. cbn [filter]. destruct (Z.eqb _ _); reflexivity. Qed.

  Lemma run_snoc h e : run (h ++ [e]) = fst (fs_append (run h) (fst e) (snd e)).
  Proof. unfold run. rewrite fold_left_app. reflexivity. Qed.

  Lemma run_holds h : holds (run h) (lines_on h).
  Proof.
    induction h as [|e h IH] using rev_ind; [intros d; reflexivity|].
    intros d. rewrite run_snoc. unfold fs_append. cbn [fst]. unfold day_of. change ns_per_day with dns.
    rewrite lines_on_app, lines_on_one.
    destruct (Z.eqb_spec d (fst e / dns)) as [->|Hne].
    - rewrite Z.eqb_refl. rewrite file_of_app. specialize (IH (fst e / dns)%Z).
      destruct (run h (fst e / dns)%Z) as [c|]; rewrite IH; unfold file_of; cbn [flat_map]; rewrite app_nil_r; reflexivity.
    - destruct (Z.eqb_spec (fst e / dns) d); [congruence|]. rewrite app_nil_r. apply IH.
  Qed.

  (** A recorded time lies on the day of the entry, and order is kept. *)
  Definition stamp (t : Z) : Z := (t / dns * dns + t mod dns / 1000000000 * 1000000000)%Z.

  Lemma stamp_eq t : stamp t = (t / 1000000000 * 1000000000)%Z.
  Proof.
    unfold stamp. pose proof (Z.div_mod t dns ltac:(discriminate)) as E. rewrite E at 3.
    replace (dns * (t / dns) + t mod dns)%Z with (t mod dns + (t / dns * 86400) * 1000000000)%Z by lia.
    rewrite Z.div_add by discriminate. lia.
  Qed.
  Lemma stamp_mono a b : (a <= b)%Z -> (stamp a <= stamp b)%Z.
  Proof.
    intros H. rewrite !stamp_eq. apply Z.mul_le_mono_nonneg_r; [discriminate|]. apply Z.div_le_mono; [reflexivity|exact H].
  Qed.
  Lemma stamp_le t : (stamp t <= t)%Z.
  Proof. rewrite stamp_eq. pose proof (Z.mul_div_le t 1000000000 ltac:(reflexivity)). lia. Qed.
  Lemma stamp_tod t : exists s, (t mod dns / 1000000000 * 1000000000 = s * 1000000000 /\ 0 <= s < 86400)%Z.
  Proof.
    exists (t mod dns / 1000000000)%Z. split; [reflexivity|].
    pose proof (Z.mod_pos_bound t dns ltac:(reflexivity)) as H. split.
    - apply Z.div_pos; [apply H|reflexivity].
    - apply Z.div_lt_upper_bound; [reflexivity|]. generalize dependent (t mod dns)%Z. intros; lia.
  Qed.

  Definition stamped (h : list entry) : list (Z * M) :=
    flat_map (fun e => match parse (snd e) with Some (Some (m, _)) => [(stamp (fst e), m)] | _ => [] end) h.

  Lemma line_messages_stamped h d :
    Forall (entry_ok parse) h ->
    line_messages d (lines_on h d) = stamped (filter (fun e => Z.eqb (fst e / dns) d) h).
  Proof.
    induction 1 as [|e h He _ IH]; [reflexivity|]. unfold lines_on. cbn [filter].
    destruct (Z.eqb_spec (fst e / dns) d) as [E|E]; [|exact IH].
    unfold line_messages, stamped. cbn [map flat_map].
    fold (lines_on h d). fold (line_messages d (lines_on h d)). fold (stamped (filter (fun e => Z.eqb (fst e / dns) d) h)).
    rewrite IH. f_equal. destruct He as (_ & _ & _ & He). destruct (parse (snd e)) as [[[m tod]|]|]; try reflexivity.
    rewrite (He m tod eq_refl). unfold stamp. rewrite E. reflexivity.
  Qed.

  Lemma stamped_sorted h : StronglySorted (fun a b : entry => (fst a <= fst b)%Z) h -> StronglySorted le_time (stamped h).
  Proof.
    induction 1 as [|e h Hs IH Hf]; [constructor|]. unfold stamped. cbn [flat_map]. fold (stamped h).
    destruct (parse (snd e)) as [[[m tod]|]|]; cbn [app]; try exact IH.
    constructor; [exact IH|]. apply Forall_forall. intros [t x] Hin. unfold stamped in Hin.
    apply in_flat_map in Hin as (e' & He' & Hin).
    destruct (parse (snd e')) as [[[m' tod']|]|]; [|destruct Hin|destruct Hin].
    destruct Hin as [Hin|[]]. injection Hin as <- <-. unfold le_time. cbn [fst]. apply stamp_mono.
    rewrite Forall_forall in Hf. apply Hf. exact He'.
  Qed.

  Lemma sorted_filter {A} (R : A -> A -> Prop) p (l : list A) : StronglySorted R l -> StronglySorted R (filter p l).
  Proof.
    induction 1 as [|x l Hs IH Hf]; [constructor|]. cbn [filter]. destruct (p x); [|exact IH].
    constructor; [exact IH|]. apply Forall_forall. intros y Hy. apply filter_In in Hy as [Hy _].
    rewrite Forall_forall in Hf. apply Hf. exact Hy.
  Qed.

  Lemma run_good h now : history_ok parse h now -> good_log parse (lines_on h).
  Proof.
    intros (H1 & H2 & _). split.
    - intros d l Hl. unfold lines_on in Hl. apply in_map_iff in Hl as (e & <- & He). apply filter_In in He as [He _].
      rewrite Forall_forall in H1. destruct (H1 e He) as (_ & Ha & Hb & Hc).
      split; [exact Ha|]. split; [exact Hb|]. intros m tod E. rewrite (Hc _ _ E). apply stamp_tod.
    - intros d. rewrite line_messages_eq, line_messages_stamped by exact H1.
      apply stamped_sorted. apply sorted_filter. exact H2.
  Qed.

  Lemma pick_all es lo hi : Forall (fun e : Z * M => (lo < fst e < hi)%Z) es -> pick lo hi (fun _ => true) es = map snd es.
  Proof.
    unfold pick. induction 1 as [|e es He _ IH]; [reflexivity|]. cbn [filter].
    destruct (Z.ltb_spec lo (fst e)); [|lia]. destruct (Z.ltb_spec (fst e) hi); [|lia]. cbn [andb map]. rewrite IH. reflexivity.
  Qed.

  Lemma stamped_snd h : map snd (stamped h) = messages parse h.
  Proof.
    unfold stamped, messages. induction h as [|e h IH]; [reflexivity|]. cbn [flat_map]. rewrite map_app, IH. f_equal.
    destruct (parse (snd e)) as [[[m tod]|]|]; reflexivity.
  Qed.

  Lemma stamped_bounds h now : history_ok parse h now -> Forall (fun e : Z * M => (0 < fst e < now)%Z) (stamped h).
  Proof.
    intros (H1 & _ & H3). apply Forall_forall. intros [t m] Hin. unfold stamped in Hin.
    apply in_flat_map in Hin as (e & He & Hin).
    destruct (parse (snd e)) as [[[m' tod]|]|]; [|destruct Hin|destruct Hin]. destruct Hin as [Hin|[]]. injection Hin as <- <-.
    rewrite Forall_forall in H1, H3. destruct (H1 e He) as (Ha & _). specialize (H3 e He). cbn [fst].
    pose proof (stamp_le (fst e)). pose proof (stamp_mono dns (fst e) Ha). change (stamp dns) with dns in H0. lia.
  Qed.

  (** The loop of LoadLatestID, when the identifier points just before [h2]. *)
  Lemma latest_loop_down fs now id (f : Z -> list M) :
    (forall t, (t <= now)%Z -> (t = now \/ t = (day_start (day_of t + 1) - 1)%Z) -> (fst id <= day_of t)%Z ->
       forall r, 0 < r ->
       parse_before parse fs t 0 r (if (0 <=? snd id)%Z && Z.eqb (day_of t) (fst id) then snd id else (-1)%Z) (fun _ => true)
         = Some (map Some (lastn r (f (day_of t))))) ->
    forall n t r k acc,
      n = Z.to_nat (day_of t - fst id + 1) -> (t <= now)%Z -> (t = now \/ t = (day_start (day_of t + 1) - 1)%Z) ->
      latest_loop parse n fs t id r k (map Some acc) = Some (map Some (down_loop f n (day_of t) r k acc)).
  Proof.
    intros Hpb. induction n as [|n IH]; intros t r k acc Hn Ht1 Ht2; [reflexivity|].
    cbn [latest_loop down_loop].
    destruct (Nat.ltb_spec 0 r) as [Hr|Hr]; cbn [andb]; [|reflexivity].
    destruct (Nat.ltb k max_tries); cbn [andb]; [|reflexivity].
    destruct (Z.ltb_spec (day_of t) (fst id)) as [H|H]; [lia|]. cbn [negb].
    rewrite (Hpb t Ht1 Ht2 H r Hr).
    set (buf := lastn r (f (day_of t))).
    rewrite map_length, <- map_app.
    replace (match map Some buf with [] => S k | _ => 0 end) with (match buf with [] => S k | _ => 0 end) by (destruct buf; reflexivity).
    rewrite IH.
    - rewrite day_prev. reflexivity.
    - rewrite day_prev. lia.
    - pose proof (day_bounds t). unfold day_start. change ns_per_day with dns. lia.
    - right. rewrite day_prev. f_equal. f_equal. lia.
  Qed.

  Lemma split_by_day (h : list entry) a n :
    StronglySorted (fun x y : entry => (fst x <= fst y)%Z) h ->
    Forall (fun e => (a <= fst e / dns < a + Z.of_nat n)%Z) h ->
    flat_map (fun d => filter (fun e => Z.eqb (fst e / dns) d) h) (days n a) = h.
  Proof.
    revert a h; induction n as [|n IH]; intros a h Hs Hf.
    - destruct h as [|e h]; [reflexivity|]. inversion Hf; subst. lia.
    - cbn [days flat_map].
      assert (Hsplit : filter (fun e : entry => Z.eqb (fst e / dns) a) h ++ filter (fun e => negb (Z.eqb (fst e / dns) a)) h = h).
      { clear IH. induction Hs as [|e h Hs IHs Hall]; [reflexivity|]. inversion Hf as [|? ? He Hf']; subst.
        cbn [filter]. destruct (Z.eqb_spec (fst e / dns) a) as [E|E]; cbn [negb app].
        - f_equal. apply IHs. exact Hf'.
        - assert (Hn : filter (fun e : entry => Z.eqb (fst e / dns) a) h = []).
          { clear IHs Hs Hf. induction Hall as [|e' h H Hall IHa]; [reflexivity|].
            inversion Hf'; subst. cbn [filter]. destruct (Z.eqb_spec (fst e' / dns) a) as [E'|E']; [|apply IHa; assumption].
            exfalso. assert (fst e / dns <= fst e' / dns)%Z by (apply Z.div_le_mono; [reflexivity|exact H]). lia. }
          specialize (IHs Hf'). rewrite Hn in IHs |- *. cbn [app] in IHs |- *. rewrite IHs. reflexivity. }
      etransitivity; [|exact Hsplit]. f_equal.
      etransitivity; [|apply (IH (a + 1)%Z (filter (fun e => negb (Z.eqb (fst e / dns) a)) h))].
      + assert (Hd : forall d, In d (days n (a + 1)) -> (a < d)%Z).
        { clear. intros d. revert a. induction n as [|n IH]; intros a; [intros []|]. cbn [days In].
          intros [H|H]; [lia|]. apply IH in H. lia. }
        revert Hd. generalize (days n (a + 1)). induction l as [|d l IHl]; intros Hd; [reflexivity|].
        cbn [flat_map]. rewrite IHl by (intros; apply Hd; right; assumption). f_equal.
        specialize (Hd d (or_introl eq_refl)). clear - Hd.
        induction h as [|e h IHh]; [reflexivity|]. cbn [filter].
        destruct (Z.eqb_spec (fst e / dns) a) as [E|E]; cbn [negb].
        * destruct (Z.eqb_spec (fst e / dns) d); [lia|]. exact IHh.
        * cbn [filter]. rewrite IHh. reflexivity.
      + apply sorted_filter. exact Hs.
      + apply Forall_forall. intros e He. apply filter_In in He as [He Hne].
        rewrite Forall_forall in Hf. specialize (Hf e He). cbn beta in Hf.
        destruct (Z.eqb_spec (fst e / dns) a); [discriminate|]. lia.
  Qed.

  Lemma messages_app a b : messages parse (a ++ b) = messages parse a ++ messages parse b.
  Proof. apply flat_map_app. Qed.

  Lemma messages_by_day h a n :
    StronglySorted (fun x y : entry => (fst x <= fst y)%Z) h ->
    Forall (fun e => (a <= fst e / dns < a + Z.of_nat n)%Z) h ->
    flat_map (messages_on parse h) (days n a) = messages parse h.
  Proof.
    intros Hs Hf. rewrite <- (split_by_day h a n Hs Hf) at 2.
    generalize (days n a). induction l as [|d l IH]; [reflexivity|].
    cbn [flat_map]. rewrite messages_app, IH. reflexivity.
  Qed.

  Lemma history_app h1 h2 now : history_ok parse (h1 ++ h2) now -> history_ok parse h1 now /\ history_ok parse h2 now.
  Proof.
    intros (H1 & H2 & H3). apply Forall_app in H1 as [H1a H1b], H3 as [H3a H3b].
    assert (StronglySorted (fun x y : entry => (fst x <= fst y)%Z) h1 /\ StronglySorted (fun x y : entry => (fst x <= fst y)%Z) h2) as [Sa Sb].
    { clear - H2. induction h1 as [|e h1 IH]; [split; [constructor|exact H2]|].
      cbn [app] in H2. inversion H2 as [|? ? Hs Hf]; subst. destruct (IH Hs) as [Ha Hb]. split; [|exact Hb].
      constructor; [exact Ha|]. apply Forall_app in Hf. apply Hf. }
    split; (split; [assumption|]; split; assumption).
  Qed.

  (** The general statement: the lines read for each day are those of [h2]. *)
  Lemma latest_spec fs h2 now id limit :
    history_ok parse h2 now ->
    (forall d, (fst id <= d)%Z ->
       match fs d with
       | None => lines_on h2 d = []
       | Some c => (if (0 <=? snd id)%Z && Z.eqb d (fst id)
                    then tl (scan_lines (skipn (Z.to_nat (snd id)) c)) else scan_lines c) = lines_on h2 d
       end) ->
    Forall (fun e => (fst id <= fst e / dns)%Z) h2 ->
    gaps_down (messages_on parse h2) (now / dns) ->
    load_latest parse fs now id limit = Some (map Some (lastn limit (messages parse h2))).
  Proof.
    intros Hh Hfs Hid Hgap. unfold load_latest. change (@nil (option M)) with (map (@Some M) []).
    destruct (run_good h2 now Hh) as [Hg1 Hg2].
    rewrite (latest_loop_down fs now id (messages_on parse h2)); [|clear Hgap|reflexivity|lia|left; reflexivity].
    - rewrite down_loop_spec.
      2:{ intros d Hd Hf. destruct (Hgap d) as [H|H]; [apply Hd|exact Hf|left|right; exact H].
          unfold day_of in *. change ns_per_day with dns in *. lia. }
      rewrite app_nil_r. do 3 f_equal. destruct Hh as (H1 & H2 & H3).
      unfold day_of. change ns_per_day with dns.
      destruct h2 as [|e h2].
      { clear. generalize (days (Z.to_nat (now / dns - fst id + 1)) (now / dns - Z.of_nat (Z.to_nat (now / dns - fst id + 1)) + 1)%Z).
        induction l as [|d l IH]; [reflexivity|exact IH]. }
      assert (fst id <= now / dns)%Z.
      { inversion Hid; subst. inversion H3; subst. assert (fst e / dns <= now / dns)%Z by (apply Z.div_le_mono; lia). lia. }
      apply messages_by_day; [exact H2|]. apply Forall_forall. intros e' He'.
      rewrite Forall_forall in Hid, H3. specialize (Hid e' He'). specialize (H3 e' He'). cbn beta in Hid, H3.
      assert (fst e' / dns <= now / dns)%Z by (apply Z.div_le_mono; lia). lia.
    - intros t Ht1 Ht2 Hd r Hr. specialize (Hfs (day_of t) Hd).
      destruct Hh as (H1 & H2 & H3).
      assert (Hpick : pick 0 t (fun _ => true) (line_messages (day_of t) (lines_on h2 (day_of t))) = messages_on parse h2 (day_of t)).
      { rewrite line_messages_stamped by exact H1. unfold messages_on. rewrite <- stamped_snd. apply pick_all.
        apply Forall_forall. intros [t' m] Hin.
        pose proof (stamped_bounds h2 now (conj H1 (conj H2 H3))) as Hb. rewrite Forall_forall in Hb.
        assert (Hin2 : In (t', m) (stamped h2)).
        { unfold stamped in *. apply in_flat_map in Hin as (e & He & Hin). apply filter_In in He as [He _].
          apply in_flat_map. exists e. split; assumption. }
        specialize (Hb _ Hin2). cbn [fst] in Hb |- *. destruct Ht2 as [->|Ht2]; [exact Hb|].
        unfold stamped in Hin. apply in_flat_map in Hin as (e & He & Hin). apply filter_In in He as [He Hday].
        apply Z.eqb_eq in Hday. destruct (parse (snd e)) as [[[m' tod]|]|]; [|destruct Hin|destruct Hin].
        destruct Hin as [Hin|[]]. injection Hin as <- <-. split; [apply Hb|].
        rewrite Ht2. unfold stamp. rewrite Hday. destruct (stamp_tod (fst e)) as (s & -> & Hs).
        unfold day_start. change ns_per_day with dns. lia. }
      destruct (fs (day_of t)) as [c|] eqn:E.
      + rewrite (parse_before_lines fs t 0 r _ (fun _ => true) (lines_on h2 (day_of t)) c Hr E).
        * rewrite Hpick. reflexivity.
        * destruct ((0 <=? snd id)%Z && (day_of t =? fst id)%Z) eqn:Ec.
          -- apply andb_prop in Ec as [Ec1 Ec2]. rewrite Ec1. exact Hfs.
          -- change (0 <=? -1)%Z with false. exact Hfs.
        * apply Forall_forall. intros l Hl. apply (Hg1 _ _ Hl).
        * apply Hg2.
      + unfold parse_before. rewrite E. rewrite <- Hpick, Hfs. unfold lastn. reflexivity.
  Qed.

  Lemma sorted_before (h1 h2 : list entry) e :
    StronglySorted (fun x y : entry => (fst x <= fst y)%Z) (h1 ++ e :: h2) ->
    Forall (fun x => (fst x <= fst e)%Z) h1 /\ Forall (fun x => (fst e <= fst x)%Z) h2.
  Proof.
    induction h1 as [|x h1 IH]; cbn [app]; intros H; inversion H as [|? ? Hs Hf]; subst.
    - split; [constructor|exact Hf].
    - destruct (IH Hs) as [Ha Hb]. split; [|exact Hb]. constructor; [|exact Ha].
      apply Forall_app in Hf as [_ Hf]. inversion Hf; subst. assumption.
  Qed.

  Lemma lines_on_later h d t : Forall (fun x : entry => (fst x <= t)%Z) h -> (t / dns < d)%Z -> lines_on h d = [].
  Proof.
    intros Hf Hd. unfold lines_on. induction Hf as [|e h He _ IH]; [reflexivity|]. cbn [filter].
    destruct (Z.eqb_spec (fst e / dns) d) as [E|E]; [|exact IH].
    assert (fst e / dns <= t / dns)%Z by (apply Z.div_le_mono; [reflexivity|exact He]). lia.
  Qed.

  Lemma good_lines_on h now d : history_ok parse h now -> Forall line_ok (lines_on h d).
  Proof. intros H. apply (good_lines (lines_on h) d). exact (run_good h now H). Qed.

  Lemma latest_after_append h1 t l h2 now limit :
    history_ok parse (h1 ++ (t, l) :: h2) now ->
    gaps_down (messages_on parse h2) (now / dns) ->
    load_latest parse (run (h1 ++ (t, l) :: h2)) now (snd (fs_append (run h1) t l)) limit
      = Some (map Some (lastn limit (messages parse h2))).
  Proof.
    intros Hh Hgap.
    assert (Hh2 : history_ok parse h2 now).
    { destruct (history_app _ _ _ Hh) as [_ H]. apply (history_app [(t, l)] h2) in H. apply H. }
    destruct (sorted_before h1 h2 (t, l)) as [Hb Ha]; [apply Hh|]. cbn [fst] in Hb, Ha.
    apply latest_spec; [exact Hh2| |cbn [snd fs_append fst]|exact Hgap].
    2:{ eapply Forall_impl; [|exact Ha]. intros e He. apply Z.div_le_mono; [reflexivity|exact He]. }
    cbn [snd fs_append fst]. unfold day_of. change ns_per_day with dns. intros d Hd.
    pose proof (run_holds (h1 ++ (t, l) :: h2) d) as Hr.
    pose proof (good_lines_on _ _ d Hh) as Hok.
    change ((t, l) :: h2) with ([(t, l)] ++ h2) in Hr, Hok. rewrite !lines_on_app, lines_on_one in Hr, Hok. cbn [fst snd] in Hr, Hok.
    change ((t, l) :: h2) with ([(t, l)] ++ h2).
    destruct (run (h1 ++ [(t, l)] ++ h2) d) as [c|].
    - rewrite Hr. destruct (Z.eqb_spec d (t / dns)) as [->|Hne].
      + rewrite Z.eqb_refl in Hok |- *.
        assert (Eo : length (match run h1 (t / dns)%Z with Some c0 => c0 | None => [] end) = length (file_of (lines_on h1 (t / dns)))).
        { pose proof (run_holds h1 (t / dns)%Z) as Hr1. destruct (run h1 (t / dns)%Z); rewrite Hr1; reflexivity. }
        rewrite Eo. destruct (Z.leb_spec 0 (Z.of_nat (length (file_of (lines_on h1 (t / dns)))))); [|lia].
        cbn [andb]. cbn [app] in Hok |- *. apply scan_from_line. exact Hok.
      + rewrite andb_false_r. destruct (Z.eqb_spec (t / dns) d); [congruence|].
        rewrite (lines_on_later h1 d t Hb ltac:(lia)) in Hok |- *. cbn [app] in Hok |- *. apply scan_lines_file. exact Hok.
    - apply app_eq_nil in Hr as [_ Hr]. apply app_eq_nil in Hr as [_ Hr]. exact Hr.
  Qed.

  Lemma latest_from_position h1 t0 h2 now limit :
    history_ok parse (h1 ++ h2) now ->
    Forall (fun e => (fst e <= t0)%Z) h1 -> Forall (fun e => (t0 <= fst e)%Z) h2 ->
    gaps_down (messages_on parse h2) (now / dns) ->
    load_latest parse (run (h1 ++ h2)) now (fs_last_msg_id (run h1) t0) limit
      = Some (map Some (lastn limit (messages parse h2))).
  Proof.
    intros Hh Hb Ha Hgap. destruct (history_app _ _ _ Hh) as [_ Hh2].
    assert (Hfst : fst (fs_last_msg_id (run h1) t0) = (t0 / dns)%Z).
    { unfold fs_last_msg_id, day_of. change ns_per_day with dns. destruct (run h1 (t0 / dns)%Z); reflexivity. }
    apply latest_spec; [exact Hh2| | |exact Hgap].
    2:{ rewrite Hfst. eapply Forall_impl; [|exact Ha]. intros e He. apply Z.div_le_mono; [reflexivity|exact He]. }
    rewrite Hfst. intros d Hd.
    pose proof (run_holds (h1 ++ h2) d) as Hr.
    pose proof (good_lines_on _ _ d Hh) as Hok. rewrite lines_on_app in Hr, Hok.
    destruct (run (h1 ++ h2) d) as [c|].
    2:{ apply app_eq_nil in Hr as [_ Hr]. exact Hr. }
    rewrite Hr. destruct (Z.eqb_spec d (t0 / dns)) as [->|Hne].
    - unfold fs_last_msg_id, day_of. change ns_per_day with dns.
      pose proof (run_holds h1 (t0 / dns)%Z) as Hr1. destruct (run h1 (t0 / dns)%Z) as [c1|]; cbn [snd].
      + rewrite Hr1. rewrite andb_true_r. destruct (lines_on h1 (t0 / dns)) as [|l0 ls] eqn:El.
        * cbn [file_of flat_map length app]. change (Z.of_nat 0 - 1)%Z with (-1)%Z. change (0 <=? -1)%Z with false. cbn iota.
          apply scan_lines_file. exact Hok.
        * assert (0 < length (file_of (l0 :: ls))).
          { unfold file_of. cbn [flat_map]. rewrite !app_length. cbn [length]. lia. }
          destruct (Z.leb_spec 0 (Z.of_nat (length (file_of (l0 :: ls))) - 1)); [|lia].
          apply scan_from_end; [discriminate|exact Hok].
      + rewrite Hr1 in Hok |- *. change (0 <=? -1)%Z with false. cbn [andb app].
        apply scan_lines_file. exact Hok.
    - rewrite andb_false_r. rewrite (lines_on_later h1 d t0 Hb ltac:(lia)) in Hok |- *.
      cbn [app] in Hok |- *. apply scan_lines_file. exact Hok.
  Qed.

  Lemma latest_from_empty h now limit :
    history_ok parse h now ->
    gaps_down (messages_on parse h) (now / dns) ->
    load_latest parse (run h) now (0, 0)%Z limit = Some (map Some (lastn limit (messages parse h))).
  Proof.
    intros Hh Hgap. apply latest_spec; [exact Hh| | |exact Hgap]; cbn [fst snd].
    - intros d Hd. pose proof (run_holds h d) as Hr. pose proof (good_lines_on _ _ d Hh) as Hok.
      destruct (run h d) as [c|] eqn:E; [|exact Hr]. rewrite Hr.
      destruct (Z.eqb_spec d 0) as [->|Hne].
      + assert (El : lines_on h 0 = []).
        { destruct Hh as (H1 & _). unfold lines_on. clear - H1.
          induction H1 as [|e h He _ IH]; [reflexivity|]. cbn [filter]. destruct (Z.eqb_spec (fst e / dns) 0) as [E|E]; [|exact IH].
          destruct He as (He & _). assert (dns / dns <= fst e / dns)%Z by (apply Z.div_le_mono; [reflexivity|exact He]).
          rewrite Z.div_same in H by discriminate. lia. }
        rewrite El. reflexivity.
      + change ((0 <=? 0)%Z && false) with false. apply scan_lines_file. exact Hok.
    - destruct Hh as (H1 & _). eapply Forall_impl; [|exact H1]. intros e (He & _). apply Z.div_pos; [lia|reflexivity].
  Qed.
End Store.

(** ** Conversations *)

Lemma pad_nin w x c : (forall v, (0 <= v < 10)%Z -> digit v <> c) -> ~ In c (pad w x).
Proof.
  intros H. revert x; induction w as [|w IH]; intros x Hin; [destruct Hin|]. cbn [pad] in Hin.
  apply in_app_iff in Hin as [Hin|[Hin|[]]]; [exact (IH _ Hin)|].
  apply (H (x mod 10)%Z); [apply Z.mod_pos_bound; reflexivity|exact Hin].
Qed.

Lemma drop_ctcp_in c s : In c (drop_ctcp s) -> In c s.
Proof.
  induction s as [|x s IH]; [intros []|]. cbn [drop_ctcp]. destruct (aeqb x ctcp_byte); [intros H; right; exact (IH H)|exact (fun H => H)].
Qed.
Lemma trim_ctcp_in c s : In c (trim_ctcp s) -> In c s.
Proof. unfold trim_ctcp. intros H. apply in_rev in H. apply drop_ctcp_in in H. apply in_rev in H. apply drop_ctcp_in. exact H. Qed.
Lemma cut_on_in sep s a b c : cut_on sep s = (a, Some b) -> In c b -> In c s.
Proof.
  revert a; induction s as [|x s IH]; intros a E Hc; [discriminate|]. cbn [cut_on] in E.
  destruct (aeqb x sep); [injection E as _ <-; right; exact Hc|].
  destruct (cut_on sep s) as [a' b'] eqn:E2. injection E as _ ->. right. eapply IH; [reflexivity|exact Hc].
Qed.

Lemma chat_line_nin p target text t c :
  ~ In c (p_name p) -> ~ In c text -> (c = lf \/ c = cr) -> ~ In c (chat_line p target text t).
Proof.
  intros Hn Ht Hc. assert (Hd : forall v, (0 <= v < 10)%Z -> digit v <> c).
  { intros v Hv E. pose proof (TimeFmt.digit_code v Hv) as Ed. rewrite E in Ed.
    destruct Hc as [->| ->]; vm_compute (code _) in Ed; lia. }
  assert (Hl : forall s, In s [B "["; B ":"; B "] "; B "* "; B " "; B "<"; B "> "] -> ~ In c s).
  { intros s Hs Hin. destruct Hc as [->| ->]; cbn in Hs;
      repeat (destruct Hs as [<-|Hs]; [cbn in Hin; repeat (destruct Hin as [Hin|Hin]; [discriminate|]); destruct Hin|]); destruct Hs. }
  unfold chat_line, marshal_line. set (h := (_ / 3600)%Z). set (mi := (_ mod 60)%Z) at 1. set (s := (_ mod 60)%Z).
  assert (Hf : ~ In c (format_log p (B "PRIVMSG") [target; text])).
  { assert (Hplain : ~ In c (B "<" ++ p_name p ++ B "> " ++ text)).
    { intros Hin. apply in_app_iff in Hin as [Hin|Hin]; [revert Hin; apply Hl; cbn; tauto|].
      apply in_app_iff in Hin as [Hin|Hin]; [exact (Hn Hin)|].
      apply in_app_iff in Hin as [Hin|Hin]; [revert Hin; apply Hl; cbn; tauto|exact (Ht Hin)]. }
    unfold format_log. change (to_upper (B "PRIVMSG")) with (B "PRIVMSG").
    repeat (match goal with |- context[beqb (B "PRIVMSG") ?x] => let v := eval vm_compute in (beqb (B "PRIVMSG") x) in change (beqb (B "PRIVMSG") x) with v; cbn iota end).
    change (param 1 [target; text]) with text.
    destruct (parse_ctcp (B "PRIVMSG") [target; text]) as [[c0 ps]|] eqn:E; [|exact Hplain].
    destruct (beqb c0 (B "ACTION")); [|exact Hplain].
    assert (Hps : ~ In c ps).
    { intros Hin. apply Ht. unfold parse_ctcp in E.
      change (beqb (B "PRIVMSG") (B "PRIVMSG") || beqb (B "PRIVMSG") (B "NOTICE")) with true in E. cbn iota in E.
      destruct text as [|x text']; [discriminate|]. destruct (aeqb x ctcp_byte); [|discriminate].
      destruct (cut_on " " (trim_ctcp (x :: text'))) as [w [r|]] eqn:Ec; injection E as _ <-; [|destruct Hin].
      apply trim_ctcp_in. eapply cut_on_in; [exact Ec|exact Hin]. }
    intros Hin. apply in_app_iff in Hin as [Hin|Hin]; [revert Hin; apply Hl; cbn; tauto|].
    apply in_app_iff in Hin as [Hin|Hin]; [exact (Hn Hin)|].
    apply in_app_iff in Hin as [Hin|Hin]; [revert Hin; apply Hl; cbn; tauto|exact (Hps Hin)]. }
  destruct (format_log p (B "PRIVMSG") [target; text]) as [|x l]; [intros []|].
  intros Hin.
  repeat (apply in_app_iff in Hin as [Hin|Hin]; [revert Hin; first [apply pad_nin; exact Hd | apply Hl; cbn; tauto]|]).
  exact (Hf Hin).
Qed.

Lemma chat_entry_ok own entity events c : chat_ok c ->
  entry_ok (fs_parse own entity events) (c_time c, chat_line (c_from c) entity (c_text c) (c_time c)) /\
  exists tod, fs_parse own entity events (chat_line (c_from c) entity (c_text c) (c_time c)) = Some (Some (chat_message own entity c, tod)).
Proof.
  intros (Ht & Hw & Htext & Hnl). inversion Hnl as [|? ? [H1 H2] Hnl']; subst. inversion Hnl' as [|? ? [H3 H4] _]; subst. clear Hnl Hnl'.
  destruct (TimeFmt.clock_fields (c_time c)) as (Hh & Hm & Hs & _ & _).
  assert (E : fs_parse own entity events (chat_line (c_from c) entity (c_text c) (c_time c))
            = Some (Some (chat_message own entity c, (c_time c mod 86400000000000 / 1000000000 * 1000000000)%Z))).
  { unfold fs_parse, chat_line.
    fold (TimeFmt.f_hour (c_time c)) (TimeFmt.f_min (c_time c)) (TimeFmt.f_sec (c_time c)).
    rewrite ZncLog.privmsg_roundtrip; [|split; [exact Hh|split; [exact Hm|exact Hs]]|exact Hw|exact Htext].
    cbv zeta iota beta. do 3 f_equal.
    unfold TimeFmt.f_hour, TimeFmt.f_min, TimeFmt.f_sec. change ns_per_day with 86400000000000%Z.
    generalize (c_time c mod 86400000000000 / 1000000000)%Z. intros q.
    pose proof (Z.div_mod q 60 ltac:(discriminate)) as E1.
    pose proof (Z.div_mod (q / 60) 60 ltac:(discriminate)) as E2.
    rewrite Z.div_div in E2 by (discriminate || reflexivity). change (60 * 60)%Z with 3600%Z in E2.
    clear - E1 E2. generalize dependent (q / 3600)%Z. generalize dependent (q / 60)%Z. intros a E1 b E2.
    generalize dependent (a mod 60)%Z. generalize dependent (q mod 60)%Z. intros. lia. }
  split; [|eexists; exact E].
  split; [exact Ht|]. cbn [fst snd]. split.
  - split; [apply chat_line_nin; [exact H1|exact H2|left; reflexivity]|].
    intros l' El. assert (~ In cr (chat_line (c_from c) entity (c_text c) (c_time c))) as Hcr
      by (apply chat_line_nin; [exact H3|exact H4|right; reflexivity]).
    apply Hcr. rewrite El. apply in_app_iff. right. left. reflexivity.
  - split; [rewrite E; discriminate|]. intros m tod E'. rewrite E in E'. injection E' as _ <-. reflexivity.
Qed.

Definition chat_entry (entity : bytes) (c : chat) : entry := (c_time c, chat_line (c_from c) entity (c_text c) (c_time c)).

Lemma chat_history_ok own entity events cs now :
  Forall chat_ok cs -> StronglySorted (fun a b => (c_time a <= c_time b)%Z) cs -> Forall (fun c => (c_time c < now)%Z) cs ->
  history_ok (fs_parse own entity events) (map (chat_entry entity) cs) now.
Proof.
  intros H1 H2 H3. split; [|split].
  - apply Forall_forall. intros e He. apply in_map_iff in He as (c & <- & Hc). apply chat_entry_ok.
    rewrite Forall_forall in H1. apply H1. exact Hc.
  - clear - H2. induction H2 as [|c cs Hs IH Hf]; [constructor|]. cbn [map]. constructor; [exact IH|].
    apply Forall_forall. intros e He. apply in_map_iff in He as (c' & <- & Hc). rewrite Forall_forall in Hf. apply (Hf c' Hc).
  - apply Forall_forall. intros e He. apply in_map_iff in He as (c' & <- & Hc). rewrite Forall_forall in H3. apply (H3 c' Hc).
Qed.

Lemma chat_messages own entity events cs :
  Forall chat_ok cs -> messages (fs_parse own entity events) (map (chat_entry entity) cs) = map (chat_message own entity) cs.
Proof.
  unfold messages. induction 1 as [|c cs Hc _ IH]; [reflexivity|]. cbn [map flat_map]. rewrite IH.
  destruct (chat_entry_ok own entity events c Hc) as [_ [tod E]]. unfold chat_entry at 1. cbn [snd]. rewrite E. reflexivity.
Qed.

Lemma chat_messages_on own entity events cs d :
  Forall chat_ok cs ->
  messages_on (fs_parse own entity events) (map (chat_entry entity) cs) d
    = map (chat_message own entity) (filter (fun c => Z.eqb (c_time c / 86400000000000) d) cs).
Proof.
  unfold messages_on. induction 1 as [|c cs Hc _ IH]; [reflexivity|]. cbn [map filter].
  unfold chat_entry at 1. cbn [fst]. destruct (Z.eqb (c_time c / 86400000000000) d); [|exact IH].
  unfold messages in *. cbn [flat_map map]. rewrite IH.
  destruct (chat_entry_ok own entity events c Hc) as [_ [tod E]]. unfold chat_entry at 1. cbn [snd]. rewrite E. reflexivity.
Qed.

Lemma chat_gaps own entity events cs top :
  Forall chat_ok cs ->
  gaps_down (fun d => filter (fun c => Z.eqb (c_time c / 86400000000000) d) cs) top ->
  gaps_down (messages_on (fs_parse own entity events) (map (chat_entry entity) cs)) top.
Proof.
  intros Hc Hg d Hd Hf.
  assert (Hiff : forall d, messages_on (fs_parse own entity events) (map (chat_entry entity) cs) d = [] <->
                 filter (fun c => Z.eqb (c_time c / 86400000000000) d) cs = []).
  { intros d0. rewrite chat_messages_on by exact Hc. destruct (filter _ cs); cbn [map]; split; intros H; congruence || discriminate H. }
  destruct (Hg d Hd) as [H|(d' & H1 & H2 & H3)].
  - intros E. apply Hf. apply Hiff. exact E.
  - left. exact H.
  - right. exists d'. split; [exact H1|]. split; [exact H2|]. intros E. apply H3. apply Hiff. exact E.
Qed.

Lemma chat_after_append own entity events cs1 c cs2 now limit :
  Forall chat_ok (cs1 ++ c :: cs2) ->
  StronglySorted (fun a b => (c_time a <= c_time b)%Z) (cs1 ++ c :: cs2) ->
  Forall (fun c => (c_time c < now)%Z) (cs1 ++ c :: cs2) ->
  gaps_down (fun d => filter (fun c => Z.eqb (c_time c / 86400000000000) d) cs2) (now / 86400000000000) ->
  load_latest (fs_parse own entity events) (run (map (chat_entry entity) (cs1 ++ c :: cs2))) now
    (snd (fs_append (run (map (chat_entry entity) cs1)) (c_time c) (chat_line (c_from c) entity (c_text c) (c_time c)))) limit
    = Some (map Some (lastn limit (map (chat_message own entity) cs2))).
Proof.
  intros H1 H2 H3 Hg. pose proof (chat_history_ok own entity events _ _ H1 H2 H3) as Hh.
  apply Forall_app in H1 as [_ H1]. inversion H1; subst.
  rewrite map_app in Hh |- *. cbn [map] in Hh |- *. change (chat_entry entity c) with (c_time c, chat_line (c_from c) entity (c_text c) (c_time c)) in Hh |- *.
  etransitivity; [apply (latest_after_append _ _ _ _ _ now limit Hh)|].
  2:{ rewrite chat_messages by assumption. reflexivity. }
  - apply chat_gaps; assumption.
Qed.

Lemma chat_from_position own entity events cs1 t0 cs2 now limit :
  Forall chat_ok (cs1 ++ cs2) ->
  StronglySorted (fun a b => (c_time a <= c_time b)%Z) (cs1 ++ cs2) ->
  Forall (fun c => (c_time c < now)%Z) (cs1 ++ cs2) ->
  Forall (fun c => (c_time c <= t0)%Z) cs1 -> Forall (fun c => (t0 <= c_time c)%Z) cs2 ->
  gaps_down (fun d => filter (fun c => Z.eqb (c_time c / 86400000000000) d) cs2) (now / 86400000000000) ->
  load_latest (fs_parse own entity events) (run (map (chat_entry entity) (cs1 ++ cs2))) now
    (fs_last_msg_id (run (map (chat_entry entity) cs1)) t0) limit
    = Some (map Some (lastn limit (map (chat_message own entity) cs2))).
Proof.
  intros H1 H2 H3 Ha Hb Hg. pose proof (chat_history_ok own entity events _ _ H1 H2 H3) as Hh.
  apply Forall_app in H1 as [_ H1].
  rewrite map_app in Hh |- *.
  rewrite (latest_from_position _ _ t0 _ now limit Hh).
  - rewrite chat_messages by assumption. reflexivity.
  - apply Forall_forall. intros e He. apply in_map_iff in He as (x & <- & Hx). rewrite Forall_forall in Ha. apply (Ha x Hx).
  - apply Forall_forall. intros e He. apply in_map_iff in He as (x & <- & Hx). rewrite Forall_forall in Hb. apply (Hb x Hx).
  - apply chat_gaps; assumption.
Qed.
