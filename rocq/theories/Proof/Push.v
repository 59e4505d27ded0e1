(** Proofs about push notifications. *)
From Verif.Base Require Import Bytes.
From Verif.Model Require Import Message Push.
From Verif.Spec Require Import Push.
From Coq Require Import ZArith.
Open Scope Z_scope.

Definition key (x : wsub) : N * N * bytes := (u_user x, u_net x, u_end x).

Section Push.
  Variable serial : bool.
  Variable vapid : bytes.
  Variable parse_tags : bytes -> list (bytes * bytes).
  Variable cm : N -> N -> bytes -> bytes.
  Variable time_text : Z -> bytes.
  Notation step := (wstep serial vapid parse_tags cm time_text).
  Notation run := (wrun serial vapid parse_tags cm time_text).
  Notation cmd := (command serial vapid parse_tags).
  Notation reg := (registered parse_tags).
  Notation ask := (asks parse_tags).

  (** ** Tables *)
  Lemma rows_In s u n x : In x (rows s u n) <-> In x (w_subs s) /\ u_user x = u /\ u_net x = n.
  Proof. unfold rows. rewrite filter_In, andb_true_iff, !N.eqb_eq. tauto. Qed.
  Lemma find_some s u n e x : find_sub (rows s u n) e = Some x -> In x (w_subs s) /\ key x = (u, n, e).
  Proof.
    intros H. apply find_some in H as [H1 H2]. apply rows_In in H1 as (H1 & <- & <-). apply beqb_eq in H2. subst e. split; [exact H1|reflexivity].
  Qed.
  Lemma find_none s u n e : find_sub (rows s u n) e = None -> forall x, In x (w_subs s) -> key x <> (u, n, e).
  Proof.
    intros H x I E. unfold key in E. injection E as <- <- <-. pose proof (find_none _ _ H x) as F. cbv beta in F. rewrite beqb_refl in F.
    assert (In x (rows s (u_user x) (u_net x))) by (apply rows_In; auto). specialize (F H0). discriminate.
  Qed.
  Lemma NoDup_inj {A B} (f : A -> B) l : NoDup (map f l) -> forall x y, In x l -> In y l -> f x = f y -> x = y.
  Proof.
    induction l as [|z l IH]; intros N x y Ix Iy E; [destruct Ix|]. cbn [map] in N. inversion N as [|? ? N1 N2]; subst.
    destruct Ix as [->|Ix], Iy as [->|Iy]; auto; exfalso; apply N1; [rewrite E|rewrite <- E]; apply in_map; assumption.
  Qed.
  Lemma NoDup_map_filter {A B} (f : A -> B) g l : NoDup (map f l) -> NoDup (map f (filter g l)).
  Proof.
    induction l as [|z l IH]; intros N; [constructor|]. cbn [map filter] in *. inversion N as [|? ? N1 N2]; subst.
    destruct (g z); [|apply IH, N2]. cbn [map]. constructor; [|apply IH, N2]. intros I. apply N1. apply in_map_iff in I as (w & E & I).
    apply filter_In in I as [I _]. rewrite <- E. apply in_map, I.
  Qed.

  (** ** What commands do *)
  Definition silent (o : list wout) : Prop := forall x, In x o -> match x with OStart _ _ _ _ | OList _ _ _ | ORequest _ _ _ _ _ _ _ => False | _ => True end.
  Inductive done (s : wst) (u n : N) (ps : list bytes) (now : Z) : wst -> bool -> Prop :=
  | done_none : done s u n ps now s false
  | done_fresh e text r a p x : ps = B "REGISTER" :: e :: text :: r -> keys_of parse_tags text = Some (a, p) ->
      find_sub (rows s u n) e = Some x -> u_auth x = a -> u_p256 x = p -> now - u_at x <= check_delay -> done s u n ps now s true
  | done_insert e text r a p : ps = B "REGISTER" :: e :: text :: r -> keys_of parse_tags text = Some (a, p) ->
      (length (rows s u n) <= 25)%nat -> find_sub (rows s u n) e = None -> done s u n ps now (insert_row serial vapid s u n e a p now) true
  | done_update e text r a p x : ps = B "REGISTER" :: e :: text :: r -> keys_of parse_tags text = Some (a, p) ->
      find_sub (rows s u n) e = Some x -> done s u n ps now (update_row vapid s (u_id x) a p now) true
  | done_delete e r x : ps = B "UNREGISTER" :: e :: r -> find_sub (rows s u n) e = Some x -> done s u n ps now (delete_row s (u_id x)) true
  | done_absent e r : ps = B "UNREGISTER" :: e :: r -> find_sub (rows s u n) e = None -> done s u n ps now s true.

  Lemma command_done s u n cap ps now check test :
    done s u n ps now (fst (cmd s u n cap ps now check test)) (granted (snd (cmd s u n cap ps now check test))) /\
    silent (snd (cmd s u n cap ps now check test)).
  Proof.
    assert (No : forall m, m_command m <> B "WEBPUSH" ->
      done s u n ps now (fst (s, [OReply u n m])) (granted (snd (s, [OReply u n m]))) /\ silent (snd (s, [OReply u n m]))).
    { intros m H. split; [|intros x [<-|[]]; exact I]. unfold granted. cbn [fst snd existsb].
      apply (proj2 (beqb_neq _ _)) in H. rewrite H. constructor. }
    unfold command. destruct cap; cbn [negb]; [|apply No; discriminate].
    destruct ps as [|sub r]; [apply No; discriminate|].
    destruct (beqb sub (B "REGISTER")) eqn:E1.
    { apply beqb_eq in E1. subst sub. destruct r as [|e [|text r]]; try (apply No; discriminate).
      unfold register_sub. destruct (tag (parse_tags text) (B "auth")) as [a|] eqn:Ta; [|apply No; discriminate].
      destruct (tag (parse_tags text) (B "p256dh")) as [p|] eqn:Tp; [|apply No; discriminate].
      assert (K : keys_of parse_tags text = Some (a, p)) by (unfold keys_of; rewrite Ta, Tp; reflexivity).
      cbv zeta. destruct (25 <? length (rows s u n))%nat eqn:Le; [apply No; discriminate|]. apply Nat.ltb_ge in Le.
      set (old := find_sub (rows s u n) e) in *.
      destruct (match old with None => true | Some o => _ end) eqn:Up.
      - destruct check; cbn [negb]; [|apply No; discriminate]. destruct test.
        + split; [|intros x [<-|[<-|[]]]; exact I]. cbn [fst snd].
          change (granted [OTest e a p; OReply u n (msg (B "WEBPUSH") [B "REGISTER"; e])]) with true.
          destruct old as [o|] eqn:Eo.
          * apply (done_update s u n _ now e text r a p o); auto.
          * apply (done_insert s u n _ now e text r a p); auto.
        + split; [apply done_none|intros x [<-|[<-|[]]]; exact I].
        + split; [apply done_none|intros x [<-|[<-|[]]]; exact I].
      - split; [|intros x [<-|[]]; exact I]. cbn [fst snd]. change (granted [OReply u n (msg (B "WEBPUSH") [B "REGISTER"; e])]) with true.
        destruct old as [o|] eqn:Eo; [|discriminate Up]. apply orb_false_iff in Up as [U1 U2]. apply negb_false_iff in U2.
        apply andb_true_iff in U2 as [U2 _]. apply andb_true_iff in U2 as [U2 U3]. apply beqb_eq in U2, U3. apply Z.ltb_ge in U1.
        apply (done_fresh s u n _ now e text r a p o); auto. }
    destruct (beqb sub (B "UNREGISTER")) eqn:E2; [|apply No; discriminate].
    apply beqb_eq in E2. subst sub. destruct r as [|e r]; [apply No; discriminate|]. unfold unregister_sub. cbn [fst snd].
    split; [|intros x [<-|[]]; exact I]. change (granted [OReply u n (msg (B "WEBPUSH") [B "UNREGISTER"; e])]) with true.
    destruct (find_sub (rows s u n) e) as [o|] eqn:F; [apply (done_delete s u n _ now e r o)|apply (done_absent s u n _ now e r)]; auto.
  Qed.
  Lemma command_jobs s u n cap ps now check test : w_jobs (fst (cmd s u n cap ps now check test)) = w_jobs s /\ w_next (fst (cmd s u n cap ps now check test)) = w_next s.
  Proof.
    destruct (command_done s u n cap ps now check test) as [D _]. destruct D; split; reflexivity.
  Qed.

  (** ** Registrations *)
  Lemma reg_snoc t p u n e : reg (t ++ [p]) u n e = match ask u n e p with Subscribe k _ => Some k | Unsubscribe => None | Nothing => reg t u n e end.
  Proof. unfold registered. rewrite fold_left_app. reflexivity. Qed.

  (** What the answer to a command means for every endpoint. *)
  Lemma asks_command s u n ps now cap check test s' o g : done s u n ps now s' g -> g = granted o ->
    forall u1 n1 e1, ask u1 n1 e1 (WCommand u n cap ps now check test, o) =
      if g then match ps with
                | sub :: e :: r => if N.eqb u1 u && N.eqb n1 n && beqb e1 e then
                    (if beqb sub (B "REGISTER") then match r with text :: _ => match keys_of parse_tags text with Some k => Subscribe k now | None => Nothing end | [] => Nothing end
                     else if beqb sub (B "UNREGISTER") then Unsubscribe else Nothing) else Nothing
                | _ => Nothing
                end
      else Nothing.
  Proof.
    intros D -> u1 n1 e1. unfold asks. cbn [fst snd]. destruct ps as [|sub [|e r]]; try (destruct (granted o); reflexivity).
    destruct (granted o); [rewrite andb_true_r; reflexivity|rewrite andb_false_r; reflexivity].
  Qed.

  Definition fresh_ids (s : wst) : Prop := Forall (fun x => (u_id x <= w_last s)%N) (w_subs s).
  Lemma next_fresh s x : fresh_ids s -> In x (w_subs s) -> (u_id x < next_row serial s)%N.
  Proof.
    intros F I. unfold next_row. destruct serial.
    - unfold fresh_ids in F. rewrite Forall_forall in F. specialize (F x I). lia.
    - apply N.lt_succ_r. clear F. induction (w_subs s) as [|y l IH]; [destruct I|]. cbn [fold_right]. destruct I as [->|I]; [lia|]. specialize (IH I). lia.
  Qed.

  Record tables (s : wst) (t : trace) : Prop := Tables {
    T_id : NoDup (map u_id (w_subs s));
    T_key : NoDup (map key (w_subs s));
    T_last : fresh_ids s;
    T_vapid : Forall (fun x => u_vapid x = vapid) (w_subs s);
    T_reg : Forall (fun x => reg t (u_user x) (u_net x) (u_end x) = Some (u_auth x, u_p256 x)) (w_subs s) }.

  (** Rows are removed, and nothing is asked for those that stay. *)
  Lemma tables_less s s' t p g : tables s t -> w_subs s' = filter g (w_subs s) -> w_last s' = w_last s ->
    (forall x, In x (w_subs s) -> g x = true -> ask (u_user x) (u_net x) (u_end x) p = Nothing) -> tables s' (t ++ [p]).
  Proof.
    intros [T1 T2 T3 T4 T5] E L N. unfold fresh_ids in T3. split; rewrite ?E.
    - apply NoDup_map_filter, T1.
    - apply NoDup_map_filter, T2.
    - unfold fresh_ids. rewrite E, L. apply Forall_forall. intros x I. apply filter_In in I as [I _]. rewrite Forall_forall in T3. apply T3, I.
    - apply Forall_forall. intros x I. apply filter_In in I as [I _]. rewrite Forall_forall in T4. apply T4, I.
    - apply Forall_forall. intros x I. apply filter_In in I as [I G]. rewrite reg_snoc, (N x I G). rewrite Forall_forall in T5. apply T5, I.
  Qed.
  Lemma tables_same s s' t p : tables s t -> w_subs s' = w_subs s -> w_last s' = w_last s -> (forall u n e, ask u n e p = Nothing) -> tables s' (t ++ [p]).
  Proof.
    intros T E L N. apply (tables_less s s' t p (fun _ => true) T); [|exact L|auto]. rewrite E. symmetry. clear. induction (w_subs s) as [|x l IH]; [reflexivity|].
    cbn [filter]. f_equal. exact IH.
  Qed.

  Lemma key_eqb u n e x : N.eqb (u_user x) u && N.eqb (u_net x) n && beqb (u_end x) e = true <-> key x = (u, n, e).
  Proof.
    rewrite !andb_true_iff, !N.eqb_eq, beqb_eq. unfold key. split; [intros [[<- <-] <-]; reflexivity|]. intros H. injection H as <- <- <-. auto.
  Qed.

  Lemma tables_command s t u n cap ps now check test : tables s t ->
    tables (fst (cmd s u n cap ps now check test)) (t ++ [(WCommand u n cap ps now check test, snd (cmd s u n cap ps now check test))]).
  Proof.
    intros T. destruct (command_done s u n cap ps now check test) as [D _].
    destruct (cmd s u n cap ps now check test) as [s' o]. cbn [fst snd] in *.
    pose proof (asks_command s u n ps now cap check test s' o (granted o) D eq_refl) as A.
    destruct D as [|e text r a p x Eps K F Ka Kp Fr|e text r a p Eps K Le F|e text r a p x Eps K F|e r x Eps F|e r Eps F]; try subst ps.
    - apply (tables_same s); auto.
    - (* nothing changes, and the row has these keys *)
      change (beqb (B "REGISTER") (B "REGISTER")) with true in A. cbv iota in A. rewrite K in A. apply find_some in F as [I E].
      destruct T as [T1 T2 T3 T4 T5]. split; auto. apply Forall_forall. intros y Iy. rewrite reg_snoc, A.
      destruct (N.eqb (u_user y) u && N.eqb (u_net y) n && beqb (u_end y) e) eqn:Ey.
      + apply key_eqb in Ey. assert (y = x) by (apply (NoDup_inj key _ T2); auto; congruence). subst y. rewrite Ka, Kp. reflexivity.
      + rewrite Forall_forall in T5. apply T5, Iy.
    - change (beqb (B "REGISTER") (B "REGISTER")) with true in A. cbv iota in A. rewrite K in A. pose proof (find_none _ _ _ _ F) as Nk.
      destruct T as [T1 T2 T3 T4 T5]. unfold insert_row. set (y := WSub _ _ _ _ _ _ _ _). split; cbn [with_subs w_subs w_last].
      + rewrite map_app. cbn [map]. apply (Permutation_NoDup (Permutation_cons_append _ _)). constructor; [|exact T1].
        intros I. apply in_map_iff in I as (x & E & I). pose proof (next_fresh s x T3 I). cbn [y u_id] in E. lia.
      + rewrite map_app. cbn [map]. apply (Permutation_NoDup (Permutation_cons_append _ _)). constructor; [|exact T2].
        intros I. apply in_map_iff in I as (x & E & I). apply (Nk x I). rewrite E. reflexivity.
      + unfold fresh_ids. cbn [with_subs w_subs w_last]. apply Forall_app. split; [|constructor; [cbn [y u_id]; lia|constructor]].
        eapply Forall_impl; [|exact T3]. cbv beta. intros x H. lia.
      + apply Forall_app. split; [exact T4|]. constructor; [reflexivity|constructor].
      + apply Forall_forall. intros x I. rewrite reg_snoc, A. apply in_app_iff in I as [I|[<-|[]]].
        * destruct (N.eqb (u_user x) u && N.eqb (u_net x) n && beqb (u_end x) e) eqn:Ey.
          -- apply key_eqb in Ey. destruct (Nk x I Ey).
          -- rewrite Forall_forall in T5. apply T5, I.
        * cbn [y u_user u_net u_end u_auth u_p256]. rewrite !N.eqb_refl, beqb_refl. reflexivity.
    - change (beqb (B "REGISTER") (B "REGISTER")) with true in A. cbv iota in A. rewrite K in A. apply find_some in F as [I E].
      destruct T as [T1 T2 T3 T4 T5]. unfold update_row. set (f := fun x0 : wsub => _).
      assert (Fi : forall z, u_id (f z) = u_id z) by (intros z; unfold f; destruct (N.eqb (u_id z) (u_id x)); reflexivity).
      assert (Fk : forall z, key (f z) = key z) by (intros z; unfold f; destruct (N.eqb (u_id z) (u_id x)); reflexivity).
      split; cbn [with_subs w_subs w_last].
      + rewrite map_map. rewrite (map_ext _ _ Fi). exact T1.
      + rewrite map_map. rewrite (map_ext _ _ Fk). exact T2.
      + unfold fresh_ids. cbn [with_subs w_subs w_last]. apply Forall_map. eapply Forall_impl; [|exact T3]. cbv beta. intros z H. rewrite Fi. exact H.
      + apply Forall_map. eapply Forall_impl; [|exact T4]. cbv beta. intros z H. unfold f. destruct (N.eqb (u_id z) (u_id x)); [reflexivity|exact H].
      + apply Forall_forall. intros z Iz. apply in_map_iff in Iz as (w & <- & Iw). rewrite reg_snoc, A.
        destruct (N.eqb (u_user (f w)) u && N.eqb (u_net (f w)) n && beqb (u_end (f w)) e) eqn:Ey.
        * apply key_eqb in Ey. rewrite Fk in Ey. assert (w = x) by (apply (NoDup_inj key _ T2); auto; congruence). subst w.
          unfold f. rewrite N.eqb_refl. reflexivity.
        * unfold f in *. destruct (N.eqb (u_id w) (u_id x)) eqn:Ei.
          -- apply N.eqb_eq in Ei. assert (w = x) by (apply (NoDup_inj u_id _ T1); auto). subst w. cbn [u_user u_net u_end] in Ey.
             assert (Ey' := proj2 (key_eqb u n e x) E). congruence.
          -- rewrite Forall_forall in T5. apply T5, Iw.
    - change (beqb (B "UNREGISTER") (B "REGISTER")) with false in A. change (beqb (B "UNREGISTER") (B "UNREGISTER")) with true in A. cbv iota in A.
      apply find_some in F as [I E]. apply (tables_less s _ t _ (fun y => negb (N.eqb (u_id y) (u_id x))) T); [reflexivity|reflexivity|].
      intros y Iy Hy. rewrite A. destruct (N.eqb (u_user y) u && N.eqb (u_net y) n && beqb (u_end y) e) eqn:Ey; [|reflexivity].
      apply key_eqb in Ey. assert (y = x) by (apply (NoDup_inj key _ (T_key _ _ T)); auto; congruence). subst y. rewrite N.eqb_refl in Hy. discriminate.
    - change (beqb (B "UNREGISTER") (B "REGISTER")) with false in A. change (beqb (B "UNREGISTER") (B "UNREGISTER")) with true in A. cbv iota in A.
      pose proof (find_none _ _ _ _ F) as Nk. apply (tables_less s _ t _ (fun y => true) T).
      { clear. induction (w_subs s) as [|x l IH]; [reflexivity|]. cbn [filter]. rewrite <- IH. reflexivity. } { reflexivity. }
      intros y Iy _. rewrite A. destruct (N.eqb (u_user y) u && N.eqb (u_net y) n && beqb (u_end y) e) eqn:Ey; [|reflexivity].
      apply key_eqb in Ey. destruct (Nk y Iy Ey).
  Qed.

  (** ** Jobs *)
  Definition started (j : job) (t1 : trace) (p : wev * list wout) : Prop := In (OStart (j_id j) (j_user j) (j_net j) (j_msg j)) (snd p).
  Definition justified (j : job) (t : trace) : Prop :=
    exists t1 p t2, t = t1 ++ p :: t2 /\ started j t1 p /\
      forall l x, j_todo j = Some l -> In x l ->
        u_user x = j_user j /\ u_net x = j_net j /\ u_vapid x = vapid /\
        exists ta tb, t2 = ta ++ tb /\ reg (t1 ++ p :: ta) (u_user x) (u_net x) (u_end x) = Some (u_auth x, u_p256 x).
  Record good (s : wst) (t : trace) : Prop := Good {
    G_tables : tables s t;
    G_ids : NoDup (map j_id (w_jobs s));
    G_next : Forall (fun j => (j_id j < w_next s)%N) (w_jobs s);
    G_jobs : Forall (fun j => justified j t) (w_jobs s) }.

  Lemma justified_snoc j t p : justified j t -> justified j (t ++ [p]).
  Proof.
    intros (t1 & q & t2 & -> & S & H). exists t1, q, (t2 ++ [p]). split; [rewrite <- app_assoc; reflexivity|]. split; [exact S|].
    intros l x L I. destruct (H l x L I) as (H1 & H2 & H3 & ta & tb & -> & R). repeat (split; [assumption|]). exists ta, (tb ++ [p]).
    split; [rewrite <- app_assoc; reflexivity|exact R].
  Qed.
  Lemma good_same s s' t p : good s t -> tables s' (t ++ [p]) -> w_jobs s' = w_jobs s -> w_next s' = w_next s -> good s' (t ++ [p]).
  Proof.
    intros [G1 G2 G3 G4] T E1 E2. split; rewrite ?E1, ?E2; auto. eapply Forall_impl; [|exact G4]. intros j. apply justified_snoc.
  Qed.
  Lemma good_broadcast s s1 t p u n m k : good s t -> tables s1 (t ++ [p]) ->
    w_jobs s1 = w_jobs s ++ [Job (w_next s) u n m None] -> w_next s1 = N.succ (w_next s) -> k = w_next s -> In (OStart k u n m) (snd p) -> good s1 (t ++ [p]).
  Proof.
    intros [G1 G2 G3 G4] T E1 E2 -> I. split; rewrite ?E1, ?E2; auto.
    - rewrite map_app. cbn [map j_id]. apply (Permutation_NoDup (Permutation_cons_append _ _)). constructor; [|exact G2].
      intros H. apply in_map_iff in H as (j & E & Ij). rewrite Forall_forall in G3. specialize (G3 j Ij). lia.
    - apply Forall_app. split; [eapply Forall_impl; [|exact G3]; cbv beta; intros; lia|]. constructor; [cbn [j_id]; lia|constructor].
    - apply Forall_app. split; [eapply Forall_impl; [|exact G4]; intros j; apply justified_snoc|]. constructor; [|constructor].
      exists t, p, []. split; [reflexivity|]. split; [exact I|]. intros l x H. discriminate H.
  Qed.

  Lemma find_job_some s k j : find_job s k = Some j -> In j (w_jobs s) /\ j_id j = k.
  Proof. intros H. apply List.find_some in H as [H1 H2]. apply N.eqb_eq in H2. auto. Qed.

  Lemma good_set s t p k j todo s' : good s t -> find_job s k = Some j -> tables s' (t ++ [p]) ->
    w_jobs s' = set_job s k todo -> w_next s' = w_next s ->
    (forall x, In x todo -> (exists l, j_todo j = Some l /\ In x l) \/
       (In x (w_subs s) /\ u_user x = j_user j /\ u_net x = j_net j)) -> good s' (t ++ [p]).
  Proof.
    intros [G1 G2 G3 G4] F T E1 E2 H. apply find_job_some in F as [Ij Ik].
    set (f := fun j0 => if N.eqb (j_id j0) k then Job (j_id j0) (j_user j0) (j_net j0) (j_msg j0) (Some todo) else j0).
    assert (Fi : forall z, j_id (f z) = j_id z) by (intros z; unfold f; destruct (N.eqb (j_id z) k); reflexivity).
    assert (E3 : w_jobs s' = map f (w_jobs s)) by exact E1. split; rewrite ?E3, ?E2; auto.
    - rewrite map_map, (map_ext _ _ Fi). exact G2.
    - apply Forall_map. eapply Forall_impl; [|exact G3]. cbv beta. intros z Hz. rewrite Fi. exact Hz.
    - apply Forall_map. apply Forall_forall. intros z Iz. rewrite Forall_forall in G4. unfold f. destruct (N.eqb (j_id z) k) eqn:Ez.
      + apply N.eqb_eq in Ez. assert (z = j) by (apply (NoDup_inj j_id _ G2); auto; congruence). subst z.
        destruct (G4 j Ij) as (t1 & q & t2 & Et & S & Hj). exists t1, q, (t2 ++ [p]). split; [rewrite Et, <- app_assoc; reflexivity|]. split; [exact S|].
        cbn [j_todo j_user j_net]. intros l x L I. injection L as <-. destruct (H x I) as [(l & L & Il)|(Ix & Hu & Hn)].
        * destruct (Hj l x L Il) as (H1 & H2 & H3 & ta & tb & -> & R). repeat (split; [assumption|]). exists ta, (tb ++ [p]).
          split; [rewrite <- app_assoc; reflexivity|exact R].
        * split; [exact Hu|]. split; [exact Hn|]. split; [pose proof (T_vapid _ _ G1) as V; rewrite Forall_forall in V; apply V, Ix|].
          exists t2, [p]. split; [reflexivity|]. rewrite <- Et. pose proof (T_reg _ _ G1) as R. rewrite Forall_forall in R. apply R, Ix.
      + apply justified_snoc, G4, Iz.
  Qed.

  Lemma good_text s t u n m self direct hl ch b tm : good s t ->
    good (fst (on_text cm s u n m self direct hl ch b tm)) (t ++ [(WText u n m self direct hl ch b tm, snd (on_text cm s u n m self direct hl ch b tm))]).
  Proof.
    intros G. unfold on_text. cbv zeta. destruct (_ && _); [|apply (good_same s); auto; apply (tables_same s); auto; apply G].
    cbn [broadcast fst snd]. destruct tm as [z|].
    - apply (good_broadcast s _ t _ u n m (w_next s) G); auto; [|left; reflexivity]. apply (tables_same s); auto. apply G.
    - apply (good_broadcast s _ t _ u n m (w_next s) G); auto; [|left; reflexivity]. apply (tables_same s); auto. apply G.
  Qed.
  Lemma good_step s t e : good s t -> good (fst (step s e)) (t ++ [(e, snd (step s e))]).
  Proof.
    intros G. pose proof (G_tables _ _ G) as T.
    assert (Keep : (forall u n x, ask u n x (e, []) = Nothing) -> good s (t ++ [(e, [])])).
    { intros A. apply (good_same s); auto. apply (tables_same s); auto. }
    destruct e as [u n cap ps now check test|u n m self direct hl ch b tm|u n m ours joined saved|u n target ts now|u n target|u n|u n|k|k now r]; cbn [wstep].
    - destruct (command_jobs s u n cap ps now check test) as [J1 J2]. apply (good_same s); auto. apply tables_command, T.
    - apply good_text, G.
    - unfold on_invite. destruct (_ && _); [|apply Keep; reflexivity]. cbn [broadcast fst snd].
      apply (good_broadcast s _ t _ u n m (w_next s) G); auto; [|left; reflexivity]. apply (tables_same s); auto.
    - unfold on_mark. cbv zeta. destruct (_ <? _); [|apply Keep; reflexivity]. destruct (tget _ _ _ _) as [z|].
      + destruct (_ <? z); cbn [broadcast fst snd].
        * eapply (good_broadcast s _ t _ u n _ (w_next s) G); [|reflexivity|reflexivity|reflexivity|left; reflexivity]. apply (tables_same s); auto.
        * eapply (good_broadcast s _ t _ u n _ (w_next s) G); [|reflexivity|reflexivity|reflexivity|left; reflexivity]. apply (tables_same s); auto.
      + cbn [fst snd]. apply (good_same s); auto. apply (tables_same s); auto.
    - cbn [fst snd]. apply (good_same s); auto. apply (tables_same s); auto.
    - cbn [fst snd]. apply (good_same s); auto. apply (tables_same s); auto.
    - cbn [fst snd]. apply (good_same s); auto. eapply (tables_less s); [exact T|reflexivity|reflexivity|].
      intros x I H. unfold asks. cbn [fst snd]. apply negb_true_iff in H. rewrite (N.eqb_sym (u_user x)), (N.eqb_sym (u_net x)) in H. rewrite (N.eqb_sym (u_user x)), (N.eqb_sym (u_net x)).
      rewrite (N.eqb_sym u), (N.eqb_sym n) in *. rewrite H. reflexivity.
    - destruct (find_job s k) as [[k' u n m [todo|]]|] eqn:F; try (apply Keep; reflexivity). cbn [fst snd].
      apply (good_set s t _ k _ (rows s u n) _ G F); [apply (tables_same s); auto|reflexivity|reflexivity|].
      intros x I. right. apply rows_In, I.
    - unfold on_send. destruct (find_job s k) as [[k' u n m [[|x todo]|]]|] eqn:F; try (apply Keep; reflexivity).
      + cbn [fst snd]. destruct G as [G1 G2 G3 G4]. split; cbn [with_jobs w_jobs w_next].
        * apply (tables_same s); auto.
        * apply NoDup_map_filter, G2.
        * apply Forall_forall. intros j I. apply filter_In in I as [I _]. rewrite Forall_forall in G3. apply G3, I.
        * apply Forall_forall. intros j I. apply filter_In in I as [I _]. rewrite Forall_forall in G4. apply justified_snoc, G4, I.
      + destruct (if beqb (u_vapid x) vapid then _ else _) as [o r1] eqn:Eo. cbn [fst snd].
        assert (A : forall u1 n1 e1, ask u1 n1 e1 (WSend k now r, o) = Nothing) by reflexivity.
        assert (Todo : forall y, In y todo -> (exists l, Some (x :: todo) = Some l /\ In y l) \/ (In y (w_subs s) /\ u_user y = u /\ u_net y = n)).
        { intros y I. left. exists (x :: todo). split; [reflexivity|right; exact I]. }
        assert (G1 : good (with_jobs s (set_job s k todo)) (t ++ [(WSend k now r, o)])).
        { apply (good_set s t _ k _ todo _ G F); [apply (tables_same s); auto|reflexivity|reflexivity|exact Todo]. }
        assert (G2 : good (delete_row (with_jobs s (set_job s k todo)) (u_id x)) (t ++ [(WSend k now r, o)])).
        { apply (good_set s t _ k _ todo _ G F); [|reflexivity|reflexivity|exact Todo]. apply (tables_less s _ t _ (fun y => negb (N.eqb (u_id y) (u_id x))) T); auto. }
        destruct r1; [exact G1|exact G2|]. destruct (_ <? _); [exact G2|exact G1].
  Qed.

  (** ** Runs *)
  Lemma run_app l1 l2 s : run (l1 ++ l2) s = let '(s1, t1) := run l1 s in let '(s2, t2) := run l2 s1 in (s2, t1 ++ t2).
  Proof.
    revert s. induction l1 as [|e l1 IH]; intros s; cbn [app wrun].
    - destruct (run l2 s) as [s2 t2]. reflexivity.
    - destruct (step s e) as [s1 o]. rewrite IH. destruct (run l1 s1) as [s2 t1]. destruct (run l2 s2) as [s3 t2]. reflexivity.
  Qed.
  Lemma run_snoc l e s : run (l ++ [e]) s = let '(s1, t1) := run l s in (fst (step s1 e), t1 ++ [(e, snd (step s1 e))]).
  Proof. rewrite run_app. destruct (run l s) as [s1 t1]. cbn [wrun]. destruct (step s1 e) as [s2 o]. reflexivity. Qed.
  Lemma run_ind (P : wst -> trace -> Prop) : P new_wst [] -> (forall s t e, P s t -> P (fst (step s e)) (t ++ [(e, snd (step s e))])) ->
    forall l s t, run l new_wst = (s, t) -> P s t.
  Proof.
    intros P0 PS l. induction l as [|e l IH] using rev_ind; intros s t R.
    - cbn [wrun] in R. injection R as <- <-. exact P0.
    - rewrite run_snoc in R. destruct (run l new_wst) as [s1 t1] eqn:R1. injection R as <- <-. apply PS, (IH s1 t1 eq_refl).
  Qed.
  (** A run seen from one of its steps. *)
  Lemma run_split l s t1 e o t2 s' : run l s = (s', t1 ++ (e, o) :: t2) ->
    exists l1 l2 s1, l = l1 ++ e :: l2 /\ run l1 s = (s1, t1) /\ o = snd (step s1 e) /\ run l2 (fst (step s1 e)) = (s', t2).
  Proof.
    revert s t1. induction l as [|e1 l IH]; intros s t1 R; cbn [wrun] in R.
    - destruct t1; discriminate R.
    - destruct (step s e1) as [s1 o1] eqn:E. destruct (run l s1) as [s2 t] eqn:R1. apply pair_equal_spec in R as [<- R].
      destruct t1 as [|p t1]; cbn [app] in R.
      + injection R as -> -> ->. exists [], l, s. split; [reflexivity|]. split; [reflexivity|]. rewrite E. split; [reflexivity|exact R1].
      + injection R as <- ->. destruct (IH s1 t1 R1) as (l1 & l2 & s3 & -> & R2 & Eo & R3). exists (e1 :: l1), l2, s3.
        split; [reflexivity|]. split; [|split; [exact Eo|exact R3]]. cbn [wrun]. rewrite E, R2. reflexivity.
  Qed.
  Lemma good_new : good new_wst [].
  Proof. split; [split|..]; cbn; try constructor. Qed.
  Lemma good_run l s t : run l new_wst = (s, t) -> good s t.
  Proof. apply run_ind; [exact good_new|]. intros. apply good_step. assumption. Qed.

  Lemma send_request s k0 now r k u n e a p m : In (ORequest k u n e a p m) (snd (on_send vapid s k0 now r)) ->
    k = k0 /\ exists x todo, find_job s k = Some (Job (match find_job s k with Some j => j_id j | None => 0%N end) u n m (Some (x :: todo))) /\
      u_end x = e /\ u_auth x = a /\ u_p256 x = p.
  Proof.
    unfold on_send. destruct (find_job s k0) as [[k' u' n' m' [[|x todo]|]]|] eqn:F; try (intros []; fail).
    destruct (beqb (u_vapid x) vapid); [|intros []]. intros [H|[]]. injection H as <- <- <- <- <- <- <-. split; [reflexivity|]. rewrite F. exists x, todo. auto.
  Qed.
  Lemma only_send s ev k u n e a p m : In (ORequest k u n e a p m) (snd (step s ev)) -> exists now r, ev = WSend k now r.
  Proof.
    destruct ev as [u1 n1 cap ps now check test|u1 n1 m1 self direct hl ch b tm|u1 n1 m1 ours joined saved|u1 n1 target ts now|u1 n1 target|u1 n1|u1 n1|k1|k1 now r]; cbn [wstep]; intros H.
    - destruct (command_done s u1 n1 cap ps now check test) as [_ S]. destruct (S _ H).
    - exfalso. unfold on_text in H. cbv zeta in H. destruct (_ && _); [|destruct H]. cbn [broadcast snd] in H. destruct H as [H|[]]. discriminate H.
    - exfalso. unfold on_invite in H. destruct (_ && _); [|destruct H]. destruct H as [H|[]]. discriminate H.
    - exfalso. unfold on_mark in H. cbv zeta in H. destruct (_ <? _); [|destruct H]. destruct (tget _ _ _ _); [|destruct H]. destruct H as [H|[]]. discriminate H.
    - destruct H.
    - destruct H.
    - destruct H.
    - exfalso. destruct (find_job s k1) as [[k' u' n' m' [todo|]]|]; try (destruct H; fail). destruct H as [H|[]]; discriminate H.
    - exists now, r. apply send_request in H as [<- _]. reflexivity.
  Qed.

  Theorem recipients l s t1 ev o t2 k u n e a p m : run l new_wst = (s, t1 ++ (ev, o) :: t2) -> In (ORequest k u n e a p m) o ->
    exists ta q tb tc, t1 = ta ++ q :: tb ++ tc /\ start k u n m q /\ reg (ta ++ q :: tb) u n e = Some (a, p).
  Proof.
    intros R I. apply run_split in R as (l1 & l2 & s1 & -> & R1 & -> & _). pose proof (good_run _ _ _ R1) as G.
    destruct (only_send _ _ _ _ _ _ _ _ _ I) as (now & r & ->). cbn [wstep] in I. apply send_request in I as (_ & x & todo & F & <- & <- & <-).
    apply find_job_some in F as F'. destruct F' as [Ij Ek]. pose proof (G_jobs _ _ G) as J. rewrite Forall_forall in J. specialize (J _ Ij).
    destruct J as (ta & q & t3 & -> & S & H). cbn [j_todo j_user j_net j_id j_msg] in *. destruct (H _ x eq_refl (or_introl eq_refl)) as (<- & <- & _ & tb & tc & -> & Rg).
    exists ta, q, tb, tc. split; [reflexivity|]. split; [|exact Rg]. unfold start. unfold started in S. cbn [j_id j_user j_net j_msg] in S. rewrite Ek in S. exact S.
  Qed.

  Theorem worth_it l s t ev o k u n m : run l new_wst = (s, t) -> In (ev, o) t -> In (OStart k u n m) o -> worth ev u n m.
  Proof.
    intros R I S. apply in_split in I as (t1 & t2 & ->). apply run_split in R as (l1 & l2 & s1 & _ & _ & -> & _).
    destruct ev as [u1 n1 cap ps now check test|u1 n1 m1 self direct hl ch b tm|u1 n1 m1 ours joined saved|u1 n1 target ts now|u1 n1 target|u1 n1|u1 n1|k1|k1 now r]; cbn [wstep] in S; cbn [worth].
    - destruct (command_done s1 u1 n1 cap ps now check test) as [_ Q]. destruct (Q _ S).
    - unfold on_text in S. cbv zeta in S. destruct (_ && _) eqn:C; [|destruct S]. cbn [broadcast snd] in S. destruct S as [S|[]]. injection S as _ <- <- <-.
      apply andb_true_iff in C as [C1 C2]. apply andb_true_iff in C1 as [C0 C1]. apply negb_true_iff in C0. subst self.
      repeat (split; [reflexivity|]). cbn [negb] in *. split.
      + apply orb_true_iff in C2 as [C2| ->]; [|left; reflexivity]. right. apply andb_true_iff in C2 as [C2 ->]. split; [reflexivity|].
        destruct ch as [[d r]|]; [|discriminate C2]. split; [discriminate|]. rewrite andb_true_r in C2. apply negb_true_iff, beqb_neq in C2. exact C2.
      + intros Ht ->. apply beqb_neq in Ht. rewrite Ht in C1. discriminate C1.
    - unfold on_invite in S. destruct (_ && _) eqn:C; [|destruct S]. destruct S as [S|[]]. injection S as _ <- <- <-. apply andb_true_iff in C as [-> C].
      repeat (split; [reflexivity|]). destruct joined; [left; reflexivity|]. destruct saved; [discriminate C|right; reflexivity].
    - unfold on_mark in S. cbv zeta in S. destruct (_ <? _); [|destruct S]. destruct (tget _ _ _ _); [|destruct S]. destruct S as [S|[]]. injection S as _ <- <- <-.
      repeat (split; [reflexivity|]). reflexivity.
    - destruct S.
    - destruct S.
    - destruct S.
    - destruct (find_job s1 k1) as [[k' u' n' m' [todo|]]|]; try (destruct S; fail). destruct S as [S|[]]; discriminate S.
    - unfold on_send in S. destruct (find_job s1 k1) as [[k' u' n' m' [[|x todo]|]]|]; try (destruct S; fail). destruct (beqb (u_vapid x) vapid); [|destruct S].
      destruct S as [S|[]]; discriminate S.
  Qed.

  (** ** Deliveries *)
  Definition req (k u n : N) (m : message) (x : wsub) : wout := ORequest k u n (u_end x) (u_auth x) (u_p256 x) m.
  Lemma requests_app k t1 t2 : requests k (t1 ++ t2) = requests k t1 ++ requests k t2.
  Proof. unfold requests. apply flat_map_app. Qed.
  Lemma requests_none k s ev : (forall now r, ev <> WSend k now r) -> requests k [(ev, snd (step s ev))] = [].
  Proof.
    intros H. unfold requests. cbn [flat_map snd]. rewrite app_nil_r. destruct (filter _ _) as [|x l] eqn:F; [reflexivity|].
    assert (I : In x (x :: l)) by (left; reflexivity). rewrite <- F in I. apply filter_In in I as [I C]. destruct x; try discriminate C.
    apply N.eqb_eq in C. subst k0. apply only_send in I as (now & r & ->). destruct (H now r eq_refl).
  Qed.

  Lemma find_app {A} (f : A -> bool) l1 l2 : find f (l1 ++ l2) = match find f l1 with Some x => Some x | None => find f l2 end.
  Proof. induction l1 as [|x l1 IH]; [reflexivity|]. cbn [app find]. destruct (f x); auto. Qed.
  Lemma find_set s k todo k' : find (fun j => N.eqb (j_id j) k') (set_job s k todo) =
    match find_job s k' with Some j => Some (if N.eqb k' k then Job (j_id j) (j_user j) (j_net j) (j_msg j) (Some todo) else j) | None => None end.
  Proof.
    unfold set_job, find_job. induction (w_jobs s) as [|j l IH]; [reflexivity|]. cbn [map find].
    destruct (N.eqb (j_id j) k) eqn:E1; cbn [j_id]; destruct (N.eqb (j_id j) k') eqn:E2; auto.
    - apply N.eqb_eq in E1, E2. subst. rewrite N.eqb_refl. reflexivity.
    - apply N.eqb_eq in E2. subst k'. rewrite E1. reflexivity.
  Qed.
  Lemma find_end s k k' : k' <> k -> find (fun j => N.eqb (j_id j) k') (end_job s k) = find_job s k'.
  Proof.
    intros N. unfold end_job, find_job. induction (w_jobs s) as [|j l IH]; [reflexivity|]. cbn [filter find].
    destruct (N.eqb (j_id j) k) eqn:E1; cbn [negb].
    - apply N.eqb_eq in E1. destruct (N.eqb (j_id j) k') eqn:E2; [apply N.eqb_eq in E2; congruence|exact IH].
    - cbn [find]. destruct (N.eqb (j_id j) k'); auto.
  Qed.
  Lemma find_ended s k : find (fun j => N.eqb (j_id j) k) (end_job s k) = None.
  Proof.
    unfold end_job. induction (w_jobs s) as [|j l IH]; [reflexivity|]. cbn [filter]. destruct (N.eqb (j_id j) k) eqn:E; cbn [negb]; [exact IH|].
    cbn [find]. rewrite E. exact IH.
  Qed.
  Lemma find_none_job s k : find_job s k = None -> forall j, In j (w_jobs s) -> j_id j <> k.
  Proof. intros F j I E. pose proof (List.find_none _ _ F j I) as H. cbv beta in H. rewrite E, N.eqb_refl in H. discriminate. Qed.

  (** Job [k] after a step other than its own. *)
  Lemma job_other s ev k : (k < w_next s)%N -> (forall now r, ev <> WSend k now r) -> ev <> WList k -> find_job (fst (step s ev)) k = find_job s k.
  Proof.
    intros Lt Ns Nl.
    assert (Br : forall s1 u n m, w_jobs s1 = w_jobs s -> w_next s1 = w_next s -> find_job (fst (broadcast s1 u n m)) k = find_job s k).
    { intros s1 u n m E1 E2. unfold find_job. cbn [broadcast fst w_jobs]. rewrite E1, E2, find_app. destruct (find _ (w_jobs s)); [reflexivity|].
      cbn [find j_id]. destruct (N.eqb (w_next s) k) eqn:E; [apply N.eqb_eq in E; lia|reflexivity]. }
    destruct ev as [u1 n1 cap ps now check test|u1 n1 m1 self direct hl ch b tm|u1 n1 m1 ours joined saved|u1 n1 target ts now|u1 n1 target|u1 n1|u1 n1|k1|k1 now r]; cbn [wstep]; try reflexivity.
    - unfold find_job. destruct (command_jobs s u1 n1 cap ps now check test) as [-> _]. reflexivity.
    - unfold on_text. cbv zeta. destruct (_ && _); [|reflexivity]. specialize (Br s u1 n1 m1 eq_refl eq_refl). destruct tm; exact Br.
    - unfold on_invite. destruct (_ && _); [|reflexivity]. apply Br; reflexivity.
    - unfold on_mark. cbv zeta. destruct (_ <? _); [|reflexivity]. destruct (tget _ _ _ _) as [z|]; [|reflexivity]. apply Br; destruct (_ <? z); reflexivity.
    - destruct (find_job s k1) as [[k' u' n' m' [todo|]]|] eqn:F; try reflexivity. cbn [fst]. unfold find_job at 1. cbn [with_jobs w_jobs]. rewrite find_set.
      destruct (find_job s k) as [j|]; [|reflexivity]. destruct (N.eqb_spec k k1) as [->|_]; [destruct (Nl eq_refl)|reflexivity].
    - assert (K : k <> k1) by (intros ->; apply (Ns now r eq_refl)).
      unfold on_send. destruct (find_job s k1) as [[k' u' n' m' [[|x todo]|]]|] eqn:F; try reflexivity.
      + cbn [fst]. unfold find_job at 1. cbn [with_jobs w_jobs]. apply find_end, K.
      + destruct (if beqb (u_vapid x) vapid then _ else _) as [o r1]. cbn [fst].
        assert (E : find (fun j => N.eqb (j_id j) k) (set_job s k1 todo) = find_job s k).
        { rewrite find_set. destruct (find_job s k); [|reflexivity]. apply N.eqb_neq in K. rewrite K. reflexivity. }
        destruct r1; [exact E|exact E|]. destruct (_ <? _); exact E.
  Qed.
  Lemma next_mono s ev : (w_next s <= w_next (fst (step s ev)))%N.
  Proof.
    destruct ev as [u1 n1 cap ps now check test|u1 n1 m1 self direct hl ch b tm|u1 n1 m1 ours joined saved|u1 n1 target ts now|u1 n1 target|u1 n1|u1 n1|k1|k1 now r]; cbn [wstep]; try apply N.le_refl.
    - destruct (command_jobs s u1 n1 cap ps now check test) as [_ ->]. apply N.le_refl.
    - unfold on_text. cbv zeta. destruct (_ && _); [|apply N.le_refl]. destruct tm; cbn [broadcast fst with_targets w_next]; lia.
    - unfold on_invite. destruct (_ && _); [|apply N.le_refl]. cbn [broadcast fst w_next]. lia.
    - unfold on_mark. cbv zeta. destruct (_ <? _); [|apply N.le_refl]. destruct (tget _ _ _ _) as [z|]; [|apply N.le_refl].
      destruct (_ <? z); cbn [broadcast fst w_next with_targets with_marks]; lia.
    - destruct (find_job s k1) as [[k' u' n' m' [todo|]]|]; apply N.le_refl.
    - unfold on_send. destruct (find_job s k1) as [[k' u' n' m' [[|x todo]|]]|]; try apply N.le_refl.
      destruct (if beqb (u_vapid x) vapid then _ else _) as [o r1]. destruct r1; try apply N.le_refl. destruct (_ <? _); apply N.le_refl.
  Qed.
  (** Job [k] when it sends. *)
  Lemma job_send s k u n m todo now r : find_job s k = Some (Job k u n m (Some todo)) ->
    match todo with
    | [] => step s (WSend k now r) = (with_jobs s (end_job s k), []) /\ find_job (fst (step s (WSend k now r))) k = None
    | x :: todo' => find_job (fst (step s (WSend k now r))) k = Some (Job k u n m (Some todo')) /\
        snd (step s (WSend k now r)) = if beqb (u_vapid x) vapid then [req k u n m x] else []
    end.
  Proof.
    intros F. cbn [wstep]. unfold on_send. rewrite F. destruct todo as [|x todo].
    - split; [reflexivity|]. cbn [fst]. apply find_ended.
    - assert (E : find (fun j => N.eqb (j_id j) k) (set_job s k todo) = Some (Job k u n m (Some todo))) by (rewrite find_set, F, N.eqb_refl; reflexivity).
      destruct (beqb (u_vapid x) vapid), r, (prune_delay <? now - u_at x); (split; [exact E|reflexivity]).
  Qed.
  Lemma job_list s k j : find_job s k = Some j -> j_todo j <> None -> step s (WList k) = (s, []).
  Proof. intros F T. cbn [wstep]. rewrite F. destruct j as [k' u n m [todo|]]; [reflexivity|destruct (T eq_refl)]. Qed.

  (** No job [k] any more. *)
  Lemma no_job l k : forall s, (k < w_next s)%N -> find_job s k = None -> requests k (snd (run l s)) = [].
  Proof.
    induction l as [|e l IH]; intros s Lt F; [reflexivity|]. cbn [wrun]. destruct (step s e) as [s1 o] eqn:E. destruct (run l s1) as [s2 t] eqn:R. cbn [snd].
    change ((e, o) :: t) with ([(e, o)] ++ t). rewrite requests_app.
    assert (H : requests k [(e, o)] = [] /\ find_job s1 k = None).
    { assert (C : (exists now r, e = WSend k now r) \/ (forall now r, e <> WSend k now r)).
      { destruct e; try (right; intros; discriminate). destruct (N.eq_dec k0 k) as [->|Hk]; [left; eauto|right; intros ? ? Q; injection Q as -> _ _; apply Hk; reflexivity]. }
      destruct C as [(now & r & ->)|C].
      - cbn [wstep] in E. unfold on_send in E. rewrite F in E. injection E as <- <-. auto.
      - replace o with (snd (step s e)) by (rewrite E; reflexivity). split; [apply requests_none, C|].
        assert (D : e = WList k \/ e <> WList k). { destruct e; try (right; discriminate). destruct (N.eq_dec k0 k) as [->|Hk]; [left; reflexivity|right; congruence]. }
        destruct D as [->|D]; [cbn [wstep] in E; rewrite F in E; injection E as <- <-; exact F|].
        replace s1 with (fst (step s e)) by (rewrite E; reflexivity). rewrite job_other; auto. }
    destruct H as [-> F1]. cbn [app]. specialize (IH s1). rewrite R in IH. apply IH; [|exact F1].
    pose proof (next_mono s e) as M. rewrite E in M. cbn [fst] in M. lia.
  Qed.

  (** A job that has its list makes its requests in order. *)
  Lemma drain l k u n m : forall todo s, (k < w_next s)%N -> find_job s k = Some (Job k u n m (Some todo)) -> Forall (fun x => u_vapid x = vapid) todo ->
    (exists rest, map (req k u n m) todo = requests k (snd (run l s)) ++ rest) /\
    (ended k (snd (run l s)) -> requests k (snd (run l s)) = map (req k u n m) todo).
  Proof.
    induction l as [|e l IH]; intros todo s Lt F V.
    - cbn [wrun snd]. split; [exists (map (req k u n m) todo); reflexivity|]. intros (now & r & []).
    - cbn [wrun]. destruct (step s e) as [s1 o] eqn:E. destruct (run l s1) as [s2 t] eqn:R. cbn [snd].
      assert (Es1 : s1 = fst (step s e)) by (rewrite E; reflexivity). assert (Eo : o = snd (step s e)) by (rewrite E; reflexivity).
      assert (Lt1 : (k < w_next s1)%N) by (pose proof (next_mono s e) as M; rewrite <- Es1 in M; lia).
      change ((e, o) :: t) with ([(e, o)] ++ t). rewrite requests_app.
      assert (C : (exists now r, e = WSend k now r) \/ (forall now r, e <> WSend k now r)).
      { destruct e; try (right; intros; discriminate). destruct (N.eq_dec k0 k) as [->|Hk]; [left; eauto|right; intros ? ? Q; injection Q as -> _ _; apply Hk; reflexivity]. }
      destruct C as [(now & r & ->)|C].
      + pose proof (job_send s k u n m todo now r F) as J. destruct todo as [|x todo].
        * destruct J as [J1 J2]. rewrite J1 in E. injection E as <- <-. pose proof (no_job l k (with_jobs s (end_job s k)) Lt) as Nj.
          rewrite J1 in J2. cbn [fst] in J2. specialize (Nj J2). rewrite R in Nj. cbn [snd] in Nj. rewrite Nj. split; [exists []; reflexivity|reflexivity].
        * destruct J as [J1 J2]. inversion V as [|? ? V1 V2]; subst x0 l0. rewrite V1, beqb_refl in J2. rewrite <- Eo in J2. rewrite <- Es1 in J1.
          destruct (IH todo s1 Lt1 J1 V2) as [(rest & I1) I2]. rewrite R in I1, I2. cbn [snd] in I1, I2. rewrite J2.
          assert (Q : requests k [(WSend k now r, [req k u n m x])] = [req k u n m x]).
          { unfold requests, req. cbn [flat_map filter snd app]. rewrite N.eqb_refl. reflexivity. }
          rewrite Q. cbn [app map]. split; [exists rest; rewrite I1; reflexivity|].
          intros (now1 & r1 & [H|H]); [injection H as _ _ H; discriminate H|]. rewrite I2; [reflexivity|]. exists now1, r1. exact H.
      + rewrite Eo, (requests_none k s e C). cbn [app].
        assert (F1 : find_job s1 k = Some (Job k u n m (Some todo))).
        { assert (D : e = WList k \/ e <> WList k). { destruct e; try (right; discriminate). destruct (N.eq_dec k0 k) as [->|Hk]; [left; reflexivity|right; congruence]. }
          destruct D as [->|D]; [rewrite (job_list s k _ F) in E by (cbn [j_todo]; discriminate); injection E as <- <-; exact F|]. rewrite Es1, job_other; auto. }
        destruct (IH todo s1 Lt1 F1 V) as [I1 I2]. rewrite R in I1, I2. cbn [snd] in I1, I2. split; [exact I1|]. intros (now & r & [H|H]).
        * injection H as -> _. destruct (C now r eq_refl).
        * apply I2. exists now, r. exact H.
  Qed.

  (** ** What steps do to jobs and rows *)
  Lemma step_shape s ev :
    (w_next (fst (step s ev)) = w_next s /\ (forall k u n m, ~ In (OStart k u n m) (snd (step s ev))) /\
     forall j', In j' (w_jobs (fst (step s ev))) -> exists j, In j (w_jobs s) /\ j_id j' = j_id j /\ j_user j' = j_user j /\ j_net j' = j_net j /\ j_msg j' = j_msg j) \/
    (exists u n m, snd (step s ev) = [OStart (w_next s) u n m] /\ w_next (fst (step s ev)) = N.succ (w_next s) /\
      w_jobs (fst (step s ev)) = w_jobs s ++ [Job (w_next s) u n m None]).
  Proof.
    assert (Set_ : forall k todo j', In j' (set_job s k todo) -> exists j, In j (w_jobs s) /\ j_id j' = j_id j /\ j_user j' = j_user j /\ j_net j' = j_net j /\ j_msg j' = j_msg j).
    { intros k todo j' I. apply in_map_iff in I as (j & <- & I). exists j. split; [exact I|]. destruct (N.eqb (j_id j) k); repeat split. }
    destruct ev as [u1 n1 cap ps now check test|u1 n1 m1 self direct hl ch b tm|u1 n1 m1 ours joined saved|u1 n1 target ts now|u1 n1 target|u1 n1|u1 n1|k1|k1 now r]; cbn [wstep].
    - left. destruct (command_jobs s u1 n1 cap ps now check test) as [-> ->]. destruct (command_done s u1 n1 cap ps now check test) as [_ S].
      split; [reflexivity|]. split; [intros k u n m I; destruct (S _ I)|]. intros j I. exists j. auto.
    - unfold on_text. cbv zeta. destruct (_ && _); [|left; split; [reflexivity|]; split; [intros ? ? ? ? []|]; intros j I; exists j; auto].
      right. exists u1, n1, m1. destruct tm; auto.
    - unfold on_invite. destruct (_ && _); [|left; split; [reflexivity|]; split; [intros ? ? ? ? []|]; intros j I; exists j; auto].
      right. exists u1, n1, m1. auto.
    - unfold on_mark. cbv zeta. destruct (_ <? _); [|left; split; [reflexivity|]; split; [intros ? ? ? ? []|]; intros j I; exists j; auto].
      destruct (tget _ _ _ _) as [z|]; [|left; split; [reflexivity|]; split; [intros ? ? ? ? []|]; intros j I; exists j; auto].
      right. eexists u1, n1, _. destruct (_ <? z); split; [reflexivity|split; reflexivity|reflexivity|split; reflexivity].
    - left. split; [reflexivity|]. split; [intros ? ? ? ? []|]. intros j I. exists j. auto.
    - left. split; [reflexivity|]. split; [intros ? ? ? ? []|]. intros j I. exists j. auto.
    - left. split; [reflexivity|]. split; [intros ? ? ? ? []|]. intros j I. exists j. auto.
    - left. destruct (find_job s k1) as [[k' u' n' m' [todo|]]|]; try (split; [reflexivity|]; split; [intros ? ? ? ? []|]; intros j I; exists j; auto; fail).
      split; [reflexivity|]. split; [intros ? ? ? ? [H|[]]; discriminate H|]. apply Set_.
    - left. unfold on_send. destruct (find_job s k1) as [[k' u' n' m' [[|x todo]|]]|]; try (split; [reflexivity|]; split; [intros ? ? ? ? []|]; intros j I; exists j; auto; fail).
      + split; [reflexivity|]. split; [intros ? ? ? ? []|]. intros j I. cbn [fst with_jobs w_jobs] in I. apply filter_In in I as [I _]. exists j. auto.
      + assert (O : forall k u n m, ~ In (OStart k u n m) (fst (if beqb (u_vapid x) vapid then ([ORequest k1 u' n' (u_end x) (u_auth x) (u_p256 x) m'], r) else ([], WError)))).
        { intros k u n m. destruct (beqb (u_vapid x) vapid); [intros [H|[]]; discriminate H|intros []]. }
        destruct (if beqb (u_vapid x) vapid then _ else _) as [o r1]. cbn [fst] in O. destruct r1; try (split; [reflexivity|]; split; [exact O|]; apply Set_).
        destruct (_ <? _); (split; [reflexivity|]; split; [exact O|]; apply Set_).
  Qed.

  Lemma filter_true {A} (l : list A) : filter (fun _ => true) l = l.
  Proof. induction l as [|x l IH]; [reflexivity|]. cbn [filter]. rewrite IH. reflexivity. Qed.
  Lemma subs_step s ev : (exists u n cap ps now check test, ev = WCommand u n cap ps now check test) \/
    (exists g, w_subs (fst (step s ev)) = filter g (w_subs s) /\ w_last (fst (step s ev)) = w_last s).
  Proof.
    destruct ev as [u1 n1 cap ps now check test|u1 n1 m1 self direct hl ch b tm|u1 n1 m1 ours joined saved|u1 n1 target ts now|u1 n1 target|u1 n1|u1 n1|k1|k1 now r]; cbn [wstep].
    - left. repeat eexists.
    - right. exists (fun _ => true). rewrite filter_true. unfold on_text. cbv zeta. destruct (_ && _); [|auto]. destruct tm; auto.
    - right. exists (fun _ => true). rewrite filter_true. unfold on_invite. destruct (_ && _); auto.
    - right. exists (fun _ => true). rewrite filter_true. unfold on_mark. cbv zeta. destruct (_ <? _); [|auto]. destruct (tget _ _ _ _) as [z|]; [|auto]. destruct (_ <? z); auto.
    - right. exists (fun _ => true). rewrite filter_true. auto.
    - right. exists (fun _ => true). rewrite filter_true. auto.
    - right. eexists. split; reflexivity.
    - right. exists (fun _ => true). rewrite filter_true. destruct (find_job s k1) as [[k' u' n' m' [todo|]]|]; auto.
    - right. unfold on_send. destruct (find_job s k1) as [[k' u' n' m' [[|x todo]|]]|]; try (exists (fun _ => true); rewrite filter_true; split; reflexivity).
      assert (D : exists g, w_subs (delete_row (with_jobs s (set_job s k1 todo)) (u_id x)) = filter g (w_subs s) /\ w_last (delete_row (with_jobs s (set_job s k1 todo)) (u_id x)) = w_last s).
      { eexists. split; reflexivity. }
      assert (Sm : exists g, w_subs (with_jobs s (set_job s k1 todo)) = filter g (w_subs s) /\ w_last (with_jobs s (set_job s k1 todo)) = w_last s).
      { exists (fun _ => true). rewrite filter_true. split; reflexivity. }
      destruct (if beqb (u_vapid x) vapid then _ else _) as [o r1]. cbn [fst]. destruct r1; [exact Sm|exact D|]. destruct (_ <? _); [exact D|exact Sm].
  Qed.

  (** ** The limit *)
  Lemma filter_swap {A} (f g : A -> bool) l : (length (filter f (filter g l)) <= length (filter f l))%nat.
  Proof. induction l as [|x l IH]; [constructor|]. cbn [filter]. destruct (g x); cbn [filter]; destruct (f x); cbn [length]; lia. Qed.
  Definition within (s : wst) : Prop := forall u n, (length (rows s u n) <= 26)%nat.
  Lemma within_step s ev : within s -> within (fst (step s ev)).
  Proof.
    intros W. destruct (subs_step s ev) as [(u & n & cap & ps & now & check & test & ->)|(g & E & _)].
    - cbn [wstep]. destruct (command_done s u n cap ps now check test) as [D _]. intros u1 n1. specialize (W u1 n1). destruct D as [|e text r a p x Eps K F Ka Kp Fr|e text r a p Eps K Le F|e text r a p x Eps K F|e r x Eps F|e r Eps F]; auto.
      + unfold rows in *. cbn [insert_row with_subs w_subs]. rewrite filter_app, app_length. cbn [filter u_user u_net].
        destruct (N.eqb_spec u u1) as [<-|_]; cbn [andb]; [|cbn [length]; lia]. destruct (N.eqb_spec n n1) as [<-|_]; cbn [length]; lia.
      + unfold rows in *. cbn [update_row with_subs w_subs]. replace (length _) with (length (filter (fun x0 => N.eqb (u_user x0) u1 && N.eqb (u_net x0) n1) (w_subs s))); [exact W|].
        clear. induction (w_subs s) as [|y l IH]; [reflexivity|]. cbn [map filter].
        destruct (N.eqb (u_id y) (u_id x)); cbn [u_user u_net]; destruct (N.eqb (u_user y) u1 && N.eqb (u_net y) n1); cbn [length]; congruence.
      + unfold rows in *. cbn [delete_row with_subs w_subs]. eapply Nat.le_trans; [apply filter_swap|exact W].
    - intros u n. unfold rows. rewrite E. eapply Nat.le_trans; [apply filter_swap|apply W].
  Qed.

  Record once (k : N) (s : wst) (t : trace) : Prop := Once {
    O_good : good s t;
    O_within : within s;
    O_nodup : NoDup (map endpoint (requests k t) ++ match find_job s k with Some j => match j_todo j with Some l => map u_end l | None => [] end | None => [] end);
    O_len : (length (requests k t) + length (match find_job s k with Some j => match j_todo j with Some l => l | None => [] end | None => [] end) <= 26)%nat;
    O_none : match find_job s k with Some j => j_todo j = None -> requests k t = [] | None => (w_next s <= k)%N -> requests k t = [] end }.
  Lemma find_fresh s t k : good s t -> (w_next s <= k)%N -> find_job s k = None.
  Proof.
    intros G L. destruct (find_job s k) as [j|] eqn:F; [|reflexivity]. apply find_job_some in F as [I <-]. pose proof (G_next _ _ G) as N. rewrite Forall_forall in N. specialize (N j I). lia.
  Qed.
  Lemma find_known s t k j : good s t -> find_job s k = Some j -> (k < w_next s)%N.
  Proof. intros G F. apply find_job_some in F as [I <-]. pose proof (G_next _ _ G) as N. rewrite Forall_forall in N. apply N, I. Qed.
  Lemma ends_nodup s t u n : good s t -> NoDup (map u_end (rows s u n)).
  Proof.
    intros G. assert (H : NoDup (map key (rows s u n))) by (apply NoDup_map_filter, (T_key _ _ (G_tables _ _ G))).
    assert (A : forall x, In x (rows s u n) -> u_user x = u /\ u_net x = n) by (intros x I; apply rows_In in I; tauto).
    induction (rows s u n) as [|x l IH]; [constructor|]. cbn [map] in *. inversion H as [|? ? H1 H2]; subst. constructor.
    - intros I. apply H1. apply in_map_iff in I as (y & E & I). apply in_map_iff. exists y. split; [|exact I]. unfold key.
      destruct (A x (or_introl eq_refl)) as [-> ->]. destruct (A y (or_intror I)) as [-> ->]. rewrite E. reflexivity.
    - apply IH; [exact H2|]. intros y I. apply A. right. exact I.
  Qed.
  Lemma is_send (ev : wev) k : (exists now r, ev = WSend k now r) \/ (forall now r, ev <> WSend k now r).
  Proof. destruct ev; try (right; intros; discriminate). destruct (N.eq_dec k0 k) as [->|Hk]; [left; eauto|right; intros ? ? Q; injection Q as -> _ _; apply Hk; reflexivity]. Qed.
  Lemma is_list (ev : wev) k : ev = WList k \/ ev <> WList k.
  Proof. destruct ev; try (right; discriminate). destruct (N.eq_dec k0 k) as [->|Hk]; [left; reflexivity|right; congruence]. Qed.

  Lemma once_step k s t ev : once k s t -> once k (fst (step s ev)) (t ++ [(ev, snd (step s ev))]).
  Proof.
    intros [G W D L Z]. pose proof (good_step s t ev G) as G1. pose proof (within_step s ev W) as W1.
    assert (Rq : requests k (t ++ [(ev, snd (step s ev))]) = requests k t ++ requests k [(ev, snd (step s ev))]) by apply requests_app.
    destruct (N.lt_ge_cases k (w_next s)) as [Lt|Ge].
    - destruct (is_send ev k) as [(now & r & ->)|Ns].
      + destruct (find_job s k) as [[k' u n m [todo|]]|] eqn:F.
        * assert (k' = k) by (apply find_job_some in F as [_ F]; exact F). subst k'. cbn [j_todo] in *.
          pose proof (job_send s k u n m todo now r F) as J. destruct todo as [|x todo].
          -- destruct J as [J1 J2]. rewrite J1 in *. cbn [fst snd] in *. change (requests k [(WSend k now r, [])]) with (@nil wout) in Rq. rewrite app_nil_r in Rq.
             split; auto; rewrite ?Rq, ?J2; auto. cbn [with_jobs w_next]. lia.
          -- destruct J as [J1 J2].
             assert (V : u_vapid x = vapid).
             { apply find_job_some in F as [Ij _]. pose proof (G_jobs _ _ G) as J. rewrite Forall_forall in J. destruct (J _ Ij) as (? & ? & ? & _ & _ & H).
               apply (H _ x eq_refl (or_introl eq_refl)). }
             rewrite V, beqb_refl in J2. rewrite J2 in *.
             assert (Q : requests k [(WSend k now r, [req k u n m x])] = [req k u n m x]) by (unfold requests, req; cbn [flat_map filter snd app]; rewrite N.eqb_refl; reflexivity).
             rewrite Q in Rq. split; auto; rewrite ?Rq, ?J1; cbn [j_todo].
             ++ rewrite map_app, <- app_assoc. exact D.
             ++ rewrite app_length. cbn [length] in *. lia.
             ++ discriminate.
        * assert (E : step s (WSend k now r) = (s, [])) by (cbn [wstep]; unfold on_send; rewrite F; reflexivity). rewrite E in *. cbn [fst snd] in *.
          change (requests k [(WSend k now r, [])]) with (@nil wout) in Rq. rewrite app_nil_r in Rq. split; auto; rewrite ?Rq, ?F; auto.
        * assert (E : step s (WSend k now r) = (s, [])) by (cbn [wstep]; unfold on_send; rewrite F; reflexivity). rewrite E in *. cbn [fst snd] in *.
          change (requests k [(WSend k now r, [])]) with (@nil wout) in Rq. rewrite app_nil_r in Rq. split; auto; rewrite ?Rq, ?F; auto.
      + rewrite (requests_none k s ev Ns), app_nil_r in Rq. destruct (is_list ev k) as [->|Nl].
        * destruct (find_job s k) as [[k' u n m [todo|]]|] eqn:F.
          -- assert (E : step s (WList k) = (s, [])) by (cbn [wstep]; rewrite F; reflexivity). rewrite E in *. cbn [fst snd] in *. split; auto; rewrite ?Rq, ?F; auto.
          -- assert (E : step s (WList k) = (with_jobs s (set_job s k (rows s u n)), [OList k u n])) by (cbn [wstep]; rewrite F; reflexivity). rewrite E in *. cbn [fst snd] in *.
             assert (F1 : find_job (with_jobs s (set_job s k (rows s u n))) k = Some (Job k' u n m (Some (rows s u n)))).
             { unfold find_job at 1. cbn [with_jobs w_jobs]. rewrite find_set, F, N.eqb_refl. reflexivity. }
             cbn [j_todo] in *. specialize (Z eq_refl). split; auto; rewrite ?Rq, ?F1, ?Z; cbn [j_todo].
             ++ cbn [map app]. apply (ends_nodup s t u n G).
             ++ apply W.
             ++ discriminate.
          -- assert (E : step s (WList k) = (s, [])) by (cbn [wstep]; rewrite F; reflexivity). rewrite E in *. cbn [fst snd] in *. split; auto; rewrite ?Rq, ?F; auto.
        * pose proof (job_other s ev k Lt Ns Nl) as F. split; auto; rewrite ?Rq, ?F; auto.
          destruct (find_job s k); [exact Z|]. intros H. pose proof (next_mono s ev). lia.
    - pose proof (find_fresh s t k G Ge) as F. rewrite F in *. specialize (Z Ge).
      assert (Q : requests k [(ev, snd (step s ev))] = []).
      { destruct (is_send ev k) as [(now & r & ->)|Ns]; [|apply requests_none, Ns]. cbn [wstep]. unfold on_send. rewrite F. reflexivity. }
      rewrite Q, Z in Rq. cbn [app] in Rq.
      assert (N : match find_job (fst (step s ev)) k with Some j => j_todo j = None | None => True end).
      { destruct (find_job (fst (step s ev)) k) as [j|] eqn:F1; [|exact I]. apply find_job_some in F1 as [Ij Ek].
        destruct (step_shape s ev) as [(_ & _ & H)|(u & n & m & _ & _ & E)].
        - destruct (H j Ij) as (j0 & I0 & Ei & _). destruct (find_none_job s k F j0 I0). congruence.
        - rewrite E in Ij. apply in_app_iff in Ij as [I0|[<-|[]]]; [|reflexivity]. destruct (find_none_job s k F j I0 Ek). }
      split; auto; rewrite ?Rq; destruct (find_job (fst (step s ev)) k) as [j|]; try rewrite N; try constructor; auto; cbn [length]; lia.
  Qed.
  Lemma nodup_front {A} (l1 l2 : list A) : NoDup (l1 ++ l2) -> NoDup l1.
  Proof.
    induction l1 as [|x l1 IH]; intros H; [constructor|]. inversion H as [|? ? H1 H2]; subst. constructor; [|apply IH, H2]. intros I. apply H1, in_app_iff. left. exact I.
  Qed.
  Theorem each_once l s t k : run l new_wst = (s, t) -> NoDup (map endpoint (requests k t)) /\ (length (requests k t) <= 26)%nat.
  Proof.
    intros R. assert (O : once k s t).
    { revert R. apply (run_ind (once k)); [|intros; apply once_step; assumption].
      split; [exact good_new|intros u n; cbn; lia|apply NoDup_nil|cbn; lia|intros _; reflexivity]. }
    destruct O as [_ _ D L _]. split; [|lia]. exact (nodup_front _ _ D).
  Qed.

  (** ** Notifications have one start *)
  Definition single (s : wst) (t : trace) : Prop := forall q k u n m, In q t -> start k u n m q ->
    (k < w_next s)%N /\ forall j, In j (w_jobs s) -> j_id j = k -> j_user j = u /\ j_net j = n /\ j_msg j = m.
  Lemma single_step s t ev : good s t /\ single s t -> good (fst (step s ev)) (t ++ [(ev, snd (step s ev))]) /\ single (fst (step s ev)) (t ++ [(ev, snd (step s ev))]).
  Proof.
    intros [G S]. split; [apply good_step, G|]. intros q k u n m I St. apply in_app_iff in I as [I|[<-|[]]].
    - destruct (S q k u n m I St) as [Lt H]. destruct (step_shape s ev) as [(E & _ & J)|(u1 & n1 & m1 & _ & E & J)].
      + rewrite E. split; [exact Lt|]. intros j' Ij Ek. destruct (J j' Ij) as (j & Ij0 & E1 & E2 & E3 & E4). rewrite E2, E3, E4. apply H; congruence.
      + rewrite E, J. split; [lia|]. intros j' Ij Ek. apply in_app_iff in Ij as [Ij|[<-|[]]]; [apply H; assumption|]. cbn [j_id] in Ek. lia.
    - unfold start in St. cbn [snd] in St. destruct (step_shape s ev) as [(_ & N & _)|(u1 & n1 & m1 & E & E1 & J)]; [destruct (N _ _ _ _ St)|].
      rewrite E in St. destruct St as [St|[]]. injection St as <- <- <- <-. rewrite E1, J. split; [lia|]. intros j' Ij Ek.
      apply in_app_iff in Ij as [Ij|[<-|[]]]; [|auto]. pose proof (G_next _ _ G) as N. rewrite Forall_forall in N. specialize (N _ Ij). lia.
  Qed.
  Lemma single_run l s t : run l new_wst = (s, t) -> single s t.
  Proof.
    intros R. refine (proj2 (run_ind (fun s t => good s t /\ single s t) _ single_step l s t R)). split; [exact good_new|]. intros q k u n m [].
  Qed.

  (** ** Working endpoints keep their row *)
  Notation W t u n e := (fold_left (watching parse_tags u n e) t (Watch None [])).
  Lemma W_snoc t p u n e : W (t ++ [p]) u n e = watching parse_tags u n e (W t u n e) p.
  Proof. rewrite fold_left_app. reflexivity. Qed.

  Record kept (s : wst) (t : trace) : Prop := Kept {
    K_row : forall u n e k tr, c_reg (W t u n e) = Some (k, tr) -> exists x, In x (w_subs s) /\ key x = (u, n, e) /\ (u_auth x, u_p256 x) = k /\ tr - check_delay <= u_at x;
    K_id : forall j l x, In j (w_jobs s) -> j_todo j = Some l -> In x l -> (u_id x <= w_last s)%N /\ forall y, In y (w_subs s) -> u_id y = u_id x -> key y = key x;
    K_at : forall j l x q tr, In j (w_jobs s) -> j_todo j = Some l -> In x l ->
      find (fun q => N.eqb (fst q) (j_id j)) (c_listed (W t (u_user x) (u_net x) (u_end x))) = Some (q, Some tr) -> tr - check_delay <= u_at x }.

  (** Each list of a job is part of what it was. *)
  Definition jobs_less (s s' : wst) : Prop := forall j' l' x, In j' (w_jobs s') -> j_todo j' = Some l' -> In x l' ->
    exists j l, In j (w_jobs s) /\ j_id j' = j_id j /\ j_todo j = Some l /\ In x l.

  Lemma kept_less s s' t p g : kept s t -> w_subs s' = filter g (w_subs s) -> w_last s' = w_last s -> jobs_less s s' ->
    (forall u n e, c_listed (watching parse_tags u n e (W t u n e) p) = c_listed (W t u n e)) ->
    (forall u n e v, c_reg (watching parse_tags u n e (W t u n e) p) = Some v -> c_reg (W t u n e) = Some v /\ forall x, In x (w_subs s) -> key x = (u, n, e) -> g x = true) ->
    kept s' (t ++ [p]).
  Proof.
    intros [K1 K2 K3] Es El J Cl Cr. split.
    - intros u n e k tr H. rewrite W_snoc in H. apply Cr in H as [H Hg]. destruct (K1 u n e k tr H) as (x & I & Kx & Kk & Ka). exists x.
      split; [rewrite Es; apply filter_In; split; [exact I|apply Hg; assumption]|]. auto.
    - intros j' l' x Ij L Ix. destruct (J j' l' x Ij L Ix) as (j & l & I1 & _ & I3 & I4). destruct (K2 j l x I1 I3 I4) as [H1 H2]. rewrite El. split; [exact H1|].
      intros y Iy. rewrite Es in Iy. apply filter_In in Iy as [Iy _]. apply H2, Iy.
    - intros j' l' x q tr Ij L Ix F. rewrite W_snoc, Cl in F. destruct (J j' l' x Ij L Ix) as (j & l & I1 & I2 & I3 & I4). rewrite I2 in F. apply (K3 j l x q tr); assumption.
  Qed.
  Lemma jobs_less_same s s' : w_jobs s' = w_jobs s -> jobs_less s s'.
  Proof. intros E j l x I L Ix. rewrite E in I. exists j, l. auto. Qed.
  Lemma jobs_less_new s s' u n m : w_jobs s' = w_jobs s ++ [Job (w_next s) u n m None] -> jobs_less s s'.
  Proof.
    intros E j l x I L Ix. rewrite E in I. apply in_app_iff in I as [I|[<-|[]]]; [exists j, l; auto|discriminate L].
  Qed.

  (** Nothing happens to subscriptions. *)
  Lemma kept_idle s s' t p : kept s t -> w_subs s' = w_subs s -> w_last s' = w_last s -> jobs_less s s' ->
    (forall u n e c, watching parse_tags u n e c p = c) -> kept s' (t ++ [p]).
  Proof.
    intros K Es El J C. apply (kept_less s s' t p (fun _ => true) K); auto; [rewrite filter_true; exact Es|intros u n e; rewrite C; reflexivity|].
    intros u n e v H. rewrite C in H. auto.
  Qed.

  Lemma watch_command u1 n1 e1 u n cap ps now check test o c :
    watching parse_tags u1 n1 e1 c (WCommand u n cap ps now check test, o) =
    match ask u1 n1 e1 (WCommand u n cap ps now check test, o) with Subscribe k z => Watch (Some (k, z)) (c_listed c) | Unsubscribe => Watch None (c_listed c) | Nothing => c end.
  Proof. reflexivity. Qed.

  Lemma kept_command s t u n cap ps now check test : serial = true -> good s t -> kept s t ->
    kept (fst (cmd s u n cap ps now check test)) (t ++ [(WCommand u n cap ps now check test, snd (cmd s u n cap ps now check test))]).
  Proof.
    intros Hs G K. pose proof (G_tables _ _ G) as T. destruct (command_done s u n cap ps now check test) as [D _].
    destruct (cmd s u n cap ps now check test) as [s' o]. cbn [fst snd] in *.
    pose proof (asks_command s u n ps now cap check test s' o (granted o) D eq_refl) as A.
    assert (Cd : 0 <= check_delay) by (unfold check_delay; lia).
    destruct D as [|e text r a p x Eps Kk F Ka Kp Fr|e text r a p Eps Kk Le F|e text r a p x Eps Kk F|e r x Eps F|e r Eps F]; try subst ps.
    - apply (kept_idle s); auto; [apply jobs_less_same; reflexivity|]. intros u1 n1 e1 c. rewrite watch_command, A. reflexivity.
    - change (beqb (B "REGISTER") (B "REGISTER")) with true in A. cbv iota in A. rewrite Kk in A. apply find_some in F as [I E]. destruct K as [K1 K2 K3]. split; auto.
      + intros u1 n1 e1 k tr H. rewrite W_snoc, watch_command, A in H. destruct (N.eqb u1 u && N.eqb n1 n && beqb e1 e) eqn:Ey; [|apply K1, H].
        cbn [c_reg] in H. injection H as <- <-. apply andb_true_iff in Ey as [Ey E3]. apply andb_true_iff in Ey as [E1 E2]. apply N.eqb_eq in E1, E2. apply beqb_eq in E3. subst.
        exists x. split; [exact I|]. split; [exact E|]. split; [reflexivity|]. lia.
      + intros j l y q tr Ij L Iy H. rewrite W_snoc, watch_command, A in H. apply (K3 j l y q tr Ij L Iy).
        destruct (N.eqb (u_user y) u && N.eqb (u_net y) n && beqb (u_end y) e); exact H.
    - change (beqb (B "REGISTER") (B "REGISTER")) with true in A. cbv iota in A. rewrite Kk in A. pose proof (find_none _ _ _ _ F) as Nk. destruct K as [K1 K2 K3]. split; cbn [insert_row with_subs w_subs w_jobs w_last].
      + intros u1 n1 e1 k tr H. rewrite W_snoc, watch_command, A in H. destruct (N.eqb u1 u && N.eqb n1 n && beqb e1 e) eqn:Ey.
        * cbn [c_reg] in H. injection H as <- <-. apply andb_true_iff in Ey as [Ey E3]. apply andb_true_iff in Ey as [E1 E2]. apply N.eqb_eq in E1, E2. apply beqb_eq in E3. subst.
          eexists. split; [apply in_app_iff; right; left; reflexivity|]. cbn [key u_user u_net u_end u_auth u_p256 u_at]. split; [reflexivity|]. split; [reflexivity|]. lia.
        * destruct (K1 u1 n1 e1 k tr H) as (x & I & R). exists x. split; [apply in_app_iff; left; exact I|exact R].
      + intros j l x Ij L Ix. destruct (K2 j l x Ij L Ix) as [H1 H2]. split; [lia|]. intros y Iy Ey. apply in_app_iff in Iy as [Iy|[<-|[]]]; [apply H2; assumption|].
        cbn [u_id] in Ey. exfalso. unfold next_row in Ey. rewrite Hs in Ey. lia.
      + intros j l y q tr Ij L Iy H. rewrite W_snoc, watch_command, A in H. apply (K3 j l y q tr Ij L Iy).
        destruct (N.eqb (u_user y) u && N.eqb (u_net y) n && beqb (u_end y) e); exact H.
    - change (beqb (B "REGISTER") (B "REGISTER")) with true in A. cbv iota in A. rewrite Kk in A. apply find_some in F as [I E]. destruct K as [K1 K2 K3].
      set (f := fun y => if N.eqb (u_id y) (u_id x) then WSub (u_id y) (u_user y) (u_net y) (u_end y) a p vapid now else y).
      assert (Fi : forall z, u_id (f z) = u_id z) by (intros z; unfold f; destruct (N.eqb (u_id z) (u_id x)); reflexivity).
      assert (Fk : forall z, key (f z) = key z) by (intros z; unfold f; destruct (N.eqb (u_id z) (u_id x)); reflexivity).
      assert (Es : w_subs (update_row vapid s (u_id x) a p now) = map f (w_subs s)) by reflexivity.
      split; rewrite ?Es.
      + intros u1 n1 e1 k tr H. rewrite W_snoc, watch_command, A in H. destruct (N.eqb u1 u && N.eqb n1 n && beqb e1 e) eqn:Ey.
        * cbn [c_reg] in H. injection H as <- <-. apply andb_true_iff in Ey as [Ey E3]. apply andb_true_iff in Ey as [E1 E2]. apply N.eqb_eq in E1, E2. apply beqb_eq in E3. subst.
          exists (f x). split; [apply in_map, I|]. split; [rewrite Fk; exact E|]. unfold f. rewrite N.eqb_refl. cbn [u_auth u_p256 u_at]. split; [reflexivity|lia].
        * destruct (K1 u1 n1 e1 k tr H) as (y & Iy & Ky & Q1 & Q2). exists (f y). split; [apply in_map, Iy|]. split; [rewrite Fk; exact Ky|]. unfold f.
          destruct (N.eqb (u_id y) (u_id x)) eqn:Ei; [|auto]. apply N.eqb_eq in Ei. assert (y = x) by (apply (NoDup_inj u_id _ (T_id _ _ T)); auto). subst y.
          rewrite E in Ky. injection Ky as <- <- <-. rewrite !N.eqb_refl, beqb_refl in Ey. discriminate Ey.
      + intros j l y Ij L Iy. destruct (K2 j l y Ij L Iy) as [H1 H2]. split; [exact H1|]. intros z Iz Ez. apply in_map_iff in Iz as (w & <- & Iw). rewrite Fk. rewrite Fi in Ez. apply H2; assumption.
      + intros j l y q tr Ij L Iy H. rewrite W_snoc, watch_command, A in H. apply (K3 j l y q tr Ij L Iy).
        destruct (N.eqb (u_user y) u && N.eqb (u_net y) n && beqb (u_end y) e); exact H.
    - change (beqb (B "UNREGISTER") (B "REGISTER")) with false in A. change (beqb (B "UNREGISTER") (B "UNREGISTER")) with true in A. cbv iota in A. apply find_some in F as [I E].
      apply (kept_less s _ t _ (fun y => negb (N.eqb (u_id y) (u_id x))) K); [reflexivity|reflexivity|apply jobs_less_same; reflexivity|..].
      + intros u1 n1 e1. rewrite watch_command, A. destruct (N.eqb u1 u && N.eqb n1 n && beqb e1 e); reflexivity.
      + intros u1 n1 e1 v H. rewrite watch_command, A in H. destruct (N.eqb u1 u && N.eqb n1 n && beqb e1 e) eqn:Ey; [discriminate H|]. split; [exact H|].
        intros y Iy Ky. apply negb_true_iff, N.eqb_neq. intros Ei. assert (y = x) by (apply (NoDup_inj u_id _ (T_id _ _ T)); auto). subst y. rewrite E in Ky. injection Ky as <- <- <-.
        rewrite !N.eqb_refl, beqb_refl in Ey. discriminate Ey.
    - change (beqb (B "UNREGISTER") (B "REGISTER")) with false in A. change (beqb (B "UNREGISTER") (B "UNREGISTER")) with true in A. cbv iota in A.
      apply (kept_less s _ t _ (fun y => true) K); [rewrite filter_true; reflexivity|reflexivity|apply jobs_less_same; reflexivity|..].
      + intros u1 n1 e1. rewrite watch_command, A. destruct (N.eqb u1 u && N.eqb n1 n && beqb e1 e); reflexivity.
      + intros u1 n1 e1 v H. rewrite watch_command, A in H. destruct (N.eqb u1 u && N.eqb n1 n && beqb e1 e) eqn:Ey; [discriminate H|]. split; [exact H|]. reflexivity.
  Qed.

  Lemma kept_step s t ev : serial = true -> good s t -> kept s t -> kept (fst (step s ev)) (t ++ [(ev, snd (step s ev))]).
  Proof.
    intros Hs G K. pose proof (G_tables _ _ G) as T.
    destruct ev as [u1 n1 cap ps now check test|u1 n1 m1 self direct hl ch b tm|u1 n1 m1 ours joined saved|u1 n1 target ts now|u1 n1 target|u1 n1|u1 n1|k1|k1 now r]; cbn [wstep].
    - apply kept_command; assumption.
    - unfold on_text. cbv zeta. destruct (_ && _); [|apply (kept_idle s); auto; apply jobs_less_same; reflexivity].
      destruct tm; (apply (kept_idle s); auto; eapply jobs_less_new; reflexivity).
    - unfold on_invite. destruct (_ && _); [|apply (kept_idle s); auto; apply jobs_less_same; reflexivity]. apply (kept_idle s); auto; eapply jobs_less_new; reflexivity.
    - unfold on_mark. cbv zeta. destruct (_ <? _); [|apply (kept_idle s); auto; apply jobs_less_same; reflexivity].
      destruct (tget _ _ _ _) as [z|]; [|apply (kept_idle s); auto; apply jobs_less_same; reflexivity].
      destruct (_ <? z); (apply (kept_idle s); auto; eapply jobs_less_new; reflexivity).
    - apply (kept_idle s); auto; apply jobs_less_same; reflexivity.
    - apply (kept_idle s); auto; apply jobs_less_same; reflexivity.
    - eapply (kept_less s); [exact K|reflexivity|reflexivity|apply jobs_less_same; reflexivity|..].
      + intros u n e. unfold watching, asks. cbn [fst snd]. destruct (N.eqb u u1 && N.eqb n n1); reflexivity.
      + intros u n e v H. unfold watching, asks in H. cbn [fst snd] in H. destruct (N.eqb u u1 && N.eqb n n1) eqn:E; [discriminate H|]. split; [exact H|].
        intros x I Kx. unfold key in Kx. injection Kx as <- <- <-. rewrite E. reflexivity.
    - destruct (find_job s k1) as [[k' u n m [todo|]]|] eqn:F; try (apply (kept_idle s); auto; apply jobs_less_same; reflexivity). cbn [fst snd].
      assert (Wl : forall u1 n1 e1 c, watching parse_tags u1 n1 e1 c (WList k1, [OList k1 u n]) = Watch (c_reg c) ((k1, option_map snd (c_reg c)) :: c_listed c)) by reflexivity.
      assert (Jl : forall j' l' x, In j' (set_job s k1 (rows s u n)) -> j_todo j' = Some l' -> In x l' ->
        (j_id j' <> k1 /\ exists j l, In j (w_jobs s) /\ j_id j' = j_id j /\ j_todo j = Some l /\ In x l) \/ (j_id j' = k1 /\ In x (w_subs s))).
      { intros j' l' x I L Ix. apply in_map_iff in I as (j & <- & I). destruct (N.eqb (j_id j) k1) eqn:E.
        - right. cbn [j_todo j_id] in *. injection L as <-. apply N.eqb_eq in E. apply rows_In in Ix as [Ix _]. auto.
        - left. apply N.eqb_neq in E. split; [exact E|]. exists j, l'. auto. }
      destruct K as [K1 K2 K3]. split; cbn [with_jobs w_subs w_last w_jobs].
      + intros u1 n1 e1 k tr H. rewrite W_snoc, Wl in H. apply K1, H.
      + intros j l x Ij L Ix. destruct (Jl j l x Ij L Ix) as [(_ & j0 & l0 & H1 & _ & H3 & H4)|[_ H]]; [apply (K2 j0 l0 x H1 H3 H4)|].
        pose proof (T_last _ _ T) as Q. unfold fresh_ids in Q. rewrite Forall_forall in Q. split; [apply Q, H|].
        intros y Iy Ey. f_equal. apply (NoDup_inj u_id _ (T_id _ _ T)); auto.
      + intros j l x q tr Ij L Ix Fq. rewrite W_snoc, Wl in Fq. cbn [c_listed find fst] in Fq. destruct (Jl j l x Ij L Ix) as [(Nk & j0 & l0 & H1 & H2 & H3 & H4)|[Ek H]].
        * destruct (N.eqb_spec k1 (j_id j)) as [E|_]; [congruence|]. rewrite H2 in Fq. apply (K3 j0 l0 x q tr); assumption.
        * rewrite Ek, N.eqb_refl in Fq. assert (Fq' := f_equal (fun o0 => match o0 with Some (_, y) => y | None => None end) Fq); cbv beta iota in Fq'; clear Fq; rename Fq' into Fq. destruct (c_reg (W t (u_user x) (u_net x) (u_end x))) as [[k z]|] eqn:C; [|discriminate Fq].
          cbn [option_map snd] in Fq. injection Fq as ->. destruct (K1 _ _ _ _ _ C) as (y & Iy & Ky & _ & At).
          assert (y = x) by (apply (NoDup_inj key _ (T_key _ _ T)); auto; rewrite Ky; reflexivity). subst y. exact At.
    - unfold on_send. destruct (find_job s k1) as [[k' u n m [[|x todo]|]]|] eqn:F; try (apply (kept_idle s); [exact K|reflexivity|reflexivity|apply jobs_less_same; reflexivity|reflexivity]).
      + cbn [fst snd]. apply (kept_idle s); auto. intros j l y I L Iy. cbn [with_jobs w_jobs] in I. apply filter_In in I as [I _]. exists j, l. auto.
      + apply find_job_some in F as F'. destruct F' as [Ij Ek]. cbn [j_id] in Ek. subst k'.
        assert (V : u_vapid x = vapid /\ u_user x = u /\ u_net x = n).
        { pose proof (G_jobs _ _ G) as J. rewrite Forall_forall in J. destruct (J _ Ij) as (? & ? & ? & _ & _ & H). destruct (H _ x eq_refl (or_introl eq_refl)) as (H1 & H2 & H3 & _). auto. }
        destruct V as (V & Hu & Hn). rewrite V, beqb_refl. cbn [fst snd].
        assert (Jl : forall s', w_jobs s' = set_job s k1 todo -> jobs_less s s').
        { intros s' E j' l' y I L Iy. rewrite E in I. apply in_map_iff in I as (j & <- & I). destruct (N.eqb (j_id j) k1) eqn:E1.
          - apply N.eqb_eq in E1. assert (j = Job k1 u n m (Some (x :: todo))) by (apply (NoDup_inj j_id _ (G_ids _ _ G)); auto). subst j. cbn [j_todo j_id] in *. injection L as <-.
            exists (Job k1 u n m (Some (x :: todo))), (x :: todo). split; [exact Ij|]. split; [reflexivity|]. split; [reflexivity|]. right. exact Iy.
          - exists j, l'. auto. }
        set (o := [ORequest k1 u n (u_end x) (u_auth x) (u_p256 x) m]).
        assert (Req : forall u2 n2 e2, requested u2 n2 e2 o = true <-> key x = (u2, n2, e2)).
        { intros u2 n2 e2. unfold requested, o. cbn [existsb]. rewrite orb_false_r, !andb_true_iff, !N.eqb_eq, beqb_eq. unfold key. rewrite Hu, Hn.
          split; [intros [[-> ->] ->]; reflexivity|]. intros H. injection H as -> -> ->. auto. }
        assert (Wt : forall u2 n2 e2 c, watching parse_tags u2 n2 e2 c (WSend k1 now r, o) =
          if requested u2 n2 e2 o then
            match r with
            | WOk => c
            | WExpired => Watch None (c_listed c)
            | WError => match find (fun q => N.eqb (fst q) k1) (c_listed c) with
                        | Some (_, Some tr) => if now - tr <=? patience then c else Watch None (c_listed c)
                        | _ => Watch None (c_listed c)
                        end
            end else c) by reflexivity.
        assert (Cl : forall u2 n2 e2, c_listed (watching parse_tags u2 n2 e2 (W t u2 n2 e2) (WSend k1 now r, o)) = c_listed (W t u2 n2 e2)).
        { intros u2 n2 e2. rewrite Wt. destruct (requested u2 n2 e2 o); [|reflexivity]. destruct r; try reflexivity. destruct (find _ _) as [[q [tr|]]|]; try reflexivity. destruct (_ <=? _); reflexivity. }
        assert (Cr : forall u2 n2 e2 v, c_reg (watching parse_tags u2 n2 e2 (W t u2 n2 e2) (WSend k1 now r, o)) = Some v ->
          c_reg (W t u2 n2 e2) = Some v /\ (key x = (u2, n2, e2) -> r <> WExpired /\ (r = WError -> now - u_at x <= prune_delay))).
        { intros u2 n2 e2 v H. rewrite Wt in H. destruct (requested u2 n2 e2 o) eqn:Rq.
          - apply Req in Rq. unfold key in Rq. injection Rq as <- <- <-. destruct r; [split; [exact H|]; intros _; split; discriminate|discriminate H|].
            destruct (find _ _) as [[q [tr|]]|] eqn:Fd; try discriminate H. destruct (now - tr <=? patience) eqn:Pt; [|discriminate H]. split; [exact H|]. intros _. split; [discriminate|]. intros _.
            apply Z.leb_le in Pt. pose proof (K_at _ _ K _ _ x q tr Ij eq_refl (or_introl eq_refl) Fd) as At. unfold patience in Pt. unfold check_delay in At. unfold prune_delay. lia.
          - split; [exact H|]. intros Kx. apply Req in Kx. congruence. }
        assert (Sm : True -> kept (with_jobs s (set_job s k1 todo)) (t ++ [(WSend k1 now r, o)])).
        { intros _. apply (kept_less s _ t _ (fun _ => true) K); [rewrite filter_true; reflexivity|reflexivity|apply Jl; reflexivity|exact Cl|]. intros u2 n2 e2 v H. destruct (Cr u2 n2 e2 v H) as [H1 _]. auto. }
        assert (Dl : (r = WExpired \/ (r = WError /\ prune_delay < now - u_at x)) -> kept (delete_row (with_jobs s (set_job s k1 todo)) (u_id x)) (t ++ [(WSend k1 now r, o)])).
        { intros Hr. apply (kept_less s _ t _ (fun y => negb (N.eqb (u_id y) (u_id x))) K); [reflexivity|reflexivity|apply Jl; reflexivity|exact Cl|]. intros u2 n2 e2 v H.
          destruct (Cr u2 n2 e2 v H) as [H1 H2]. split; [exact H1|]. intros y Iy Ky. apply negb_true_iff, N.eqb_neq. intros Ei.
          destruct (K_id _ _ K _ _ x Ij eq_refl (or_introl eq_refl)) as [_ Hk]. rewrite (Hk y Iy Ei) in Ky. destruct (H2 Ky) as [N1 N2]. destruct Hr as [Hr|[Hr Hp]]; [destruct (N1 Hr)|specialize (N2 Hr); lia]. }
        destruct r; [apply Sm; exact I|apply Dl; left; reflexivity|]. destruct (prune_delay <? now - u_at x) eqn:Pr; [apply Dl; right; split; [reflexivity|apply Z.ltb_lt, Pr]|apply Sm; exact I].
  Qed.
  Lemma kept_run l s t : serial = true -> run l new_wst = (s, t) -> good s t /\ kept s t.
  Proof.
    intros Hs. apply (run_ind (fun s t => good s t /\ kept s t)).
    - split; [exact good_new|]. split; [intros; discriminate|intros ? ? ? []|intros ? ? ? ? ? []].
    - intros s1 t1 e [G K]. split; [apply good_step, G|apply kept_step; assumption].
  Qed.

  Lemma step_list s ev k u n : In (OList k u n) (snd (step s ev)) ->
    exists m, find_job s k = Some (Job k u n m None) /\ fst (step s ev) = with_jobs s (set_job s k (rows s u n)).
  Proof.
    destruct ev as [u1 n1 cap ps now check test|u1 n1 m1 self direct hl ch b tm|u1 n1 m1 ours joined saved|u1 n1 target ts now|u1 n1 target|u1 n1|u1 n1|k1|k1 now r]; cbn [wstep]; intros H.
    - destruct (command_done s u1 n1 cap ps now check test) as [_ S]. destruct (S _ H).
    - exfalso. unfold on_text in H. cbv zeta in H. destruct (_ && _); [|destruct H]. cbn [broadcast snd] in H. destruct H as [H|[]]. discriminate H.
    - exfalso. unfold on_invite in H. destruct (_ && _); [|destruct H]. destruct H as [H|[]]. discriminate H.
    - exfalso. unfold on_mark in H. cbv zeta in H. destruct (_ <? _); [|destruct H]. destruct (tget _ _ _ _); [|destruct H]. destruct H as [H|[]]. discriminate H.
    - destruct H.
    - destruct H.
    - destruct H.
    - destruct (find_job s k1) as [[k' u' n' m' [todo|]]|] eqn:F; try (destruct H; fail). destruct H as [H|[]]. injection H as -> -> ->.
      exists m'. apply find_job_some in F as F'. destruct F' as [_ F']. cbn [j_id] in F'. subst k'. split; [exact F|reflexivity].
    - exfalso. unfold on_send in H. destruct (find_job s k1) as [[k' u' n' m' [[|x todo]|]]|]; try (destruct H; fail). destruct (beqb (u_vapid x) vapid); [|destruct H].
      destruct H as [H|[]]; discriminate H.
  Qed.

  Theorem reached l s t1 ev o t2 k u n m q e a p tr : serial = true -> run l new_wst = (s, t1 ++ (ev, o) :: t2) ->
    In q t1 -> start k u n m q -> listing k u n (ev, o) -> ended k t2 -> working parse_tags t1 u n e = Some (a, p, tr) ->
    In (ORequest k u n e a p m) (requests k t2).
  Proof.
    intros Hs R Iq St Ls En Wk. apply run_split in R as (l1 & l2 & s1 & -> & R1 & -> & R2). destruct (kept_run l1 s1 t1 Hs R1) as [G K].
    unfold listing in Ls. cbn [snd] in Ls.
    destruct (step_list s1 ev k u n Ls) as (m1 & F & Es).
    assert (Em : m1 = m).
    { destruct (single_run l1 s1 t1 R1 q k u n m Iq St) as [_ H]. apply find_job_some in F as [Ij Ei]. apply (H _ Ij Ei). }
    subst m1. rewrite Es in R2.
    assert (F1 : find_job (with_jobs s1 (set_job s1 k (rows s1 u n))) k = Some (Job k u n m (Some (rows s1 u n)))).
    { unfold find_job at 1. cbn [with_jobs w_jobs]. rewrite find_set, F, N.eqb_refl. reflexivity. }
    assert (Lt : (k < w_next (with_jobs s1 (set_job s1 k (rows s1 u n))))%N) by (apply (find_known s1 t1 k _ G F)).
    assert (V : Forall (fun x => u_vapid x = vapid) (rows s1 u n)).
    { apply Forall_forall. intros x I. apply rows_In in I as [I _]. pose proof (T_vapid _ _ (G_tables _ _ G)) as V. rewrite Forall_forall in V. apply V, I. }
    destruct (drain l2 k u n m (rows s1 u n) _ Lt F1 V) as [_ D]. rewrite R2 in D. cbn [snd] in D. rewrite (D En).
    destruct (K_row _ _ K u n e (a, p) tr Wk) as (x & I & Kx & Kk & _). unfold key in Kx. injection Kx as Hu Hn He. injection Kk as Ha Hp.
    apply in_map_iff. exists x. split; [unfold req; congruence|]. apply rows_In. auto.
  Qed.

  (** ** Registrations are accepted *)
  Theorem accepted l s t u n e text r a p now : run l new_wst = (s, t) -> keys_of parse_tags text = Some (a, p) ->
    (forall ends, NoDup ends -> (forall x, In x ends -> reg t u n x <> None) -> (length ends <= 25)%nat) ->
    granted (snd (step s (WCommand u n true (B "REGISTER" :: e :: text :: r) now true WOk))) = true.
  Proof.
    intros R K L. pose proof (good_run _ _ _ R) as G. assert (Le : (length (rows s u n) <= 25)%nat).
    { rewrite <- (map_length u_end). apply L; [apply (ends_nodup s t u n G)|]. intros x I. apply in_map_iff in I as (y & <- & I). apply rows_In in I as (I & <- & <-).
      pose proof (T_reg _ _ (G_tables _ _ G)) as Q. rewrite Forall_forall in Q. rewrite (Q y I). discriminate. }
    cbn [wstep]. unfold command. cbn [negb]. change (beqb (B "REGISTER") (B "REGISTER")) with true. cbv iota. unfold register_sub. unfold keys_of in K.
    destruct (tag (parse_tags text) (B "auth")) as [a'|]; [|discriminate K]. destruct (tag (parse_tags text) (B "p256dh")) as [p'|]; [|discriminate K]. cbv zeta.
    destruct (Nat.ltb_spec 25 (length (rows s u n))) as [H|_]; [lia|]. destruct (match find_sub (rows s u n) e with None => true | Some _ => _ end); reflexivity.
  Qed.
  Theorem left_ s u n e r now check test : granted (snd (step s (WCommand u n true (B "UNREGISTER" :: e :: r) now check test))) = true.
  Proof. reflexivity. Qed.

  (** ** Endpoints are tested first *)
  Theorem tested l s t u n cap e text r a p now check test : run l new_wst = (s, t) -> keys_of parse_tags text = Some (a, p) ->
    granted (snd (step s (WCommand u n cap (B "REGISTER" :: e :: text :: r) now check test))) = true ->
    (check = true /\ test = WOk /\ In (OTest e a p) (snd (step s (WCommand u n cap (B "REGISTER" :: e :: text :: r) now check test)))) \/ reg t u n e = Some (a, p).
  Proof.
    intros R K. pose proof (good_run _ _ _ R) as G. cbn [wstep]. unfold command. destruct cap; cbn [negb]; [|discriminate].
    change (beqb (B "REGISTER") (B "REGISTER")) with true. cbv iota. unfold register_sub. unfold keys_of in K.
    destruct (tag (parse_tags text) (B "auth")) as [a'|]; [|discriminate K]. destruct (tag (parse_tags text) (B "p256dh")) as [p'|]; [|discriminate K]. injection K as -> ->. cbv zeta.
    destruct (25 <? length (rows s u n))%nat; [discriminate|]. destruct (find_sub (rows s u n) e) as [x|] eqn:F.
    - destruct (_ || _) eqn:U.
      + destruct check; cbn [negb]; [|discriminate]. destruct test; try discriminate. intros _. left. repeat (split; [reflexivity|]). left. reflexivity.
      + intros _. right. apply orb_false_iff in U as [_ U]. apply negb_false_iff in U. apply andb_true_iff in U as [U _]. apply andb_true_iff in U as [U1 U2]. apply beqb_eq in U1, U2.
        apply find_some in F as [I E]. pose proof (T_reg _ _ (G_tables _ _ G)) as Q. rewrite Forall_forall in Q. specialize (Q x I). unfold key in E. injection E as <- <- <-. rewrite Q. congruence.
    - destruct check; cbn [negb]; [|discriminate]. destruct test; try discriminate. intros _. left. repeat (split; [reflexivity|]). left. reflexivity.
  Qed.

  (** ** Notifications are of the network they are about *)
  Definition on_net (n : N) (ev : wev) : Prop :=
    match ev with WText _ n' _ _ _ _ _ _ _ | WInvite _ n' _ _ _ _ | WMark _ n' _ _ _ => n' = n | _ => False end.
  Theorem unbound l s t n : run l new_wst = (s, t) -> (forall ev, In ev l -> ~ on_net n ev) ->
    forall k u e a p m q, In q t -> ~ In (ORequest k u n e a p m) (snd q).
  Proof.
    intros R H k u e a p m [ev o] I Q. cbn [snd] in Q. apply in_split in I as (t1 & t2 & ->).
    destruct (recipients l s t1 ev o t2 k u n e a p m R Q) as (ta & q & tb & tc & -> & S & _). destruct q as [ev1 o1]. unfold start in S. cbn [snd] in S.
    assert (I1 : In (ev1, o1) ((ta ++ (ev1, o1) :: tb ++ tc) ++ (ev, o) :: t2)) by (apply in_app_iff; left; apply in_app_iff; right; left; reflexivity).
    pose proof (worth_it l s _ ev1 o1 k u n m R I1 S) as Wo. apply in_split in I1 as (t3 & t4 & E). rewrite E in R.
    apply run_split in R as (l1 & l2 & s1 & -> & _). apply (H ev1); [apply in_app_iff; right; left; reflexivity|]. destruct ev1; cbn [worth on_net] in *; tauto.
  Qed.

  (** ** Dismissals *)
  Lemma same_key_eq u n b u' n' b' z : same_key u n b (u', n', b', z) = true <-> u = u' /\ n = n' /\ b = b'.
  Proof. unfold same_key. rewrite !andb_true_iff, !N.eqb_eq, beqb_eq. tauto. Qed.
  Lemma tget_del l u n b u' n' b' : tget (tdel l u' n' b') u n b = if N.eqb u u' && N.eqb n n' && beqb b b' then None else tget l u n b.
  Proof.
    unfold tget, tdel. induction l as [|[[[u1 n1] b1] z1] l IH]; cbn [filter find option_map]; [destruct (_ && _); reflexivity|].
    destruct (same_key u' n' b' (u1, n1, b1, z1)) eqn:E1; cbn [negb].
    - rewrite IH. destruct (N.eqb u u' && N.eqb n n' && beqb b b') eqn:E2; [reflexivity|].
      destruct (same_key u n b (u1, n1, b1, z1)) eqn:E3; [|reflexivity]. apply same_key_eq in E1 as (-> & -> & ->). apply same_key_eq in E3 as (-> & -> & ->).
      rewrite !N.eqb_refl, beqb_refl in E2. discriminate E2.
    - cbn [find]. destruct (same_key u n b (u1, n1, b1, z1)) eqn:E3; [|exact IH]. destruct (N.eqb u u' && N.eqb n n' && beqb b b') eqn:E2; [|reflexivity].
      apply andb_true_iff in E2 as [E2 Eb]. apply andb_true_iff in E2 as [Eu En]. apply N.eqb_eq in Eu, En. apply beqb_eq in Eb. subst. congruence.
  Qed.
  Lemma tget_set l u n b u' n' b' z : tget (tset l u' n' b' z) u n b = if N.eqb u u' && N.eqb n n' && beqb b b' then Some z else tget l u n b.
  Proof.
    unfold tset, tget. cbn [find]. change (same_key u n b (u', n', b', z)) with (N.eqb u u' && N.eqb n n' && beqb b b').
    destruct (N.eqb u u' && N.eqb n n' && beqb b b') eqn:E; [reflexivity|]. pose proof (tget_del l u n b u' n' b') as D. rewrite E in D. exact D.
  Qed.
  Lemma tget_net l u n b u' n' : tget (filter (fun x => negb (of_net u' n' x)) l) u n b = if N.eqb u' u && N.eqb n' n then None else tget l u n b.
  Proof.
    unfold tget. induction l as [|[[[u1 n1] b1] z1] l IH]; cbn [filter find option_map]; [destruct (_ && _); reflexivity|].
    destruct (of_net u' n' (u1, n1, b1, z1)) eqn:E1; cbn [negb].
    - rewrite IH. destruct (N.eqb u' u && N.eqb n' n) eqn:E2; [reflexivity|]. destruct (same_key u n b (u1, n1, b1, z1)) eqn:E3; [|reflexivity].
      apply same_key_eq in E3 as (-> & -> & ->). unfold of_net in E1. congruence.
    - cbn [find]. destruct (same_key u n b (u1, n1, b1, z1)) eqn:E3; [|exact IH]. apply same_key_eq in E3 as (-> & -> & ->). unfold of_net in E1. rewrite E1. reflexivity.
  Qed.
  Lemma key3 u n b u' n' b' : (N.eqb u u' && N.eqb n n' && beqb b b' = true) -> u = u' /\ n = n' /\ b = b'.
  Proof. rewrite !andb_true_iff, !N.eqb_eq, beqb_eq. tauto. Qed.
  Lemma zmin ts now : (if now <? ts then now else ts) = Z.min ts now.
  Proof. destruct (Z.ltb_spec now ts); lia. Qed.

  (** The targets and marks after a step. *)
  Lemma targets_quiet s ev u n b z z0 : tget (w_targets s) u n (cm u n b) = Some z0 -> z <= z0 -> quiet cm u n b z (ev, snd (step s ev)) ->
    exists z1, tget (w_targets (fst (step s ev))) u n (cm u n b) = Some z1 /\ z <= z1.
  Proof.
    intros H Hz Q. unfold quiet in Q. cbn [fst] in Q.
    destruct ev as [u1 n1 cap ps now check test|u1 n1 m1 self direct hl ch b1 tm|u1 n1 m1 ours joined saved|u1 n1 target ts now|u1 n1 target|u1 n1|u1 n1|k1|k1 now r]; cbn [wstep].
    - exists z0. split; [|exact Hz]. rewrite <- H. destruct (command_done s u1 n1 cap ps now check test) as [D _]. destruct D; reflexivity.
    - unfold on_text. cbv zeta. destruct (_ && _); [|exists z0; auto]. destruct tm as [z1|]; [|exists z0; auto]. cbn [broadcast fst with_targets w_targets]. rewrite tget_set.
      destruct (_ && beqb _ _) eqn:E; [|exists z0; auto]. apply key3 in E as (<- & <- & E). exists z1. split; [reflexivity|]. apply Q; auto.
    - exists z0. split; [|exact Hz]. rewrite <- H. unfold on_invite. destruct (_ && _); reflexivity.
    - unfold on_mark. cbv zeta. rewrite zmin. destruct (_ <? _); [|exists z0; auto]. cbn [with_marks w_targets]. destruct (tget (w_targets s) u1 n1 (cm u1 n1 target)) as [z1|] eqn:Tg; [|exists z0; auto].
      destruct (Z.ltb_spec (Z.min ts now) z1) as [_|Ge]; cbn [broadcast fst w_targets with_targets with_marks]; [exists z0; auto|].
      rewrite tget_del. destruct (_ && beqb _ _) eqn:E; [|exists z0; auto]. apply key3 in E as (<- & <- & E). rewrite <- E, H in Tg. injection Tg as <-. specialize (Q eq_refl eq_refl (eq_sym E)). lia.
    - cbn [fst with_targets w_targets]. rewrite tget_del. destruct (_ && beqb _ _) eqn:E; [|exists z0; auto]. apply key3 in E as (<- & <- & E). destruct (Q eq_refl eq_refl (eq_sym E)).
    - cbn [fst with_targets w_targets]. rewrite tget_net. destruct (_ && _) eqn:E; [|exists z0; auto]. apply andb_true_iff in E as [E1 E2]. apply N.eqb_eq in E1, E2. destruct (Q E1 E2).
    - cbn [fst w_targets]. rewrite tget_net. destruct (_ && _) eqn:E; [|exists z0; auto]. apply andb_true_iff in E as [E1 E2]. apply N.eqb_eq in E1, E2. destruct (Q E1 E2).
    - exists z0. split; [|exact Hz]. rewrite <- H. destruct (find_job s k1) as [[k' u' n' m' [todo|]]|]; reflexivity.
    - exists z0. split; [|exact Hz]. rewrite <- H. unfold on_send. destruct (find_job s k1) as [[k' u' n' m' [[|x todo]|]]|]; try reflexivity.
      destruct (if beqb (u_vapid x) vapid then _ else _) as [o r1]. destruct r1; try reflexivity. destruct (_ <? _); reflexivity.
  Qed.
  Lemma targets_run l u n b z : forall s z0, tget (w_targets s) u n (cm u n b) = Some z0 -> z <= z0 -> Forall (quiet cm u n b z) (snd (run l s)) ->
    exists z1, tget (w_targets (fst (run l s))) u n (cm u n b) = Some z1 /\ z <= z1.
  Proof.
    induction l as [|e l IH]; intros s z0 H Hz Q; [exists z0; auto|]. cbn [wrun] in *. destruct (step s e) as [s1 o] eqn:E. destruct (run l s1) as [s2 t] eqn:R. cbn [fst snd] in *.
    inversion Q as [|? ? Q1 Q2]; subst. pose proof (targets_quiet s e u n b z z0 H Hz) as S. rewrite E in S. cbn [fst snd] in S. destruct (S Q1) as (z1 & H1 & Hz1).
    specialize (IH s1 z1 H1 Hz1). rewrite R in IH. cbn [fst snd] in IH. apply IH, Q2.
  Qed.
  Lemma marks_behind l s t u n b z : run l new_wst = (s, t) -> 0 < z -> Forall (behind cm u n b z) t ->
    match tget (w_marks s) u n (cm u n b) with Some v => v < z | None => True end.
  Proof.
    intros R Hz. revert R. apply (run_ind (fun s t => Forall (behind cm u n b z) t -> match tget (w_marks s) u n (cm u n b) with Some v => v < z | None => True end)); [intros _; exact I|].
    clear s t. intros s t ev IH F. apply Forall_app in F as [F Fe]. specialize (IH F). inversion Fe as [|? ? Be _]; subst. unfold behind in Be. cbn [fst] in Be.
    destruct ev as [u1 n1 cap ps now check test|u1 n1 m1 self direct hl ch b1 tm|u1 n1 m1 ours joined saved|u1 n1 target ts now|u1 n1 target|u1 n1|u1 n1|k1|k1 now r]; cbn [wstep]; try exact IH.
    - destruct (command_done s u1 n1 cap ps now check test) as [D _]. destruct D; exact IH.
    - unfold on_text. cbv zeta. destruct (_ && _); [|exact IH]. destruct tm; exact IH.
    - unfold on_invite. destruct (_ && _); exact IH.
    - assert (M : match tget (tset (w_marks s) u1 n1 (cm u1 n1 target) (Z.min ts now)) u n (cm u n b) with Some v => v < z | None => True end).
      { rewrite tget_set. destruct (_ && beqb _ _) eqn:E; [|exact IH]. apply key3 in E as (<- & <- & E). apply Be; auto. }
      unfold on_mark. cbv zeta. rewrite zmin. destruct (_ <? _); [|exact IH]. destruct (tget _ _ _ (cm u1 n1 target)) as [z1|]; [|exact M]. destruct (_ <? z1); exact M.
    - cbn [fst w_marks]. rewrite tget_net. destruct (_ && _); [exact I|exact IH].
    - destruct (find_job s k1) as [[k' u' n' m' [todo|]]|]; exact IH.
    - unfold on_send. destruct (find_job s k1) as [[k' u' n' m' [[|x todo]|]]|]; try exact IH.
      destruct (if beqb (u_vapid x) vapid then _ else _) as [o r1]. destruct r1; try exact IH. destruct (_ <? _); exact IH.
  Qed.

  Theorem dismissed l s t1 u n m self direct hl ch b z o t2 b' ts now o' t3 k :
    run l new_wst = (s, t1 ++ (WText u n m self direct hl ch b (Some z), o) :: t2 ++ (WMark u n b' ts now, o') :: t3) ->
    In (OStart k u n m) o -> Forall (quiet cm u n b z) t2 -> Forall (behind cm u n b (Z.min ts now)) (t1 ++ t2) -> 0 < Z.min ts now ->
    cm u n b' = cm u n b ->
    exists k', o' = [OStart k' u n (msg (B "MARKREAD") [b'; time_text (Z.min ts now)])].
  Proof.
    intros R S Q Bh Hp Eb. pose proof R as R0. apply run_split in R as (l1 & l2 & s1 & -> & R1 & -> & R2). apply run_split in R2 as (l3 & l4 & s2 & -> & R3 & -> & R4).
    set (ev := WText u n m self direct hl ch b (Some z)) in *.
    assert (T0 : tget (w_targets (fst (step s1 ev))) u n (cm u n b) = Some z).
    { unfold ev in S |- *. cbn [wstep] in *. unfold on_text in *. cbv zeta in *. destruct (_ && _); [|destruct S]. cbn [broadcast fst with_targets w_targets]. rewrite tget_set, !N.eqb_refl, beqb_refl. reflexivity. }
    destruct (targets_run l3 u n b z _ z T0 (Z.le_refl z)) as (z1 & T1 & _); [rewrite R3; exact Q|]. rewrite R3 in T1. cbn [fst] in T1.
    assert (Rm : run (l1 ++ ev :: l3) new_wst = (s2, t1 ++ (ev, snd (step s1 ev)) :: t2)).
    { rewrite run_app, R1. cbn [wrun]. destruct (step s1 ev) as [s3 o3] eqn:E. cbn [fst snd] in *. rewrite R3. reflexivity. }
    assert (Mk : match tget (w_marks s2) u n (cm u n b) with Some v => v < Z.min ts now | None => True end).
    { apply (marks_behind _ _ _ u n b _ Rm Hp). apply Forall_app in Bh as [B1 B2]. apply Forall_app. split; [exact B1|]. constructor; [exact I|exact B2]. }
    cbn [wstep]. unfold on_mark. cbv zeta. rewrite zmin, Eb. cbn [with_marks w_targets]. rewrite T1.
    assert (Lt : (match tget (w_marks s2) u n (cm u n b) with Some z0 => z0 | None => 0 end <? Z.min ts now) = true) by (apply Z.ltb_lt; destruct (tget (w_marks s2) u n (cm u n b)); lia).
    rewrite Lt. destruct (Z.min ts now <? z1); cbn [broadcast snd]; eexists; reflexivity.
  Qed.
End Push.
