From Verif.Base Require Import Bytes Base64.
From Verif.Model Require Import Message GenMsg Username Caps Register.
From Verif.Spec Require Import Register.
From Verif.Proof Require GenMsg.
From Coq Require Import ZArith Lia.
Open Scope nat_scope.

Lemma auth_params_app a b : auth_params (a ++ b) = auth_params a ++ auth_params b.
Proof. unfold auth_params. apply flat_map_app. Qed.

Lemma last_sent_snoc cmd n es x : last_sent cmd n (es ++ [x]) =
  if beqb (m_command (snd x)) cmd && (n <=? length (m_params (snd x))) then hd [] (m_params (snd x)) else last_sent cmd n es.
Proof. unfold last_sent. rewrite fold_left_app. reflexivity. Qed.

Lemma split_on_nosep_all sep s : forall x, In x (split_on sep s) -> ~ In sep x.
Proof.
  induction s as [|c s IH]; intros x; cbn [split_on].
  - intros [<-|[]] [].
  - destruct (aeqb_spec c sep) as [->|Hn].
    + intros [<-|Hx]; [intros []|exact (IH x Hx)].
    + destruct (split_on sep s) as [|w ws].
      * intros [<-|[]] [E|[]]. exact (Hn E).
      * intros [<-|Hx]; [intros [E|Hi]; [exact (Hn E)|exact (IH w (or_introl eq_refl) Hi)]|exact (IH x (or_intror Hx))].
Qed.

Section Register.
  Variable atoi : bytes -> option Z.
  Variable parse_id : bytes -> option Z.
  Variable oauth_parse : bytes -> option (bytes * bytes).
  Variable oauth_failure : bytes.
  Notation rstep := (rstep atoi parse_id oauth_parse oauth_failure).
  Notation rrun := (rrun atoi parse_id oauth_parse oauth_failure).
  Notation handle_unregistered := (handle_unregistered atoi parse_id oauth_parse oauth_failure).
  Notation handle_auth := (handle_auth oauth_parse oauth_failure).
  Notation handle_authenticate := (handle_authenticate oauth_parse oauth_failure).
  Notation authenticated := (authenticated oauth_parse).

  Lemma authenticated_more es es' u imp : authenticated es u imp -> authenticated (es ++ es') u imp.
  Proof. intros (es1 & es2 & -> & H). exists es1, (es2 ++ es'). split; [symmetry; apply app_assoc|exact H]. Qed.

  Lemma authenticated_now es u imp : authenticates oauth_parse es u imp -> authenticated es u imp.
  Proof. intros H. exists es, []. split; [symmetry; apply app_nil_r|exact H]. Qed.

  Definition mech_name (m : mech) : bytes :=
    match m with MPlain => B "PLAIN" | MOauth _ => B "OAUTHBEARER" | MAnonymous => B "ANONYMOUS" end.

  (** The exchange underway. *)
  Definition sasl_ok (es : list rev_) (x : option sasl) : Prop :=
    match x with
    | None => True
    | Some (Sasl (MOauth true) _) => True
    | Some (Sasl m pending) => exists pre name chunks,
        auth_params es = pre ++ name :: chunks /\ to_upper name = mech_name m /\ pending = concat (map sasl_text chunks)
    end.

  Record details (es : list rev_) (s : rstate) : Prop := {
    d_pass : r_pass s = last_sent (B "PASS") 1 es;
    d_user : r_username s = last_sent (B "USER") 4 es;
    d_auth : r_auth s <> [] -> authenticated es (r_auth s) (r_imp s);
    d_imp : r_auth s = [] -> r_imp s = false;
    d_sasl : sasl_ok es (r_sasl s);
    d_none : r_user s = None
  }.

  (** A message that is not AUTHENTICATE. *)
  Lemma sasl_ok_other es e ord m x : m_command m <> B "AUTHENTICATE" -> sasl_ok es x -> sasl_ok (es ++ [(e, ord, m)]) x.
  Proof.
    intros Hc. destruct x as [[mm pending]|]; [|exact (fun H => H)]. unfold sasl_ok.
    assert (E : auth_params (es ++ [(e, ord, m)]) = auth_params es).
    { rewrite auth_params_app. cbn [auth_params flat_map snd]. rewrite (proj2 (beqb_neq _ _) Hc). apply app_nil_r. }
    rewrite E. exact (fun H => H).
  Qed.

  Lemma last_sent_other cmd n es e ord m : m_command m <> cmd -> last_sent cmd n (es ++ [(e, ord, m)]) = last_sent cmd n es.
  Proof. intros H. rewrite last_sent_snoc. cbn [snd]. rewrite (proj2 (beqb_neq _ _) H). reflexivity. Qed.

  Lemma recv_chunk_pending pending p pending' o : recv_chunk pending p = Some (pending', o) ->
    match o with
    | None => pending' = pending ++ sasl_text p
    | Some resp => pending' = [] /\ b64_decode B64Std (pending ++ sasl_text p) = Some resp
    end.
  Proof.
    unfold recv_chunk. fold (sasl_text p). destruct (N.ltb _ _); [discriminate|]. destruct (Nat.eqb _ _).
    - intros H. injection H as <- <-. reflexivity.
    - destruct (b64_decode B64Std (pending ++ sasl_text p)) as [resp|]; [|discriminate]. intros H. injection H as <- <-. split; reflexivity.
  Qed.

  Lemma concat_snoc (l : list bytes) x : concat (map sasl_text (l ++ [x])) = concat (map sasl_text l) ++ sasl_text x.
  Proof. rewrite map_app, concat_app. cbn [map concat]. rewrite app_nil_r. reflexivity. Qed.

  (** handleAuthenticate only changes the field sasl, and hands out what was sent. *)
  Lemma authenticate_spec es s e ord m s1 outs r c :
    m_command m = B "AUTHENTICATE" -> sasl_ok es (r_sasl s) ->
    handle_authenticate s (m_params m) = (s1, outs, r, c) ->
    (exists x, s1 = set_sasl s x) /\
    match c with
    | None => sasl_ok (es ++ [(e, ord, m)]) (r_sasl s1)
    | Some (CPlain a u p) => sasl_response (B "PLAIN") (es ++ [(e, ord, m)]) (a ++ "000"%char :: u ++ "000"%char :: p) /\
        ~ In "000"%char a /\ ~ In "000"%char u /\ ~ In "000"%char p
    | Some (COauth u t) => exists resp, sasl_response (B "OAUTHBEARER") (es ++ [(e, ord, m)]) resp /\ oauth_parse resp = Some (u, t)
    | Some CAnonymous => True
    end.
  Proof.
    intros Hc Hs H. unfold Register.handle_authenticate in H.
    destruct (is_enabled (r_caps s) (B "sasl")); cbn [negb] in H.
    2: { apply pair_equal_spec in H as [H <-]. apply pair_equal_spec in H as [H _]. apply pair_equal_spec in H as [<- _]. split; [exists None; reflexivity|exact I]. }
    destruct (m_params m) as [|p ps] eqn:Ep.
    { apply pair_equal_spec in H as [H <-]. apply pair_equal_spec in H as [H _]. apply pair_equal_spec in H as [<- _]. split; [exists None; reflexivity|exact I]. }
    assert (Ea : auth_params (es ++ [(e, ord, m)]) = auth_params es ++ [p]).
    { rewrite auth_params_app. cbn [auth_params flat_map snd]. rewrite Hc, beqb_refl, Ep. reflexivity. }
    destruct (beqb p (B "*")).
    { apply pair_equal_spec in H as [H <-]. apply pair_equal_spec in H as [H _]. apply pair_equal_spec in H as [<- _]. split; [exists None; reflexivity|exact I]. }
    destruct (r_sasl s) as [[mm pending]|] eqn:Esasl.
    - cbn [sa_pending sa_mech] in H. destruct (recv_chunk pending p) as [[pending' o]|] eqn:Er.
      2: { apply pair_equal_spec in H as [H <-]. apply pair_equal_spec in H as [H _]. apply pair_equal_spec in H as [<- _]. split; [exists None; reflexivity|exact I]. }
      pose proof (recv_chunk_pending _ _ _ _ Er) as Hp.
      assert (Hnext : mm <> MOauth true -> exists pre name chunks,
        auth_params (es ++ [(e, ord, m)]) = pre ++ name :: chunks /\ to_upper name = mech_name mm /\ pending ++ sasl_text p = concat (map sasl_text chunks)).
      { intros Hne. assert (Hs' : exists pre name chunks, auth_params es = pre ++ name :: chunks /\ to_upper name = mech_name mm /\ pending = concat (map sasl_text chunks)).
        { destruct mm as [|[]|]; cbn [sasl_ok] in Hs; try exact Hs. congruence. }
        destruct Hs' as (pre & name & chunks & A1 & A2 & A3). exists pre, name, (chunks ++ [p]). split; [|split; [exact A2|]].
        - rewrite Ea, A1, <- app_assoc. reflexivity.
        - rewrite concat_snoc, A3. reflexivity. }
      destruct o as [resp|].
      + destruct Hp as [-> Hd]. destruct mm as [|[]|]; cbn [sasl_next] in H.
        * destruct (split_on "000" resp) as [|a [|u [|pw [|z t]]]] eqn:Esp;
            apply pair_equal_spec in H as [H <-]; apply pair_equal_spec in H as [H _]; apply pair_equal_spec in H as [<- _];
            (split; [eexists; reflexivity|]); try exact I.
          pose proof (join_split "000" resp) as Hj. rewrite Esp in Hj. cbn [join] in Hj.
          assert (Hin : forall x, In x [a; u; pw] -> ~ In "000"%char x) by (rewrite <- Esp; apply split_on_nosep_all).
          split; [|split; [|split]]; [|apply Hin; left; reflexivity|apply Hin; right; left; reflexivity|apply Hin; right; right; left; reflexivity].
          destruct (Hnext ltac:(discriminate)) as (pre & name & chunks & A1 & A2 & A3). exists pre, name, chunks. split; [exact A1|]. split; [exact A2|].
          rewrite <- A3, Hd. f_equal. rewrite <- Hj. reflexivity.
        * apply pair_equal_spec in H as [H <-]. apply pair_equal_spec in H as [H _]. apply pair_equal_spec in H as [<- _]. split; [eexists; reflexivity|exact I].
        * destruct (oauth_parse resp) as [[u t]|] eqn:Eo; apply pair_equal_spec in H as [H <-]; apply pair_equal_spec in H as [H _]; apply pair_equal_spec in H as [<- _];
            (split; [eexists; reflexivity|]); [|exact I].
          exists resp. split; [|exact Eo].
          destruct (Hnext ltac:(discriminate)) as (pre & name & chunks & A1 & A2 & A3). exists pre, name, chunks. split; [exact A1|]. split; [exact A2|].
          rewrite <- A3. exact Hd.
        * apply pair_equal_spec in H as [H <-]. apply pair_equal_spec in H as [H _]. apply pair_equal_spec in H as [<- _]. split; [eexists; reflexivity|exact I].
      + apply pair_equal_spec in H as [H <-]. apply pair_equal_spec in H as [H _]. apply pair_equal_spec in H as [<- _]. split; [eexists; reflexivity|].
        cbn [set_sasl r_sasl]. subst pending'. destruct mm as [|[]|]; cbn [sasl_ok]; try exact I; apply Hnext; discriminate.
    - destruct (find_mech (to_upper p)) as [mm|] eqn:Ef;
        apply pair_equal_spec in H as [H <-]; apply pair_equal_spec in H as [H _]; apply pair_equal_spec in H as [<- _]; (split; [eexists; reflexivity|]); [|exact I].
      cbn [set_sasl r_sasl].
      assert (Hm : to_upper p = mech_name mm /\ mm <> MOauth true).
      { unfold find_mech in Ef. destruct (beqb_spec (to_upper p) (B "PLAIN")) as [E|_]; [injection Ef as <-; split; [exact E|discriminate]|].
        destruct (beqb_spec (to_upper p) (B "OAUTHBEARER")) as [E|_]; [injection Ef as <-; split; [exact E|discriminate]|].
        destruct (beqb_spec (to_upper p) (B "ANONYMOUS")) as [E|_]; [injection Ef as <-; split; [exact E|discriminate]|discriminate]. }
      destruct Hm as [Hm1 Hm2].
      assert (Hk : exists pre name chunks, auth_params (es ++ [(e, ord, m)]) = pre ++ name :: chunks /\ to_upper name = mech_name mm /\ ([] : bytes) = concat (map sasl_text chunks)).
      { exists (auth_params es), p, []. split; [exact Ea|]. split; [exact Hm1|reflexivity]. }
      destruct mm as [|[]|]; cbn [sasl_ok]; try exact I; exact Hk.
  Qed.

  Lemma verify_spec es e ord m c names imp :
    match c with
    | CPlain a u p => sasl_response (B "PLAIN") (es ++ [(e, ord, m)]) (a ++ "000"%char :: u ++ "000"%char :: p) /\
        ~ In "000"%char a /\ ~ In "000"%char u /\ ~ In "000"%char p
    | COauth u t => exists resp, sasl_response (B "OAUTHBEARER") (es ++ [(e, ord, m)]) resp /\ oauth_parse resp = Some (u, t)
    | CAnonymous => True
    end ->
    verify e c = Some (names, imp) -> authenticated (es ++ [(e, ord, m)]) (fst (fst names)) imp.
  Proof.
    intros Hc H. apply authenticated_now. destruct c as [a u p|u t|]; cbn [verify] in H; [| |discriminate].
    - destruct Hc as (H1 & H2 & H3 & H4). destruct (e_plain e) as [f|] eqn:Ep; [|discriminate].
      fold (account u) in H. destruct (f (account u) p) eqn:Ef; cbn [negb] in H; [|discriminate].
      destruct (beqb a [] || beqb a u) eqn:Ea.
      + injection H as <- <-. fold (account u). apply (by_plain _ _ es e ord m f a u p eq_refl H1 H2 H3 H4 Ep Ef).
        apply orb_true_iff in Ea as [Ea|Ea]; apply beqb_eq in Ea; [left|right]; exact Ea.
      + destruct (e_user e (account u)) as [[]|] eqn:Eu; cbn [negb] in H; try discriminate.
        fold (account a) in H. destruct (e_user e (account a)) eqn:Eu'; [|discriminate]. injection H as <- <-. fold (account a).
        apply (by_admin _ _ es e ord m f a u p eq_refl H1 H2 H3 H4 Ep Ef Eu). congruence.
    - destruct Hc as (resp & H1 & H2). destruct (e_oauth e) as [g|] eqn:Eg; [|discriminate].
      destruct (g t) as [u'|] eqn:Et; [|discriminate].
      destruct (nonempty u && negb (beqb u u')) eqn:En; [discriminate|]. injection H as <- <-. cbn [fst].
      apply (by_oauth _ _ es e ord m g resp u t u' eq_refl H1 H2 Eg Et).
      destruct u as [|ch u]; [left; reflexivity|]. right. cbn [nonempty andb] in En. apply negb_false_iff, beqb_eq in En. exact En.
  Qed.

  Lemma details_keep es e ord m s s1 :
    details es s -> m_command m <> B "PASS" -> m_command m <> B "USER" -> m_command m <> B "AUTHENTICATE" ->
    r_pass s1 = r_pass s -> r_username s1 = r_username s -> r_auth s1 = r_auth s -> r_imp s1 = r_imp s -> r_sasl s1 = r_sasl s -> r_user s1 = r_user s ->
    details (es ++ [(e, ord, m)]) s1.
  Proof.
    intros [D1 D2 D3 D4 D5 D6] C1 C2 C3 E1 E2 E3 E4 E5 E6. split; rewrite ?E1, ?E2, ?E3, ?E4, ?E5, ?E6.
    - rewrite last_sent_other; assumption.
    - rewrite last_sent_other; assumption.
    - intros H. apply authenticated_more. exact (D3 H).
    - exact D4.
    - apply sasl_ok_other; assumption.
    - exact D6.
  Qed.

  Lemma handle_details es s e ord m s1 outs r :
    details es s -> handle_unregistered s e ord m = (s1, outs, r) -> r <> HFatal -> details (es ++ [(e, ord, m)]) s1.
  Proof.
    intros D H Hr. unfold Register.handle_unregistered in H.
    destruct (beqb_spec (m_command m) (B "QUIT")) as [Ec|N1].
    { apply pair_equal_spec in H as [H _]. apply pair_equal_spec in H as [<- _].
      apply (details_keep es e ord m s); try reflexivity; try assumption; rewrite Ec; discriminate. }
    destruct (beqb_spec (m_command m) (B "NICK")) as [Ec|N2].
    { destruct (m_params m); apply pair_equal_spec in H as [H _]; apply pair_equal_spec in H as [<- _];
      apply (details_keep es e ord m s); try reflexivity; try assumption; rewrite Ec; discriminate. }
    destruct (beqb_spec (m_command m) (B "USER")) as [Ec|N3].
    { assert (Hk : forall s1, r_pass s1 = r_pass s -> r_username s1 = last_sent (B "USER") 4 (es ++ [(e, ord, m)]) -> r_auth s1 = r_auth s -> r_imp s1 = r_imp s -> r_sasl s1 = r_sasl s -> r_user s1 = r_user s -> details (es ++ [(e, ord, m)]) s1).
      { destruct D as [D1 D2 D3 D4 D5 D6]. intros s2 E1 E2 E3 E4 E5 E6. split; rewrite ?E1, ?E2, ?E3, ?E4, ?E5, ?E6; try assumption; try reflexivity.
        - rewrite last_sent_other; [assumption|]. rewrite Ec. discriminate.
        - intros Ha. apply authenticated_more. exact (D3 Ha).
        - apply sasl_ok_other; [rewrite Ec; discriminate|exact D5]. }
      assert (El : last_sent (B "USER") 4 (es ++ [(e, ord, m)]) = if 4 <=? length (m_params m) then hd [] (m_params m) else last_sent (B "USER") 4 es).
      { rewrite last_sent_snoc. cbn [snd]. rewrite Ec, beqb_refl. reflexivity. }
      destruct (m_params m) as [|p1 [|p2 [|p3 [|p4 t]]]] eqn:Ep; apply pair_equal_spec in H as [H _]; apply pair_equal_spec in H as [<- _];
        apply Hk; try reflexivity; rewrite El; cbn [length Nat.leb hd]; try (exact (d_user _ _ D)). reflexivity. }
    destruct (beqb_spec (m_command m) (B "PASS")) as [Ec|N4].
    { assert (Hk : forall s1, r_pass s1 = last_sent (B "PASS") 1 (es ++ [(e, ord, m)]) -> r_username s1 = r_username s -> r_auth s1 = r_auth s -> r_imp s1 = r_imp s -> r_sasl s1 = r_sasl s -> r_user s1 = r_user s -> details (es ++ [(e, ord, m)]) s1).
      { destruct D as [D1 D2 D3 D4 D5 D6]. intros s2 E1 E2 E3 E4 E5 E6. split; rewrite ?E1, ?E2, ?E3, ?E4, ?E5, ?E6; try assumption; try reflexivity.
        - rewrite last_sent_other; [assumption|]. rewrite Ec. discriminate.
        - intros Ha. apply authenticated_more. exact (D3 Ha).
        - apply sasl_ok_other; [rewrite Ec; discriminate|exact D5]. }
      assert (El : last_sent (B "PASS") 1 (es ++ [(e, ord, m)]) = if 1 <=? length (m_params m) then hd [] (m_params m) else last_sent (B "PASS") 1 es).
      { rewrite last_sent_snoc. cbn [snd]. rewrite Ec, beqb_refl. reflexivity. }
      destruct (m_params m) as [|p1 t] eqn:Ep; apply pair_equal_spec in H as [H _]; apply pair_equal_spec in H as [<- _];
        apply Hk; try reflexivity; rewrite El; cbn [length Nat.leb hd]; try (exact (d_pass _ _ D)). reflexivity. }
    destruct (beqb_spec (m_command m) (B "CAP")) as [Ec|N5].
    { apply pair_equal_spec in H as [H _]. apply pair_equal_spec in H as [<- _].
      apply (details_keep es e ord m s); try reflexivity; try assumption; rewrite Ec; discriminate. }
    destruct (beqb_spec (m_command m) (B "AUTHENTICATE")) as [Ec|N6].
    { unfold Register.handle_auth in H. destruct (handle_authenticate s (m_params m)) as [[[s2 outs2] r2] c] eqn:Ea.
      destruct (authenticate_spec es s e ord m s2 outs2 r2 c Ec (d_sasl _ _ D) Ea) as [(x & ->) Hc].
      assert (Hk : forall y a cl nn imp, (a <> [] -> authenticated (es ++ [(e, ord, m)]) a imp) -> (a = [] -> imp = false) -> sasl_ok (es ++ [(e, ord, m)]) y ->
        details (es ++ [(e, ord, m)]) (Rstate (r_caps s) (r_nick s) (r_username s) (r_pass s) a cl nn (r_netid s) imp y (r_user s) (r_closed s))).
      { destruct D as [D1 D2 D3 D4 D5 D6]. intros y a cl nn imp A1 A2 A3. split; cbn [r_pass r_username r_auth r_imp r_sasl r_user]; try assumption.
        - rewrite last_sent_other; [assumption|]. rewrite Ec. discriminate.
        - rewrite last_sent_other; [assumption|]. rewrite Ec. discriminate. }
      assert (Hold : r_auth s <> [] -> authenticated (es ++ [(e, ord, m)]) (r_auth s) (r_imp s)).
      { intros Ha. apply authenticated_more. exact (d_auth _ _ D Ha). }
      destruct c as [c|].
      - destruct (verify e c) as [[names imp]|] eqn:Ev.
        + destruct (beqb (fst (fst names)) []) eqn:En.
          * apply pair_equal_spec in H as [_ <-]. congruence.
          * apply pair_equal_spec in H as [H _]. apply pair_equal_spec in H as [<- _].
            apply (Hk None (fst (fst names)) (snd (fst names)) (snd names) imp); [|intros E0; rewrite E0 in En; discriminate|exact I].
            intros _. apply (verify_spec es e ord m c); [exact Hc|exact Ev].
        + apply pair_equal_spec in H as [H _]. apply pair_equal_spec in H as [<- _]. apply (Hk None); [exact Hold|exact (d_imp _ _ D)|exact I].
      - apply pair_equal_spec in H as [H _]. apply pair_equal_spec in H as [<- _]. apply (Hk x); [exact Hold|exact (d_imp _ _ D)|exact Hc]. }
    assert (Hs : s1 = s \/ exists n, s1 = set_netid s n).
    { destruct (beqb (m_command m) (B "BOUNCER")).
      - destruct (m_params m) as [|sub args]; [left; congruence|]. destruct (beqb (to_upper sub) (B "BIND")); [|left; congruence].
        destruct args as [|i args]; [left; congruence|]. destruct (beqb (r_auth s) []); [left; congruence|].
        destruct (parse_id i) as [n|]; [right; exists n; congruence|left; congruence].
      - destruct (beqb (m_command m) (B "AWAY")); left; congruence. }
    apply (details_keep es e ord m s); try assumption; destruct Hs as [->|(n & ->)]; reflexivity.
  Qed.

  Lemma set_sasl_self s : set_sasl s (r_sasl s) = s.
  Proof. destruct s; reflexivity. Qed.

  Lemma register_spec es e ord m s s2 outs :
    details (es ++ [(e, ord, m)]) s -> register s e = (s2, outs, HOk) ->
    exists u, r_user s2 = Some u /\ authenticated (es ++ [(e, ord, m)]) u (r_imp s2).
  Proof.
    intros [D1 D2 D3 D4 D5 D6] H. unfold register in H.
    assert (Hs : exists x outs0, (match r_sasl s with Some _ => (set_sasl s None, [RError (B "906")]) | None => (s, []) end) = (set_sasl s x, outs0)).
    { destruct (r_sasl s) eqn:E; [exists None, [RError (B "906")]; reflexivity|]. exists (r_sasl s), []. rewrite set_sasl_self. reflexivity. }
    destruct Hs as (x & outs0 & Hs). rewrite Hs in H. clear Hs.
    cbn [set_sasl set_pass r_pass r_username r_auth r_caps r_client r_netname] in H.
    destruct (beqb_spec (r_auth s) []) as [Ea|Ea].
    - destruct (beqb_spec (r_pass s) []) as [Ep|Ep]; [discriminate|].
      destruct (e_plain e) as [f|] eqn:Ef; [|discriminate].
      fold (account (r_username s)) in H. destruct (f (account (r_username s)) (r_pass s)) eqn:Eok; [|discriminate].
      cbn [set_auth r_client r_netname r_auth r_caps] in H. fold (account (r_username s)) in H.
      destruct (merge _ _) as [client|]; [|discriminate]. destruct (merge _ _) as [netname|]; [|discriminate].
      apply pair_equal_spec in H as [H _]. apply pair_equal_spec in H as [<- _].
      exists (account (r_username s)). split; [reflexivity|]. cbn [set_user set_caps set_names set_auth set_pass set_sasl r_imp]. rewrite (D4 Ea).
      apply authenticated_now. rewrite D2. apply (by_pass oauth_parse _ es e ord m f eq_refl Ef).
      + rewrite <- D1. exact Ep.
      + rewrite <- D1, <- D2. exact Eok.
    - destruct (merge _ _) as [client|]; [|discriminate]. destruct (merge _ _) as [netname|]; [|discriminate].
      apply pair_equal_spec in H as [H _]. apply pair_equal_spec in H as [<- _].
      exists (r_auth s). split; [reflexivity|]. exact (D3 Ea).
  Qed.

  (** A failed registration leaves no user. *)
  Lemma register_fail s e s2 outs r : r_user s = None -> register s e = (s2, outs, r) -> r <> HOk -> r_user s2 = None.
  Proof.
    intros Hn H Hr. unfold register in H.
    assert (Hs : exists x outs0, (match r_sasl s with Some _ => (set_sasl s None, [RError (B "906")]) | None => (s, []) end) = (set_sasl s x, outs0)).
    { destruct (r_sasl s) eqn:E; [exists None, [RError (B "906")]; reflexivity|]. exists (r_sasl s), []. rewrite set_sasl_self. reflexivity. }
    destruct Hs as (x & outs0 & Hs). rewrite Hs in H. clear Hs.
    cbn [set_sasl set_pass r_pass r_username r_auth r_caps r_client r_netname] in H.
    destruct (beqb (r_auth s) []).
    - destruct (beqb (r_pass s) []); [apply pair_equal_spec in H as [H _]; apply pair_equal_spec in H as [<- _]; exact Hn|].
      destruct (e_plain e) as [f|]; [|apply pair_equal_spec in H as [H _]; apply pair_equal_spec in H as [<- _]; exact Hn].
      destruct (f _ _); [|apply pair_equal_spec in H as [H _]; apply pair_equal_spec in H as [<- _]; exact Hn].
      cbn [set_auth r_client r_netname r_auth r_caps] in H.
      destruct (merge _ _) as [client|]; [|apply pair_equal_spec in H as [H _]; apply pair_equal_spec in H as [<- _]; exact Hn].
      destruct (merge _ _) as [netname|]; [|apply pair_equal_spec in H as [H _]; apply pair_equal_spec in H as [<- _]; exact Hn].
      apply pair_equal_spec in H as [_ <-]. congruence.
    - destruct (merge _ _) as [client|]; [|apply pair_equal_spec in H as [H _]; apply pair_equal_spec in H as [<- _]; exact Hn].
      destruct (merge _ _) as [netname|]; [|apply pair_equal_spec in H as [H _]; apply pair_equal_spec in H as [<- _]; exact Hn].
      apply pair_equal_spec in H as [_ <-]. congruence.
  Qed.

  Definition rinv (es : list rev_) (s : rstate) : Prop :=
    (forall u, r_user s = Some u -> authenticated es u (r_imp s)) /\
    (r_user s = None -> r_closed s = false -> details es s).

  Lemma handle_user s e ord m s1 outs r : handle_unregistered s e ord m = (s1, outs, r) -> r_user s1 = r_user s.
  Proof.
    intros H. unfold Register.handle_unregistered in H.
    assert (P : forall (a b : rstate) (c d : list rout) (x y : hres), (a, c, x) = (b, d, y) -> r_user a = r_user s -> r_user b = r_user s).
    { intros a b c d x y E Ea. apply pair_equal_spec in E as [E _]. apply pair_equal_spec in E as [<- _]. exact Ea. }
    destruct (beqb _ (B "QUIT")); [exact (P _ _ _ _ _ _ H eq_refl)|].
    destruct (beqb _ (B "NICK")); [destruct (m_params m); exact (P _ _ _ _ _ _ H eq_refl)|].
    destruct (beqb _ (B "USER")); [destruct (m_params m) as [|p1 [|p2 [|p3 [|p4 t]]]]; exact (P _ _ _ _ _ _ H eq_refl)|].
    destruct (beqb _ (B "PASS")); [destruct (m_params m); exact (P _ _ _ _ _ _ H eq_refl)|].
    destruct (beqb _ (B "CAP")); [exact (P _ _ _ _ _ _ H eq_refl)|].
    destruct (beqb _ (B "AUTHENTICATE")).
    { unfold Register.handle_auth in H. destruct (handle_authenticate s (m_params m)) as [[[s2 outs2] r2] c] eqn:Ea.
      assert (Hx : exists x, s2 = set_sasl s x).
      { unfold Register.handle_authenticate in Ea.
        destruct (negb _); [exists None; congruence|]. destruct (m_params m); [exists None; congruence|]. destruct (beqb _ _); [exists None; congruence|].
        destruct (r_sasl s) as [x|]; [destruct (recv_chunk _ _) as [[pending [resp|]]|]; [destruct (sasl_next _ _ _)| |]|destruct (find_mech _)];
          apply pair_equal_spec in Ea as [Ea _]; apply pair_equal_spec in Ea as [Ea _]; apply pair_equal_spec in Ea as [<- _]; eexists; reflexivity. }
      destruct Hx as (x & ->).
      destruct c as [c|]; [destruct (verify e c) as [[names imp]|]; [destruct (beqb _ _)|]|]; exact (P _ _ _ _ _ _ H eq_refl). }
    destruct (beqb _ (B "BOUNCER")).
    { destruct (m_params m) as [|sub args]; [exact (P _ _ _ _ _ _ H eq_refl)|]. destruct (beqb _ (B "BIND")); [|exact (P _ _ _ _ _ _ H eq_refl)].
      destruct args as [|i args]; [exact (P _ _ _ _ _ _ H eq_refl)|]. destruct (beqb _ []); [exact (P _ _ _ _ _ _ H eq_refl)|].
      destruct (parse_id i); exact (P _ _ _ _ _ _ H eq_refl). }
    destruct (beqb _ (B "AWAY")); exact (P _ _ _ _ _ _ H eq_refl).
  Qed.

  Lemma rinv_step es s e ord m : rinv es s -> rinv (es ++ [(e, ord, m)]) (fst (rstep s e ord m)).
  Proof.
    intros [H1 H2]. unfold Register.rstep. destruct (r_closed s) eqn:Ec.
    { split; [intros u Hu; apply authenticated_more; exact (H1 u Hu)|]. cbn [fst]. congruence. }
    destruct (r_user s) as [u0|] eqn:Eu.
    { split; [intros u Hu; apply authenticated_more; cbn [fst] in *; apply H1; congruence|]. cbn [fst]. congruence. }
    pose proof (H2 eq_refl eq_refl) as D.
    destruct (handle_unregistered s e ord m) as [[s1 outs] r] eqn:Eh.
    pose proof (handle_user _ _ _ _ _ _ _ Eh) as Hu. rewrite Eu in Hu.
    destruct r as [|c|].
    3: { cbn [fst]. split; cbn [set_closed r_user r_closed]; [rewrite Hu; discriminate|discriminate]. }
    all: pose proof (handle_details es s e ord m s1 outs _ D Eh ltac:(discriminate)) as D1;
      destruct (beqb (r_nick s1) [] || beqb (r_username s1) [] || cs_negotiating (r_caps s1));
      [cbn [fst]; split; [rewrite Hu; discriminate|intros _ _; exact D1]|];
      destruct (register s1 e) as [[s2 outs2] r2] eqn:Er; cbn [fst];
      (destruct r2 as [|c2|];
        [destruct (register_spec es e ord m s1 s2 outs2 D1 Er) as (u & U1 & U2); split; [intros u' Hu'; replace u' with u by congruence; exact U2|congruence]
        |split; cbn [set_closed r_user r_closed]; [rewrite (register_fail _ _ _ _ _ Hu Er ltac:(discriminate)); discriminate|discriminate]
        |split; cbn [set_closed r_user r_closed]; [rewrite (register_fail _ _ _ _ _ Hu Er ltac:(discriminate)); discriminate|discriminate]]).
  Qed.

  Lemma rrun_snoc s es e ord m : fst (rrun s (es ++ [(e, ord, m)])) = fst (rstep (fst (rrun s es)) e ord m).
  Proof.
    revert s. induction es as [|[[e0 ord0] m0] es IH]; intros s; cbn [app Register.rrun fst]; [reflexivity|]. apply IH.
  Qed.

  Theorem registered_authenticated plain oauth store es u :
    r_user (fst (rrun (new_conn plain oauth store) es)) = Some u ->
    authenticated es u (r_imp (fst (rrun (new_conn plain oauth store) es))).
  Proof.
    assert (H : rinv es (fst (rrun (new_conn plain oauth store) es))).
    { induction es as [|[[e ord] m] es IH] using rev_ind.
      - cbn [Register.rrun fst]. split; [discriminate|]. intros _ _. split; try reflexivity; try exact I. intros H. destruct H. reflexivity.
      - rewrite rrun_snoc. apply rinv_step. exact IH. }
    exact (proj1 H u).
  Qed.
End Register.

(** ** The right credentials get in *)
Section Complete.
  Variable atoi : bytes -> option Z.
  Variable parse_id : bytes -> option Z.
  Variable oauth_parse : bytes -> option (bytes * bytes).
  Variable oauth_failure : bytes.
  Notation rstep := (rstep atoi parse_id oauth_parse oauth_failure).
  Notation rrun := (rrun atoi parse_id oauth_parse oauth_failure).
  Notation handle_unregistered := (handle_unregistered atoi parse_id oauth_parse oauth_failure).
  Notation handle_auth := (handle_auth oauth_parse oauth_failure).
  Variable e : env.
  Variable ord : list (bytes * bytes) -> list (bytes * bytes).
  Notation sends := (sends e ord).

  Lemma rrun_cons s m l : rrun s (sends (m :: l)) =
    (fst (rrun (fst (rstep s e ord m)) (sends l)), snd (rstep s e ord m) ++ snd (rrun (fst (rstep s e ord m)) (sends l))).
  Proof. reflexivity. Qed.

  Lemma rrun_app_sends l1 : forall s l2, rrun s (sends (l1 ++ l2)) =
    (fst (rrun (fst (rrun s (sends l1))) (sends l2)), snd (rrun s (sends l1)) ++ snd (rrun (fst (rrun s (sends l1))) (sends l2))).
  Proof.
    induction l1 as [|m l1 IH]; intros s l2.
    - cbn [app Spec.Register.sends map Register.rrun fst snd]. apply surjective_pairing.
    - cbn [app]. rewrite !rrun_cons. rewrite IH. cbn [fst snd]. rewrite app_assoc. reflexivity.
  Qed.

  Lemma rstep_open s m s1 outs r : r_closed s = false -> r_user s = None ->
    handle_unregistered s e ord m = (s1, outs, r) -> r <> HFatal ->
    beqb (r_nick s1) [] || beqb (r_username s1) [] || cs_negotiating (r_caps s1) = true ->
    rstep s e ord m = (s1, outs ++ errs r).
  Proof. intros Hc Hu H Hr Hn. unfold Register.rstep. rewrite Hc, Hu, H. destruct r; [|rewrite Hn; reflexivity|contradiction]. rewrite Hn. reflexivity. Qed.

  Lemma rstep_reg s m s1 outs s2 outs2 r2 : r_closed s = false -> r_user s = None ->
    handle_unregistered s e ord m = (s1, outs, HOk) ->
    beqb (r_nick s1) [] || beqb (r_username s1) [] || cs_negotiating (r_caps s1) = false ->
    register s1 e = (s2, outs2, r2) ->
    rstep s e ord m = (match r2 with HOk => s2 | _ => set_closed s2 end, outs ++ outs2 ++ errs r2).
  Proof. intros Hc Hu H Hn Hr. unfold Register.rstep. rewrite Hc, Hu, H, Hn, Hr. reflexivity. Qed.

  Lemma hu_pass s p : handle_unregistered s e ord (m_ "PASS" [p]) = (set_pass s p, [], HOk).
  Proof. reflexivity. Qed.
  Lemma hu_nick s n : handle_unregistered s e ord (m_ "NICK" [n]) = (set_nick s n, [], HOk).
  Proof. reflexivity. Qed.
  Lemma hu_user s u a b c : handle_unregistered s e ord (m_ "USER" [u; a; b; c]) = (set_username s u, [], HOk).
  Proof. reflexivity. Qed.
  Lemma hu_auth s p : handle_unregistered s e ord (m_ "AUTHENTICATE" [p]) = handle_auth s e [p].
  Proof. reflexivity. Qed.

  Definition fresh (s : rstate) : Prop := r_closed s = false /\ r_user s = None.

  Lemma ne_beqb (x : bytes) : x <> [] -> beqb x [] = false.
  Proof. intros H. apply beqb_neq. exact H. Qed.

  Lemma merge_nil x : merge [] x = Some x.
  Proof. reflexivity. Qed.
  Lemma merge_same x : merge x x = Some x.
  Proof. unfold merge. destruct x as [|c x]; [reflexivity|]. rewrite beqb_refl. cbn [negb]. rewrite andb_false_r. reflexivity. Qed.

  Lemma register_pass s f u : r_sasl s = None -> r_auth s = [] -> r_username s = u -> r_pass s <> [] -> e_plain e = Some f ->
    register s e =
    if f (account u) (r_pass s)
    then (set_user (set_caps (set_auth (set_pass s []) (unmarshal_username u))
             (Cstate (cs_avail (r_caps s)) (cs_enabled (r_caps s)) (cs_version (r_caps s)) true (cs_negotiating (r_caps s)))) (Some (account u)), [], HOk)
    else (set_pass s [], [], HError (B "464")).
  Proof.
    intros Hs Ha Hu Hp He. unfold register. rewrite Hs. cbn [set_pass r_pass r_username r_auth]. rewrite Hu, Ha, He.
    rewrite (ne_beqb _ Hp). change (beqb [] []) with true. cbv iota. unfold account.
    destruct (f (fst (fst (unmarshal_username u))) (r_pass s)) eqn:Ef; [|reflexivity].
    cbn [set_auth r_client r_netname]. rewrite !merge_same. destruct s. reflexivity.
  Qed.

  Section Pass.
    Variables (plain oauth store : bool) (f : bytes -> bytes -> bool) (p n u a b c : bytes).
    Hypothesis He : e_plain e = Some f.
    Hypothesis Hp : p <> [].
    Hypothesis Hn : n <> [].
    Hypothesis Hu : u <> [].

    Let s0 := new_conn plain oauth store.
    Let done_ s := rrun s0 (sends s) =
      let s := set_username (set_nick (set_pass s0 p) n) u in
      if f (account u) p
      then (set_user (set_caps (set_auth (set_pass s []) (unmarshal_username u))
             (Cstate (cs_avail (r_caps s)) (cs_enabled (r_caps s)) (cs_version (r_caps s)) true (cs_negotiating (r_caps s)))) (Some (account u)), [])
      else (set_closed (set_pass s []), [RError (B "464")]).

    Lemma last_step l (s : rstate) m : rrun s0 (sends l) = (s, []) ->
      fresh s -> handle_unregistered s e ord m = (set_username (set_nick (set_pass s0 p) n) u, [], HOk) -> done_ (l ++ [m]).
    Proof.
      intros Hl [Hc Hus] Hm. unfold done_. rewrite rrun_app_sends, Hl. cbn [fst snd app].
      rewrite rrun_cons. cbn [Spec.Register.sends map Register.rrun fst snd]. rewrite app_nil_r.
      rewrite <- surjective_pairing.
      pose proof (register_pass (set_username (set_nick (set_pass s0 p) n) u) f u eq_refl eq_refl eq_refl Hp He) as R.
      change (r_pass (set_username (set_nick (set_pass s0 p) n) u)) with p in R.
      cbv zeta. destruct (f (account u) p).
      - rewrite (rstep_reg s m _ _ _ _ _ Hc Hus Hm ltac:(change (beqb n [] || beqb u [] || false = false); rewrite (ne_beqb n Hn), (ne_beqb u Hu); reflexivity) R). reflexivity.
      - rewrite (rstep_reg s m _ _ _ _ _ Hc Hus Hm ltac:(change (beqb n [] || beqb u [] || false = false); rewrite (ne_beqb n Hn), (ne_beqb u Hu); reflexivity) R). reflexivity.
    Qed.

    Lemma step1 s m s1 : fresh s -> handle_unregistered s e ord m = (s1, [], HOk) -> r_nick s1 = [] \/ r_username s1 = [] ->
      rstep s e ord m = (s1, []).
    Proof.
      intros [Hc Hus] Hm Hno. rewrite (rstep_open s m s1 [] HOk Hc Hus Hm ltac:(discriminate)); [reflexivity|].
      destruct Hno as [-> | ->]; [reflexivity|]. rewrite orb_true_r. reflexivity.
    Qed.

    Lemma pass_nick_user : done_ [m_ "PASS" [p]; m_ "NICK" [n]; m_ "USER" [u; a; b; c]].
    Proof.
      apply (last_step [m_ "PASS" [p]; m_ "NICK" [n]] (set_nick (set_pass s0 p) n)); [|split; reflexivity|apply hu_user].
      rewrite rrun_cons, (step1 s0 _ _ (conj eq_refl eq_refl) (hu_pass s0 p) (or_introl eq_refl)). cbn [fst snd].
      rewrite rrun_cons, (step1 (set_pass s0 p) _ _ (conj eq_refl eq_refl) (hu_nick _ n) (or_intror eq_refl)). reflexivity.
    Qed.
    Lemma pass_user_nick : done_ [m_ "PASS" [p]; m_ "USER" [u; a; b; c]; m_ "NICK" [n]].
    Proof.
      apply (last_step [m_ "PASS" [p]; m_ "USER" [u; a; b; c]] (set_username (set_pass s0 p) u)); [|split; reflexivity|apply hu_nick].
      rewrite rrun_cons, (step1 s0 _ _ (conj eq_refl eq_refl) (hu_pass s0 p) (or_introl eq_refl)). cbn [fst snd].
      rewrite rrun_cons, (step1 (set_pass s0 p) _ _ (conj eq_refl eq_refl) (hu_user _ u a b c) (or_introl eq_refl)). reflexivity.
    Qed.
  End Pass.

  (** *** SASL PLAIN *)
  Definition in_sasl (s : rstate) : Prop :=
    fresh s /\ cs_negotiating (r_caps s) = true /\ is_enabled (r_caps s) (B "sasl") = true.

  Lemma neg_true s : cs_negotiating (r_caps s) = true -> beqb (r_nick s) [] || beqb (r_username s) [] || cs_negotiating (r_caps s) = true.
  Proof. intros ->. apply orb_true_r. Qed.

  Lemma auth_full s pending c : is_enabled (r_caps s) (B "sasl") = true -> r_sasl s = Some (Sasl MPlain pending) ->
    length c = 400 -> (N.of_nat (length pending + length c) <= 10240)%N ->
    handle_auth s e [c] = (set_sasl s (Some (Sasl MPlain (pending ++ c))), [], HOk).
  Proof.
    intros Hs Hx Hc Hl. unfold Register.handle_auth, handle_authenticate. rewrite Hs. cbn [negb].
    replace (beqb c (B "*")) with false by (symmetry; apply beqb_neq; intros ->; discriminate Hc).
    rewrite Hx. cbn [sa_pending sa_mech]. unfold recv_chunk.
    replace (beqb c (B "+")) with false by (symmetry; apply beqb_neq; intros ->; discriminate Hc).
    replace (N.ltb 10240 (N.of_nat (length pending + length c))) with false by (symmetry; apply N.ltb_ge; exact Hl).
    rewrite Hc. change (Nat.eqb 400 max_sasl_length) with true. reflexivity.
  Qed.

  Lemma auth_last s pending last a u p : is_enabled (r_caps s) (B "sasl") = true -> r_sasl s = Some (Sasl MPlain pending) ->
    length last < 400 -> last <> B "+" -> last <> B "*" -> (N.of_nat (length pending + length last) <= 10240)%N ->
    b64_decode B64Std (pending ++ last) = Some (a ++ "000"%char :: u ++ "000"%char :: p) ->
    ~ In "000"%char a -> ~ In "000"%char u -> ~ In "000"%char p ->
    (forall x, verify e (CPlain a u p) = Some x -> fst (fst (fst x)) <> []) ->
    handle_auth s e [sasl_chunk last] =
    match verify e (CPlain a u p) with
    | Some x => (set_sasl (set_imp (set_auth s (fst x)) (snd x)) None, [RSuccess], HOk)
    | None => (set_sasl s None, [RError (B "904")], HOk)
    end.
  Proof.
    intros Hs Hx Hl Hp1 Hp2 Hn Hd Ha Hu Hp Hv. unfold Register.handle_auth, handle_authenticate. rewrite Hs. cbn [negb].
    assert (E : (if beqb (sasl_chunk last) (B "+") then [] else sasl_chunk last) = last).
    { unfold sasl_chunk. destruct last as [|x last]; [reflexivity|]. cbn [nonempty].
      destruct (beqb_spec (x :: last) (B "+")) as [E|E]; [contradiction|reflexivity]. }
    assert (E2 : beqb (sasl_chunk last) (B "*") = false).
    { unfold sasl_chunk. destruct last as [|x last]; [reflexivity|]. cbn [nonempty]. apply beqb_neq. exact Hp2. }
    rewrite E2, Hx. cbn [sa_pending sa_mech]. unfold recv_chunk. rewrite E.
    replace (N.ltb 10240 (N.of_nat (length pending + length last))) with false by (symmetry; apply N.ltb_ge; exact Hn).
    replace (Nat.eqb (length last) max_sasl_length) with false by (symmetry; apply Nat.eqb_neq; change max_sasl_length with 400; lia).
    cbv zeta. rewrite Hd. cbn [sasl_next].
    replace (split_on "000" (a ++ "000"%char :: u ++ "000"%char :: p)) with [a; u; p].
    2:{ rewrite split_on_app by exact Ha. rewrite split_on_app by exact Hu. rewrite split_on_nosep by exact Hp. reflexivity. }
    destruct (verify e (CPlain a u p)) as [[names imp]|] eqn:Ev; [|destruct s; reflexivity].
    specialize (Hv _ eq_refl). cbn [fst snd] in *. rewrite (ne_beqb _ Hv). destruct s. reflexivity.
  Qed.

  Lemma auth_chunks a u p : ~ In "000"%char a -> ~ In "000"%char u -> ~ In "000"%char p ->
    (forall x, verify e (CPlain a u p) = Some x -> fst (fst (fst x)) <> []) ->
    forall full s pending last, in_sasl s -> r_sasl s = Some (Sasl MPlain pending) ->
    Forall (fun c => length c = 400) full -> length last < 400 -> last <> B "+" -> last <> B "*" ->
    (N.of_nat (length pending + length (concat full ++ last)) <= 10240)%N ->
    b64_decode B64Std (pending ++ concat full ++ last) = Some (a ++ "000"%char :: u ++ "000"%char :: p) ->
    rrun s (sends (map (fun c => msg (B "AUTHENTICATE") [c]) (full ++ [sasl_chunk last]))) =
    match verify e (CPlain a u p) with
    | Some x => (set_sasl (set_imp (set_auth s (fst x)) (snd x)) None, [RSuccess])
    | None => (set_sasl s None, [RError (B "904")])
    end.
  Proof.
    intros Ha Hu Hp Hv. induction full as [|c full IH]; intros s pending last Hin Hx Hf Hl Hp1 Hp2 Hn Hd.
    - cbn [app map concat] in *. rewrite rrun_cons. cbn [Spec.Register.sends map Register.rrun fst snd]. rewrite app_nil_r, <- surjective_pairing.
      destruct Hin as ([Hc Hus] & Hneg & Hs).
      pose proof (auth_last s pending last a u p Hs Hx Hl Hp1 Hp2 Hn Hd Ha Hu Hp Hv) as R.
      change (msg (B "AUTHENTICATE") [sasl_chunk last]) with (m_ "AUTHENTICATE" [sasl_chunk last]).
      destruct (verify e (CPlain a u p)) as [x|].
      + rewrite (rstep_open s _ _ _ HOk Hc Hus ltac:(rewrite hu_auth; exact R) ltac:(discriminate) ltac:(apply neg_true; exact Hneg)). reflexivity.
      + rewrite (rstep_open s _ _ _ HOk Hc Hus ltac:(rewrite hu_auth; exact R) ltac:(discriminate) ltac:(apply neg_true; exact Hneg)). reflexivity.
    - inversion Hf as [|? ? Hc4 Hf']; subst. cbn [app map concat] in *. rewrite rrun_cons.
      destruct Hin as ([Hc Hus] & Hneg & Hs).
      rewrite <- app_assoc in Hn, Hd. rewrite app_length in Hn.
      assert (R : handle_auth s e [c] = (set_sasl s (Some (Sasl MPlain (pending ++ c))), [], HOk)) by (apply auth_full; [exact Hs|exact Hx|exact Hc4|lia]).
      change (msg (B "AUTHENTICATE") [c]) with (m_ "AUTHENTICATE" [c]).
      rewrite (rstep_open s _ _ _ HOk Hc Hus ltac:(rewrite hu_auth; exact R) ltac:(discriminate) ltac:(apply neg_true; exact Hneg)).
      cbn [fst snd errs app]. rewrite (IH (set_sasl s (Some (Sasl MPlain (pending ++ c)))) (pending ++ c) last).
      + destruct (verify e (CPlain a u p)); destruct s; reflexivity.
      + split; [split; assumption|split; assumption].
      + reflexivity.
      + exact Hf'.
      + exact Hl.
      + exact Hp1.
      + exact Hp2.
      + rewrite app_length. rewrite <- Nat.add_assoc. exact Hn.
      + rewrite <- app_assoc. exact Hd.
  Qed.

  Lemma sasl_plain s a u p : let resp := a ++ "000"%char :: u ++ "000"%char :: p in
    in_sasl s -> r_sasl s = None -> ~ In "000"%char a -> ~ In "000"%char u -> ~ In "000"%char p ->
    (N.of_nat (length (b64_encode B64Std resp)) <= 10240)%N ->
    (forall x, verify e (CPlain a u p) = Some x -> fst (fst (fst x)) <> []) ->
    rrun s (sends (m_ "AUTHENTICATE" [B "PLAIN"] :: generate_sasl resp)) =
    match verify e (CPlain a u p) with
    | Some x => (set_imp (set_auth s (fst x)) (snd x), [RChallenge (B "+"); RSuccess])
    | None => (s, [RChallenge (B "+"); RError (B "904")])
    end.
  Proof.
    intros resp Hin Hx Ha Hu Hp Hn Hv. destruct (Proof.GenMsg.generate_sasl_chunks resp) as (full & last & Em & Hf & Hl & Hp1 & Hc).
    assert (Eg : generate_sasl resp = map (fun c => msg (B "AUTHENTICATE") [c]) (full ++ [sasl_chunk last])).
    { unfold generate_sasl in *. rewrite map_map in Em. cbn [msg m_params] in Em.
      f_equal. revert Em. generalize (full ++ [sasl_chunk last]) as l2. generalize (sasl_loop (S (length (b64_encode B64Std resp))) (b64_encode B64Std resp)) as l1.
      induction l1 as [|x l1 IH]; intros [|y l2] E; try discriminate; [reflexivity|]. cbn [map] in E. injection E as -> E. f_equal. apply IH. exact E. }
    rewrite Eg, rrun_cons. destruct Hin as ([Hcl Hus] & Hneg & Hs).
    assert (R : handle_auth s e [B "PLAIN"] = (set_sasl s (Some (Sasl MPlain [])), [RChallenge (B "+")], HOk)).
    { unfold Register.handle_auth, handle_authenticate. rewrite Hs. cbn [negb]. change (beqb (B "PLAIN") (B "*")) with false. cbv iota. rewrite Hx. reflexivity. }
    rewrite (rstep_open s _ _ _ HOk Hcl Hus ltac:(rewrite hu_auth; exact R) ltac:(discriminate) ltac:(apply neg_true; exact Hneg)).
    cbn [fst snd errs]. rewrite app_nil_r.
    rewrite (auth_chunks a u p Ha Hu Hp Hv full (set_sasl s (Some (Sasl MPlain []))) [] last).
    - destruct (verify e (CPlain a u p)); destruct s; cbn in Hx; subst; reflexivity.
    - split; [split; assumption|split; assumption].
    - reflexivity.
    - exact Hf.
    - exact Hl.
    - exact Hp1.
    - intros ->. destruct (Proof.GenMsg.b64_std_len4 resp) as [k Hk]. rewrite <- Hc, app_length, Proof.GenMsg.concat_len400 in Hk by exact Hf. cbn in Hk. lia.
    - rewrite Hc. cbn [length]. exact Hn.
    - cbn [app]. rewrite Hc. apply b64_roundtrip.
  Qed.

  (** The whole of a registration with SASL. *)
  Lemma merge_compatible x y : compatible x y -> exists z, merge x y = Some z.
  Proof.
    unfold merge, compatible. intros H. destruct x as [|c x]; [exists y; reflexivity|]. change (beqb (c :: x) []) with false. cbv iota.
    destruct H as [H|[-> | <-]]; [discriminate|exists (c :: x); reflexivity|]. rewrite beqb_refl, andb_false_r. eexists; reflexivity.
  Qed.

  Lemma sasl_registration plain oauth store n u2 p1 p2 p3 a u p x : let resp := a ++ "000"%char :: u ++ "000"%char :: p in
    n <> [] -> u2 <> [] -> ~ In "000"%char a -> ~ In "000"%char u -> ~ In "000"%char p ->
    (N.of_nat (length (b64_encode B64Std resp)) <= 10240)%N ->
    verify e (CPlain a u p) = Some x -> fst (fst (fst x)) <> [] ->
    compatible (snd (fst (fst x))) (snd (fst (unmarshal_username u2))) -> compatible (snd (fst x)) (snd (unmarshal_username u2)) ->
    let s := fst (rrun (new_conn plain oauth store) (sends
      (m_ "CAP" [B "REQ"; B "sasl"] :: m_ "NICK" [n] :: m_ "USER" [u2; p1; p2; p3] ::
       m_ "AUTHENTICATE" [B "PLAIN"] :: generate_sasl resp ++ [m_ "CAP" [B "END"]]))) in
    r_user s = Some (fst (fst (fst x))) /\ r_imp s = snd x /\ r_closed s = false.
  Proof.
    intros resp Hn Hu2 Ha Hu Hp Hlen Hv Hne C1 C2.
    set (sc := set_caps (new_conn plain oauth store) (fst (cap_req (new_caps plain oauth store) [B "sasl"]))).
    assert (Hcap : handle_unregistered (new_conn plain oauth store) e ord (m_ "CAP" [B "REQ"; B "sasl"]) = (sc, [RCap (Cap (B "ACK") (B "sasl"))], HOk)).
    { destruct plain, oauth, store; vm_compute; reflexivity. }
    assert (Hneg : cs_negotiating (r_caps sc) = true) by (destruct plain, oauth, store; vm_compute; reflexivity).
    assert (Hreg : cs_registered (r_caps sc) = false) by (destruct plain, oauth, store; vm_compute; reflexivity).
    assert (Hs : is_enabled (r_caps sc) (B "sasl") = true) by (destruct plain, oauth, store; vm_compute; reflexivity).
    assert (Hfr : fresh sc) by (split; reflexivity).
    assert (Hsa : r_sasl sc = None) by reflexivity.
    assert (Hcn : r_client sc = [] /\ r_netname sc = [] /\ r_auth sc = []) by (repeat split; reflexivity).
    rewrite rrun_cons. rewrite (rstep_open _ _ _ _ HOk (eq_refl : r_closed (new_conn plain oauth store) = false) eq_refl Hcap ltac:(discriminate) ltac:(apply neg_true; exact Hneg)).
    cbn [fst]. clearbody sc.
    rewrite rrun_cons. rewrite (rstep_open _ _ _ _ HOk (proj1 Hfr) (proj2 Hfr) (hu_nick sc n) ltac:(discriminate) ltac:(apply neg_true; exact Hneg)).
    cbn [fst].
    rewrite rrun_cons. rewrite (rstep_open (set_nick sc n) _ _ _ HOk (proj1 Hfr) (proj2 Hfr) (hu_user (set_nick sc n) u2 p1 p2 p3) ltac:(discriminate) ltac:(apply neg_true; exact Hneg)).
    cbn [fst]. rewrite app_comm_cons, rrun_app_sends. cbn [fst].
    set (su := set_username (set_nick sc n) u2).
    assert (Hin : in_sasl su) by (split; [exact Hfr|split; [exact Hneg|exact Hs]]).
    pose proof (sasl_plain su a u p Hin Hsa Ha Hu Hp Hlen) as SP. fold resp in SP. rewrite SP; clear SP.
    2:{ intros y Hy. rewrite Hv in Hy. injection Hy as <-. exact Hne. }
    rewrite Hv. cbn [fst snd]. rewrite rrun_cons. cbn [Spec.Register.sends map Register.rrun fst].
    set (sa := set_imp (set_auth su (fst x)) (snd x)).
    assert (Hend : handle_unregistered sa e ord (m_ "CAP" [B "END"]) = (set_caps sa (set_negotiating (r_caps sc) false), [], HOk)) by reflexivity.
    assert (Hnf : cs_negotiating (set_negotiating (r_caps sc) false) = false) by (unfold set_negotiating; rewrite Hreg; reflexivity).
    destruct (merge_compatible _ _ C1) as [cl M1]. destruct (merge_compatible _ _ C2) as [nw M2].
    assert (R : exists s2, register (set_caps sa (set_negotiating (r_caps sc) false)) e = (s2, [], HOk) /\
               r_user s2 = Some (fst (fst (fst x))) /\ r_imp s2 = snd x /\ r_closed s2 = false).
    { unfold register. change (r_sasl (set_caps sa (set_negotiating (r_caps sc) false))) with (r_sasl sc). rewrite Hsa.
      cbn [set_pass set_caps r_auth r_username r_client r_netname r_caps sa su set_imp set_auth set_username set_nick].
      rewrite (ne_beqb _ Hne). cbv beta iota zeta. cbn [r_client r_netname r_auth r_username set_pass set_caps r_caps sa su set_imp set_auth set_username set_nick].
      match goal with |- context [merge ?a ?b] => change (merge a b) with (merge (snd (fst (fst x))) (snd (fst (unmarshal_username u2)))) end.
      rewrite M1.
      match goal with |- context [merge ?a ?b] => change (merge a b) with (merge (snd (fst x)) (snd (unmarshal_username u2))) end.
      rewrite M2. eexists. split; [reflexivity|].
      split; [reflexivity|split; [reflexivity|]]. exact (proj1 Hfr). }
    destruct R as (s2 & R & R1 & R2 & R3).
    rewrite (rstep_reg sa _ _ _ _ _ _ (proj1 Hfr) (proj2 Hfr) Hend
      ltac:(cbn [r_nick r_username r_caps set_caps sa su set_imp set_auth set_username set_nick]; rewrite (ne_beqb _ Hn), (ne_beqb _ Hu2); exact Hnf) R).
    cbn [fst]. split; [exact R1|split; [exact R2|exact R3]].
  Qed.
End Complete.
