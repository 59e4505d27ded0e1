(** Proofs about the registration with a server. *)
From Verif.Base Require Import Bytes Base64.
From Verif.Model Require Import Message GenMsg Caps UpReg.
From Verif.Spec Require Import GenMsg UpReg.
From Verif.Proof Require GenMsg Caps.

(** ** The password *)
Section Secret.
  Variable order : nat -> list bytes.
  Variable sorted : list (bytes * bytes) -> list (bytes * bytes).
  Variable parse_command : bytes -> option message.
  Variable cfg : gcfg.
  Variable p2 : bytes.
  Let cfg2 := with_secret p2 cfg.

  (** States that differ in the password only, which is there only after sasl was granted. *)
  Definition alike (granted : bool) (s t : gst) : Prop :=
    (s_closed s = true \/ s_client s = s_client t \/
     (g_mech cfg = B "PLAIN" /\ granted = true /\ s_client s = Some (GPlain (g_user cfg) (g_secret cfg)) /\ s_client t = Some (GPlain (g_user cfg) p2))) /\
    t = GSt (s_avail s) (s_enabled s) (s_client t) (s_started s) (s_reg s) (s_closed s) (s_n s).

  Definition same_res (granted : bool) (a b : gst * list message) : Prop := alike granted (fst a) (fst b) /\ snd a = snd b.

  Lemma alike_mono s t g g' : (g = true -> g' = true) -> alike g s t -> alike g' s t.
  Proof. intros H [[C|[C|(M & G & C)]] E]; split; auto. right. right. auto. Qed.

  Lemma cap_ack_alike s t name ok g : (beqb name (B "sasl") && ok = true -> g = true) -> alike g s t ->
    same_res g (fst (cap_ack cfg s name ok)) (fst (cap_ack cfg2 t name ok)) /\ snd (cap_ack cfg s name ok) = snd (cap_ack cfg2 t name ok).
  Proof.
    intros G [C E]. unfold cap_ack. cbv zeta.
    assert (R : request_sasl cfg2 (with_enabled t (set_enabled (s_enabled t) name ok)) = request_sasl cfg (with_enabled s (set_enabled (s_enabled s) name ok))) by (rewrite E; reflexivity).
    rewrite R. change (g_mech cfg2) with (g_mech cfg). change (g_user cfg2) with (g_user cfg). change (g_secret cfg2) with p2.
    assert (A0 : alike g (with_enabled s (set_enabled (s_enabled s) name ok)) (with_enabled t (set_enabled (s_enabled t) name ok))).
    { split; [exact C|]. rewrite E. reflexivity. }
    destruct (beqb name (B "sasl")); [|split; [split; [exact A0|reflexivity]|reflexivity]].
    destruct (negb (request_sasl _ _)); [split; [split; [exact A0|reflexivity]|reflexivity]|].
    destruct ok; cbn [negb andb] in *; [|split; [split; [exact A0|reflexivity]|reflexivity]].
    destruct (beqb (g_mech cfg) (B "PLAIN")) eqn:M.
    - apply beqb_eq in M. split; [|reflexivity]. split; [|reflexivity]. split; [right; right|rewrite E; reflexivity].
      split; [exact M|]. split; [apply G; reflexivity|]. split; reflexivity.
    - destruct (beqb (g_mech cfg) (B "EXTERNAL")).
      + split; [|reflexivity]. split; [|reflexivity]. split; [right; left; reflexivity|rewrite E; reflexivity].
      + split; [|reflexivity]. split; [exact A0|reflexivity].
  Qed.

  Lemma alike_closed g g' s t : alike g s t -> alike g' (set_closed s) (set_closed t).
  Proof. intros [C E]. split; [left; reflexivity|]. rewrite E. reflexivity. Qed.
  Lemma alike_fail g s t o : alike g s t -> same_res g (fail s o) (fail t o).
  Proof.
    intros A. split; [|reflexivity]. unfold fail. cbn [fst]. assert (F : s_reg t = s_reg s) by (destruct A as [_ ->]; reflexivity).
    rewrite F. destruct (s_reg s); [exact A|apply (alike_closed g), A].
  Qed.

  Lemma acks_alike ack toks g : (ack = true -> existsb (fun x => beqb (to_lower x) (B "sasl")) toks = true -> g = true) ->
    forall s t, alike g s t -> same_res g (acks cfg ack toks s) (acks cfg2 ack toks t).
  Proof.
    induction toks as [|x toks IH]; intros G s t A; cbn [acks]; [split; [exact A|reflexivity]|].
    destruct (ack_token ack x) as [name on] eqn:K.
    assert (G1 : beqb name (B "sasl") && on = true -> g = true).
    { intros H. apply andb_true_iff in H as [H1 H2]. unfold ack_token in K. destruct x as [|c r].
      - apply pair_equal_spec in K as [<- <-]. apply G; [exact H2|]. cbn [existsb]. rewrite H1. reflexivity.
      - destruct (aeqb c "-"); apply pair_equal_spec in K as [<- <-]; [discriminate|]. apply G; [exact H2|]. cbn [existsb]. rewrite H1. reflexivity. }
    pose proof (cap_ack_alike s t name on g G1 A) as [[A1 E1] E3].
    destruct (cap_ack cfg s name on) as [[s1 o1] e1], (cap_ack cfg2 t name on) as [[t1 o1'] e1']. cbn [fst snd] in A1, E1, E3. subst o1' e1'.
    destruct e1; [apply alike_fail, A1|].
    assert (G2 : ack = true -> existsb (fun x => beqb (to_lower x) (B "sasl")) toks = true -> g = true).
    { intros H1 H2. apply G; [exact H1|]. cbn [existsb]. rewrite H2. apply orb_true_r. }
    pose proof (IH G2 s1 t1 A1) as [A2 E2].
    destruct (acks cfg ack toks s1) as [s2 o2], (acks cfg2 ack toks t1) as [t2 o2']. cbn [fst snd] in *. subst o2'. split; [exact A2|reflexivity].
  Qed.

  Lemma alike_avail g s t l : alike g s t -> alike g (with_avail s l) (with_avail t l).
  Proof. intros [C E]. split; [exact C|]. rewrite E. reflexivity. Qed.
  Lemma alike_visited g s t : alike g s t -> alike g (visited s) (visited t).
  Proof. intros [C E]. split; [exact C|]. rewrite E. reflexivity. Qed.
  Lemma alike_reg g s t : alike g s t -> alike g (set_reg s) (set_reg t).
  Proof. intros [C E]. split; [exact C|]. rewrite E. reflexivity. Qed.
  Lemma alike_fields g s t : alike g s t -> s_avail t = s_avail s /\ s_enabled t = s_enabled s /\ s_started t = s_started s /\ s_reg t = s_reg s /\ s_closed t = s_closed s /\ s_n t = s_n s.
  Proof. intros [_ E]. rewrite E. repeat split. Qed.
  Lemma alike_update g s t : alike g s t -> update_caps order t = update_caps order s.
  Proof. intros [_ E]. rewrite E. reflexivity. Qed.
  Lemma alike_request g s t : alike g s t -> request_sasl cfg2 t = request_sasl cfg s.
  Proof. intros [_ E]. rewrite E. reflexivity. Qed.
  Lemma alike_none g s t : alike g s t -> alike false (with_client s None false) (with_client t None false).
  Proof. intros [_ E]. split; [right; left; reflexivity|]. rewrite E. reflexivity. Qed.

  Lemma del_alike g toks : forall s t, alike g s t ->
    let f := fold_left (fun s c => with_enabled (with_avail s (bdel (s_avail s) c)) (set_enabled (s_enabled s) c false)) toks in alike g (f s) (f t).
  Proof.
    induction toks as [|c toks IH]; intros s t A; [exact A|]. cbn [fold_left]. apply IH. destruct A as [C E]. split; [exact C|]. rewrite E. reflexivity.
  Qed.

  Lemma step_alike g s t m : (g = true -> g_mech cfg = B "PLAIN" -> is_prompt m = false) -> alike g s t ->
    same_res (if grants_sasl m then true else if is_result m then false else g) (on_server order sorted parse_command cfg s m) (on_server order sorted parse_command cfg2 t m).
  Proof.
    intros P A. set (g' := if grants_sasl m then true else if is_result m then false else g).
    destruct (alike_fields g s t A) as (F1 & F2 & F3 & F4 & F5 & F6).
    unfold on_server. cbv zeta. rewrite F5, F4.
    assert (Keep : is_result m = false -> alike g' s t).
    { intros R. unfold g'. rewrite R. eapply alike_mono; [|exact A]. destruct (grants_sasl m); auto. }
    destruct m as [tags pre c ps]. cbn [m_command m_params] in *.
    assert (Rc : bmem c sasl_results = false -> is_result (Message tags pre c ps) = false).
    { intros H. unfold is_result. cbn [m_command]. unfold sasl_results in H. rewrite H. reflexivity. }
    destruct (s_closed s) eqn:Cl.
    { split; [|reflexivity]. cbn [fst]. split; [left; exact Cl|]. apply (proj2 A). }
    destruct (beqb c (B "PING")) eqn:E1.
    { apply beqb_eq in E1. subst c. split; [|reflexivity]. apply Keep, Rc. reflexivity. }
    destruct (beqb c (B "CAP")) eqn:E2.
    { apply beqb_eq in E2. subst c. assert (Kp := Keep (Rc eq_refl)). unfold on_cap. destruct ps as [|x ps]; [apply alike_fail, Kp|].
      destruct ps as [|sub subs]; [apply alike_fail, Kp|]. cbv zeta. rewrite F1.
      destruct (beqb (to_upper sub) (B "LS")).
      - destruct subs as [|y subs]; [apply alike_fail, Kp|].
        pose proof (alike_avail g' s t (supported_caps (s_avail s) (last (y :: subs) [])) Kp) as KA.
        destruct (_ && _); [split; [exact KA|reflexivity]|]. split; [apply alike_visited, KA|]. cbn [snd].
        rewrite (alike_update g' _ _ KA), (alike_request g' _ _ KA). reflexivity.
      - destruct (beqb (to_upper sub) (B "ACK") || beqb (to_upper sub) (B "NAK")) eqn:E3.
        + destruct subs as [|y subs]; [apply alike_fail, Kp|]. apply acks_alike; [|exact Kp].
          intros H1 H2. unfold g', grants_sasl. cbn [m_params m_command]. rewrite H1, H2. reflexivity.
        + destruct (beqb (to_upper sub) (B "NEW")).
          * destruct subs as [|y subs]; [apply alike_fail, Kp|].
            pose proof (alike_avail g' s t (supported_caps (s_avail s) y) Kp) as KA. split; [apply alike_visited, KA|]. cbn [snd]. apply eq_sym, (alike_update g' _ _ KA).
          * destruct (beqb (to_upper sub) (B "DEL")).
            -- destruct subs as [|y subs]; [apply alike_fail, Kp|]. split; [|reflexivity]. cbn [fst]. apply del_alike, Kp.
            -- split; [exact Kp|reflexivity]. }
    destruct (beqb c (B "AUTHENTICATE")) eqn:E3.
    { apply beqb_eq in E3. subst c. assert (Kp := Keep (Rc eq_refl)).
      assert (C : s_client s = s_client t).
      { destruct A as [[C|[C|(M & G & _)]] _]; [congruence|exact C|]. specialize (P G M). discriminate P. }
      unfold on_authenticate. rewrite <- C, F3. destruct (s_client s) as [cl|]; [|apply alike_fail, Kp].
      destruct ps as [|q ps]; [apply alike_fail, Kp|]. destruct (_ && _); [apply alike_fail, Kp|].
      destruct (negb (s_started s)); [|apply alike_fail, Kp]. split; [|reflexivity]. split; [right; left; reflexivity|].
      destruct A as [_ E]. rewrite E. reflexivity. }
    destruct (bmem c sasl_results) eqn:E4.
    { destruct (length ps <? 2) eqn:L.
      { apply alike_fail, Keep. unfold is_result. cbn [m_params]. apply Nat.ltb_lt in L. destruct (Nat.leb_spec 2 (length ps)); [lia|]. apply andb_false_r. }
      split; [|reflexivity].
      eapply alike_mono; [|apply (alike_none g), A]. discriminate. }
    assert (Kp := Keep (Rc eq_refl)).
    destruct (bmem c command_errors).
    { destruct ps as [|a [|b [|d ps]]]; try apply alike_fail, Kp. destruct (beqb b (B "AUTHENTICATE")).
      - split; [|reflexivity]. eapply alike_mono; [|apply (alike_none g), A]. discriminate.
      - split; [exact Kp|reflexivity]. }
    destruct (beqb c (B "FAIL")).
    { destruct ps as [|a [|b ps]]; try apply alike_fail, Kp. destruct (_ && _ && _); [apply alike_fail, Kp|split; [exact Kp|reflexivity]]. }
    destruct (beqb c (B "ERROR")); [apply alike_fail, Kp|].
    destruct (bmem c registration_errors).
    { destruct (s_reg s); [split; [exact Kp|reflexivity]|apply alike_fail, Kp]. }
    destruct (beqb c (B "001")).
    { destruct ps as [|a ps]; [apply alike_fail, Kp|]. split; [apply alike_reg, Kp|reflexivity]. }
    split; [exact Kp|reflexivity].
  Qed.

  Lemma auth_alike g s t u p free : alike g s t ->
    same_res g (gstep order sorted parse_command cfg s (GAuth u p free)) (gstep order sorted parse_command cfg2 t (GAuth u p free)).
  Proof.
    intros A. destruct (alike_fields g s t A) as (F1 & F2 & F3 & F4 & F5 & F6). cbn [gstep]. unfold up_enabled. rewrite F2, F4, F5.
    destruct (s_closed s) eqn:Cl; [split; [exact A|reflexivity]|].
    assert (C : (match s_client t with Some _ => true | None => false end) = (match s_client s with Some _ => true | None => false end)).
    { destruct A as [[C|[C|(_ & _ & C1 & C2)]] _]; [congruence|rewrite C; reflexivity|rewrite C1, C2; reflexivity]. }
    rewrite C. destruct (_ || _ || _ || _); [split; [exact A|reflexivity]|]. split; [|reflexivity]. split; [right; left; reflexivity|].
    destruct A as [_ E]. rewrite E. reflexivity.
  Qed.

  Lemma secret_run l : forall g s t, alike g s t -> (g_mech cfg = B "PLAIN" -> prompted g l = false) ->
    snd (gsteps order sorted parse_command cfg l s) = snd (gsteps order sorted parse_command cfg2 l t).
  Proof.
    induction l as [|e l IH]; intros g s t A P; [reflexivity|]. cbn [gsteps]. destruct e as [m|u p free].
    - cbn [gstep].
      assert (Pm : g = true -> g_mech cfg = B "PLAIN" -> is_prompt m = false).
      { intros -> M. specialize (P M). cbn [prompted] in P. apply orb_false_iff in P as [P _]. exact P. }
      pose proof (step_alike g s t m Pm A) as [A1 E1].
      destruct (on_server _ _ _ cfg s m) as [s1 o1], (on_server _ _ _ cfg2 t m) as [t1 o1']. cbn [fst snd] in A1, E1. subst o1'.
      specialize (IH _ s1 t1 A1). destruct (gsteps _ _ _ cfg l s1), (gsteps _ _ _ cfg2 l t1). cbn [snd] in *. f_equal. apply IH.
      intros M. specialize (P M). cbn [prompted] in P. apply orb_false_iff in P as [_ P]. exact P.
    - pose proof (auth_alike g s t u p free A) as [A1 E1].
      destruct (gstep _ _ _ cfg s (GAuth u p free)) as [s1 o1], (gstep _ _ _ cfg2 t (GAuth u p free)) as [t1 o1']. cbn [fst snd] in A1, E1. subst o1'.
      specialize (IH _ s1 t1 A1). destruct (gsteps _ _ _ cfg l s1), (gsteps _ _ _ cfg2 l t1). cbn [snd] in *. f_equal. apply IH. exact P.
  Qed.
  Theorem secret l : (g_mech cfg = B "PLAIN" -> prompted false l = false) ->
    register cfg2 = register cfg /\
    snd (gsteps order sorted parse_command cfg l new_gst) = snd (gsteps order sorted parse_command cfg2 l new_gst).
  Proof. intros P. split; [reflexivity|]. apply (secret_run l false); [|exact P]. split; [right; left; reflexivity|reflexivity]. Qed.
End Secret.

(** ** Words *)
Definition word (w : bytes) : Prop := w <> [] /\ forallb (fun c => negb (is_blank c)) w = true.
Lemma fields_app a : forall w b, fields_aux (a ++ " "%char :: b) w = fields_aux a w ++ fields b.
Proof.
  induction a as [|c a IH]; intros w b.
  - cbn [app fields_aux]. change (is_blank " ") with true. cbv iota. destruct w; reflexivity.
  - cbn [app fields_aux]. destruct (is_blank c); [destruct w|]; rewrite IH; reflexivity.
Qed.
Lemma fields_two a b : fields (a ++ " "%char :: b) = fields a ++ fields b.
Proof. apply fields_app. Qed.
Lemma fields_join rest : forall first, fields (join (B " ") (first :: rest)) = flat_map fields (first :: rest).
Proof.
  induction rest as [|t rest IH]; intros first.
  - cbn [join flat_map]. rewrite app_nil_r. reflexivity.
  - change (join (B " ") (first :: t :: rest)) with (first ++ " "%char :: join (B " ") (t :: rest)).
    rewrite fields_two, IH. reflexivity.
Qed.
Lemma fields_aux_word w : forall acc, forallb (fun c => negb (is_blank c)) w = true ->
  fields_aux w acc = match rev w ++ acc with [] => [] | _ => [rev (rev w ++ acc)] end.
Proof.
  induction w as [|c w IH]; intros acc H; [reflexivity|]. cbn [forallb] in H. apply andb_true_iff in H as [H1 H2].
  cbn [fields_aux]. destruct (is_blank c); [discriminate H1|]. rewrite IH by exact H2. cbn [rev]. rewrite <- app_assoc. reflexivity.
Qed.
Lemma fields_word w : word w -> fields w = [w].
Proof.
  intros [H1 H2]. unfold fields. rewrite fields_aux_word by exact H2. rewrite app_nil_r.
  destruct (rev w) eqn:E; [|rewrite <- E, rev_involutive; reflexivity].
  apply (f_equal (@rev ascii)) in E. rewrite rev_involutive in E. contradiction.
Qed.
Lemma fields_words l : l <> [] -> Forall word l -> fields (join (B " ") l) = l.
Proof.
  intros H F. destruct l as [|x l]; [contradiction|]. rewrite fields_join. clear H. revert F. generalize (x :: l) as k. clear.
  induction k as [|x k IH]; intros F; [reflexivity|]. inversion F as [|? ? F1 F2]. subst. cbn [flat_map]. rewrite fields_word by exact F1.
  rewrite IH by exact F2. reflexivity.
Qed.

(** ** The list of capabilities in several lines *)
Section Listing.
  Variable order : nat -> list bytes.
  Variable sorted : list (bytes * bytes) -> list (bytes * bytes).
  Variable parse_command : bytes -> option message.
  Variable cfg : gcfg.
  Notation run := (gsteps order sorted parse_command cfg).
  Lemma supported_app m a b : supported_caps m (a ++ " "%char :: b) = supported_caps (supported_caps m a) b.
  Proof. unfold supported_caps. rewrite fields_two, fold_left_app. reflexivity. Qed.
  Lemma run_cons e l s : run (e :: l) s =
    (fst (run l (fst (gstep order sorted parse_command cfg s e))), snd (gstep order sorted parse_command cfg s e) ++ snd (run l (fst (gstep order sorted parse_command cfg s e)))).
  Proof. cbn [gsteps]. destruct (gstep _ _ _ _ s e) as [s1 o1]. cbn [fst snd]. destruct (run l s1). reflexivity. Qed.
  Lemma run_closed l : forall s, s_closed s = true -> run (map GMsg l) s = (s, []).
  Proof.
    induction l as [|m l IH]; intros s H; [reflexivity|]. cbn [map]. rewrite run_cons. cbn [gstep]. unfold on_server. rewrite H. cbv zeta.
    cbn [fst snd]. rewrite IH by exact H. reflexivity.
  Qed.
  Lemma last_step s text : s_closed s = false ->
    on_server order sorted parse_command cfg s (ls_last (B "*") text) =
    (let s := with_avail s (supported_caps (s_avail s) text) in (visited s, update_caps order s ++ (if request_sasl cfg s then [] else [cap_end]))).
  Proof. intros H. unfold on_server. rewrite H. reflexivity. Qed.
  Lemma more_step s text : s_closed s = false ->
    on_server order sorted parse_command cfg s (ls_more (B "*") text) = (with_avail s (supported_caps (s_avail s) text), []).
  Proof. intros H. unfold on_server. rewrite H. reflexivity. Qed.
  Theorem listing rest : forall first s,
    run (map GMsg (ls_lines (B "*") first rest)) s = run [GMsg (ls_last (B "*") (join (B " ") (first :: rest)))] s.
  Proof.
    induction rest as [|t rest IH]; intros first s; [reflexivity|].
    destruct (s_closed s) eqn:Cl.
    { rewrite (run_closed _ s Cl). symmetry. apply (run_closed [ls_last (B "*") (join (B " ") (first :: t :: rest))] s Cl). }
    cbn [ls_lines map]. rewrite !run_cons. cbn [gstep gsteps fst snd]. rewrite more_step, last_step by exact Cl. cbn [fst snd].
    specialize (IH t (with_avail s (supported_caps (s_avail s) first))). cbn [map] in IH. rewrite IH. rewrite run_cons. cbn [gstep gsteps fst snd].
    rewrite last_step by exact Cl.
    change (join (B " ") (first :: t :: rest)) with (first ++ " "%char :: join (B " ") (t :: rest)).
    rewrite supported_app. reflexivity.
  Qed.
End Listing.

(** ** Both together *)
Section System.
  Variables (first : bytes) (rest : list bytes).
  Variable mech_ok : bytes -> bool.
  Variable login : bytes -> option bytes.
  Variable order : nat -> list bytes.
  Variable sorted : list (bytes * bytes) -> list (bytes * bytes).
  Variable parse_command : bytes -> option message.
  Variable cfg : gcfg.
  Notation srv := (serve first rest mech_ok login).
  Notation bou := (on_server order sorted parse_command cfg).
  Notation mv := (move first rest mech_ok login order sorted parse_command cfg).
  Notation mvs := (moves first rest mech_ok login order sorted parse_command cfg).

  Lemma diamond s s1 s2 : mv s s1 -> mv s s2 -> s1 = s2 \/ exists s3, mv s1 s3 /\ mv s2 s3.
  Proof.
    intros M1 M2. destruct M1 as [b v qb m qv|b v m qb qv]; inversion M2 as [b' v' qb' m' qv'|b' v' m' qb' qv']; subst.
    - left. reflexivity.
    - right. eexists. split; [apply move_bouncer|apply move_server].
    - right. eexists. split; [apply move_server|apply move_bouncer].
    - left. reflexivity.
  Qed.
  Lemma idle_stuck s t : idle s -> ~ mv s t.
  Proof. intros [H1 H2] M. destruct M; cbn [to_b to_v] in *; discriminate. Qed.
  Lemma one_less n : forall s f s1, mvs n s f -> idle f -> mv s s1 -> exists k, n = S k /\ mvs k s1 f.
  Proof.
    induction n as [|n IH]; intros s f s1 H I M.
    - inversion H; subst. destruct (idle_stuck _ _ I M).
    - exists n. split; [reflexivity|]. inversion H as [|? ? s2 ? M2 H2]; subst.
      destruct (diamond s s1 s2 M M2) as [->|(s3 & M3 & M4)]; [exact H2|].
      destruct (IH s2 f s3 H2 I M4) as (k & -> & H3). apply (moves_S _ _ _ _ _ _ _ _ k s1 s3 f M3 H3).
  Qed.
  Lemma confluent k : forall n s f t, mvs n s f -> idle f -> mvs k s t -> k <= n /\ mvs (n - k) t f.
  Proof.
    induction k as [|k IH]; intros n s f t H I K.
    - inversion K; subst. split; [lia|]. rewrite Nat.sub_0_r. exact H.
    - inversion K as [|? ? s1 ? M1 K1]; subst. destruct (one_less n s f s1 H I M1) as (n' & -> & H1).
      destruct (IH n' s1 f t H1 I K1) as [L H2]. split; [lia|exact H2].
  Qed.

  Definition reach (s t : sys) : Prop := exists n, mvs n s t.
  Lemma reach_refl s : reach s s.
  Proof. exists 0. constructor. Qed.
  Lemma reach_trans s t u : reach s t -> reach t u -> reach s u.
  Proof.
    intros [n H] [k K]. exists (n + k). revert H. revert s. induction n as [|n IH]; intros s H; inversion H; subst; [exact K|].
    cbn [Nat.add]. econstructor; [eassumption|]. apply IH. assumption.
  Qed.
  Lemma reach_one s t : mv s t -> reach s t.
  Proof. intros H. exists 1. econstructor; [exact H|constructor]. Qed.
  Lemma reach_server b v qb m qv v' o : srv v m = (v', o) -> reach (Sys b v qb (m :: qv)) (Sys b v' (qb ++ o) qv).
  Proof. intros E. apply reach_one. pose proof (move_server first rest mech_ok login order sorted parse_command cfg b v qb m qv) as H. rewrite E in H. exact H. Qed.
  Lemma reach_bouncer b v m qb qv b' o : bou b m = (b', o) -> reach (Sys b v (m :: qb) qv) (Sys b' v qb (qv ++ o)).
  Proof. intros E. apply reach_one. pose proof (move_bouncer first rest mech_ok login order sorted parse_command cfg b v m qb qv) as H. rewrite E in H. exact H. Qed.

  Lemma reach_bouncers l : forall b v qv, reach (Sys b v l qv)
    (Sys (fst (gsteps order sorted parse_command cfg (map GMsg l) b)) v [] (qv ++ snd (gsteps order sorted parse_command cfg (map GMsg l) b))).
  Proof.
    induction l as [|m l IH]; intros b v qv; [cbn [map gsteps fst snd]; rewrite app_nil_r; apply reach_refl|].
    cbn [map]. rewrite run_cons. cbn [gstep fst snd].
    eapply reach_trans; [apply reach_bouncer, surjective_pairing|]. rewrite app_assoc. apply IH.
  Qed.

  (** Once the negotiation ends. *)
  Lemma reach_got b l : forall n u caps ch acc got, v_welcomed (Sv false n u true caps ch acc got) = true ->
    reach (Sys b (Sv false n u true caps ch acc got) [] l) (Sys b (Sv false n u true caps ch acc (got ++ l)) [] []).
  Proof.
    induction l as [|m l IH]; intros n u caps ch acc got H; [rewrite app_nil_r; apply reach_refl|].
    eapply reach_trans; [apply reach_server; reflexivity|]. cbn [app v_busy v_nick v_user v_welcomed v_caps v_chunks v_account v_got].
    replace (got ++ m :: l) with ((got ++ [m]) ++ l) by (rewrite <- app_assoc; reflexivity). apply IH. reflexivity.
  Qed.
  Lemma finish avail en cl st k n caps acc :
    reach (Sys (GSt avail en cl st false false k) (Sv true (Some n) true false caps None acc []) [] [cap_end])
          (Sys (GSt avail en cl st true false k) (Sv false (Some n) true true caps None acc (joins sorted cfg ++ connect_commands parse_command cfg)) [] []).
  Proof.
    eapply reach_trans; [apply reach_server; reflexivity|]. eapply reach_trans; [apply reach_bouncer; reflexivity|].
    exact (reach_got _ (joins sorted cfg ++ connect_commands parse_command cfg) _ _ _ _ _ [] eq_refl).
  Qed.

  (** The response in chunks. *)
  Lemma sasl_none l : Forall (fun c : bytes => length c = 400) l -> sasl_receive l = None.
  Proof. induction 1 as [|c l H _ IH]; [reflexivity|]. cbn [sasl_receive]. rewrite H. cbn [Nat.eqb]. rewrite IH. reflexivity. Qed.
  Lemma on_auth_eq v c : v_welcomed v = false -> srv v (auth c) = on_auth mech_ok login v c.
  Proof. intros H. unfold serve. rewrite H. reflexivity. Qed.
  Lemma reach_chunks b n caps qv full : forall l, Forall (fun c : bytes => length c = 400) (l ++ full) ->
    reach (Sys b (Sv true (Some n) true false caps (Some l) None []) [] (map auth full ++ qv))
          (Sys b (Sv true (Some n) true false caps (Some (l ++ full)) None []) [] qv).
  Proof.
    induction full as [|c full IH]; intros l F; [rewrite app_nil_r; apply reach_refl|].
    assert (E : l ++ c :: full = (l ++ [c]) ++ full) by (rewrite <- app_assoc; reflexivity). rewrite E in *.
    eapply reach_trans; [|apply IH, F].
    cbn [map app]. replace (@nil message) with (@nil message ++ []) at 4 by reflexivity. apply reach_server. rewrite on_auth_eq by reflexivity.
    unfold on_auth. cbn [v_chunks]. apply Forall_app in F as [F _]. rewrite sasl_none by exact F. reflexivity.
  Qed.
  Lemma generated r : exists full last,
    generate_sasl r = map auth full ++ [auth (sasl_chunk last)] /\ Forall (fun c : bytes => length c = 400) full /\ length last < 400 /\
    last <> B "+" /\ concat full ++ last = b64_encode B64Std r.
  Proof.
    destruct (Proof.GenMsg.generate_sasl_chunks r) as (full & last & E & H). exists full, last. split; [|exact H].
    unfold generate_sasl in *. rewrite map_map in E. cbn [msg m_params] in E.
    assert (E2 : sasl_loop (S (length (b64_encode B64Std r))) (b64_encode B64Std r) = full ++ [sasl_chunk last]).
    { revert E. generalize (sasl_loop (S (length (b64_encode B64Std r))) (b64_encode B64Std r)) as k. generalize (full ++ [sasl_chunk last]) as j. clear.
      intros j k. revert j. induction k as [|x k IH]; intros [|y j] E; try discriminate E; [reflexivity|]. cbn [map] in E. injection E as E1 E2. f_equal; auto. }
    rewrite E2, map_app. reflexivity.
  Qed.
  Lemma exchange avail en c k n caps :
    reach (Sys (GSt avail en (Some c) false false false k) (Sv true (Some n) true false caps (Some []) None []) [msg (B "AUTHENTICATE") [B "+"]] [])
          (Sys (GSt avail en None false true false k)
               (Sv false (Some n) true true caps None (login (start_client c)) (joins sorted cfg ++ connect_commands parse_command cfg)) [] []).
  Proof.
    eapply reach_trans; [apply reach_bouncer; reflexivity|]. cbn [app with_client s_avail s_enabled s_client s_started s_reg s_closed s_n].
    destruct (generated (start_client c)) as (full & last & E & F & L & P & C). rewrite E.
    eapply reach_trans; [apply (reach_chunks _ _ _ _ full []); exact F|]. cbn [app].
    assert (Ex : on_auth mech_ok login (Sv true (Some n) true false caps (Some full) None []) (sasl_chunk last) =
      match login (start_client c) with
      | None => (Sv true (Some n) true false caps None None [], [msg (B "904") [B "*"; B "failed"]])
      | Some a => (Sv true (Some n) true false caps None (Some a) [], [msg (B "900") [B "*"; B "*"; a; B "logged in"]; msg (B "903") [B "*"; B "success"]])
      end).
    { unfold on_auth. cbn [v_chunks]. rewrite Proof.GenMsg.sasl_receive_chunks by assumption. rewrite C, b64_roundtrip. destruct (login _); reflexivity. }
    destruct (login (start_client c)) as [a|].
    - eapply reach_trans; [apply reach_server; rewrite on_auth_eq by reflexivity; exact Ex|].
      eapply reach_trans; [apply reach_bouncer; reflexivity|]. eapply reach_trans; [apply reach_bouncer; reflexivity|].
      apply finish.
    - eapply reach_trans; [apply reach_server; rewrite on_auth_eq by reflexivity; exact Ex|].
      eapply reach_trans; [apply reach_bouncer; reflexivity|]. apply finish.
  Qed.

  (** What is requested. *)
  Lemma sup_unknown toks : forall m k, (forall t, In t toks -> fst (cap_kv t) <> k) ->
    bget (fold_left (fun m t => bset m (fst (cap_kv t)) (snd (cap_kv t))) toks m) k = bget m k.
  Proof.
    induction toks as [|t toks IH]; intros m k H; [reflexivity|]. cbn [fold_left]. rewrite IH.
    - rewrite Proof.Caps.bget_set. destruct (beqb (fst (cap_kv t)) k) eqn:E; [|reflexivity]. apply beqb_eq in E. exfalso. apply (H t); [left; reflexivity|exact E].
    - intros t' I. apply H. right. exact I.
  Qed.
  Lemma sup_known toks : forall m t, NoDup (map (fun t => fst (cap_kv t)) toks) -> In t toks ->
    bget (fold_left (fun m t => bset m (fst (cap_kv t)) (snd (cap_kv t))) toks m) (fst (cap_kv t)) = Some (snd (cap_kv t)).
  Proof.
    induction toks as [|x toks IH]; intros m t ND I; [destruct I|]. cbn [map] in ND. inversion ND as [|? ? N1 N2]; subst. cbn [fold_left].
    destruct I as [->|I]; [|apply IH; assumption]. rewrite sup_unknown.
    - rewrite Proof.Caps.bget_set, beqb_refl. reflexivity.
    - intros t' I' E. apply N1. rewrite <- E. apply (in_map (fun t => fst (cap_kv t))), I'.
  Qed.
  Lemma kv_name t : to_lower (cap_name t) = cap_name t -> fst (cap_kv t) = cap_name t.
  Proof. unfold cap_kv, cap_name. destruct (cut_on "=" t) as [k [v|]]; cbn [fst]; auto. Qed.

  Hypothesis Order : forall n, Permutation wanted_caps (order n).
  Hypothesis Offered : NoDup (offered first rest).
  Hypothesis Lower : Forall (fun c => to_lower c = c) (offered first rest).
  Hypothesis Echo : In (B "labeled-response") (offered first rest) -> In (B "echo-message") (offered first rest).
  Hypothesis Mech : In (g_mech cfg) [[]; B "PLAIN"; B "EXTERNAL"].

  Definition avail0 : list (bytes * bytes) := supported_caps [] (join (B " ") (first :: rest)).
  Definition b0 : gst := with_avail new_gst avail0.
  Lemma names : map (fun t => fst (cap_kv t)) (tokens first rest) = offered first rest.
  Proof.
    unfold offered in *. revert Lower. generalize (tokens first rest) as l. clear. induction l as [|t l IH]; intros L; [reflexivity|].
    cbn [map] in *. inversion L as [|? ? L1 L2]; subst. f_equal; [apply kv_name, L1|apply IH, L2].
  Qed.
  Lemma avail_spec c : up_available b0 c = true <-> In c (offered first rest).
  Proof.
    unfold up_available, b0. cbn [with_avail s_avail]. unfold avail0, supported_caps. rewrite fields_join. fold (tokens first rest). rewrite <- names. split.
    - intros H. destruct (in_dec bytes_dec c (map (fun t => fst (cap_kv t)) (tokens first rest))) as [I|I]; [exact I|].
      rewrite sup_unknown in H; [discriminate H|]. intros t It E. apply I. rewrite <- E. apply (in_map (fun t => fst (cap_kv t))), It.
    - intros I. apply in_map_iff in I as (t & <- & I). rewrite sup_known; [reflexivity| |exact I]. rewrite names. exact Offered.
  Qed.
  Lemma sasl_spec mech : supports_sasl b0 mech = announces first rest mech.
  Proof.
    unfold supports_sasl, b0. cbn [with_avail s_avail]. unfold avail0, supported_caps. rewrite fields_join. fold (tokens first rest).
    unfold announces. pose proof names as Nm. pose proof Offered as Of. rewrite <- Nm in Of.
    assert (Lw : forall t, In t (tokens first rest) -> fst (cap_kv t) = cap_name t).
    { intros t I. apply kv_name. unfold offered in Lower. rewrite Forall_forall in Lower. apply Lower, in_map, I. }
    destruct (in_dec bytes_dec (B "sasl") (offered first rest)) as [I|I].
    - unfold offered in I. apply in_map_iff in I as (t & E & I). pose proof (sup_known _ [] t Of I) as K. rewrite (Lw t I), E in K. rewrite K.
      destruct (existsb _ (tokens first rest)) eqn:X.
      + apply existsb_exists in X as (t' & I' & X). apply andb_true_iff in X as [X1 X2]. apply beqb_eq in X1.
        assert (T : t' = t).
        { pose proof Offered as O. unfold offered in O. clear - O I I' E X1. induction (tokens first rest) as [|x l IH]; [destruct I|]. cbn [map] in O. inversion O; subst.
          destruct I as [->|I], I' as [->|I']; auto.
          - exfalso. apply H1. rewrite E, <- X1. apply in_map, I'.
          - exfalso. apply H1. rewrite X1, <- E. apply in_map, I. }
        subst t'. unfold cap_kv. destruct (cut_on "=" t) as [k [v|]]; cbn [fst snd] in *; [|reflexivity]. destruct v; [reflexivity|]. exact X2.
      + assert (Y : (beqb (cap_name t) (B "sasl") && match snd (cut_on "=" t) with None => true | Some v => beqb v [] || existsb (fun m => beqb (to_upper m) (to_upper mech)) (split_on "," v) end) = false).
        { destruct (_ && _) eqn:Y; [|reflexivity]. rewrite <- X. symmetry. apply existsb_exists. exists t. split; [exact I|exact Y]. }
        rewrite E, beqb_refl in Y. cbn [andb] in Y. unfold cap_kv. destruct (cut_on "=" t) as [k [v|]]; cbn [fst snd] in *; [|discriminate Y].
        apply orb_false_iff in Y as [Y1 Y2]. destruct v as [|a v]; [discriminate Y1|exact Y2].
    - rewrite sup_unknown.
      + cbn [bget]. symmetry. destruct (existsb _ (tokens first rest)) eqn:X; [|reflexivity]. apply existsb_exists in X as (t & It & X). apply andb_true_iff in X as [X _].
        apply beqb_eq in X. destruct I. unfold offered. rewrite <- X. apply in_map, It.
      + intros t It E. apply I. rewrite <- Nm, <- E. apply (in_map (fun t => fst (cap_kv t))), It.
  Qed.

  Definition asked : list bytes := request order b0.
  Definition asks (c : bytes) : Prop :=
    (In c wanted_caps /\ In c (offered first rest)) \/ (c = B "echo-message" /\ In (B "labeled-response") (offered first rest)).
  Lemma asked_eq : asked = filter (fun c => up_available b0 c) (order 0) ++ (if up_available b0 (B "labeled-response") then [B "echo-message"] else []).
  Proof.
    unfold asked, request. f_equal. apply filter_ext. intros c. rewrite andb_true_r. reflexivity.
  Qed.
  Lemma asked_In c : In c asked <-> asks c.
  Proof.
    rewrite asked_eq, in_app_iff, filter_In, avail_spec. unfold asks. rewrite (Permutation_in' (eq_refl c) (Order 0)).
    destruct (up_available b0 (B "labeled-response")) eqn:E.
    - apply avail_spec in E. split; (intros [H|H]; [left; exact H|right]). { destruct H as [<-|[]]. auto. } left. symmetry. apply H.
    - split; (intros [H|H]; [left; exact H|]); [destruct H|]. destruct H as [_ H]. apply avail_spec in H. congruence.
  Qed.
  Definition plain_word (c : bytes) : bool :=
    negb (beqb c []) && forallb (fun x => negb (is_blank x)) c && beqb (to_lower c) c && match c with x :: _ => negb (aeqb x "-") | [] => false end.
  Lemma wanted_plain : forallb plain_word (B "echo-message" :: wanted_caps) = true.
  Proof. vm_compute. reflexivity. Qed.
  Lemma asked_plain c : In c asked -> word c /\ ack_token true c = (c, true).
  Proof.
    intros I. apply asked_In in I.
    assert (P : plain_word c = true).
    { pose proof wanted_plain as W. rewrite forallb_forall in W. apply W. destruct I as [[I _]|[-> _]]; [right; exact I|left; reflexivity]. }
    unfold plain_word in P. apply andb_true_iff in P as [P P4]. apply andb_true_iff in P as [P P3]. apply andb_true_iff in P as [P1 P2].
    apply beqb_eq in P3. split.
    - split; [|exact P2]. intros ->. discriminate P1.
    - destruct c as [|x c]; [discriminate P4|]. unfold ack_token. apply negb_true_iff in P4. rewrite P4, P3. reflexivity.
  Qed.
  Lemma asked_nodup : NoDup asked.
  Proof.
    rewrite asked_eq. assert (N : NoDup (filter (fun c => up_available b0 c) (order 0))).
    { apply NoDup_filter. apply (Permutation_NoDup (Order 0)). assert (D : nodup bytes_dec wanted_caps = wanted_caps) by (vm_compute; reflexivity). rewrite <- D. apply NoDup_nodup. }
    destruct (up_available _ _); [|rewrite app_nil_r; exact N].
    apply (Permutation_NoDup (Permutation_cons_append _ _)). constructor; [|exact N]. intros I. apply filter_In in I as [I _].
    apply (Permutation_in _ (Permutation_sym (Order 0))) in I. apply bmem_In in I. vm_compute in I. discriminate.
  Qed.
  Lemma asked_offered : forallb (fun c => bmem c (offered first rest)) asked = true.
  Proof.
    apply forallb_forall. intros c I. apply bmem_In. apply asked_In in I as [[_ I]|[-> I]]; [exact I|apply Echo, I].
  Qed.

  (** The acknowledgement. *)
  Definition granted (l en : list bytes) : list bytes := fold_left (fun en c => set_enabled en c true) l en.
  Definition the_client : gclient := if beqb (g_mech cfg) (B "PLAIN") then GPlain (g_user cfg) (g_secret cfg) else GExternal.
  Lemma request_sasl_with s en cl st : request_sasl cfg (GSt (s_avail s) en cl st false false 1) = request_sasl cfg s.
  Proof. reflexivity. Qed.
  Lemma acks_off l : forall en, (forall c, In c l -> ack_token true c = (c, true)) -> (request_sasl cfg b0 = false \/ ~ In (B "sasl") l) -> forall cl st,
    acks cfg true l (GSt avail0 en cl st false false 1) = (GSt avail0 (granted l en) cl st false false 1, []).
  Proof.
    induction l as [|c l IH]; intros en T R cl st; [reflexivity|]. cbn [acks]. rewrite (T c (or_introl eq_refl)).
    assert (E : cap_ack cfg (GSt avail0 en cl st false false 1) c true = (GSt avail0 (set_enabled en c true) cl st false false 1, [], false)).
    { unfold cap_ack. cbv zeta. cbn [with_enabled s_avail s_enabled s_client s_started s_reg s_closed s_n]. destruct (beqb c (B "sasl")) eqn:E; [|reflexivity].
      destruct R as [R|R]; [|destruct R; left; apply beqb_eq, E].
      match goal with |- context[request_sasl cfg ?x] => change (request_sasl cfg x) with (request_sasl cfg b0) end. rewrite R. reflexivity. }
    rewrite E. cbn [s_closed]. rewrite IH; [reflexivity|intros; apply T; right; assumption|].
    destruct R as [R|R]; [left; exact R|right; intros I; apply R; right; exact I].
  Qed.
  Lemma acks_on l : forall en, NoDup l -> (forall c, In c l -> ack_token true c = (c, true)) -> request_sasl cfg b0 = true -> In (B "sasl") l ->
    acks cfg true l (GSt avail0 en None false false false 1) = (GSt avail0 (granted l en) (Some the_client) false false false 1, [auth (g_mech cfg)]).
  Proof.
    induction l as [|c l IH]; intros en N T R I; [destruct I|]. inversion N as [|? ? N1 N2]; subst. cbn [acks]. rewrite (T c (or_introl eq_refl)).
    destruct (beqb c (B "sasl")) eqn:E.
    - assert (Ea : cap_ack cfg (GSt avail0 en None false false false 1) c true = (GSt avail0 (set_enabled en c true) (Some the_client) false false false 1, [auth (g_mech cfg)], false)).
      { unfold cap_ack. cbv zeta. rewrite E. cbn [with_enabled s_avail s_enabled s_client s_started s_reg s_closed s_n].
        match goal with |- context[request_sasl cfg ?x] => change (request_sasl cfg x) with (request_sasl cfg b0) end. rewrite R. cbn [negb].
        unfold the_client. destruct Mech as [M|[M|[M|[]]]]; rewrite <- M.
        - unfold request_sasl in R. rewrite <- M in R. discriminate R.
        - reflexivity.
        - reflexivity. }
      apply beqb_eq in E. rewrite Ea. cbn [s_closed]. rewrite acks_off; [reflexivity|intros; apply T; right; assumption|].
      right. rewrite <- E. exact N1.
    - assert (Ea : cap_ack cfg (GSt avail0 en None false false false 1) c true = (GSt avail0 (set_enabled en c true) None false false false 1, [], false)).
      { unfold cap_ack. cbv zeta. rewrite E. reflexivity. }
      rewrite Ea. cbn [s_closed]. destruct I as [I|I]; [rewrite I, beqb_refl in E; discriminate E|].
      rewrite IH; [reflexivity|exact N2|intros; apply T; right; assumption|exact R|exact I].
  Qed.
  Lemma granted_In l : forall en x, In x (granted l en) <-> In x l \/ In x en.
  Proof.
    induction l as [|c l IH]; intros en x; [cbn [In]; tauto|]. unfold granted. cbn [fold_left]. fold (granted l (set_enabled en c true)). rewrite IH.
    rewrite Proof.Caps.set_enabled_In. cbn [In]. destruct (beqb c x) eqn:E.
    - apply beqb_eq in E. tauto.
    - apply beqb_neq in E. tauto.
  Qed.

  Lemma reg_server : reach (start cfg) (Sys new_gst (Sv true (Some (g_nick cfg)) true false [] None None []) (ls_lines (B "*") first rest) []).
  Proof.
    unfold start, register. eapply reach_trans; [apply reach_server; reflexivity|]. cbn [app].
    assert (S2 : forall b q, reach (Sys b (set_busy true new_sv) q [msg (B "NICK") [g_nick cfg]; msg (B "USER") [g_username cfg; B "0"; B "*"; g_realname cfg]])
      (Sys b (Sv true (Some (g_nick cfg)) true false [] None None []) q [])).
    { intros b q. eapply reach_trans; [apply reach_server; reflexivity|]. eapply reach_trans; [apply reach_server; reflexivity|].
      rewrite !app_nil_r. apply reach_refl. }
    destruct (g_pass cfg) as [|x p]; [apply S2|]. eapply reach_trans; [apply reach_server; reflexivity|]. rewrite app_nil_r. apply S2.
  Qed.
  Lemma bouncer_ls : gsteps order sorted parse_command cfg (map GMsg (ls_lines (B "*") first rest)) new_gst =
    (GSt avail0 [] None false false false 1, update_caps order b0 ++ (if request_sasl cfg b0 then [] else [cap_end])).
  Proof.
    rewrite listing, run_cons. cbn [gsteps gstep fst snd]. rewrite last_step by reflexivity. cbv zeta. cbn [fst snd]. rewrite app_nil_r. reflexivity.
  Qed.
  Lemma sasl_asked : request_sasl cfg b0 = true -> In (B "sasl") asked.
  Proof.
    intros R. apply asked_In. left. split; [apply bmem_In; vm_compute; reflexivity|]. apply avail_spec. unfold request_sasl in R.
    destruct (g_mech cfg); [discriminate R|]. unfold supports_sasl in R. unfold up_available. destruct (bget (s_avail b0) (B "sasl")); [reflexivity|discriminate R].
  Qed.

  Definition final : sys := Sys (GSt avail0 (granted asked []) None false true false 1)
    (Sv false (Some (g_nick cfg)) true true asked None (account_of first rest mech_ok login cfg) (joins sorted cfg ++ connect_commands parse_command cfg)) [] [].

  Lemma request_account : account_of first rest mech_ok login cfg = if request_sasl cfg b0 && mech_ok (g_mech cfg) then login (start_client the_client) else None.
  Proof.
    unfold account_of, request_sasl. rewrite <- (sasl_spec (g_mech cfg)). unfold credentials, the_client.
    destruct Mech as [M|[M|[M|[]]]]; rewrite <- M; reflexivity.
  Qed.

  Lemma serve_req v : v_welcomed v = false -> v_caps v = [] -> asked <> [] ->
    srv v (msg (B "CAP") [B "REQ"; join (B " ") asked]) =
    (Sv (v_busy v) (v_nick v) (v_user v) (v_welcomed v) asked (v_chunks v) (v_account v) (v_got v), [msg (B "CAP") [B "*"; B "ACK"; join (B " ") asked]]).
  Proof.
    intros W C N. unfold serve. rewrite W.
    change (m_command (msg (B "CAP") [B "REQ"; join (B " ") asked])) with (B "CAP"). change (m_params (msg (B "CAP") [B "REQ"; join (B " ") asked])) with [B "REQ"; join (B " ") asked].
    change (beqb (B "CAP") (B "CAP")) with true. change (beqb (B "REQ") (B "LS")) with false. change (beqb (B "REQ") (B "REQ")) with true. cbv iota.
    assert (F : fields (join (B " ") asked) = asked).
    { apply fields_words; [exact N|]. apply Forall_forall. intros c I. apply asked_plain, I. }
    rewrite F, asked_offered, C. reflexivity.
  Qed.
  Lemma bounce_ack en cl st : asked <> [] ->
    bou (GSt avail0 en cl st false false 1) (msg (B "CAP") [B "*"; B "ACK"; join (B " ") asked]) = acks cfg true asked (GSt avail0 en cl st false false 1).
  Proof.
    intros N. unfold on_server. cbn [s_closed]. cbv zeta.
    change (m_command (msg (B "CAP") [B "*"; B "ACK"; join (B " ") asked])) with (B "CAP").
    change (beqb (B "CAP") (B "PING")) with false. change (beqb (B "CAP") (B "CAP")) with true. cbv iota.
    change (m_params (msg (B "CAP") [B "*"; B "ACK"; join (B " ") asked])) with [B "*"; B "ACK"; join (B " ") asked].
    unfold on_cap. cbv zeta. change (to_upper (B "ACK")) with (B "ACK").
    change (beqb (B "ACK") (B "LS")) with false. change (beqb (B "ACK") (B "ACK")) with true. cbv iota. cbn [orb].
    rewrite fields_words; [reflexivity|exact N|]. apply Forall_forall. intros c I. apply asked_plain, I.
  Qed.

  Lemma update_some : asked <> [] -> update_caps order b0 = [msg (B "CAP") [B "REQ"; join (B " ") asked]].
  Proof. unfold update_caps. fold asked. destruct asked; [contradiction|reflexivity]. Qed.

  Theorem reaches_final : reach (start cfg) final.
  Proof.
    eapply reach_trans; [apply reg_server|]. eapply reach_trans; [apply reach_bouncers|]. rewrite bouncer_ls. cbn [fst snd app].
    unfold final. rewrite request_account.
    assert (T : forall c, In c asked -> ack_token true c = (c, true)) by (intros c I; apply asked_plain, I).
    destruct (request_sasl cfg b0) eqn:R.
    - pose proof (sasl_asked R) as I. assert (N : asked <> []) by (intros E; rewrite E in I; destruct I).
      rewrite (update_some N). cbn [app]. eapply reach_trans; [apply reach_server, serve_req; [reflexivity|reflexivity|exact N]|].
      cbn [app v_busy v_nick v_user v_welcomed v_caps v_chunks v_account v_got].
      eapply reach_trans; [apply reach_bouncer; rewrite bounce_ack by exact N; apply acks_on; [apply asked_nodup|exact T|exact R|exact I]|].
      cbn [app andb]. apply bmem_In in I. destruct (mech_ok (g_mech cfg)) eqn:Mo.
      + eapply reach_trans; [apply reach_server; rewrite on_auth_eq by reflexivity; unfold on_auth; cbn [v_chunks v_caps]; rewrite I, Mo; reflexivity|].
        apply exchange.
      + eapply reach_trans; [apply reach_server; rewrite on_auth_eq by reflexivity; unfold on_auth; cbn [v_chunks v_caps]; rewrite I, Mo; reflexivity|].
        eapply reach_trans; [apply reach_bouncer; reflexivity|]. apply finish.
    - cbn [andb]. destruct (list_eq_dec bytes_dec asked []) as [Ea|N].
      + unfold update_caps. fold asked. rewrite Ea. apply finish.
      + rewrite (update_some N). cbn [app].
        eapply reach_trans; [apply reach_server, serve_req; [reflexivity|reflexivity|exact N]|].
        cbn [app v_busy v_nick v_user v_welcomed v_caps v_chunks v_account v_got].
        eapply reach_trans; [apply reach_bouncer; rewrite bounce_ack by exact N; apply acks_off; [exact T|left; exact R]|].
        apply finish.
  Qed.

  Theorem registers : exists n f,
    mvs n (start cfg) f /\ idle f /\
    (forall k s, mvs k (start cfg) s -> k <= n /\ mvs (n - k) s f) /\
    v_welcomed (y_v f) = true /\ s_reg (y_b f) = true /\ s_closed (y_b f) = false /\
    v_nick (y_v f) = Some (g_nick cfg) /\
    v_account (y_v f) = account_of first rest mech_ok login cfg /\
    (forall c, In c (v_caps (y_v f)) <-> asks c) /\ (forall c, up_enabled (y_b f) c = true <-> asks c) /\
    v_got (y_v f) = joins sorted cfg ++ connect_commands parse_command cfg.
  Proof.
    destruct reaches_final as [n H]. exists n, final. split; [exact H|]. split; [split; reflexivity|].
    split; [intros k s K; apply (confluent k n _ _ s H); [split; reflexivity|exact K]|].
    split; [reflexivity|]. split; [reflexivity|]. split; [reflexivity|]. split; [reflexivity|]. split; [reflexivity|].
    split; [exact asked_In|]. split; [|reflexivity]. intros c. unfold up_enabled, final. cbn [y_b s_enabled]. rewrite bmem_In, granted_In, asked_In. cbn [In]. tauto.
  Qed.
End System.
