(** Proofs about what clients know about their own user. *)
From Verif.Base Require Import Bytes.
From Verif.Model Require Import Message Self.
From Verif.Spec Require Import Self.

Section Proofs.
  Variable cm : bytes -> bytes.
  Variables PC PS PA : N -> Prop.

  Definition kinv (k : know) (d : client) : Prop :=
    d_nick d = k_nick k /\ d_host d = k_host k /\ d_real d = k_real k /\ d_acct d = k_acct k /\
    (PC (d_id d) -> d_user d = k_user k /\ c_chg (d_caps d) = true) /\
    (PS (d_id d) -> c_set (d_caps d) = true) /\ (PA (d_id d) -> c_sasl (d_caps d) = true).
  Definition sync (c : conn) (d : client) : Prop :=
    d_nick d = n_nick c /\ (n_host c <> [] -> d_host d = n_host c /\ d_user d = n_user c) /\
    (PS (d_id d) -> d_real d = n_real c) /\ (PA (d_id d) -> d_acct d = n_acct c).

  Definition heard (c : conn) (l : sline) : conn :=
    match l with
    | LNick from n => if beqb (cm (n_nick c)) (cm from) then Conn n (n_user c) (n_host c) (n_real c) (n_acct c) (n_setname c) else c
    | LSetname from r => if beqb (cm (n_nick c)) (cm from) then Conn (n_nick c) (n_user c) (n_host c) r (n_acct c) (n_setname c) else c
    | LHost from u h => if beqb (cm (n_nick c)) (cm from) then Conn (n_nick c) u h (n_real c) (n_acct c) (n_setname c) else c
    | LLogin u h a => Conn (n_nick c) u h (n_real c) a (n_setname c)
    | LLogout u h => Conn (n_nick c) u h (n_real c) [] (n_setname c)
    | LVisible raw =>
        let '(u, h) := match cut_on "@" raw with (u, Some h) => (u, h) | (h, None) => (n_user c, h) end in
        Conn (n_nick c) u h (n_real c) (n_acct c) (n_setname c)
    | LClose => c
    end.
  Fixpoint tail (c : conn) (q : list sline) (v : option conn) : Prop :=
    match q with
    | [] => v = Some c
    | LClose :: q' => q' = [] /\ v = None
    | l :: q' => tail (heard c l) q' v
    end.
  Definition link (s : st) : Prop :=
    match s_conn s, s_pend s with
    | Some c, None => tail c (s_down s) (v_conn s)
    | None, Some (c, true) => tail c (s_down s) (v_conn s)
    | None, Some (_, false) | None, None => s_down s = [] /\ v_conn s = None
    | Some _, Some _ => False
    end.

  Lemma tail_snoc c q w l : l <> LClose -> tail c q (Some w) -> tail c (q ++ [l]) (Some (heard w l)).
  Proof.
    intros Hl. revert c. induction q as [|x q IH]; intros c H; cbn [tail app] in *.
    - injection H as <-. destruct l; try reflexivity. contradiction.
    - destruct x; try (apply IH, H). destruct H as [_ H]. discriminate.
  Qed.
  Lemma tail_close c q w : tail c q (Some w) -> tail c (q ++ [LClose]) None.
  Proof.
    revert c. induction q as [|x q IH]; intros c H; cbn [tail app] in *.
    - auto.
    - destruct x; try (apply IH, H). destruct H as [_ H]. discriminate.
  Qed.

  Definition good (f : st -> client -> client * list message) : Prop :=
    forall s d k, kinv k d ->
      kinv (fold_left (learn cm) (snd (f s d)) k) (fst (f s d)) /\
      d_id (fst (f s d)) = d_id d /\ d_bound (fst (f s d)) = d_bound d /\ d_caps (fst (f s d)) = d_caps d.

  Lemma good_then f g : good f -> good g -> good (then_ f g).
  Proof.
    intros Hf Hg s d k H. unfold then_.
    specialize (Hf s d k H). destruct (f s d) as [d1 m1]. cbn [fst snd] in Hf. destruct Hf as (H1 & E1 & E2 & E3).
    specialize (Hg s d1 _ H1). destruct (g s d1) as [d2 m2]. cbn [fst snd] in *. destruct Hg as (H2 & F1 & F2 & F3).
    rewrite fold_left_app. split; [exact H2|]. repeat split; congruence.
  Qed.

  Lemma mine_self k d : kinv k d -> mine cm k (self d) = true.
  Proof. intros H. unfold mine, self. cbn [p_name]. destruct H as (E & _). rewrite E. apply beqb_refl. Qed.

  Ltac lsimp :=
    cbn [fold_left];
    unfold learn at 1; cbn [m_params m_command m_prefix msg];
    repeat match goal with |- context [beqb (B ?a) (B ?b)] => let x := eval vm_compute in (beqb (B a) (B b)) in change (beqb (B a) (B b)) with x end;
    cbv iota.

  Lemma good_nick : good update_nick.
  Proof.
    intros s d k H. pose proof (mine_self k d H) as Hm. unfold update_nick.
    destruct (beqb _ (d_nick d)); cbn [fst snd]; [split; [exact H|auto]|].
    unfold send, allowed. cbn [m_command].
    change (beqb (B "NICK") (B "SETNAME")) with false. change (beqb (B "NICK") (B "CHGHOST")) with false. cbv iota.
    lsimp. rewrite Hm. destruct H as (E1 & E2 & E3 & E4 & E5 & E6).
    split; [|auto]. unfold kinv. cbn. tauto.
  Qed.
  Lemma good_host : good update_host.
  Proof.
    intros s d k H. pose proof (mine_self k d H) as Hm. unfold update_host.
    destruct (up s d) as [c|]; [|cbn [fst snd]; split; [exact H|auto]].
    destruct (nil (n_host c)); [cbn [fst snd]; split; [exact H|auto]|].
    destruct (beqb_spec (n_host c) (d_host d)) as [E|E]; cbn [andb negb].
    - destruct (beqb (n_user c) (d_user d)); cbn [fst snd]; [split; [exact H|auto]|].
      destruct (c_chg (d_caps d)) eqn:Hc; cbn [fst snd].
      + unfold send, allowed. cbn [m_command].
        change (beqb (B "CHGHOST") (B "SETNAME")) with false. change (beqb (B "CHGHOST") (B "CHGHOST")) with true. cbv iota.
        rewrite Hc. lsimp. rewrite Hm. destruct H as (E1 & E2 & E3 & E4 & E5 & E6).
        split; [|auto]. unfold kinv. cbn. tauto.
      + split; [|auto]. destruct H as (E1 & E2 & E3 & E4 & E5 & E6). unfold kinv. cbn.
        rewrite E. assert (HN : ~ PC (d_id d)) by (intros HP; destruct (E5 HP); congruence). tauto.
    - destruct (c_chg (d_caps d)) eqn:Hc; cbn [fst snd].
      + unfold send, allowed. cbn [m_command].
        change (beqb (B "CHGHOST") (B "SETNAME")) with false. change (beqb (B "CHGHOST") (B "CHGHOST")) with true. cbv iota.
        rewrite Hc. lsimp. rewrite Hm. destruct H as (E1 & E2 & E3 & E4 & E5 & E6).
        split; [|auto]. unfold kinv. cbn. tauto.
      + unfold send, allowed. cbn [m_command].
        change (beqb (B "396") (B "SETNAME")) with false. change (beqb (B "396") (B "CHGHOST")) with false. cbv iota.
        lsimp. split; [|auto]. destruct H as (E1 & E2 & E3 & E4 & E5 & E6). unfold kinv. cbn.
        assert (HN : ~ PC (d_id d)) by (intros HP; destruct (E5 HP); congruence). tauto.
  Qed.
  Lemma good_real : good update_real.
  Proof.
    intros s d k H. pose proof (mine_self k d H) as Hm. unfold update_real.
    destruct (c_set (d_caps d)) eqn:Hc; cbn [negb]; [|cbn [fst snd]; split; [exact H|auto]].
    destruct (beqb _ (d_real d)); cbn [fst snd]; [split; [exact H|auto]|].
    unfold send, allowed. cbn [m_command].
    change (beqb (B "SETNAME") (B "SETNAME")) with true. cbv iota. rewrite Hc.
    lsimp. rewrite Hm. destruct H as (E1 & E2 & E3 & E4 & E5 & E6).
    split; [|auto]. unfold kinv. cbn. tauto.
  Qed.
  Lemma good_acct : good update_acct.
  Proof.
    intros s d k H. unfold update_acct.
    destruct (if d_bound d then _ else _) as [a|]; [|cbn [fst snd]; split; [exact H|auto]].
    destruct (beqb (d_acct d) a || negb (c_sasl (d_caps d))); [cbn [fst snd]; split; [exact H|auto]|].
    cbn [fst snd]. destruct (nil a) eqn:Ha; cbn [negb]; unfold send, allowed; cbn [m_command msg].
    - change (beqb (B "901") (B "SETNAME")) with false. change (beqb (B "901") (B "CHGHOST")) with false. cbv iota. lsimp.
      destruct a; [|discriminate]. split; [|auto]. destruct H as (E1 & E2 & E3 & E4 & E5 & E6). unfold kinv. cbn. tauto.
    - change (beqb (B "900") (B "SETNAME")) with false. change (beqb (B "900") (B "CHGHOST")) with false. cbv iota. lsimp.
      split; [|auto]. destruct H as (E1 & E2 & E3 & E4 & E5 & E6). unfold kinv. cbn. tauto.
  Qed.

  (** The effect on a client of the network while it is connected. *)
  Lemma nick_eq s d c : up s d = Some c ->
    fst (update_nick s d) = Client (d_id d) (d_bound d) (d_caps d) (n_nick c) (d_user d) (d_host d) (d_real d) (d_acct d).
  Proof.
    intros E. unfold update_nick. rewrite E. destruct (beqb_spec (n_nick c) (d_nick d)) as [->|]; [destruct d|]; reflexivity.
  Qed.
  Lemma host_eq s d c : up s d = Some c ->
    fst (update_host s d) = if nil (n_host c) then d else Client (d_id d) (d_bound d) (d_caps d) (d_nick d) (n_user c) (n_host c) (d_real d) (d_acct d).
  Proof.
    intros E. unfold update_host. rewrite E. destruct (nil (n_host c)); [reflexivity|].
    destruct (beqb_spec (n_host c) (d_host d)) as [->|]; cbn [andb]; [|reflexivity].
    destruct (beqb_spec (n_user c) (d_user d)) as [->|]; [destruct d|]; reflexivity.
  Qed.
  Lemma real_eq s d c : up s d = Some c ->
    fst (update_real s d) = if c_set (d_caps d) then Client (d_id d) (d_bound d) (d_caps d) (d_nick d) (d_user d) (d_host d) (n_real c) (d_acct d) else d.
  Proof.
    intros E. unfold update_real. rewrite E. destruct (c_set (d_caps d)); [|reflexivity]. cbn [negb].
    destruct (beqb_spec (n_real c) (d_real d)) as [->|]; [destruct d|]; reflexivity.
  Qed.
  Lemma acct_eq s d c : up s d = Some c ->
    fst (update_acct s d) = if c_sasl (d_caps d) then Client (d_id d) (d_bound d) (d_caps d) (d_nick d) (d_user d) (d_host d) (d_real d) (n_acct c) else d.
  Proof.
    unfold up. intros E. unfold update_acct. destruct (d_bound d) eqn:Hb; [|discriminate]. rewrite E. cbn [option_map].
    destruct (c_sasl (d_caps d)); cbn [negb]; [|rewrite orb_true_r; reflexivity]. rewrite orb_false_r.
    destruct (beqb_spec (d_acct d) (n_acct c)) as [<-|]; [destruct d; cbn in *; subst|]; reflexivity.
  Qed.
  Lemma then_eq f g s d : fst (then_ f g s d) = fst (g s (fst (f s d))).
  Proof. unfold then_. destruct (f s d) as [d1 m1]. cbn [fst]. destruct (g s d1). reflexivity. Qed.

  Lemma up_conn s d c : d_bound d = true -> s_conn s = Some c -> up s d = Some c.
  Proof. unfold up. intros -> ->. reflexivity. Qed.

  Lemma nil_false b : b <> [] -> nil b = false.
  Proof. destruct b; [contradiction|reflexivity]. Qed.

  (** *** All clients *)
  Lemma each_other f p l id k : ~ In id (map d_id l) -> fold_left (observe cm id) (snd (each f p l)) k = k.
  Proof.
    revert k. induction l as [|d l IH]; intros k H; [reflexivity|]. cbn [each].
    destruct (if p d then f d else (d, [])) as [d1 ms]. specialize (IH k). destruct (each f p l) as [l1 o]. cbn [snd] in *.
    rewrite fold_left_app. cbn [map In] in H.
    assert (E : fold_left (observe cm id) (map (OMsg (d_id d)) ms) k = k).
    { clear - H. induction ms as [|m ms IH]; [reflexivity|]. cbn [map fold_left observe].
      destruct (N.eqb_spec (d_id d) id); [tauto|exact IH]. }
    rewrite E. apply IH. tauto.
  Qed.
  Lemma fold_own id ms k : fold_left (observe cm id) (map (OMsg id) ms) k = fold_left (learn cm) ms k.
  Proof. revert k. induction ms as [|m ms IH]; intros k; [reflexivity|]. cbn [map fold_left observe]. rewrite N.eqb_refl. apply IH. Qed.
  Lemma fold_not_own id i ms k : i <> id -> fold_left (observe cm id) (map (OMsg i) ms) k = k.
  Proof. intros H. induction ms as [|m ms IH]; [reflexivity|]. cbn [map fold_left observe]. destruct (N.eqb_spec i id); [contradiction|exact IH]. Qed.
  Lemma each_own f p l d k : NoDup (map d_id l) -> In d l ->
    fold_left (observe cm (d_id d)) (snd (each f p l)) k = fold_left (learn cm) (snd (if p d then f d else (d, []))) k.
  Proof.
    revert k. induction l as [|x l IH]; intros k Hn Hd; [destruct Hd|]. cbn [each].
    cbn [map] in Hn. apply NoDup_cons_iff in Hn. destruct Hn as [Hx Hn].
    pose proof (each_other f p l (d_id x)) as Ho. specialize (fun k => IH k Hn).
    destruct (if p x then f x else (x, [])) as [d1 ms] eqn:E. destruct (each f p l) as [l1 o]. cbn [snd] in *.
    rewrite fold_left_app. destruct Hd as [<-|Hd].
    - rewrite fold_own, E. cbn [snd]. apply Ho, Hx.
    - rewrite fold_not_own; [apply IH, Hd|]. intros Ei. apply Hx. rewrite Ei. apply in_map, Hd.
  Qed.
  Lemma each_map f p l : fst (each f p l) = map (fun d => if p d then fst (f d) else d) l.
  Proof.
    induction l as [|d l IH]; [reflexivity|]. cbn [each map].
    destruct (p d); destruct (each f p l) as [l1 o]; cbn [fst] in IH; subst l1; [destruct (f d)|]; reflexivity.
  Qed.

  Record Inv (s : st) (outs : list out) : Prop := {
    i_nd : NoDup (map d_id (s_clients s));
    i_next : forall d, In d (s_clients s) -> (d_id d <= s_next s)%N;
    i_know : forall d, In d (s_clients s) -> kinv (knows cm (d_id d) outs) d;
    i_sync : forall d c, In d (s_clients s) -> d_bound d = true -> s_conn s = Some c -> sync c d;
    i_link : link s }.

  Lemma knows_app id a b : knows cm id (a ++ b) = fold_left (observe cm id) b (knows cm id a).
  Proof. unfold knows. apply fold_left_app. Qed.

  Lemma map_ids (f : client -> client * list message) (p : client -> bool) l :
    (forall d, In d l -> d_id (fst (f d)) = d_id d) -> map d_id (map (fun d : client => if p d then fst (f d) else d) l) = map d_id l.
  Proof.
    intros H. rewrite map_map. apply map_ext_in. intros d Hd. destruct (p d); [apply H, Hd|reflexivity].
  Qed.

  (** The clients in [s] know what they know; [s] may have a connection that they do not know of yet. *)
  Lemma tell_inv s f (p : client -> bool) outs :
    NoDup (map d_id (s_clients s)) ->
    (forall d, In d (s_clients s) -> (d_id d <= s_next s)%N) ->
    (forall d, In d (s_clients s) -> kinv (knows cm (d_id d) outs) d) ->
    link s -> good f ->
    (forall d c, In d (s_clients s) -> d_bound d = true -> s_conn s = Some c -> if p d then sync c (fst (f s d)) else sync c d) ->
    Inv (fst (tell s f p)) (outs ++ snd (tell s f p)).
  Proof.
    intros Hn Hx Hk Hl Hf Hs. unfold tell.
    pose proof (each_own (f s) p (s_clients s)) as Ho. pose proof (each_map (f s) p (s_clients s)) as Hm.
    destruct (each (f s) p (s_clients s)) as [l o]. cbn [fst snd] in *. subst l.
    assert (Hg : forall d, In d (s_clients s) -> d_id (fst (f s d)) = d_id d).
    { intros d Hd. exact (proj1 (proj2 (Hf s d _ (Hk d Hd)))). }
    constructor; cbn [s_clients with_clients s_next s_conn].
    - rewrite (map_ids (f s)); assumption.
    - intros d' Hd. apply in_map_iff in Hd. destruct Hd as (d & <- & Hd). destruct (p d); [rewrite Hg by assumption|]; apply Hx, Hd.
    - intros d' Hd. apply in_map_iff in Hd. destruct Hd as (d & <- & Hd).
      assert (E : d_id (if p d then fst (f s d) else d) = d_id d) by (destruct (p d); [apply Hg, Hd|reflexivity]).
      rewrite E, knows_app, (Ho d _ Hn Hd). destruct (p d); [|apply Hk, Hd]. apply Hf, Hk, Hd.
    - intros d' c Hd Hb Hc. apply in_map_iff in Hd. destruct Hd as (d & <- & Hd).
      specialize (Hs d c Hd). destruct (p d); [|auto]. apply Hs; [|exact Hc].
      rewrite <- Hb. symmetry. exact (proj1 (proj2 (proj2 (Hf s d _ (Hk d Hd))))).
    - exact Hl.
  Qed.

  (** Messages that tell clients nothing about themselves. *)
  Lemma forward_inv s m outs :
    (forall d, In d (s_clients s) -> d_bound d = true -> learn cm (knows cm (d_id d) outs) m = knows cm (d_id d) outs) ->
    NoDup (map d_id (s_clients s)) ->
    forall d, In d (s_clients s) -> knows cm (d_id d) (outs ++ forward s m) = knows cm (d_id d) outs.
  Proof.
    intros H Hn d Hd. rewrite knows_app. unfold forward.
    assert (Hu : forall x, In x (s_clients s) -> d_id x = d_id d -> x = d).
    { clear - Hn Hd. revert Hn Hd. generalize (s_clients s). induction l as [|y l IH]; intros Hn Hd x Hx E; [destruct Hx|].
      cbn [map] in Hn. apply NoDup_cons_iff in Hn. destruct Hn as [Hy Hn].
      destruct Hd as [<-|Hd], Hx as [<-|Hx]; auto.
      - exfalso. apply Hy. rewrite <- E. apply in_map, Hx.
      - exfalso. apply Hy. rewrite E. apply in_map, Hd. }
    assert (Hi : incl (s_clients s) (s_clients s)) by apply incl_refl. revert Hi.
    generalize (s_clients s) at 1 3. intros l. induction l as [|x l IH]; intros Hi; [reflexivity|].
    cbn [flat_map]. rewrite fold_left_app.
    assert (E : fold_left (observe cm (d_id d)) (if d_bound x then map (OMsg (d_id x)) (send x m) else []) (knows cm (d_id d) outs) = knows cm (d_id d) outs).
    { destruct (d_bound x) eqn:Hb; [|reflexivity].
      destruct (N.eqb_spec (d_id x) (d_id d)) as [Ei|Ei]; [|apply fold_not_own, Ei].
      rewrite Ei, fold_own. unfold send. destruct (allowed x m); [|reflexivity]. cbn [fold_left].
      rewrite <- Ei. apply H; [apply Hi; left; reflexivity|exact Hb]. }
    rewrite E. apply IH. intros y Hy. apply Hi. right. exact Hy.
  Qed.

  Lemma inv_same s s' outs o :
    s_clients s' = s_clients s -> s_next s' = s_next s -> link s' ->
    (forall c, s_conn s' = Some c -> s_conn s = Some c) ->
    (forall d, In d (s_clients s) -> knows cm (d_id d) (outs ++ o) = knows cm (d_id d) outs) ->
    Inv s outs -> Inv s' (outs ++ o).
  Proof.
    intros E1 E2 Hl Hc Hk H. constructor.
    - rewrite E1. apply H.
    - rewrite E1, E2. apply H.
    - rewrite E1. intros d Hd. rewrite Hk by assumption. apply (i_know s outs H d Hd).
    - rewrite E1. intros d c Hd Hb E. apply (i_sync s outs H d c Hd Hb). apply Hc, E.
    - exact Hl.
  Qed.
  Lemma inv_quiet s s' outs :
    s_clients s' = s_clients s -> s_next s' = s_next s -> link s' ->
    (forall c, s_conn s' = Some c -> s_conn s = Some c) ->
    Inv s outs -> Inv s' (outs ++ []).
  Proof. intros. eapply inv_same; eauto. intros. rewrite app_nil_r. reflexivity. Qed.

  Definition ups (o : list out) : Prop := forall x, In x o -> exists c a, x = OUp c a.
  Lemma ups_knows id outs o : ups o -> knows cm id (outs ++ o) = knows cm id outs.
  Proof.
    intros H. rewrite knows_app. generalize (knows cm id outs). induction o as [|x o IH]; intros k; [reflexivity|].
    cbn [fold_left]. destruct (H x (or_introl eq_refl)) as (c & a & ->). cbn [observe]. apply IH.
    intros y Hy. apply H. right. exact Hy.
  Qed.

  Lemma user_update_frame s n r :
    s_clients (fst (user_update s n r)) = s_clients s /\ s_next (fst (user_update s n r)) = s_next s /\
    ups (snd (user_update s n r)) /\
    (forall c, s_conn (fst (user_update s n r)) = Some c -> s_conn s = Some c) /\
    (link s -> link (fst (user_update s n r))).
  Proof.
    unfold user_update.
    set (o1 := if negb (beqb n (u_nick s)) && nil (w_nick s) then _ else _).
    assert (Ho : ups o1).
    { subst o1. intros x Hx. destruct (_ && _) in Hx; [|destruct Hx]. destruct (s_conn s); [|destruct Hx].
      destruct Hx as [<-|[]]. eauto. }
    clearbody o1. destruct (negb (beqb r (u_real s)) && nil (w_real s)).
    - destruct (s_conn s) as [c|] eqn:Hc.
      + destruct (n_setname c); cbn [fst snd].
        * split; [reflexivity|]. split; [reflexivity|]. split; [|split].
          -- intros x Hx. apply in_app_iff in Hx. destruct Hx as [Hx|[<-|[]]]; eauto.
          -- cbn. congruence.
          -- auto.
        * split; [reflexivity|]. split; [reflexivity|]. split; [exact Ho|]. split; [cbn; discriminate|].
          intros _. split; reflexivity.
      + cbn [fst snd]. split; [reflexivity|]. split; [reflexivity|]. split; [exact Ho|]. split; [cbn; discriminate|].
        intros _. split; reflexivity.
    - cbn [fst snd]. split; [reflexivity|]. split; [reflexivity|]. split; [exact Ho|]. split; [cbn; auto|]. auto.
  Qed.

  Lemma find_client s id d : the_client s id = Some d -> In d (s_clients s) /\ d_id d = id.
  Proof.
    unfold the_client. intros H. apply find_some in H. destruct H as [H E]. apply N.eqb_eq in E. auto.
  Qed.

  (** *** One line of the server *)
  Lemma known_nick s outs c d : Inv s outs -> In d (s_clients s) -> d_bound d = true -> s_conn s = Some c -> k_nick (knows cm (d_id d) outs) = n_nick c.
  Proof.
    intros H Hd Hb Hc. destruct (i_know s outs H d Hd) as (E & _). destruct (i_sync s outs H d c Hd Hb Hc) as (E' & _). congruence.
  Qed.

  Lemma line_inv s0 s outs c l :
    Inv s0 outs -> s_clients s = s_clients s0 -> s_next s = s_next s0 -> s_conn s0 = Some c -> s_conn s = Some c -> l <> LClose ->
    s_pend s = None -> tail (heard c l) (s_down s) (v_conn s) ->
    Inv (fst (on_line cm s c l)) (outs ++ snd (on_line cm s c l)).
  Proof.
    intros H Ec En Hc0 Hc Hl Hp Ht.
    assert (Hput : forall c', heard c l = c' -> link (put s c')).
    { intros c' <-. unfold link, put. cbn. rewrite Hp. exact Ht. }
    assert (Hsame : heard c l = c -> forall m, (forall k, k_nick k = n_nick c -> learn cm k m = k) ->
      Inv (fst (s, forward s m)) (outs ++ snd (s, forward s m))).
    { intros E m Hm. cbn [fst snd]. apply (inv_same s0); auto.
      - unfold link. rewrite Hc, Hp. rewrite E in Ht. exact Ht.
      - intros c1 E1. congruence.
      - rewrite <- Ec. apply forward_inv; rewrite Ec; [|apply H]. intros d Hd Hb. apply Hm. eapply known_nick; eauto. }
    assert (Hown : forall c' f, heard c l = c' -> good f ->
      (forall d, In d (s_clients s) -> d_bound d = true -> sync c d -> up (put s c') d = Some c' ->
         (PS (d_id d) -> c_set (d_caps d) = true) -> (PA (d_id d) -> c_sasl (d_caps d) = true) -> sync c' (fst (f (put s c') d))) ->
      Inv (fst (tell (put s c') f d_bound)) (outs ++ snd (tell (put s c') f d_bound))).
    { intros c' f E Hf Hsync. apply tell_inv; cbn [put with_link s_clients s_next]; try rewrite Ec; try rewrite En; try apply H; auto.
      intros d c0 Hd Hb E0. rewrite Hb. cbn in E0. injection E0 as <-.
      apply Hsync; auto; try (apply (i_know s0 outs H d Hd)).
      - rewrite Ec. exact Hd.
      - apply (i_sync s0 outs H); auto.
      - apply up_conn; [exact Hb|reflexivity]. }
    destruct l as [from n|from r|from u h|u h a|u h|raw|]; cbn [on_line heard] in *.
    - destruct (beqb_spec (cm (n_nick c)) (cm from)) as [E|E].
      + apply Hown; [reflexivity|apply good_nick|]. intros d Hd Hb (S1 & S2 & S3 & S4) Hu HS HA.
        rewrite (nick_eq _ _ _ Hu). unfold sync. cbn. auto.
      + apply Hsame; [reflexivity|]. intros k Hk. lsimp. unfold mine. cbn [p_name]. rewrite Hk.
        destruct (beqb_spec (cm from) (cm (n_nick c))); [congruence|reflexivity].
    - destruct (beqb_spec (cm (n_nick c)) (cm from)) as [E|E].
      + apply Hown; [reflexivity|apply good_real|]. intros d Hd Hb (S1 & S2 & S3 & S4) Hu HS HA.
        rewrite (real_eq _ _ _ Hu). destruct (c_set (d_caps d)); unfold sync; cbn; [auto|].
        split; [auto|]. split; [auto|]. split; [intros HP; specialize (HS HP); discriminate|auto].
      + apply Hsame; [reflexivity|]. intros k Hk. lsimp. unfold mine. cbn [p_name]. rewrite Hk.
        destruct (beqb_spec (cm from) (cm (n_nick c))); [congruence|reflexivity].
    - destruct (beqb_spec (cm (n_nick c)) (cm from)) as [E|E].
      + apply Hown; [reflexivity|apply good_host|]. intros d Hd Hb (S1 & S2 & S3 & S4) Hu HS HA.
        rewrite (host_eq _ _ _ Hu). cbn [n_host]. destruct (nil h) eqn:Hh; unfold sync; cbn; [|auto].
        split; [auto|]. split; [|auto]. intros X. destruct h; [contradiction|discriminate].
      + apply Hsame; [reflexivity|]. intros k Hk. lsimp. unfold mine. cbn [p_name]. rewrite Hk.
        destruct (beqb_spec (cm from) (cm (n_nick c))); [congruence|reflexivity].
    - apply Hown; [reflexivity|apply good_then; [apply good_acct|apply good_host]|]. intros d Hd Hb (S1 & S2 & S3 & S4) Hu HS HA.
      rewrite then_eq, (acct_eq _ _ _ Hu).
      set (d' := if c_sasl (d_caps d) then _ else d).
      assert (Hu' : up (put s (Conn (n_nick c) u h (n_real c) a (n_setname c))) d' = Some (Conn (n_nick c) u h (n_real c) a (n_setname c))).
      { apply up_conn; [|reflexivity]. subst d'. destruct (c_sasl (d_caps d)); exact Hb. }
      rewrite (host_eq _ _ _ Hu'). cbn [n_host n_user]. subst d'.
      destruct (nil h) eqn:Hh, (c_sasl (d_caps d)) eqn:Ha; unfold sync; cbn; (split; [auto|]); (split; [|split; [auto|]]); auto;
        try (intros X; destruct h; [contradiction|discriminate]); intros HP; specialize (HA HP); discriminate.
    - apply Hown; [reflexivity|apply good_then; [apply good_acct|apply good_host]|]. intros d Hd Hb (S1 & S2 & S3 & S4) Hu HS HA.
      rewrite then_eq, (acct_eq _ _ _ Hu).
      set (d' := if c_sasl (d_caps d) then _ else d).
      assert (Hu' : up (put s (Conn (n_nick c) u h (n_real c) [] (n_setname c))) d' = Some (Conn (n_nick c) u h (n_real c) [] (n_setname c))).
      { apply up_conn; [|reflexivity]. subst d'. destruct (c_sasl (d_caps d)); exact Hb. }
      rewrite (host_eq _ _ _ Hu'). cbn [n_host n_user]. subst d'.
      destruct (nil h) eqn:Hh, (c_sasl (d_caps d)) eqn:Ha; unfold sync; cbn; (split; [auto|]); (split; [|split; [auto|]]); auto;
        try (intros X; destruct h; [contradiction|discriminate]); intros HP; specialize (HA HP); discriminate.
    - destruct (match cut_on "@" raw with (u, Some h) => (u, h) | (h, None) => (n_user c, h) end) as [u h].
      apply Hown; [reflexivity|apply good_host|]. intros d Hd Hb (S1 & S2 & S3 & S4) Hu HS HA.
      rewrite (host_eq _ _ _ Hu). cbn [n_host n_user]. destruct (nil h) eqn:Hh; unfold sync; cbn; [|auto].
      split; [auto|]. split; [|auto]. intros X. destruct h; [contradiction|discriminate].
    - contradiction.
  Qed.

  (** All four, on a client that may know nothing yet but the nickname. *)
  Lemma all_sync s c d :
    up s d = Some c -> d_bound d = true -> s_conn s = Some c -> d_nick d = n_nick c ->
    (PS (d_id d) -> c_set (d_caps d) = true) -> (PA (d_id d) -> c_sasl (d_caps d) = true) ->
    sync c (fst (then_ update_host (then_ update_real update_acct) s d)).
  Proof.
    intros Hu Hb Hc Hn HS HA. rewrite then_eq, (host_eq _ _ _ Hu).
    set (d1 := if nil (n_host c) then d else _).
    assert (Hb1 : d_bound d1 = true) by (subst d1; destruct (nil (n_host c)); exact Hb).
    assert (E1 : d_id d1 = d_id d /\ d_caps d1 = d_caps d /\ d_nick d1 = d_nick d) by (subst d1; destruct (nil (n_host c)); auto).
    rewrite then_eq, (real_eq _ _ c) by (apply up_conn; assumption).
    set (d2 := if c_set (d_caps d1) then _ else d1).
    assert (Hb2 : d_bound d2 = true) by (subst d2; destruct (c_set (d_caps d1)); exact Hb1).
    rewrite (acct_eq _ _ c) by (apply up_conn; assumption).
    destruct E1 as (Ei & Ec & En).
    assert (E2 : d_id d2 = d_id d /\ d_caps d2 = d_caps d /\ d_nick d2 = d_nick d /\ d_host d2 = d_host d1 /\ d_user d2 = d_user d1 /\ (PS (d_id d) -> d_real d2 = n_real c)).
    { subst d2. rewrite Ec in *. destruct (c_set (d_caps d)); cbn; repeat split; auto. intros HP. specialize (HS HP). discriminate. }
    destruct E2 as (Ei2 & Ec2 & En2 & Eh2 & Eu2 & Er2).
    assert (Hh : n_host c <> [] -> d_host d2 = n_host c /\ d_user d2 = n_user c).
    { intros X. rewrite Eh2, Eu2. subst d1. rewrite (nil_false _ X). auto. }
    rewrite Ec2. clearbody d2. clear d1 Hb1 Ei Ec En Eh2 Eu2. destruct (c_sasl (d_caps d)) eqn:Ha; unfold sync; cbn; rewrite Ei2.
    - split; [congruence|]. auto.
    - split; [congruence|]. split; [exact Hh|]. split; [exact Er2|]. intros HP. specialize (HA HP). discriminate.
  Qed.

  Definition okev (n : N) (e : ev) : Prop :=
    match e with
    | Join _ c _ => (PC (n + 1)%N -> c_chg c = true) /\ (PS (n + 1)%N -> c_set c = true) /\ (PA (n + 1)%N -> c_sasl c = true)
    | DCaps i c => (PC i -> c_chg c = true) /\ (PS i -> c_set c = true) /\ (PA i -> c_sasl c = true)
    | _ => True
    end.

  Lemma says_inv s f l outs :
    Inv s outs -> (forall w, v_conn s = Some w -> l w <> LClose /\ heard w (l w) = f w) -> Inv (says s f l) (outs ++ []).
  Proof.
    intros H Hw. unfold says. destruct (v_conn s) as [w|] eqn:Hv; [|rewrite app_nil_r; exact H].
    destruct (Hw w eq_refl) as [Hl Hf]. pose proof (i_link s outs H) as L.
    apply (inv_quiet s); auto. unfold link in *. cbn. rewrite Hv in L.
    rewrite <- Hf. destruct (s_conn s) as [c|], (s_pend s) as [[p []]|]; try (apply tail_snoc; assumption); try contradiction; destruct L; discriminate.
  Qed.

  Lemma step_inv s outs e :
    okev (s_next s) e -> Inv s outs -> Inv (fst (step cm s e)) (outs ++ snd (step cm s e)).
  Proof.
    intros He H.
    destruct e as [bound c host|id|id c|id n|id r|n r|n u r| |n login sn| | | |n|r|u h|u h a|u h|ou h|l|]; cbn [step okev] in *.
    - (* Join *)
      unfold welcome.
      set (nick := if bound then _ else _).
      set (d0 := Client (s_next s + 1) bound c nick (u_name s) host [] []).
      set (f := then_ update_host (then_ update_real update_acct)).
      assert (Hf : good f) by (subst f; apply good_then; [apply good_host|apply good_then; [apply good_real|apply good_acct]]).
      assert (Hk0 : kinv (Know nick (u_name s) host [] []) d0).
      { unfold kinv. subst d0. cbn. destruct He as (A1 & A2 & A3). repeat split; auto. }
      destruct (Hf s d0 _ Hk0) as (K1 & K2 & K3 & K4).
      assert (Hs : forall cc, bound = true -> s_conn s = Some cc -> sync cc (fst (f s d0))).
      { intros cc Hb Hc. subst f. apply all_sync; auto.
        - apply up_conn; auto.
        - subst d0 nick. cbn. rewrite Hb, Hc. reflexivity.
        - apply He.
        - apply He. }
      destruct (f s d0) as [d ms]. cbn [fst snd] in *.
      assert (Hne : forall x, In x (s_clients s) -> d_id x <> (s_next s + 1)%N).
      { intros x Hx E. pose proof (i_next s outs H x Hx). rewrite E in H0. lia. }
      constructor; cbn [s_clients with_next with_clients s_next s_conn].
      + rewrite map_app. cbn [map]. rewrite K2. subst d0. cbn [d_id].
        apply (Permutation.Permutation_NoDup (l := (s_next s + 1)%N :: map d_id (s_clients s))); [apply Permutation.Permutation_cons_append|].
        constructor; [|apply H]. intros Hin. apply in_map_iff in Hin. destruct Hin as (x & E & Hx). exact (Hne x Hx E).
      + intros x Hx. apply in_app_iff in Hx. destruct Hx as [Hx|[<-|[]]].
        * pose proof (i_next s outs H x Hx). lia.
        * rewrite K2. subst d0. cbn. lia.
      + intros x Hx. rewrite knows_app. cbn [fold_left map]. apply in_app_iff in Hx. destruct Hx as [Hx|[<-|[]]].
        * cbn [observe]. destruct (N.eqb_spec (s_next s + 1) (d_id x)) as [E|E]; [symmetry in E; destruct (Hne x Hx E)|].
          rewrite fold_not_own by exact E. apply (i_know s outs H x Hx).
        * rewrite K2. subst d0. cbn [d_id] in *. cbn [observe]. rewrite N.eqb_refl. rewrite fold_own. lsimp. cbn. exact K1.
      + intros x cc Hx Hb Hc. apply in_app_iff in Hx. destruct Hx as [Hx|[<-|[]]].
        * apply (i_sync s outs H x cc Hx Hb Hc).
        * apply Hs; [|exact Hc]. rewrite K3 in Hb. exact Hb.
      + apply H.
    - (* Leave *)
      cbn [fst snd]. rewrite app_nil_r. constructor; cbn [s_clients with_clients s_next s_conn].
      + pose proof (i_nd s outs H) as Hn. clear - Hn. induction (s_clients s) as [|d l IH]; [constructor|]. cbn [filter map] in *.
        apply NoDup_cons_iff in Hn. destruct Hn as [Hd Hn]. destruct (negb _); [|auto]. cbn [map]. constructor; [|auto].
        intros X. apply Hd. apply in_map_iff in X. destruct X as (y & E & Hy). apply filter_In in Hy. rewrite <- E. apply in_map, Hy.
      + intros d Hd. apply filter_In in Hd. apply (i_next s outs H d), Hd.
      + intros d Hd. apply filter_In in Hd. apply (i_know s outs H d), Hd.
      + intros d cc Hd. apply filter_In in Hd. apply (i_sync s outs H d cc), Hd.
      + apply H.
    - (* DCaps *)
      cbn [fst snd]. rewrite app_nil_r. constructor; cbn [s_clients with_clients s_next s_conn].
      + rewrite map_map. erewrite map_ext; [apply (i_nd s outs H)|]. intros d. cbn. destruct (N.eqb _ _); reflexivity.
      + intros d Hd. apply in_map_iff in Hd. destruct Hd as (x & <- & Hx). pose proof (i_next s outs H x Hx). destruct (N.eqb _ _); exact H0.
      + intros d Hd. apply in_map_iff in Hd. destruct Hd as (x & <- & Hx). pose proof (i_know s outs H x Hx) as K.
        destruct (N.eqb_spec (d_id x) id) as [E|E]; [|exact K]. destruct K as (K1 & K2 & K3 & K4 & K5 & K6). unfold kinv. cbn.
        rewrite E in *. tauto.
      + intros d cc Hd Hb Hc. apply in_map_iff in Hd. destruct Hd as (x & <- & Hx).
        assert (S : sync cc x) by (apply (i_sync s outs H x cc Hx); [destruct (N.eqb _ _) in Hb; exact Hb|exact Hc]).
        destruct (N.eqb _ _); exact S.
      + apply H.
    - (* NICK *)
      destruct (the_client s id) as [d|] eqn:Hd; [|apply (inv_quiet s); auto; apply H]. apply find_client in Hd. destruct Hd as [Hd Ei].
      unfold on_nick. destruct (bad_nick cm d n).
      { apply (inv_same s); auto; [apply H|]. intros x Hx. rewrite knows_app. reflexivity. }
      destruct (d_bound d) eqn:Hb.
      + cbn [s_conn with_wrec]. destruct (s_conn s) as [c|] eqn:Hc.
        * apply (inv_same s); auto; [apply H|]. intros x Hx. rewrite knows_app. reflexivity.
        * apply tell_inv; try apply H; [apply good_nick|]. intros x cc _ _ E. cbn in E. congruence.
      + pose proof (user_update_frame s n (u_real s)) as (F1 & F2 & F3 & F4 & F5).
        destruct (user_update s n (u_real s)) as [s1 o]. cbn [fst snd] in *.
        assert (I1 : Inv s1 (outs ++ o)).
        { apply (inv_same s); auto; [apply F5, H|]. intros x _. apply ups_knows, F3. }
        assert (I2 : Inv (fst (tell s1 update_nick unbound)) ((outs ++ o) ++ snd (tell s1 update_nick unbound))).
        { apply tell_inv; try apply I1; [apply good_nick|]. intros x cc Hx Hbx E. unfold unbound. rewrite Hbx. cbn [negb].
          apply (i_sync s1 _ I1 x cc Hx Hbx E). }
        destruct (tell s1 update_nick unbound) as [s2 o2]. cbn [fst snd] in *. rewrite app_assoc. exact I2.
    - (* SETNAME *)
      destruct (the_client s id) as [d|] eqn:Hd; [|apply (inv_quiet s); auto; apply H]. apply find_client in Hd. destruct Hd as [Hd Ei].
      unfold on_setname. destruct (beqb_spec (d_real d) r) as [Er|Er].
      { cbn [fst snd]. apply (inv_same s); auto; [apply H|]. intros x Hx. rewrite knows_app.
        destruct (N.eqb_spec (d_id d) (d_id x)) as [E|E]; [|apply fold_not_own, E].
        rewrite E, fold_own. unfold send. destruct (allowed d _); [|reflexivity].
        rewrite <- E. pose proof (i_know s outs H d Hd) as K. pose proof (mine_self _ d K) as Hm.
        lsimp. rewrite Hm. destruct K as (_ & _ & K3 & _). destruct (knows cm (d_id d) outs). cbn in *. congruence. }
      destruct (d_bound d) eqn:Hb.
      + destruct (s_conn s) as [c|] eqn:Hc; [destruct (n_setname c)|].
        * apply (inv_same s); auto; [apply H|]. intros x Hx. rewrite knows_app. reflexivity.
        * apply (inv_quiet s); auto; [split; reflexivity|cbn; discriminate].
        * apply (inv_quiet s); auto; [split; reflexivity|cbn; discriminate].
      + pose proof (user_update_frame s (u_nick s) r) as (F1 & F2 & F3 & F4 & F5).
        destruct (user_update s (u_nick s) r) as [s1 o]. cbn [fst snd] in *.
        assert (I1 : Inv s1 (outs ++ o)).
        { apply (inv_same s); auto; [apply F5, H|]. intros x _. apply ups_knows, F3. }
        assert (I2 : Inv (fst (tell s1 update_real unbound)) ((outs ++ o) ++ snd (tell s1 update_real unbound))).
        { apply tell_inv; try apply I1; [apply good_real|]. intros x cc Hx Hbx E. unfold unbound. rewrite Hbx. cbn [negb].
          apply (i_sync s1 _ I1 x cc Hx Hbx E). }
        destruct (tell s1 update_real unbound) as [s2 o2]. cbn [fst snd] in *. rewrite app_assoc. exact I2.
    - (* UserUpdate *)
      pose proof (user_update_frame s n r) as (F1 & F2 & F3 & F4 & F5).
      apply (inv_same s); auto; [apply F5, H|]. intros x _. apply ups_knows, F3.
    - (* NetUpdate *) apply (inv_quiet s); auto; [split; reflexivity|cbn; discriminate].
    - (* Dial *)
      pose proof (i_link s outs H) as L. unfold link in L.
      destruct (s_conn s) as [c|] eqn:Hc; [apply (inv_quiet s); auto; apply H|].
      destruct (s_pend s) as [[p []]|] eqn:Hp; try (apply (inv_quiet s); auto; apply H).
      destruct (s_down s); [|apply (inv_quiet s); auto; apply H].
      apply (inv_same s); auto; [split; reflexivity|cbn; discriminate|]. intros x Hx. rewrite knows_app. reflexivity.
    - (* Registered *)
      pose proof (i_link s outs H) as L. unfold link in L.
      destruct (s_pend s) as [[p []]|] eqn:Hp; try (apply (inv_quiet s); auto; apply H).
      destruct (s_conn s) as [c|] eqn:Hc; [contradiction|]. destruct L as [L1 L2].
      apply (inv_quiet s); auto; [|cbn; congruence]. unfold link. cbn. rewrite L1. reflexivity.
    - (* Failed *)
      pose proof (i_link s outs H) as L. unfold link in L.
      destruct (s_pend s) as [[p []]|] eqn:Hp; try (apply (inv_quiet s); auto; apply H).
      destruct (s_conn s) as [c|] eqn:Hc; [contradiction|].
      apply (inv_quiet s); auto; cbn; congruence.
    - (* Connected *)
      pose proof (i_link s outs H) as L. unfold link in L.
      destruct (s_pend s) as [[p []]|] eqn:Hp; try (apply (inv_quiet s); auto; apply H).
      destruct (s_conn s) as [c|] eqn:Hc; [contradiction|].
      apply tell_inv; try apply H.
      + exact L.
      + apply good_then; [apply good_nick|apply good_then; [apply good_host|apply good_then; [apply good_real|apply good_acct]]].
      + intros d cc Hd Hb E. rewrite Hb. cbn in E. injection E as <-. cbn in Hd.
        set (s' := with_link s (Some p) None (s_down s) (v_conn s)).
        rewrite then_eq, (nick_eq s' d p) by (apply up_conn; [exact Hb|reflexivity]).
        pose proof (i_know s outs H d Hd) as K.
        apply all_sync; cbn; auto; try apply K. apply up_conn; [exact Hb|reflexivity].
    - (* Hear *)
      pose proof (i_link s outs H) as L. unfold link in L.
      destruct (s_conn s) as [c|] eqn:Hc; [|apply (inv_quiet s); auto; apply H].
      destruct (s_down s) as [|l rest] eqn:Hq; [apply (inv_quiet s); auto; apply H|].
      destruct (s_pend s) as [p|] eqn:Hp; [contradiction|].
      destruct (match l with LClose => true | _ => false end) eqn:El.
      + destruct l; try discriminate. destruct L as [-> Hv]. cbn [on_line fst snd].
        apply (inv_quiet s); auto; cbn; try discriminate. unfold link. cbn. auto.
      + assert (Hl : l <> LClose) by (intros ->; discriminate).
        assert (Ht : tail (heard c l) rest (v_conn s)) by (destruct l; try discriminate; exact L).
        apply (line_inv s); auto.
    - (* VNick *) apply says_inv; [exact H|]. intros w _. split; [discriminate|]. cbn. rewrite beqb_refl. reflexivity.
    - apply says_inv; [exact H|]. intros w _. split; [discriminate|]. cbn. rewrite beqb_refl. reflexivity.
    - apply says_inv; [exact H|]. intros w _. split; [discriminate|]. cbn. rewrite beqb_refl. reflexivity.
    - apply says_inv; [exact H|]. intros w _. split; [discriminate|]. reflexivity.
    - apply says_inv; [exact H|]. intros w _. split; [discriminate|]. reflexivity.
    - destruct ou as [u|].
      + destruct (amem "@" u) eqn:Ea; [apply (inv_quiet s); auto; apply H|].
        apply says_inv; [exact H|]. intros w _. split; [discriminate|]. cbn [heard].
        change (B "@" ++ h) with ("@"%char :: h). rewrite (cut_on_app "@" u h); [reflexivity|]. intros Hin. apply amem_In in Hin. congruence.
      + destruct (amem "@" h) eqn:Ea; [apply (inv_quiet s); auto; apply H|].
        apply says_inv; [exact H|]. intros w _. split; [discriminate|]. cbn [heard].
        rewrite (cut_on_nosep "@" h); [reflexivity|]. intros Hin. apply amem_In in Hin. congruence.
    - (* VOther *)
      destruct (v_conn s) as [w|] eqn:Hv; [|destruct l; apply (inv_quiet s); auto; apply H].
      destruct l as [from n|from r|from u h| | | |]; try (apply (inv_quiet s); auto; apply H);
        (destruct (beqb_spec (cm from) (cm (n_nick w))) as [E|E]; [apply (inv_quiet s); auto; apply H|]);
        (apply says_inv; [exact H|]); intros w' Hw; rewrite Hv in Hw; injection Hw as <-; (split; [discriminate|]); cbn;
        (destruct (beqb_spec (cm (n_nick w)) (cm from)); [congruence|reflexivity]).
    - (* VClose *)
      pose proof (i_link s outs H) as L. unfold link in L.
      destruct (v_conn s) as [w|] eqn:Hv; [|apply (inv_quiet s); auto; apply H].
      apply (inv_quiet s); auto. unfold link. cbn.
      destruct (s_conn s) as [c|], (s_pend s) as [[p []]|]; try contradiction; try (eapply tail_close; eassumption); destruct L; discriminate.
  Qed.

  Fixpoint okrun (n : N) (l : list ev) : Prop :=
    match l with
    | [] => True
    | e :: l' => okev n e /\ okrun (match e with Join _ _ _ => (n + 1)%N | _ => n end) l'
    end.
  Lemma tell_frame s f p : s_next (fst (tell s f p)) = s_next s /\ u_name (fst (tell s f p)) = u_name s.
  Proof. unfold tell. destruct (each _ _ _). split; reflexivity. Qed.
  Lemma user_update_frame2 s n r : s_next (fst (user_update s n r)) = s_next s /\ u_name (fst (user_update s n r)) = u_name s.
  Proof.
    unfold user_update. destruct (negb (beqb r (u_real s)) && nil (w_real s)); [|split; reflexivity].
    destruct (s_conn s) as [c|]; [destruct (n_setname c)|]; split; reflexivity.
  Qed.
  Lemma says_frame s f l : s_next (says s f l) = s_next s /\ u_name (says s f l) = u_name s.
  Proof. unfold says. destruct (v_conn s); split; reflexivity. Qed.
  Ltac tframe := match goal with |- context [tell ?a ?b ?d] => destruct (tell_frame a b d) as [T1 T2]; split; [rewrite T1|rewrite T2]; reflexivity end.
  Lemma step_frame s e :
    s_next (fst (step cm s e)) = match e with Join _ _ _ => (s_next s + 1)%N | _ => s_next s end /\ u_name (fst (step cm s e)) = u_name s.
  Proof.
    destruct e as [bound c host|id|id c|id n|id r|n r|n u r| |n login sn| | | |n|r|u h|u h a|u h|ou h|l|]; cbn [step];
      try (split; reflexivity); try apply says_frame; try apply user_update_frame2.
    - destruct (welcome _ _ _ _ _). split; reflexivity.
    - destruct (the_client s id) as [d|]; [|split; reflexivity]. unfold on_nick. destruct (bad_nick cm d n); [split; reflexivity|].
      destruct (d_bound d).
      + cbn [s_conn with_wrec]. destruct (s_conn s); [split; reflexivity|]. tframe.
      + pose proof (user_update_frame2 s n (u_real s)) as [F1 F2]. destruct (user_update s n (u_real s)) as [s1 o].
        pose proof (tell_frame s1 update_nick unbound) as [G1 G2]. destruct (tell s1 update_nick unbound). cbn [fst] in *. split; congruence.
    - destruct (the_client s id) as [d|]; [|split; reflexivity]. unfold on_setname. destruct (beqb (d_real d) r); [split; reflexivity|].
      destruct (d_bound d).
      + destruct (s_conn s) as [c|]; [destruct (n_setname c)|]; split; reflexivity.
      + pose proof (user_update_frame2 s (u_nick s) r) as [F1 F2]. destruct (user_update s (u_nick s) r) as [s1 o].
        pose proof (tell_frame s1 update_real unbound) as [G1 G2]. destruct (tell s1 update_real unbound). cbn [fst] in *. split; congruence.
    - destruct (s_conn s), (s_pend s), (s_down s); split; reflexivity.
    - destruct (s_pend s) as [[p []]|]; split; reflexivity.
    - destruct (s_pend s) as [[p []]|]; split; reflexivity.
    - destruct (s_pend s) as [[p []]|]; try (split; reflexivity). tframe.
    - destruct (s_conn s) as [c|]; [|split; reflexivity]. destruct (s_down s) as [|l q]; [split; reflexivity|].
      destruct l as [from n|from r|from u h|u h a|u h|raw|]; cbn [on_line]; try (split; reflexivity);
        try (destruct (beqb (cm (n_nick c)) (cm from)); [|split; reflexivity]);
        try (destruct (match cut_on "@" raw with (u, Some h) => (u, h) | (h, None) => (n_user c, h) end) as [u h]);
        tframe.
    - destruct ou as [u|]; [destruct (amem "@" u)|destruct (amem "@" h)]; try (split; reflexivity); apply says_frame.
    - destruct (v_conn s) as [w|], l; try (split; reflexivity); (destruct (beqb _ _); [split; reflexivity|apply says_frame]).
    - destruct (v_conn s); split; reflexivity.
  Qed.

  Lemma run_inv l : forall s outs, okrun (s_next s) l -> Inv s outs -> Inv (fst (run cm s l)) (outs ++ snd (run cm s l)).
  Proof.
    induction l as [|e l IH]; intros s outs Ho H.
    - cbn. rewrite app_nil_r. exact H.
    - cbn [okrun] in Ho. destruct Ho as [He Ho]. cbn [run].
      pose proof (step_inv s outs e He H) as H1. pose proof (proj1 (step_frame s e)) as Hx.
      destruct (step cm s e) as [s1 o1]. cbn [fst snd] in *. rewrite <- Hx in Ho.
      specialize (IH s1 _ Ho H1). destruct (run cm s1 l) as [s2 o2]. cbn [fst snd] in *. rewrite app_assoc. exact IH.
  Qed.
  Lemma fresh_inv name nick real wn wu wr : Inv (fresh name nick real wn wu wr) [].
  Proof.
    constructor; cbn; try (intros; contradiction); [constructor|]. split; reflexivity.
  Qed.

  (** *** Clients without network *)
  Definition uinv (s : st) : Prop := forall d, In d (s_clients s) -> d_bound d = false -> PA (d_id d) -> d_acct d = u_name s.

  Lemma tell_uinv s f p :
    uinv s -> (forall s d, d_id (fst (f s d)) = d_id d /\ d_bound (fst (f s d)) = d_bound d) ->
    (forall d, d_bound d = false -> p d = true -> d_acct (fst (f s d)) = d_acct d) -> uinv (fst (tell s f p)).
  Proof.
    intros H Hf Ha. unfold tell. pose proof (each_map (f s) p (s_clients s)) as Hm.
    destruct (each (f s) p (s_clients s)) as [l o]. cbn [fst] in *. subst l.
    intros d Hd Hb HP. cbn in Hd. apply in_map_iff in Hd. destruct Hd as (x & <- & Hx).
    destruct (Hf s x) as [F1 F2]. specialize (Ha x). specialize (H x Hx).
    destruct (p x); [|auto]. rewrite F1 in HP. rewrite F2 in Hb. rewrite Ha by auto. apply H; auto.
  Qed.
  Lemma ids_nick s d : d_id (fst (update_nick s d)) = d_id d /\ d_bound (fst (update_nick s d)) = d_bound d.
  Proof. unfold update_nick. destruct (beqb _ _); split; reflexivity. Qed.
  Lemma ids_host s d : d_id (fst (update_host s d)) = d_id d /\ d_bound (fst (update_host s d)) = d_bound d.
  Proof. unfold update_host. destruct (up s d) as [c|]; [destruct (nil _); [|destruct (_ && _)]|]; split; reflexivity. Qed.
  Lemma ids_real s d : d_id (fst (update_real s d)) = d_id d /\ d_bound (fst (update_real s d)) = d_bound d.
  Proof. unfold update_real. destruct (negb _); [|destruct (beqb _ _)]; split; reflexivity. Qed.
  Lemma ids_acct s d : d_id (fst (update_acct s d)) = d_id d /\ d_bound (fst (update_acct s d)) = d_bound d.
  Proof. unfold update_acct. destruct (if d_bound d then _ else _) as [a|]; [destruct (_ || _)|]; split; reflexivity. Qed.
  Lemma ids_then f g :
    (forall s d, d_id (fst (f s d)) = d_id d /\ d_bound (fst (f s d)) = d_bound d) ->
    (forall s d, d_id (fst (g s d)) = d_id d /\ d_bound (fst (g s d)) = d_bound d) ->
    forall s d, d_id (fst (then_ f g s d)) = d_id d /\ d_bound (fst (then_ f g s d)) = d_bound d.
  Proof.
    intros Hf Hg s d. rewrite then_eq. destruct (Hf s d), (Hg s (fst (f s d))). split; congruence.
  Qed.

  Lemma uinv_same s s' : s_clients s' = s_clients s -> u_name s' = u_name s -> uinv s -> uinv s'.
  Proof. unfold uinv. intros -> ->. auto. Qed.
  Lemma uinv_says s f l : uinv s -> uinv (says s f l).
  Proof. intros H. unfold says. destruct (v_conn s); [|exact H]. apply (uinv_same s); auto. Qed.
  Lemma uinv_bound s f : uinv s -> (forall s d, d_id (fst (f s d)) = d_id d /\ d_bound (fst (f s d)) = d_bound d) -> uinv (fst (tell s f d_bound)).
  Proof. intros H Hf. apply tell_uinv; auto. intros d Hb E. congruence. Qed.

  Lemma acct_nick s d : d_acct (fst (update_nick s d)) = d_acct d.
  Proof. unfold update_nick. destruct (beqb _ _); reflexivity. Qed.
  Lemma acct_real s d : d_acct (fst (update_real s d)) = d_acct d.
  Proof. unfold update_real. destruct (negb _); [|destruct (beqb _ _)]; reflexivity. Qed.

  Lemma step_uinv s e : okev (s_next s) e -> uinv s -> uinv (fst (step cm s e)).
  Proof.
    intros He H.
    destruct e as [bound c host|id|id c|id n|id r|n r|n u r| |n login sn| | | |n|r|u h|u h a|u h|ou h|l|]; cbn [step okev] in *;
      try (apply uinv_says; exact H).
    - unfold welcome.
      set (d0 := Client _ bound c _ _ host [] []).
      assert (E : bound = false -> PA (s_next s + 1)%N -> d_acct (fst (then_ update_host (then_ update_real update_acct) s d0)) = u_name s).
      { intros Hb HP. rewrite then_eq. unfold update_host at 1, up. subst d0. cbn [d_bound]. rewrite Hb. cbn [fst]. rewrite then_eq.
        set (d1 := Client _ false c _ _ host [] []).
        assert (F : d_bound (fst (update_real s d1)) = false /\ d_caps (fst (update_real s d1)) = c).
        { unfold update_real. destruct (negb _); [|destruct (beqb _ _)]; split; reflexivity. }
        destruct F as [F1 F2]. unfold update_acct. rewrite F1, F2.
        destruct He as (_ & _ & He). rewrite (He HP). rewrite orb_false_r.
        destruct (beqb_spec (d_acct (fst (update_real s d1))) (u_name s)) as [E|E]; [exact E|reflexivity]. }
      assert (Hi := ids_then _ _ ids_host (ids_then _ _ ids_real ids_acct) s d0).
      destruct (then_ update_host (then_ update_real update_acct) s d0) as [d ms]. cbn [fst] in *.
      intros x Hx Hb HP. cbn in Hx. apply in_app_iff in Hx. destruct Hx as [Hx|[<-|[]]].
      + apply H; auto.
      + destruct Hi as [I1 I2]. apply E; [rewrite <- Hb, I2; reflexivity|]. rewrite I1 in HP. exact HP.
    - intros x Hx. cbn in Hx. apply filter_In in Hx. apply H, Hx.
    - intros x Hx. cbn in Hx. apply in_map_iff in Hx. destruct Hx as (y & <- & Hy). specialize (H y Hy). destruct (N.eqb _ _); exact H.
    - destruct (the_client s id) as [d|]; [|exact H]. unfold on_nick. destruct (bad_nick cm d n); [exact H|].
      destruct (d_bound d).
      + cbn [s_conn with_wrec]. destruct (s_conn s); [exact H|]. apply tell_uinv; [exact H|apply ids_nick|]. intros x _ _. apply acct_nick.
      + pose proof (user_update_frame s n (u_real s)) as (F1 & _). pose proof (user_update_frame2 s n (u_real s)) as [_ F2].
        destruct (user_update s n (u_real s)) as [s1 o]. cbn [fst] in *.
        assert (U : uinv (fst (tell s1 update_nick unbound))).
        { apply tell_uinv; [apply (uinv_same s); auto|apply ids_nick|]. intros x _ _. apply acct_nick. }
        destruct (tell s1 update_nick unbound). exact U.
    - destruct (the_client s id) as [d|]; [|exact H]. unfold on_setname. destruct (beqb (d_real d) r); [exact H|].
      destruct (d_bound d).
      + destruct (s_conn s) as [c|]; [destruct (n_setname c)|]; exact H.
      + pose proof (user_update_frame s (u_nick s) r) as (F1 & _). pose proof (user_update_frame2 s (u_nick s) r) as [_ F2].
        destruct (user_update s (u_nick s) r) as [s1 o]. cbn [fst] in *.
        assert (U : uinv (fst (tell s1 update_real unbound))).
        { apply tell_uinv; [apply (uinv_same s); auto|apply ids_real|]. intros x _ _. apply acct_real. }
        destruct (tell s1 update_real unbound). exact U.
    - pose proof (user_update_frame s n r) as (F1 & _). pose proof (user_update_frame2 s n r) as [_ F2]. apply (uinv_same s); auto.
    - exact H.
    - destruct (s_conn s), (s_pend s), (s_down s); exact H.
    - destruct (s_pend s) as [[p []]|]; exact H.
    - destruct (s_pend s) as [[p []]|]; exact H.
    - destruct (s_pend s) as [[p []]|]; try exact H. apply uinv_bound; [exact H|].
      apply ids_then; [apply ids_nick|apply ids_then; [apply ids_host|apply ids_then; [apply ids_real|apply ids_acct]]].
    - destruct (s_conn s) as [c|]; [|exact H]. destruct (s_down s) as [|l q]; [exact H|].
      destruct l as [from n|from r|from u h|u h a|u h|raw|]; cbn [on_line]; try exact H;
        try (destruct (beqb (cm (n_nick c)) (cm from)); [|exact H]);
        try (destruct (match cut_on "@" raw with (u, Some h) => (u, h) | (h, None) => (n_user c, h) end) as [u h]);
        (apply uinv_bound; [exact H|]);
        first [apply ids_nick | apply ids_real | apply ids_host | apply ids_then; [apply ids_acct|apply ids_host]].
    - destruct ou as [u|]; [destruct (amem "@" u)|destruct (amem "@" h)]; try exact H; apply uinv_says, H.
    - destruct (v_conn s) as [w|], l; try exact H; (destruct (beqb _ _); [exact H|apply uinv_says, H]).
    - destruct (v_conn s); exact H.
  Qed.
  Lemma run_uinv l : forall s, okrun (s_next s) l -> uinv s -> uinv (fst (run cm s l)).
  Proof.
    induction l as [|e l IH]; intros s Ho H; [exact H|].
    cbn [okrun] in Ho. destruct Ho as [He Ho]. cbn [run].
    pose proof (step_uinv s e He H) as H1. pose proof (proj1 (step_frame s e)) as Hx.
    destruct (step cm s e) as [s1 o1]. cbn [fst snd] in *. rewrite <- Hx in Ho.
    specialize (IH s1 Ho H1). destruct (run cm s1 l) as [s2 o2]. exact IH.
  Qed.
  Lemma run_name l : forall s, u_name (fst (run cm s l)) = u_name s.
  Proof.
    induction l as [|e l IH]; intros s; [reflexivity|]. cbn [run]. pose proof (proj2 (step_frame s e)) as Hx.
    destruct (step cm s e) as [s1 o1]. specialize (IH s1). destruct (run cm s1 l). cbn [fst] in *. congruence.
  Qed.
End Proofs.

Lemma okrun_keeps id (C S A : Prop) n l :
  (C -> keeps c_chg id n l) -> (S -> keeps c_set id n l) -> (A -> keeps c_sasl id n l) ->
  okrun (fun i => i = id /\ C) (fun i => i = id /\ S) (fun i => i = id /\ A) n l.
Proof.
  revert n. induction l as [|e l IH]; intros n HC HS HA; [exact I|]. cbn [okrun keeps] in *.
  split.
  - destruct e; try exact I; cbn [okev]; (split; [|split]); intros [E X];
      first [exact (proj1 (HC X) E) | exact (proj1 (HS X) E) | exact (proj1 (HA X) E)].
  - destruct e; apply IH; try assumption; intros X; first [apply (HC X) | apply (HS X) | apply (HA X)].
Qed.

(** *** What a client of the network knows *)
Section Theorems.
  Variable cm : bytes -> bytes.
  Variables (name nick real wn wu wr : bytes) (l : list ev).
  Let s := fst (run cm (fresh name nick real wn wu wr) l).
  Let outs := snd (run cm (fresh name nick real wn wu wr) l).

  Lemma the_inv id :
    Inv cm (fun i => i = id /\ keeps c_chg id 0 l) (fun i => i = id /\ keeps c_set id 0 l) (fun i => i = id /\ keeps c_sasl id 0 l) s outs.
  Proof.
    unfold s, outs. rewrite <- (app_nil_l (snd _)). apply run_inv; [|apply fresh_inv]. cbn [fresh s_next].
    apply okrun_keeps; auto.
  Qed.

  Lemma known d w :
    In d (s_clients s) -> d_bound d = true -> s_conn s <> None -> v_conn s = Some w -> s_down s = [] ->
    let k := knows cm (d_id d) outs in
    k_nick k = n_nick w /\
    (n_host w <> [] -> k_host k = n_host w) /\
    (n_host w <> [] -> keeps c_chg (d_id d) 0 l -> k_user k = n_user w) /\
    (keeps c_set (d_id d) 0 l -> k_real k = n_real w) /\
    (keeps c_sasl (d_id d) 0 l -> k_acct k = n_acct w).
  Proof.
    intros Hd Hb Hc Hv Hq. pose proof (the_inv (d_id d)) as H.
    destruct (s_conn s) as [c|] eqn:Ec; [|contradiction].
    pose proof (i_link _ _ _ _ _ _ H) as L. unfold link in L. rewrite Ec, Hv, Hq in L.
    destruct (s_pend s); [contradiction|]. cbn in L. injection L as <-.
    destruct (i_know _ _ _ _ _ _ H d Hd) as (K1 & K2 & K3 & K4 & K5 & _).
    destruct (i_sync _ _ _ _ _ _ H d w Hd Hb Ec) as (S1 & S2 & S3 & S4).
    cbn zeta. rewrite <- K1, <- K2, <- K3, <- K4. split; [exact S1|]. split; [apply S2|]. split; [|split].
    - intros X Y. destruct (K5 (conj eq_refl Y)) as [<- _]. apply S2, X.
    - intros X. apply S3. auto.
    - intros X. apply S4. auto.
  Qed.

  Lemma unbound_account d :
    In d (s_clients s) -> d_bound d = false -> keeps c_sasl (d_id d) 0 l -> k_acct (knows cm (d_id d) outs) = name.
  Proof.
    intros Hd Hb Hk. pose proof (the_inv (d_id d)) as H.
    destruct (i_know _ _ _ _ _ _ H d Hd) as (K1 & K2 & K3 & K4 & _). rewrite <- K4.
    assert (U : uinv (fun i => i = d_id d /\ keeps c_sasl (d_id d) 0 l) s).
    { unfold s. apply (run_uinv cm (fun i => i = d_id d /\ keeps c_chg (d_id d) 0 l) (fun i => i = d_id d /\ keeps c_set (d_id d) 0 l)).
      - apply okrun_keeps; auto.
      - intros x []. }
    rewrite (U d Hd Hb) by auto. unfold s. apply run_name.
  Qed.

  Lemma no_nil (b : bytes) : b <> [] -> nil b = false.
  Proof. destruct b; [contradiction|reflexivity]. Qed.
  Lemma the_client_in d : In d (s_clients s) -> the_client s (d_id d) = Some d.
  Proof.
    intros Hd. pose proof (i_nd _ _ _ _ _ _ (the_inv 0)) as Hn. unfold the_client. revert Hn Hd.
    generalize (s_clients s). induction l0 as [|x m IH]; intros Hn Hd; [destruct Hd|]. cbn [find]. cbn [map] in Hn.
    apply NoDup_cons_iff in Hn. destruct Hn as [Hx Hn]. destruct Hd as [->|Hd]; [rewrite N.eqb_refl; reflexivity|].
    destruct (N.eqb_spec (d_id x) (d_id d)) as [E|E]; [|auto]. exfalso. apply Hx. rewrite E. apply in_map, Hd.
  Qed.
  Lemma nick_fine d n : nick_ok n -> cm n <> B "bouncerserv" -> to_lower n <> B "bouncerserv" -> bad_nick cm d n = false.
  Proof.
    intros [Hn Hc] H1 H2. unfold bad_nick. rewrite (no_nil n Hn). cbn [orb].
    assert (E : existsb (fun c => amem c (B " :@!*?$,.")) n = false).
    { destruct (existsb _ n) eqn:E; [|reflexivity]. apply existsb_exists in E. destruct E as (c & Hin & E). apply amem_In in E. destruct (Hc c Hin E). }
    rewrite E. cbn [orb]. apply beqb_neq. destruct (d_bound d); assumption.
  Qed.

  Section Nick.
    Variables (d : client) (n : bytes).
    Hypothesis Hd : In d (s_clients s).
    Hypothesis Hn : nick_ok n.
    Hypothesis Hcm : cm n <> B "bouncerserv".
    Hypothesis Hlow : to_lower n <> B "bouncerserv".

    Lemma nick_connected : d_bound d = true -> s_conn s <> None -> snd (step cm s (DNick (d_id d) n)) = [OUp (B "NICK") n].
    Proof.
      intros Hb Hc. cbn [step]. rewrite the_client_in by exact Hd. unfold on_nick. rewrite nick_fine by assumption. rewrite Hb.
      cbn [s_conn with_wrec]. destruct (s_conn s); [reflexivity|contradiction].
    Qed.

    Lemma nick_offline : d_bound d = true -> s_conn s = None ->
      let r := step cm s (DNick (d_id d) n) in
      k_nick (knows cm (d_id d) (outs ++ snd r)) = n /\ sent (snd r) = [] /\
      (s_pend s = None -> exists real', sent (snd (step cm (fst r) Dial)) = [(B "NICK", n); (B "USER", real')]).
    Proof.
      intros Hb Hc. pose proof (the_inv (d_id d)) as H. cbn zeta.
      assert (G : get_nick (with_wrec s n (w_user s) (w_real s)) true = n).
      { unfold get_nick. cbn [w_nick with_wrec andb]. rewrite (no_nil n (proj1 Hn)). reflexivity. }
      cbn [step]. rewrite the_client_in by exact Hd. unfold on_nick. rewrite nick_fine by assumption. rewrite Hb.
      cbn [s_conn with_wrec]. rewrite Hc. set (s1 := with_wrec s n (w_user s) (w_real s)) in *.
      assert (Hs : s_conn s1 = None) by exact Hc.
      set (p := fun x : client => N.eqb (d_id x) (d_id d)).
      unfold tell. pose proof (each_own cm (fun _ => True) (fun _ => True) (fun _ => True) (update_nick s1) p (s_clients s1) d (knows cm (d_id d) outs) (i_nd _ _ _ _ _ _ H) Hd) as Ho.
      assert (Hu : sent (snd (each (update_nick s1) p (s_clients s1))) = []).
      { generalize (s_clients s1). induction l0 as [|x m IH]; [reflexivity|]. cbn [each].
        destruct (if p x then _ else _) as [x1 ms]. destruct (each _ p m) as [m1 o]. cbn [snd] in *. unfold sent in *. rewrite flat_map_app, IH, app_nil_r.
        clear. induction ms; [reflexivity|exact IHms]. }
      destruct (each (update_nick s1) p (s_clients s1)) as [m o]. cbn [fst snd] in *.
      split; [|split; [exact Hu|]].
      - rewrite knows_app, Ho. unfold p. rewrite N.eqb_refl.
        pose proof (good_nick cm _ _ _ s1 d _ (i_know _ _ _ _ _ _ H d Hd)) as [(K & _) _]. rewrite <- K.
        unfold update_nick. assert (Eup : up s1 d = None) by (unfold up; rewrite Hb; exact Hs). rewrite Eup, Hb, G.
        destruct (beqb_spec n (d_nick d)) as [->|]; reflexivity.
      - intros Hp. pose proof (i_link _ _ _ _ _ _ H) as L. unfold link in L. rewrite Hc, Hp in L. destruct L as [L1 L2].
        change (s_conn (with_clients s1 m)) with (s_conn s). change (s_pend (with_clients s1 m)) with (s_pend s).
        change (s_down (with_clients s1 m)) with (s_down s). rewrite Hc, Hp, L1. cbn [snd sent flat_map app].
        change (get_nick (with_clients s1 m) true) with (get_nick s1 true). rewrite G. eauto.
    Qed.

    Lemma nick_unbound d' : d_bound d = false -> In d' (s_clients s) -> d_bound d' = false ->
      k_nick (knows cm (d_id d') (outs ++ snd (step cm s (DNick (d_id d) n)))) = n.
    Proof.
      intros Hb Hd' Hb'. pose proof (the_inv (d_id d')) as H.
      cbn [step]. rewrite the_client_in by exact Hd. unfold on_nick. rewrite nick_fine by assumption. rewrite Hb.
      pose proof (user_update_frame cm s n (u_real s)) as (F1 & F2 & F3 & F4 & F5).
      assert (G : get_nick (fst (user_update s n (u_real s))) false = n).
      { unfold user_update. rewrite beqb_refl. cbn [negb andb fst]. unfold get_nick. cbn [andb u_nick with_urec]. rewrite (no_nil n (proj1 Hn)). reflexivity. }
      destruct (user_update s n (u_real s)) as [s1 o]. cbn [fst snd] in *.
      unfold tell. pose proof (each_own cm (fun _ => True) (fun _ => True) (fun _ => True) (update_nick s1) unbound (s_clients s1) d') as Ho.
      destruct (each (update_nick s1) unbound (s_clients s1)) as [m o2]. cbn [fst snd] in *.
      rewrite app_assoc, knows_app, Ho; [| rewrite F1; apply (i_nd _ _ _ _ _ _ H) | rewrite F1; exact Hd'].
      rewrite (ups_knows cm _ outs o F3). unfold unbound. rewrite Hb'. cbn [negb].
      pose proof (good_nick cm _ _ _ s1 d' _ (i_know _ _ _ _ _ _ H d' Hd')) as [(K & _) _]. rewrite <- K.
      unfold update_nick, up. rewrite Hb', G. destruct (beqb_spec n (d_nick d')) as [->|]; reflexivity.
    Qed.
  End Nick.

  Lemma setname_connected d r c :
    In d (s_clients s) -> d_bound d = true -> s_conn s = Some c -> n_setname c = true -> k_real (knows cm (d_id d) outs) <> r ->
    snd (step cm s (DSetname (d_id d) r)) = [OUp (B "SETNAME") r].
  Proof.
    intros Hd Hb Hc Hs Hr. cbn [step]. rewrite the_client_in by exact Hd. unfold on_setname.
    destruct (i_know _ _ _ _ _ _ (the_inv (d_id d)) d Hd) as (_ & _ & K & _). rewrite <- K in Hr.
    destruct (beqb_spec (d_real d) r); [contradiction|]. rewrite Hb, Hc, Hs. reflexivity.
  Qed.
  Lemma setname_unbound d d' r :
    In d (s_clients s) -> d_bound d = false -> In d' (s_clients s) -> d_bound d' = false -> c_set (d_caps d') = true ->
    r <> [] -> k_real (knows cm (d_id d) outs) <> r ->
    k_real (knows cm (d_id d') (outs ++ snd (step cm s (DSetname (d_id d) r)))) = r.
  Proof.
    intros Hd Hb Hd' Hb' Hset Hr Hk. pose proof (the_inv (d_id d')) as H.
    cbn [step]. rewrite the_client_in by exact Hd. unfold on_setname.
    destruct (i_know _ _ _ _ _ _ (the_inv (d_id d)) d Hd) as (_ & _ & K & _). rewrite <- K in Hk.
    destruct (beqb_spec (d_real d) r); [contradiction|]. rewrite Hb.
    pose proof (user_update_frame cm s (u_nick s) r) as (F1 & F2 & F3 & F4 & F5).
    assert (G : get_real (fst (user_update s (u_nick s) r)) false = r).
    { unfold user_update. destruct (negb (beqb r (u_real s)) && nil (w_real s)); [destruct (s_conn s) as [c|]; [destruct (n_setname c)|]|];
        cbn [fst]; unfold get_real; cbn [andb u_real with_urec net_update with_link with_wrec]; rewrite (no_nil r Hr); reflexivity. }
    destruct (user_update s (u_nick s) r) as [s1 o]. cbn [fst snd] in *.
    unfold tell. pose proof (each_own cm (fun _ => True) (fun _ => True) (fun _ => True) (update_real s1) unbound (s_clients s1) d') as Ho.
    destruct (each (update_real s1) unbound (s_clients s1)) as [m o2]. cbn [fst snd] in *.
    rewrite app_assoc, knows_app, Ho; [| rewrite F1; apply (i_nd _ _ _ _ _ _ H) | rewrite F1; exact Hd'].
    rewrite (ups_knows cm _ outs o F3). unfold unbound. rewrite Hb'. cbn [negb].
    pose proof (good_real cm _ _ _ s1 d' _ (i_know _ _ _ _ _ _ H d' Hd')) as [(_ & _ & K2 & _) _]. rewrite <- K2.
    unfold update_real, up. rewrite Hset, Hb', G. cbn [negb]. destruct (beqb_spec r (d_real d')) as [->|]; reflexivity.
  Qed.
End Theorems.
