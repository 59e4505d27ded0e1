(** Proofs for C76: what the bouncer answers to WHO on its own. *)
From Verif.Base Require Import Bytes.
From Verif.Model Require Import Message CaseMap Membership Modes Roster.
From Verif.Spec Require Import Membership Modes Roster.
From Verif.Proof Require Import CaseMap Roster.
Open Scope nat_scope.

Section Cache.
  Variable t : tables.
  Variables multi ext : bool.
  Hypothesis Hpre : NoDup (map mb_prefix (t_avail t)).
  Hypothesis Hsp : ~ In " "%char (map mb_prefix (t_avail t)).
  Let key (n : bytes) : bytes := casemap (t_cm t) n.
  Notation swf := (swf t).
  Notation agree := (agree t multi).

  Definition shown (w : suser) : option bytes := match su_account w with Some a => account_shown a | None => None end.

  Definition info_ok (id : nat) (w : suser) (i : uuser) : Prop :=
    uu_nick i = su_nick w /\ (uu_user i = [] \/ uu_user i = su_user w) /\ (uu_host i = [] \/ uu_host i = su_host w) /\
    (uu_server i = [] \/ uu_server i = su_server w) /\ (uu_real i = [] \/ uu_real i = su_real w) /\
    (id <> me -> t_account_notify t = true -> uu_account i = [] \/ account_shown (uu_account i) = shown w) /\
    (id <> me -> t_away_notify t = true -> uu_flags i = [] \/ exists rest, uu_flags i = (if su_away w then "G" else "H")%char :: rest).

  Definition near (s : server) (id : nat) : Prop := id = me \/ sharing s id.

  Record cache_ok (s : server) (r : rst) : Prop := {
    cc_fold : cm_fold (r_users r) = t_cm t;
    cc_mon : forall k, look (r_mon r) k = None;
    cc_ok : forall k o i, look (r_users r) k = Some (o, i) ->
      exists id w, sv_users s id = Some w /\ key (su_nick w) = k /\ near s id /\ info_ok id w i
  }.

  Lemma pick_right {P : bytes -> Prop} a b : (a = [] \/ P a) -> (b = [] \/ P b) -> pick a b = [] \/ P (pick a b).
  Proof. intros Ha Hb. unfold pick. destruct b; [exact Ha|exact Hb]. Qed.

  Lemma update_ok id w i j : info_ok id w i -> (uu_nick j = [] \/ uu_nick j = su_nick w) -> 
    (uu_user j = [] \/ uu_user j = su_user w) -> (uu_host j = [] \/ uu_host j = su_host w) ->
    (uu_server j = [] \/ uu_server j = su_server w) -> (uu_real j = [] \/ uu_real j = su_real w) ->
    (id <> me -> t_account_notify t = true -> uu_account j = [] \/ account_shown (uu_account j) = shown w) ->
    (id <> me -> t_away_notify t = true -> uu_flags j = [] \/ exists rest, uu_flags j = (if su_away w then "G" else "H")%char :: rest) ->
    info_ok id w (update_from i j).
  Proof.
    intros (A1 & A2 & A3 & A4 & A5 & A6 & A7) B1 B2 B3 B4 B5 B6 B7. unfold update_from.
    split; cbn [uu_nick uu_user uu_host uu_server uu_flags uu_account uu_real].
    { unfold pick. destruct (uu_nick j); [exact A1|]. destruct B1 as [B1|B1]; [discriminate|exact B1]. }
    split; [apply (pick_right (P := fun x => x = su_user w)); assumption|].
    split; [apply (pick_right (P := fun x => x = su_host w)); assumption|].
    split; [apply (pick_right (P := fun x => x = su_server w)); assumption|].
    split; [apply (pick_right (P := fun x => x = su_real w)); assumption|].
    split; intros N1 N2.
    - apply (pick_right (P := fun x => account_shown x = shown w)); auto.
    - apply (pick_right (P := fun x => exists rest, x = (if su_away w then "G" else "H")%char :: rest)); auto.
  Qed.

  (** The entry of a name that is not changed. *)
  Lemma cache_look n info r r' : cm_fold (r_users r) = t_cm t -> cache_user n info r = Some r' -> uu_nick info = [] \/ uu_nick info = n ->
    cm_fold (r_users r') = t_cm t /\ r_mon r' = r_mon r /\ core r r' /\
    exists o i, (match look (r_users r) (key n) with
                 | Some (_, uu) => i = update_from uu info
                 | None => i = UUser n (uu_user info) (uu_host info) (uu_server info) (uu_flags info) (uu_account info) (uu_real info)
                 end) /\
      forall k, look (r_users r') k = if beqb k (key n) then Some (o, i) else look (r_users r) k.
  Proof.
    intros F H Hn. unfold cache_user in H. destruct n as [|c n]; [discriminate|]. set (nn := c :: n) in *.
    injection H as <-. cbn [Model.Roster.with_users r_users r_mon]. rewrite look_get, F. change (casemap (t_cm t) nn) with (key nn).
    destruct (look (r_users r) (key nn)) as [[o uu]|] eqn:E; cbn [option_map snd].
    - assert (Hf : nonempty (uu_nick info) && negb (beqb nn (uu_nick info)) = false).
      { destruct Hn as [-> | ->]; [reflexivity|]. rewrite beqb_refl. apply andb_false_r. }
      rewrite Hf. split; [rewrite set_fold; exact F|]. split; [reflexivity|]. split; [repeat split|].
      exists o, (update_from uu info). split; [reflexivity|]. intros k. rewrite look_set, F. change (casemap (t_cm t) nn) with (key nn). rewrite E. reflexivity.
    - destruct info as [a1 a2 a3 a4 a5 a6 a7]. cbn [uu_nick uu_user uu_host uu_server uu_flags uu_account uu_real] in *.
      assert (Hi : (match a1 with [] => UUser nn a2 a3 a4 a5 a6 a7 | _ => UUser a1 a2 a3 a4 a5 a6 a7 end) = UUser nn a2 a3 a4 a5 a6 a7)
        by (destruct Hn as [-> | ->]; reflexivity).
      rewrite Hi. cbn [uu_nick]. split; [rewrite set_fold; exact F|]. split; [reflexivity|]. split; [repeat split|].
      eexists _, _. split; [reflexivity|]. intros k. rewrite look_set, F. change (casemap (t_cm t) nn) with (key nn). rewrite E. reflexivity.
  Qed.

  (** Something is learnt about one user. *)
  Lemma cache_in_place s s' r r' id u u' info : cache_ok s r -> sv_users s id = Some u ->
    (forall j v, sv_users s j = Some v -> key (su_nick v) = key (su_nick u) -> j = id) ->
    sv_users s' id = Some u' -> su_nick u' = su_nick u -> near s' id ->
    (forall j, j <> id -> sv_users s' j = sv_users s j) -> (forall j, sharing s j -> sharing s' j) ->
    cache_user (su_nick u) info r = Some r' -> (uu_nick info = [] \/ uu_nick info = su_nick u) ->
    (forall uu, info_ok id u uu -> info_ok id u' (update_from uu info)) ->
    info_ok id u' (UUser (su_nick u) (uu_user info) (uu_host info) (uu_server info) (uu_flags info) (uu_account info) (uu_real info)) ->
    cache_ok s' r'.
  Proof.
    intros [C1 C2 C3] Hu Huniq Hu' En Hnear Hother Hsh Hc Hn Hup Hnew.
    destruct (cache_look _ _ _ _ C1 Hc Hn) as (F & M & _ & o & i & Hi & L). split; [exact F|rewrite M; exact C2|].
    intros k o0 i0 Hk. rewrite L in Hk. destruct (beqb_spec k (key (su_nick u))) as [->|Hne].
    - assert (i0 = i) by congruence. subst i0. exists id, u'. split; [exact Hu'|]. split; [unfold key; rewrite En; reflexivity|]. split; [exact Hnear|].
      destruct (look (r_users r) (key (su_nick u))) as [[o1 uu]|] eqn:E; subst i; [|exact Hnew].
      destruct (C3 _ _ _ E) as (j & w & Q1 & Q2 & Q3 & Q4). assert (j = id) by exact (Huniq j w Q1 Q2). subst j.
      assert (w = u) by congruence. subst w. exact (Hup uu Q4).
    - destruct (C3 _ _ _ Hk) as (j & w & Q1 & Q2 & Q3 & Q4). exists j, w.
      assert (j <> id) by (intros ->; apply Hne; congruence).
      split; [rewrite Hother by assumption; exact Q1|]. split; [exact Q2|]. split; [|exact Q4].
      destruct Q3 as [Q3|Q3]; [left; exact Q3|right; exact (Hsh j Q3)].
  Qed.

  (** The cache only loses entries. *)
  Lemma cache_less s s' r r' : cache_ok s r -> cm_fold (r_users r') = t_cm t -> (forall k, look (r_mon r') k = None) ->
    (forall k p, look (r_users r') k = Some p -> look (r_users r) k = Some p) ->
    (forall id w, sv_users s id = Some w -> near s id -> look (r_users r') (key (su_nick w)) <> None ->
       near s' id /\ exists w', sv_users s' id = Some w' /\ su_nick w' = su_nick w /\ forall i, info_ok id w i -> info_ok id w' i) ->
    cache_ok s' r'.
  Proof.
    intros [C1 C2 C3] F M L H. split; try assumption. intros k o i Hk. destruct (C3 _ _ _ (L _ _ Hk)) as (id & w & Q1 & Q2 & Q3 & Q4).
    destruct (H id w Q1 Q3) as (N & w' & Hw' & En & Hi); [rewrite Q2; congruence|].
    exists id, w'. split; [exact Hw'|]. split; [rewrite En; exact Q2|]. split; [exact N|exact (Hi i Q4)].
  Qed.

  Lemma cache_same s s' r r' : cache_ok s r -> r_users r' = r_users r -> r_mon r' = r_mon r ->
    (forall id w, sv_users s id = Some w -> near s id ->
       near s' id /\ exists w', sv_users s' id = Some w' /\ su_nick w' = su_nick w /\ forall i, info_ok id w i -> info_ok id w' i) ->
    cache_ok s' r'.
  Proof.
    intros C E1 E2 H. pose proof C as [C1 C2 C3]. apply (cache_less s s' r r' C); [congruence|rewrite E2; exact C2|rewrite E1; auto|].
    intros id w Hw N _. exact (H id w Hw N).
  Qed.

  Lemma has_empty (m : cmmap bool) n : (forall k, look m k = None) -> cm_has m n = false.
  Proof. intros H. rewrite look_has, H. reflexivity. Qed.

  Lemma should_near s r n id w : swf s -> agree s r -> (forall k, look (r_mon r) k = None) -> should_cache r n = true ->
    sv_users s id = Some w -> key (su_nick w) = key n -> near s id.
  Proof.
    intros W A M H Hw En. unfold should_cache in H. rewrite (has_empty _ _ M), orb_false_r in H. apply orb_true_iff in H as [H|H].
    - left. destruct (Nat.eq_dec id me) as [->|Hn]; [reflexivity|]. exfalso.
      rewrite (our_other t multi s r id w n W A Hn Hw (eq_sym En)) in H. discriminate.
    - right. apply existsb_exists in H as ([o c] & Hin & Hh). cbn [snd] in Hh.
      apply (wf_entries _ _ _ (ag_wf _ _ _ _ A)) in Hin. rewrite (ag_fold _ _ _ _ A) in Hin.
      pose proof (ag_chans _ _ _ _ A (casemap (t_cm t) o)) as G. rewrite Hin in G. destruct G as [I C].
      rewrite look_has, (ck_fold _ _ _ _ _ C) in Hh.
      destruct (look (uh_members c) (casemap (t_cm t) n)) as [[o' l']|] eqn:E; [|discriminate].
      destruct (ck_out _ _ _ _ _ C _ _ _ E) as (j & v & st & Q1 & Q2 & Q3 & Q4).
      assert (j = id) by (apply (sw_unique _ _ W _ _ _ _ Q1 Hw); etransitivity; [exact Q4|symmetry; exact En]). subst j.
      exists (casemap (t_cm t) o). split; [exact I|unfold inside; congruence].
  Qed.

  Lemma forget_look r n k p : cm_fold (r_users r) = t_cm t -> look (r_users (forget r n)) k = Some p ->
    look (r_users r) k = Some p /\ (key n = k -> should_cache r n = true).
  Proof.
    intros F H. unfold forget in H. destruct (should_cache r n) eqn:E; [auto|]. cbn [Model.Roster.with_users r_users] in H.
    rewrite look_del, F in H. change (casemap (t_cm t) n) with (key n) in H. destruct (beqb_spec k (key n)) as [->|Hn]; [discriminate|].
    split; [exact H|]. intros E'. congruence.
  Qed.

  Lemma forget_fold r n : cm_fold (r_users r) = t_cm t -> cm_fold (r_users (forget r n)) = t_cm t.
  Proof. intros F. unfold forget. destruct (should_cache r n); exact F. Qed.

  Lemma forget_mon r n : r_mon (forget r n) = r_mon r.
  Proof. unfold forget. destruct (should_cache r n); reflexivity. Qed.

  Lemma should_core r r' n : core r r' -> r_mon r' = r_mon r -> should_cache r' n = should_cache r n.
  Proof. intros (E1 & E2 & E3) E4. unfold should_cache, is_our_nick, r_cm. rewrite E1, E2, E3, E4. reflexivity. Qed.

  Lemma forgets_look l : forall r k p, cm_fold (r_users r) = t_cm t -> look (r_users (fold_left forget l r)) k = Some p ->
    look (r_users r) k = Some p /\ forall n, In n l -> key n = k -> should_cache r n = true.
  Proof.
    induction l as [|x l IH]; intros r k p F H; [split; [exact H|intros n []]|]. cbn [fold_left] in H.
    destruct (IH _ _ _ (forget_fold _ _ F) H) as [H1 H2]. destruct (forget_look _ _ _ _ F H1) as [H3 H4]. split; [exact H3|].
    intros n [<-|Hn] E; [exact (H4 E)|]. rewrite <- (should_core r (forget r x) n); [exact (H2 n Hn E)|apply forget_core|apply forget_mon].
  Qed.

  Lemma forgets_fold l : forall r, cm_fold (r_users r) = t_cm t -> cm_fold (r_users (fold_left forget l r)) = t_cm t.
  Proof. induction l as [|x l IH]; intros r F; [exact F|]. cbn [fold_left]. apply IH. apply forget_fold. exact F. Qed.

  Lemma forgets_mon l : forall r, r_mon (fold_left forget l r) = r_mon r.
  Proof. induction l as [|x l IH]; intros r; [reflexivity|]. cbn [fold_left]. rewrite IH. apply forget_mon. Qed.

  (** ** Steps *)

  (** Nothing but membership changes, and no message reaches the cache. *)
  Lemma near_same s s' : (forall k id, inside s k id -> inside s' k id) -> forall id, near s id -> near s' id.
  Proof. intros H id [N|(k & I1 & I2)]; [left; exact N|right; exists k; auto]. Qed.

  Lemma away_ok s s' r r' id u b params : cache_ok s r -> sv_users s id = Some u ->
    (forall j v, sv_users s j = Some v -> key (su_nick v) = key (su_nick u) -> j = id) ->
    sv_users s' id = Some (su_with_away u b) -> near s' id ->
    (forall j, j <> id -> sv_users s' j = sv_users s j) -> (forall j, sharing s j -> sharing s' j) ->
    su_nick u <> [] -> b = match params with _ :: _ => true | [] => false end ->
    on_events [from u (B "AWAY") params] r = Some (r', true) -> cache_ok s' r'.
  Proof.
    intros C Hu Huniq Hu' Hnear Hother Hsh Hne Hb H. pose proof C as [C1 C2 C3]. rewrite events_one in H. unfold from in H. cbn [on_event] in H.
    unfold handle in H. cbn [m_command m_params] in H.
    change (beqb (B "AWAY") (B "NICK")) with false in H. change (beqb (B "AWAY") (B "SETNAME")) with false in H.
    change (beqb (B "AWAY") (B "CHGHOST")) with false in H. change (beqb (B "AWAY") (B "JOIN")) with false in H.
    change (beqb (B "AWAY") (B "PART")) with false in H. change (beqb (B "AWAY") (B "KICK")) with false in H.
    change (beqb (B "AWAY") (B "QUIT")) with false in H. change (beqb (B "AWAY") (B "MODE")) with false in H.
    change (beqb (B "AWAY") (B "324")) with false in H. change (beqb (B "AWAY") (B "353")) with false in H.
    change (beqb (B "AWAY") (B "366")) with false in H. change (beqb (B "AWAY") (B "730")) with false in H.
    change (beqb (B "AWAY") (B "731")) with false in H. change (beqb (B "AWAY") (B "AWAY")) with true in H. cbn [orb] in H. cbv iota in H.
    change (p_name (su_prefix u)) with (su_nick u) in H. rewrite look_get, C1 in H. change (casemap (t_cm t) (su_nick u)) with (key (su_nick u)) in H.
    assert (Hin : forall i, info_ok id u i -> uu_flags i = [] -> info_ok id (su_with_away u b) i).
    { intros i (A1 & A2 & A3 & A4 & A5 & A6 & A7) E. repeat (split; [assumption|]). auto. }
    assert (Hless : forall r1, r1 = r -> (forall o uu, look (r_users r) (key (su_nick u)) = Some (o, uu) -> uu_flags uu = []) -> cache_ok s' r1).
    { intros r1 -> Hfl. split; try assumption. intros k o i Hk. destruct (C3 _ _ _ Hk) as (j & w & Q1 & Q2 & Q3 & Q4).
      destruct (Nat.eq_dec j id) as [->|Hj].
      - assert (w = u) by congruence. subst w. exists id, (su_with_away u b). split; [exact Hu'|]. split; [exact Q2|]. split; [exact Hnear|].
        apply Hin; [exact Q4|]. apply (Hfl o). rewrite Q2. exact Hk.
      - exists j, w. split; [rewrite Hother by exact Hj; exact Q1|]. split; [exact Q2|]. split; [|exact Q4].
        destruct Q3 as [Q3|Q3]; [left; exact Q3|right; exact (Hsh _ Q3)]. }
    destruct (look (r_users r) (key (su_nick u))) as [[o uu]|] eqn:E; cbn [option_map snd] in H.
    - destruct (uu_flags uu) as [|f fl] eqn:Ef; cbn [nonempty] in H.
      + apply Hless; [congruence|]. intros o1 uu1 E1. congruence.
      + destruct (C3 _ _ _ E) as (j & w & Q1 & Q2 & Q3 & Q4). assert (j = id) by exact (Huniq j w Q1 Q2). subst j. assert (w = u) by congruence. subst w.
        set (fl' := match params with _ :: _ => replace_byte "H" "G" (f :: fl) | [] => replace_byte "G" "H" (f :: fl) end) in *.
        destruct (cache_user (su_nick u) (UUser [] [] [] [] fl' [] []) r) as [r1|] eqn:Ec; [|discriminate].
        assert (r1 = r') by (cbn [option_map] in H; congruence). subst r1.
        destruct (cache_look _ _ _ _ C1 Ec (or_introl eq_refl)) as (F & M & _ & o' & i' & Hi & L). split; [exact F|rewrite M; exact C2|].
        intros k o0 i0 Hk. rewrite L in Hk. destruct (beqb_spec k (key (su_nick u))) as [->|Hne'].
        * assert (i0 = i') by congruence. subst i0. rewrite E in Hi. subst i'. exists id, (su_with_away u b). split; [exact Hu'|]. split; [reflexivity|].
          split; [exact Hnear|]. destruct Q4 as (A1 & A2 & A3 & A4 & A5 & A6 & A7). unfold update_from.
          cbn [uu_nick uu_user uu_host uu_server uu_flags uu_account uu_real pick].
          repeat (split; [assumption|]). intros N1 N2. right. destruct (A7 N1 N2) as [A|(rest & A)]; [congruence|].
          assert (f = (if su_away u then "G" else "H")%char) by congruence. subst f.
          subst fl'. rewrite Hb. destruct params as [|p0 ps]; cbn [replace_byte map uu_flags su_away su_with_away pick]; destruct (su_away u); eexists; reflexivity.
        * destruct (C3 _ _ _ Hk) as (j & w & P1 & P2 & P3 & P4). assert (j <> id) by (intros ->; apply Hne'; congruence).
          exists j, w. split; [rewrite Hother by assumption; exact P1|]. split; [exact P2|]. split; [|exact P4].
          destruct P3 as [P3|P3]; [left; exact P3|right; exact (Hsh _ P3)].
    - apply Hless; [congruence|]. intros o uu E'. congruence.
  Qed.

  Lemma join_info_ok id u name r b uu : r_tab r = t -> (id = me \/ b = false) ->
    let info := join_info r (join_message ext u name) (su_prefix u) in
    uu_nick info = [] /\
    (info_ok id u uu -> info_ok id (su_with_away u b) (update_from uu info)) /\
    info_ok id (su_with_away u b) (UUser (su_nick u) (uu_user info) (uu_host info) (uu_server info) (uu_flags info) (uu_account info) (uu_real info)).
  Proof.
    intros Et Hb info.
    assert (Eu : uu_nick info = [] /\ uu_user info = su_user u /\ uu_host info = su_host u /\ uu_server info = [] /\
      (uu_real info = [] \/ uu_real info = su_real u) /\ (uu_account info = [] \/ account_shown (uu_account info) = shown u) /\
      (t_away_notify t = true -> exists rest, uu_flags info = "H"%char :: rest)).
    { unfold info, join_info, join_message. rewrite Et. unfold shown.
      destruct ext; cbn [m_params m_tags]; cbn [uu_nick uu_user uu_host uu_server uu_flags uu_account uu_real su_prefix p_user p_host];
        (split; [reflexivity|split; [reflexivity|split; [reflexivity|split; [reflexivity|]]]]).
      - split; [right; reflexivity|]. split; [right; destruct (su_account u); reflexivity|].
        intros ->. eexists. reflexivity.
      - split; [left; reflexivity|]. split; [left; reflexivity|]. intros ->. eexists. reflexivity. }
    clearbody info. destruct Eu as (E1 & E2 & E3 & E4 & E5 & E6 & E7). split; [exact E1|].
    assert (Hf : id <> me -> t_away_notify t = true -> exists rest, uu_flags info = (if su_away (su_with_away u b) then "G" else "H")%char :: rest).
    { intros N1 N2. destruct Hb as [Hb|Hb]; [congruence|]. subst b. exact (E7 N2). }
    split.
    - intros (A1 & A2 & A3 & A4 & A5 & A6 & A7). unfold update_from.
      split; cbn [uu_nick uu_user uu_host uu_server uu_flags uu_account uu_real su_with_away su_nick su_user su_host su_server su_real].
      { rewrite E1. exact A1. }
      split; [apply (pick_right (P := fun x => x = su_user u)); auto|].
      split; [apply (pick_right (P := fun x => x = su_host u)); auto|].
      split; [apply (pick_right (P := fun x => x = su_server u)); auto|].
      split; [apply (pick_right (P := fun x => x = su_real u)); auto|].
      split; intros N1 N2.
      + apply (pick_right (P := fun x => account_shown x = shown u)); auto.
      + destruct (Hf N1 N2) as [rest E]. right. exists rest. rewrite E. reflexivity.
    - split; [reflexivity|]. cbn [uu_nick uu_user uu_host uu_server uu_flags uu_account uu_real su_with_away su_nick su_user su_host su_server su_real].
      repeat (split; [auto|]). auto.
  Qed.

  Ltac cmdin H := repeat match type of H with context [beqb (B ?a) (B ?b)] =>
    let v := eval vm_compute in (beqb (B a) (B b)) in change (beqb (B a) (B b)) with v in H end; cbn [orb andb] in H; cbv iota in H.
  Ltac open H := rewrite events_one in H; cbn [on_event from by_server] in H; unfold handle in H; cbn [m_command m_params] in H; cmdin H.

  Lemma uniq s id u : swf s -> sv_users s id = Some u -> forall j v, sv_users s j = Some v -> key (su_nick v) = key (su_nick u) -> j = id.
  Proof. intros W H j v Hj E. exact (sw_unique _ _ W _ _ _ _ Hj H E). Qed.

  Lemma refl_detail s' id (w : suser) : sv_users s' id = Some w -> near s' id ->
    near s' id /\ exists w', sv_users s' id = Some w' /\ su_nick w' = su_nick w /\ forall i, info_ok id w i -> info_ok id w' i.
  Proof. intros H N. split; [exact N|]. exists w. auto. Qed.

  (** Details of one user change, and the message tells. *)
  Lemma detail_ok s r r' id u u' info : swf s -> cache_ok s r -> sv_users s id = Some u -> near s id -> su_nick u' = su_nick u ->
    cache_user (su_nick u) info r = Some r' -> uu_nick info = [] ->
    (forall uu, info_ok id u uu -> info_ok id u' (update_from uu info)) ->
    info_ok id u' (UUser (su_nick u) (uu_user info) (uu_host info) (uu_server info) (uu_flags info) (uu_account info) (uu_real info)) ->
    cache_ok (Spec.Roster.with_users s (upd (sv_users s) id (Some u'))) r'.
  Proof.
    intros W C Hu N En Hc Hn H1 H2. eapply (cache_in_place s _ r r' id u u' info C Hu (uniq s id u W Hu)); try eassumption.
    - cbn. apply upd_same.
    - intros j Hj. cbn. apply upd_other. exact Hj.
    - auto.
    - left. exact Hn.
  Qed.

  (** ... or nobody we see is concerned. *)
  Lemma detail_unseen s r id u u' : cache_ok s r -> sv_users s id = Some u -> su_nick u' = su_nick u ->
    (near s id -> forall i, info_ok id u i -> info_ok id u' i) ->
    cache_ok (Spec.Roster.with_users s (upd (sv_users s) id (Some u'))) r.
  Proof.
    intros C Hu En H. apply (cache_same s _ r r C eq_refl eq_refl). intros j w Hw N. split; [exact N|]. cbn [Spec.Roster.with_users sv_users].
    destruct (Nat.eq_dec j id) as [->|Hj].
    - assert (w = u) by congruence. subst w. exists u'. rewrite upd_same. auto.
    - exists w. rewrite upd_other by exact Hj. auto.
  Qed.

  Lemma nick_cache s r r2 r' id u new : swf s -> cache_ok s r -> r_users r2 = r_users r -> r_mon r2 = r_mon r -> sv_users s id = Some u ->
    valid_nick t new -> unused t s id new -> near s id -> cache_user (su_nick u) (UUser new [] [] [] [] [] []) r2 = Some r' ->
    cache_ok (Spec.Roster.with_users s (upd (sv_users s) id (Some (su_with_nick u new)))) r'.
  Proof.
    intros W [C1 C2 C3] E1 E2 Hu Hv Hun N Hc. unfold cache_user in Hc. rewrite E1 in Hc.
    destruct (su_nick u) as [|c0 n0] eqn:En; [discriminate|]. rewrite <- En in Hc. cbn [uu_nick] in Hc.
    destruct new as [|d0 d] eqn:Enew; [destruct Hv; congruence|]. rewrite <- Enew in *. injection Hc as <-. clear En c0 n0.
    cbn [Model.Roster.with_users r_users r_mon]. rewrite look_get, C1. change (casemap (t_cm t) (su_nick u)) with (key (su_nick u)).
    assert (Hnew : forall k o i, look (r_users r) k = Some (o, i) -> k <> key (su_nick u) -> k <> key new).
    { intros k o i Hk Hne E. destruct (C3 _ _ _ Hk) as (j & w & Q1 & Q2 & _ & _). apply (Hun j w); [|exact Q1|exact (eq_trans Q2 E)].
      intros ->. apply Hne. congruence. }
    assert (Hold : forall k o i, look (r_users r) k = Some (o, i) -> k <> key (su_nick u) ->
      exists j w, upd (sv_users s) id (Some (su_with_nick u new)) j = Some w /\ key (su_nick w) = k /\
        near (Spec.Roster.with_users s (upd (sv_users s) id (Some (su_with_nick u new)))) j /\ info_ok j w i).
    { intros k o i Hk Hne. destruct (C3 _ _ _ Hk) as (j & w & Q1 & Q2 & Q3 & Q4). exists j, w.
      rewrite upd_other by (intros ->; apply Hne; congruence). auto. }
    assert (Hthis : forall i, info_ok id u i -> info_ok id (su_with_nick u new) (update_from i (UUser new [] [] [] [] [] []))).
    { intros i (A1 & A2 & A3 & A4 & A5 & A6 & A7). unfold update_from. split; cbn [uu_nick uu_user uu_host uu_server uu_flags uu_account uu_real pick].
      - rewrite Enew. reflexivity.
      - do 4 (split; [assumption|]). split; assumption. }
    assert (Hsome : forall i, info_ok id u i -> exists j w, upd (sv_users s) id (Some (su_with_nick u new)) j = Some w /\ key (su_nick w) = key new /\
        near (Spec.Roster.with_users s (upd (sv_users s) id (Some (su_with_nick u new)))) j /\ info_ok j w (update_from i (UUser new [] [] [] [] [] []))).
    { intros i Hi. exists id, (su_with_nick u new). rewrite upd_same. split; [reflexivity|]. split; [reflexivity|]. split; [exact N|exact (Hthis i Hi)]. }
    destruct (look (r_users r) (key (su_nick u))) as [[o uu]|] eqn:E; cbn [option_map snd].
    - destruct (C3 _ _ _ E) as (j & w & Q1 & Q2 & Q3 & Q4). assert (j = id) by exact (uniq s id u W Hu j w Q1 Q2). subst j.
      assert (w = u) by congruence. subst w.
      assert (Eun : uu_nick (update_from uu (UUser new [] [] [] [] [] [])) = new) by (unfold update_from; cbn [uu_nick]; rewrite Enew; reflexivity).
      assert (Hne : nonempty new = true) by (rewrite Enew; reflexivity). rewrite Hne. cbn [andb].
      destruct (beqb_spec (su_nick u) new) as [Eq|Hneq]; cbn [negb].
      + split; cbn [Model.Roster.with_users r_users r_mon]; [rewrite set_fold; exact C1|rewrite E2; exact C2|]. cbn [Model.Roster.with_users r_users Spec.Roster.with_users sv_users]. intros k o' i' Hk. rewrite look_set, C1 in Hk.
        change (casemap (t_cm t) (su_nick u)) with (key (su_nick u)) in Hk. destruct (beqb_spec k (key (su_nick u))) as [->|Hne'].
        * assert (i' = update_from uu (UUser new [] [] [] [] [] [])) by congruence. subst i'. rewrite Eq. exact (Hsome uu Q4).
        * exact (Hold _ _ _ Hk Hne').
      + split; cbn [Model.Roster.with_users r_users r_mon]; [rewrite set_fold; exact C1|rewrite E2; exact C2|]. cbn [Model.Roster.with_users r_users Spec.Roster.with_users sv_users]. intros k o' i' Hk. change (pick (uu_nick uu) new) with (uu_nick (update_from uu (UUser new [] [] [] [] [] []))) in Hk. rewrite Eun in Hk. rewrite look_set in Hk.
        assert (Fd : cm_fold (cm_del (r_users r) (su_nick u)) = t_cm t) by exact C1. rewrite Fd in Hk.
        change (casemap (t_cm t) new) with (key new) in Hk. destruct (beqb_spec k (key new)) as [->|Hne'].
        * assert (i' = update_from uu (UUser new [] [] [] [] [] [])) by congruence. subst i'. exact (Hsome uu Q4).
        * rewrite look_del, C1 in Hk. change (casemap (t_cm t) (su_nick u)) with (key (su_nick u)) in Hk.
          destruct (beqb_spec k (key (su_nick u))) as [|Hne'']; [discriminate|]. exact (Hold _ _ _ Hk Hne'').
    - cbn [uu_nick uu_user uu_host uu_server uu_flags uu_account uu_real] in *.
      split; cbn [Model.Roster.with_users r_users r_mon]; [rewrite set_fold; exact C1|rewrite E2; exact C2|]. cbn [Model.Roster.with_users r_users Spec.Roster.with_users sv_users]. intros k o' i' Hk. rewrite look_set, C1 in Hk.
      change (casemap (t_cm t) new) with (key new) in Hk. destruct (beqb_spec k (key new)) as [->|Hne'].
      + assert (i' = UUser new [] [] [] [] [] []) by congruence. subst i'. exists id, (su_with_nick u new). rewrite upd_same.
        split; [reflexivity|]. split; [reflexivity|]. split; [exact N|]. split; [reflexivity|]. cbn [uu_user uu_host uu_server uu_flags uu_account uu_real]. auto 12.
      + apply (Hold _ _ _ Hk). intros ->. congruence.
  Qed.

  Lemma leave_cache s r name : let s' := Server (sv_users s) (updk (sv_in s) (key name) (upd (sv_in s (key name)) me None)) (sv_told s) (sv_listed s) in
    swf s -> agree s r -> cache_ok s r -> inside s (key name) me -> sv_listed s (key name) = true -> swf s' -> agree s' (leave r name) -> cache_ok s' (leave r name).
  Proof.
    intros s' W A C I Hl W' A'. destruct (our_chan t multi s r name A I) as (o & c & El & Eg & K). pose proof C as [C1 C2 C3].
    unfold leave in *. rewrite Eg in *. set (r1 := with_chans r (cm_del (r_chans r) name)) in *. set (l := map fst (cm_entries (uh_members c))) in *.
    assert (F1 : cm_fold (r_users r1) = t_cm t) by exact C1.
    apply (cache_less s s' r _ C).
    - apply forgets_fold. exact F1.
    - rewrite forgets_mon. exact C2.
    - intros k p Hk. exact (proj1 (forgets_look l r1 k p F1 Hk)).
    - intros id w Hw N Hk. apply refl_detail; [exact Hw|]. destruct N as [N|(k0 & I1 & I2)]; [left; exact N|].
      destruct (Nat.eq_dec id me) as [->|Hid]; [left; reflexivity|].
      destruct (bytes_dec k0 (key name)) as [->|Hn].
      + assert (Ht : sv_told s (key name) id = true) by exact (sw_listed _ _ W _ _ Hl I I2).
        unfold inside in I2. destruct (sv_in s (key name) id) as [st|] eqn:Est; [|congruence].
        destruct (ck_in _ _ _ _ _ K id w st Hw Est Ht) as (ms & Em & _).
        assert (Hin : In (su_nick w) l).
        { unfold l. apply in_map_iff. exists (su_nick w, ms). split; [reflexivity|]. apply (wf_entries _ _ _ (ck_wf _ _ _ _ _ K)).
          rewrite (ck_fold _ _ _ _ _ K). exact Em. }
        destruct (look (r_users (fold_left forget l r1)) (key (su_nick w))) as [p|] eqn:Ep; [|congruence].
        pose proof (proj2 (forgets_look l r1 _ p F1 Ep) (su_nick w) Hin eq_refl) as Hs.
        apply (should_near s' (fold_left forget l r1) (su_nick w)) with (w := w); try assumption.
        * rewrite forgets_mon. exact C2.
        * rewrite (should_core r1); [exact Hs|apply forgets_core|apply forgets_mon].
        * reflexivity.
      + right. exists k0. unfold inside, s'. cbn [sv_in]. rewrite !updk_other by exact Hn. split; assumption.
  Qed.

  Lemma drop_cache s r r' id u name nick : let s' := Server (sv_users s) (updk (sv_in s) (key name) (upd (sv_in s (key name)) id None)) (sv_told s) (sv_listed s) in
    swf s -> agree s r -> cache_ok s r -> inside s (key name) me -> id <> me -> sv_users s id = Some u -> key nick = key (su_nick u) ->
    swf s' -> agree s' r' -> drop_member r name nick = (r', true) -> cache_ok s' r'.
  Proof.
    intros s' W A C I Hid Hu En W' A' H. destruct (our_chan t multi s r name A I) as (o & c & El & Eg & K). pose proof C as [C1 C2 C3].
    unfold drop_member in H. rewrite Eg in H. set (r1 := with_chans r _) in H. assert (r' = forget r1 nick) by congruence. subst r'. clear H.
    assert (F1 : cm_fold (r_users r1) = t_cm t) by exact C1.
    apply (cache_less s s' r _ C).
    - apply forget_fold. exact F1.
    - rewrite forget_mon. exact C2.
    - intros k p Hk. exact (proj1 (forget_look r1 nick k p F1 Hk)).
    - intros j w Hw N Hk. apply refl_detail; [exact Hw|]. destruct (Nat.eq_dec j id) as [->|Hj].
      + assert (w = u) by congruence. subst w. destruct (look (r_users (forget r1 nick)) (key (su_nick u))) as [p|] eqn:Ep; [|congruence].
        pose proof (proj2 (forget_look r1 nick _ p F1 Ep) En) as Hs.
        apply (should_near s' (forget r1 nick) nick) with (w := u); try assumption.
        * rewrite forget_mon. exact C2.
        * rewrite (should_core r1); [exact Hs|apply forget_core|apply forget_mon].
        * symmetry. exact En.
      + destruct N as [N|(k0 & I1 & I2)]; [left; exact N|]. right. exists k0. unfold inside, s'. cbn [sv_in]. unfold updk.
        destruct (beqb_spec k0 (key name)) as [->|]; [|split; assumption]. rewrite !upd_other by congruence. split; assumption.
  Qed.

  Lemma elsewhere_cache s r id name : cache_ok s r -> sv_in s (key name) me = None ->
    cache_ok (Server (sv_users s) (updk (sv_in s) (key name) (upd (sv_in s (key name)) id None)) (sv_told s) (sv_listed s)) r.
  Proof.
    intros C E. apply (cache_same s _ r r C eq_refl eq_refl). intros j w Hw N. apply refl_detail; [exact Hw|].
    destruct N as [N|(k0 & I1 & I2)]; [left; exact N|]. right. exists k0. unfold inside. cbn [sv_in].
    rewrite !updk_other by (intros ->; contradiction). split; assumption.
  Qed.

  Lemma join_open u name r r1 : valid_chan t name -> on_events [RMsg (join_message ext u name) (su_prefix u)] r = Some (r1, true) ->
    exists r0, cache_user (su_nick u) (join_info r (join_message ext u name) (su_prefix u)) r = Some r0 /\ r_users r1 = r_users r0 /\ r_mon r1 = r_mon r0.
  Proof.
    intros Hv E. open E. change (p_name (su_prefix u)) with (su_nick u) in E. unfold join_message in E at 1. cbn [m_command] in E. cmdin E.
    assert (Em : m_params (join_message ext u name) = name :: tl (m_params (join_message ext u name))) by (unfold join_message; cbn [m_params]; destruct ext; reflexivity).
    rewrite Em in E. cbv iota in E. rewrite split_on_nosep in E by exact (proj1 Hv).
    destruct (cache_user (su_nick u) (join_info r (join_message ext u name) (su_prefix u)) r) as [r0|] eqn:Ec; cbn [option_map] in E; [|discriminate E].
    exists r0. split; [reflexivity|]. cbn [until_error] in E. unfold join_one in E.
    destruct (is_our_nick r0 (su_nick u)); [injection E as <-; split; reflexivity|].
    destruct (cm_get (r_chans r0) name); [|discriminate E]. injection E as <-. split; reflexivity.
  Qed.

  Lemma cache_step s l s' r r' : swf s -> agree s r -> cache_ok s r -> sstep t multi ext true s l s' ->
    on_events l r = Some (r', true) -> swf s' -> agree s' r' -> cache_ok s' r'.
  Proof.
    intros W A C H E W' A'. pose proof C as [C1 C2 C3].
    destruct H as [id u H1 H2 H3|id u name away H1 H2 H3 H4 H5 H6|u name st H1 H2 H3 H4|p nick status name ids xs H1 H2 H3 H4
      |p nick name text H1 H2 H3|id u name reason H1 H2 H3 H4|p id u name nick reason H1 H2 H3 H4|id u reason seen H1 H2 H3|id u new seen H1 H2 H3 H4 H5 H6
      |p name str args H1 H2|p nick name str args H1 H2|id u real seen H1 H2 H3 H4 H5|id u acc seen H1 H2 H3 H4|id u reason seen H1 H2 H3|id u user host seen H0 H1 H2|id u i H1 H2
      |p nick targets command H0 H1|removes]; try discriminate H0.
    - (* connect *)
      assert (r' = r) by (cbn in E; congruence). subst r'. apply (cache_same s _ r r C eq_refl eq_refl).
      intros j w Hw N. apply refl_detail; [|exact N]. cbn. rewrite upd_other by (intros ->; congruence). exact Hw.
    - (* join *)
      assert (Ek : casemap (t_cm t) name = key name) by reflexivity. rewrite Ek in *. destruct (sv_in s (key name) me) as [stm|] eqn:Em.
      + change (RMsg (join_message ext u name) (su_prefix u) :: match away with Some r0 => [from u (B "AWAY") [r0]] | None => [] end)
          with ([RMsg (join_message ext u name) (su_prefix u)] ++ match away with Some r0 => [from u (B "AWAY") [r0]] | None => [] end) in E.
        rewrite events_app in E. destruct (on_events [RMsg (join_message ext u name) (su_prefix u)] r) as [[r1 ok]|] eqn:E1; [|discriminate].
        destruct (join_ok t multi ext s r id u name H1 W A H2 H3 H4) as (r1' & E1' & A1). cbv zeta in E1'. rewrite Ek, Em in E1'.
        assert (r1' = r1 /\ ok = true) as [-> ->] by (split; congruence). clear E1'.
        set (s' := Server _ _ _ _) in *.
        assert (Hin : inside s' (key name) me /\ inside s' (key name) id).
        { unfold inside, s'. cbn [sv_in]. rewrite updk_same, upd_same, upd_other by congruence. rewrite Em. split; discriminate. }
        assert (Hmono : forall k j, inside s k j -> inside s' k j).
        { intros k j Hj. unfold inside, s'. cbn [sv_in]. unfold updk, upd. destruct (beqb_spec k (key name)) as [->|]; [|exact Hj].
          destruct (Nat.eqb j id); [discriminate|exact Hj]. }
        set (s1 := Server (upd (sv_users s) id (Some (su_with_away u false))) (sv_in s') (sv_told s') (sv_listed s')).
        destruct (join_info_ok id u name r false no_user (ag_tab _ _ _ _ A) (or_intror eq_refl)) as (Jn & _ & Jnew).
        assert (Cmid : cache_ok s1 r1).
        { destruct (join_open u name r r1 H3 E1) as (r0 & Ec & Eu1 & Eu2).
          assert (Hc0 : cache_ok s1 r0).
          { apply (cache_in_place s s1 r r0 id u (su_with_away u false) (join_info r (join_message ext u name) (su_prefix u)) C H2 (uniq s id u W H2)).
            - cbn. apply upd_same.
            - reflexivity.
            - right. exists (key name). exact Hin.
            - intros j Hj. cbn. apply upd_other. exact Hj.
            - intros j (k & I1 & I2). exists k. split; [exact (Hmono _ _ I1)|exact (Hmono _ _ I2)].
            - exact Ec.
            - left. exact Jn.
            - intros uu. exact (proj1 (proj2 (join_info_ok id u name r false uu (ag_tab _ _ _ _ A) (or_intror eq_refl)))).
            - exact Jnew. }
          destruct Hc0 as [D1 D2 D3]. split; rewrite ?Eu1, ?Eu2; assumption. }
        destruct away as [rs|].
        * destruct (on_events [from u (B "AWAY") [rs]] r1) as [[r2 ok2]|] eqn:E2; [|discriminate].
          assert (r2 = r' /\ ok2 = true) as [-> ->] by (cbn in E; split; congruence).
          pose proof (H5 ltac:(discriminate)) as Haw.
          assert (E2' : on_events [from (su_with_away u false) (B "AWAY") [rs]] r1 = Some (r', true)) by exact E2.
          apply (away_ok s1 s' r1 r' id (su_with_away u false) true [rs] Cmid); try exact E2'; try reflexivity.
          -- cbn. apply upd_same.
          -- intros j v Hj Ev. destruct (Nat.eq_dec j id) as [|Hn]; [assumption|]. unfold s1 in Hj. cbn [sv_users] in Hj.
             rewrite upd_other in Hj by exact Hn. exact (uniq s id u W H2 j v Hj Ev).
          -- unfold s'. cbn [sv_users]. rewrite H2. f_equal. destruct u; cbn in Haw |- *. subst. reflexivity.
          -- right. exists (key name). exact Hin.
          -- intros j Hj. unfold s1. cbn [sv_users]. rewrite upd_other by exact Hj. reflexivity.
          -- auto.
          -- exact (nick_nonempty t s id u W H2).
        * assert (r1 = r') by (cbn in E; congruence). subst r1.
          apply (cache_same s1 s' r' r' Cmid eq_refl eq_refl). intros j w Hw N. split; [exact N|].
          unfold s1 in Hw. cbn [sv_users] in Hw. destruct (Nat.eq_dec j id) as [->|Hn].
          -- rewrite upd_same in Hw. assert (w = su_with_away u false) by congruence. subst w. exists u. split; [exact H2|]. split; [reflexivity|].
             intros i (B1 & B2 & B3 & B4 & B5 & B6 & B7). repeat (split; [assumption|]). intros N1 N2.
             assert (Hna : su_away u = false) by (destruct (su_away u) eqn:Ea; [exfalso; exact (H6 N2 eq_refl eq_refl)|reflexivity]).
             rewrite Hna. exact (B7 N1 N2).
          -- rewrite upd_other in Hw by exact Hn. exists w. auto.
      + assert (r' = r) by (cbn in E; congruence). subst r'. apply (cache_same s _ r r C eq_refl eq_refl).
        intros j w Hw N. apply refl_detail; [exact Hw|]. revert j Hw N. intros j _. apply near_same. intros k i Hi. unfold inside. cbn [sv_in]. unfold updk, upd.
        destruct (beqb_spec k (key name)) as [->|]; [|exact Hi]. destruct (Nat.eqb i id); [discriminate|exact Hi].
    - (* we join *)
      assert (Ek : casemap (t_cm t) name = key name) by reflexivity. rewrite Ek in *. set (s' := Server _ _ _ _) in *.
      assert (Hmono : forall k j, inside s k j -> inside s' k j).
      { intros k j Hj. unfold inside, s'. cbn [sv_in]. unfold updk, upd. destruct (beqb_spec k (key name)) as [->|]; [|exact Hj].
        destruct (Nat.eqb j me); [discriminate|exact Hj]. }
      destruct (join_open u name r r' H2 E) as (r0 & Ec & Eu1 & Eu2).
      assert (Hsu : su_with_away u (su_away u) = u) by (destruct u; reflexivity).
      destruct (join_info_ok me u name r (su_away u) no_user (ag_tab _ _ _ _ A) (or_introl eq_refl)) as (Jn & _ & Jnew). rewrite Hsu in Jnew.
      assert (Hc0 : cache_ok s' r0).
      { apply (cache_in_place s s' r r0 me u u (join_info r (join_message ext u name) (su_prefix u)) C H1 (uniq s me u W H1)).
        - exact H1.
        - reflexivity.
        - left. reflexivity.
        - reflexivity.
        - intros j (k & I1 & I2). exists k. split; [exact (Hmono _ _ I1)|exact (Hmono _ _ I2)].
        - exact Ec.
        - left. exact Jn.
        - intros uu Huu. pose proof (proj1 (proj2 (join_info_ok me u name r (su_away u) uu (ag_tab _ _ _ _ A) (or_introl eq_refl))) Huu) as Q.
          rewrite Hsu in Q. exact Q.
        - exact Jnew. }
      destruct Hc0 as [D1 D2 D3]. split; rewrite ?Eu1, ?Eu2; assumption.
    - (* names *)
      open E. assert (Eu : r_users r' = r_users r /\ r_mon r' = r_mon r).
      { destruct (cm_get (r_chans r) name); [|injection E as <-; split; reflexivity].
        destruct H3 as [<-|[<-|[<-|[]]]]; cbv beta iota in E; injection E as <-; split; reflexivity. }
      apply (cache_same s _ r r' C (proj1 Eu) (proj2 Eu)). intros j w Hw N. apply refl_detail; [exact Hw|exact N].
    - (* end of names *)
      open E. assert (Eu : r_users r' = r_users r /\ r_mon r' = r_mon r).
      { destruct (cm_get (r_chans r) name) as [c|]; [destruct (uh_complete c)|]; (discriminate E || (injection E as <-; split; reflexivity)). }
      apply (cache_same s _ r r' C (proj1 Eu) (proj2 Eu)). intros j w Hw N. apply refl_detail; [exact Hw|exact N].
    - (* part *)
      assert (Ek : casemap (t_cm t) name = key name) by reflexivity. rewrite Ek in *. destruct (sv_in s (key name) me) as [stm|] eqn:Em.
      + assert (I : inside s (key name) me) by (unfold inside; congruence). open E. rewrite split_on_nosep in E by exact (proj1 H2).
        cbn [until_error] in E. unfold part_one in E. change (p_name (su_prefix u)) with (su_nick u) in E.
        destruct (Nat.eq_dec id me) as [->|Hid].
        * rewrite (our_me t multi s r u (su_nick u) A H1 eq_refl) in E. assert (r' = leave r name) by congruence. subst r'.
          apply leave_cache; auto.
        * rewrite (our_other t multi s r id u (su_nick u) W A Hid H1 eq_refl) in E.
          destruct (drop_member r name (su_nick u)) as [r1 ok] eqn:Ed. assert (r1 = r' /\ ok = true) as [-> ->] by (destruct ok; split; congruence).
          apply (drop_cache s r r' id u name (su_nick u)); auto.
      + assert (r' = r) by (cbn in E; congruence). subst r'. apply elsewhere_cache; assumption.
    - (* kick *)
      assert (Ek : casemap (t_cm t) name = key name) by reflexivity. rewrite Ek in *. destruct (sv_in s (key name) me) as [stm|] eqn:Em.
      + assert (I : inside s (key name) me) by (unfold inside; congruence). open E.
        destruct (Nat.eq_dec id me) as [->|Hid].
        * rewrite (our_me t multi s r u nick A H1 H2) in E. assert (r' = leave r name) by congruence. subst r'.
          apply leave_cache; auto.
        * rewrite (our_other t multi s r id u nick W A Hid H1 H2) in E.
          destruct (drop_member r name nick) as [r1 ok] eqn:Ed. assert (r1 = r' /\ ok = true) as [-> ->] by (split; congruence).
          apply (drop_cache s r r' id u name nick); auto.
      + assert (r' = r) by (cbn in E; congruence). subst r'. apply elsewhere_cache; assumption.
    - (* quit *)
      set (s' := Server _ _ _ _) in *.
      assert (Hn : forall j, j <> id -> near s j -> near s' j).
      { intros j Hj [N|(k & I1 & I2)]; [left; exact N|]. right. exists k. unfold inside, s'. cbn [sv_in]. rewrite !upd_other by congruence. split; assumption. }
      destruct seen.
      + open E. change (p_name (su_prefix u)) with (su_nick u) in E.
        assert (Eu : r_users r' = cm_del (r_users r) (su_nick u) /\ r_mon r' = r_mon r) by (injection E as <-; split; reflexivity).
        destruct Eu as [Eu1 Eu2]. apply (cache_less s s' r r' C).
        * rewrite Eu1. exact C1.
        * rewrite Eu2. exact C2.
        * rewrite Eu1. intros k q Hk. rewrite look_del in Hk. destruct (beqb k _); [discriminate|exact Hk].
        * rewrite Eu1. intros j w Hw N Hk. rewrite look_del, C1 in Hk. change (casemap (t_cm t) (su_nick u)) with (key (su_nick u)) in Hk.
          assert (Hj : j <> id) by (intros ->; apply Hk; assert (w = u) by congruence; subst w; rewrite beqb_refl; reflexivity).
          apply refl_detail; [unfold s'; cbn [sv_users]; rewrite upd_other by exact Hj; exact Hw|exact (Hn j Hj N)].
      + assert (r' = r) by (cbn in E; congruence). subst r'. apply (cache_same s s' r r C eq_refl eq_refl).
        intros j w Hw N. assert (Hj : j <> id). { intros ->. destruct N as [N|N]; [congruence|]. specialize (H3 N). discriminate. }
        apply refl_detail; [unfold s'; cbn [sv_users]; rewrite upd_other by exact Hj; exact Hw|exact (Hn j Hj N)].
    - (* nick *)
      destruct seen.
      + open E. change (p_name (su_prefix u)) with (su_nick u) in E. set (r2 := with_chans _ _) in E.
        destruct (cache_user (su_nick u) (UUser new [] [] [] [] [] []) r2) as [r3|] eqn:Ec; [|exfalso; cbn in E; discriminate E]. assert (r3 = r') by (cbn in E; congruence). subst r3.
        apply (nick_cache s r r2 r' id u new W C); try assumption.
        * unfold r2. destruct (is_our_nick r (su_nick u)); reflexivity.
        * unfold r2. destruct (is_our_nick r (su_nick u)); reflexivity.
        * exact (H6 eq_refl eq_refl).
      + assert (r' = r) by (cbn in E; congruence). subst r'. apply (cache_same s _ r r C eq_refl eq_refl).
        intros j w Hw N. assert (Hj : j <> id) by (intros ->; destruct N as [N|N]; [specialize (H5 N)|specialize (H4 N)]; discriminate).
        apply refl_detail; [cbn; rewrite upd_other by exact Hj; exact Hw|exact N].
    - (* mode *)
      assert (Ek : casemap (t_cm t) name = key name) by reflexivity. rewrite Ek in *.
      assert (Eu : r_users r' = r_users r /\ r_mon r' = r_mon r).
      { destruct (sv_in s (key name) me); [|cbn in E; assert (r' = r) by congruence; subst; split; reflexivity]. open E.
        destruct (is_channel r name); [|assert (r' = r) by congruence; subst; split; reflexivity].
        destruct (cm_get (r_chans r) name) as [c|]; [|discriminate].
        destruct (apply_channel_modes _ _ _ _ _) as [ch ok]. injection E as <- _. split; reflexivity. }
      apply (cache_same s _ r r' C (proj1 Eu) (proj2 Eu)). intros j w Hw N. apply refl_detail; [exact Hw|].
      revert N. apply near_same. intros k i Hi. unfold inside. cbn [sv_in]. unfold updk. destruct (beqb_spec k (key name)) as [->|]; [|exact Hi].
      unfold inside in Hi. destruct (sv_users s i), (sv_in s (key name) i); congruence.
    - (* mode is *)
      assert (Eu : r_users r' = r_users r /\ r_mon r' = r_mon r).
      { open E. destruct (cm_get (r_chans r) name) as [c|]; [|assert (r' = r) by congruence; subst; split; reflexivity].
        destruct (apply_channel_modes _ _ _ _ _) as [ch ok]. injection E as <- _. split; reflexivity. }
      apply (cache_same s _ r r' C (proj1 Eu) (proj2 Eu)). intros j w Hw N. apply refl_detail; assumption.
    - (* setname *)
      destruct seen.
      + open E. change (p_name (su_prefix u)) with (su_nick u) in E.
        destruct (cache_user (su_nick u) (UUser [] [] [] [] [] [] real) r) as [r3|] eqn:Ec; [|exfalso; cbn in E; discriminate E]. assert (r3 = r') by (cbn in E; congruence). subst r3.
        apply (detail_ok s r r' id u (su_with_real u real) (UUser [] [] [] [] [] [] real)); auto; [exact (H5 eq_refl eq_refl)| |].
        * intros uu (B1 & B2 & B3 & B4 & B5 & B6 & B7). unfold update_from.
          split; cbn [uu_nick uu_user uu_host uu_server uu_flags uu_account uu_real pick]; [exact B1|].
          do 3 (split; [assumption|]). split; [right; destruct real; [congruence|reflexivity]|]. split; assumption.
        * split; [reflexivity|]. cbn [uu_user uu_host uu_server uu_flags uu_account uu_real]. do 3 (split; [left; reflexivity|]). split; [right; reflexivity|]. auto.
      + assert (r' = r) by (cbn in E; congruence). subst r'. apply (detail_unseen s r id u); auto.
        intros [N|N]; [specialize (H4 N)|specialize (H3 N)]; discriminate.
    - (* account *)
      destruct seen.
      + open E. change (p_name (su_prefix u)) with (su_nick u) in E. set (a := match acc with Some a => a | None => B "*" end) in *.
        destruct (cache_user (su_nick u) (UUser [] [] [] [] [] a []) r) as [r3|] eqn:Ec; [|exfalso; cbn in E; discriminate E]. assert (r3 = r') by (cbn in E; congruence). subst r3.
        assert (Ha : a <> [] /\ account_shown a = match acc with Some a => account_shown a | None => None end).
        { unfold a. destruct acc as [a'|]; [split; [intros ->; congruence|reflexivity]|split; [discriminate|reflexivity]]. }
        destruct Ha as [Ha1 Ha2].
        apply (detail_ok s r r' id u (su_with_account u acc) (UUser [] [] [] [] [] a [])); auto; [exact (H4 eq_refl eq_refl)| |].
        * intros uu (B1 & B2 & B3 & B4 & B5 & B6 & B7). unfold update_from.
          split; cbn [uu_nick uu_user uu_host uu_server uu_flags uu_account uu_real pick]; [exact B1|].
          do 4 (split; [assumption|]). split; [|assumption]. intros _ _. right. unfold pick. destruct a; [congruence|]. exact Ha2.
        * split; [reflexivity|]. cbn [uu_user uu_host uu_server uu_flags uu_account uu_real]. do 4 (split; [left; reflexivity|]). split; [intros _ _; right; exact Ha2|auto].
      + assert (r' = r) by (cbn in E; congruence). subst r'. apply (detail_unseen s r id u); auto.
        intros N i (B1 & B2 & B3 & B4 & B5 & B6 & B7). split; [exact B1|]. do 4 (split; [assumption|]). split; [|assumption].
        intros N1 N2. destruct N as [N|N]; [congruence|]. specialize (H3 N1 N2 N). discriminate.
    - (* away *)
      destruct seen.
      + apply (away_ok s _ r r' id u (match reason with Some _ => true | None => false end) (match reason with Some r0 => [r0] | None => [] end) C H1 (uniq s id u W H1)); try exact E.
        * cbn. rewrite upd_same. reflexivity.
        * exact (H3 eq_refl eq_refl).
        * intros j Hj. cbn. apply upd_other. exact Hj.
        * auto.
        * exact (nick_nonempty t s id u W H1).
        * destruct reason; reflexivity.
      + assert (r' = r) by (cbn in E; congruence). subst r'. apply (detail_unseen s r id u); auto.
        intros N i (B1 & B2 & B3 & B4 & B5 & B6 & B7). split; [exact B1|]. do 5 (split; [assumption|]).
        intros N1 N2. destruct N as [N|N]; [congruence|]. specialize (H2 N1 N2 N). discriminate.
    - (* who *)
      rewrite events_one in E. cbn [on_event] in E. destruct (should_cache r (uu_nick i)) eqn:Es; [|assert (r' = r) by congruence; subst; exact C].
      destruct H2 as (F1 & F2 & F3 & F4 & F5 & F6 & F7). rewrite F1 in *.
      destruct (cache_user (su_nick u) i r) as [r3|] eqn:Ec; [|exfalso; cbn in E; discriminate E]. assert (r3 = r') by (cbn in E; congruence). subst r3.
      assert (G : info_ok id u i).
      { split; [exact F1|]. do 3 (split; [assumption|]). split; [exact F7|]. split; intros N1 N2.
        - destruct F6 as [F6|F6]; [left; exact F6|right]. rewrite F6. unfold shown. destruct (su_account u); reflexivity.
        - destruct F5 as [F5|F5]; [left; exact F5|right]. rewrite F5. unfold who_flags. destruct (su_away u); eexists; reflexivity. }
      pose proof G as (G1 & G2 & G3 & G4 & G5 & G6 & G7).
      apply (cache_in_place s s r r' id u u i C H1 (uniq s id u W H1) H1 eq_refl); auto.
      + exact (should_near s r (su_nick u) id u W A C2 Es H1 eq_refl).
      + intros uu Huu. apply update_ok; auto.
      + split; [reflexivity|]. auto 10.
    - (* unmonitor *)
      rewrite events_one in E. cbn [on_event] in E. assert (r' = fold_left (fun s x => forget (with_mon s (cm_del (r_mon s) x)) x) removes r) by congruence.
      subst r'. clear E A'.
      assert (G : forall l r, cache_ok s r -> cache_ok s (fold_left (fun s x => forget (with_mon s (cm_del (r_mon s) x)) x) l r)).
      { clear -Hpre Hsp. intros l. induction l as [|x l IH]; intros r C; [exact C|]. cbn [fold_left]. apply IH. pose proof C as [C1 C2 C3].
        set (r1 := with_mon r (cm_del (r_mon r) x)). assert (F1 : cm_fold (r_users r1) = t_cm t) by exact C1.
        apply (cache_less s s r _ C).
        - apply forget_fold. exact F1.
        - rewrite forget_mon. unfold r1. cbn [with_mon r_mon]. intros k. rewrite look_del, C2. destruct (beqb k _); reflexivity.
        - intros k q Hk. exact (proj1 (forget_look r1 x k q F1 Hk)).
        - intros j w Hw N _. apply refl_detail; assumption. }
      apply G. exact C.
  Qed.

  Lemma cache_runs s l s' r : swf s -> agree s r -> cache_ok s r -> runs t multi ext true s l s' ->
    swf s' /\ exists r', on_events l r = Some (r', true) /\ agree s' r' /\ cache_ok s' r'.
  Proof.
    intros W A C H. induction H as [|l1 s1 l2 s2 _ (W1 & r1 & E1 & A1 & D1) H2]; [split; [exact W|exists r; auto]|].
    pose proof (swf_step t multi ext true s1 l2 s2 W1 H2) as W2. split; [exact W2|].
    destruct (step_ok t multi ext true Hpre Hsp s1 l2 s2 r1 W1 A1 H2) as (r2 & E2 & A2). exists r2. split; [rewrite events_app, E1, E2; reflexivity|].
    split; [exact A2|]. exact (cache_step s1 l2 s2 r1 r2 W1 A1 D1 H2 E2 W2 A2).
  Qed.

  (** ** Answers *)

  Definition asked (fields : bytes) : bytes := match fields with [] => B "cuhsnfdr" | _ => fields end.

  Lemma describes_ok s fields id w i : sv_users s id = Some w -> info_ok id w i ->
    (In "a"%char fields -> t_account_notify t = true) -> (In "f"%char fields -> t_away_notify t = true) ->
    forallb (has_field i) fields = true -> describes s fields id i.
  Proof.
    intros Hw (I1 & I2 & I3 & I4 & I5 & I6 & I7) Ha Hf H. rewrite forallb_forall in H. exists w. split; [exact Hw|]. split; [exact I1|].
    intros k Hk Hme. specialize (H k Hk). unfold has_field in H.
    assert (Hself : k = "a"%char \/ k = "f"%char -> id <> me) by (intros [->| ->] E; destruct (Hme E); congruence).
    unfold field_right. repeat split; intros ->; cbn in H.
    - exact I1.
    - destruct I2 as [E|E]; [rewrite E in H; discriminate|exact E].
    - destruct I3 as [E|E]; [rewrite E in H; discriminate|exact E].
    - destruct I4 as [E|E]; [rewrite E in H; discriminate|exact E].
    - destruct I5 as [E|E]; [rewrite E in H; discriminate|exact E].
    - destruct (I6 (Hself (or_introl eq_refl)) (Ha Hk)) as [E|E]; [rewrite E in H; discriminate|exact E].
    - destruct (I7 (Hself (or_intror eq_refl)) (Hf Hk)) as [E|E]; [rewrite E in H; discriminate|exact E].
  Qed.

  Lemma answer_ok s r mask fields l : swf s -> agree s r -> cache_ok s r -> cached_who r mask fields = Some l -> who_right t s mask (asked fields) l.
  Proof.
    intros W A C H. pose proof C as [C1 C2 C3]. unfold cached_who in H. fold (asked fields) in H. rewrite (ag_tab _ _ _ _ A) in H.
    destruct (_ || _) eqn:Ec in H; [discriminate|]. apply orb_false_iff in Ec as [Ea Ef].
    assert (Ha : In "a"%char (asked fields) -> t_account_notify t = true).
    { intros Hi. apply amem_In in Hi. rewrite Hi in Ea. destruct (t_account_notify t); [reflexivity|discriminate]. }
    assert (Hf : In "f"%char (asked fields) -> t_away_notify t = true).
    { intros Hi. apply amem_In in Hi. rewrite Hi in Ef. destruct (t_away_notify t); [reflexivity|discriminate]. }
    rewrite look_get, C1 in H. change (casemap (t_cm t) mask) with (key mask) in H.
    destruct (look (r_users r) (key mask)) as [[o uu]|] eqn:E; cbn [option_map snd] in H.
    - destruct (forallb (has_field uu) (asked fields)) eqn:Eh; [|discriminate]. assert (l = [uu]) by congruence. subst l.
      destruct (C3 _ _ _ E) as (id & w & Q1 & Q2 & Q3 & Q4). unfold who_right. left. exists id, w, uu. split; [exact Q1|]. split; [exact Q2|]. split; [reflexivity|].
      exact (describes_ok s _ id w uu Q1 Q4 Ha Hf Eh).
    - rewrite look_get, (ag_fold _ _ _ _ A) in H. change (casemap (t_cm t) mask) with (key mask) in H.
      pose proof (ag_chans _ _ _ _ A (key mask)) as G. destruct (look (r_chans r) (key mask)) as [[o c]|]; cbn [option_map snd] in H; [|discriminate].
      destruct G as [I [K1 K2 K3 K4 K5]]. set (all := map (fun e => cm_get (r_users r) (fst e)) (cm_entries (uh_members c))) in *.
      destruct (forallb _ all) eqn:Eh; [|discriminate]. assert (l = flat_map (fun o => match o with Some u => [u] | None => [] end) all) by congruence. subst l. clear H.
      rewrite forallb_forall in Eh.
      assert (Hone : forall n ms, In (n, ms) (cm_entries (uh_members c)) -> exists id i, inside s (key mask) id /\ cm_get (r_users r) n = Some i /\
        describes s (asked fields) id i /\ (exists w, sv_users s id = Some w /\ key (su_nick w) = key n)).
      { intros n ms Hn. assert (Hs : In (cm_get (r_users r) n) all) by (unfold all; apply in_map_iff; exists (n, ms); auto).
        specialize (Eh _ Hs). destruct (cm_get (r_users r) n) as [i|] eqn:Eg; [|discriminate].
        apply (wf_entries _ _ _ K2) in Hn. rewrite K1 in Hn. destruct (K5 _ _ _ Hn) as (id & w & st & Q1 & Q2 & Q3 & Q4).
        rewrite look_get, C1 in Eg. change (casemap (t_cm t) n) with (key n) in *.
        destruct (look (r_users r) (key n)) as [[o' i']|] eqn:El; [|discriminate]. cbn in Eg. assert (i' = i) by congruence. subst i'.
        destruct (C3 _ _ _ El) as (j & v & P1 & P2 & P3 & P4).
        assert (j = id) by (apply (sw_unique _ _ W _ _ _ _ P1 Q1); etransitivity; [exact P2|symmetry; exact Q4]). subst j.
        exists id, i. split; [unfold inside; congruence|]. split; [reflexivity|]. split; [exact (describes_ok s _ id v i P1 P4 Ha Hf Eh)|].
        exists v. split; assumption. }
      right. split; [exact I|]. split.
      + intros i Hi. apply in_flat_map in Hi as (x & Hx & Hi). unfold all in Hx. apply in_map_iff in Hx as ([n ms] & Ex & Hn). cbn [fst] in Ex.
        destruct (Hone n ms Hn) as (id & i' & P1 & P2 & P3 & _). rewrite P2 in Ex. subst x. destruct Hi as [<-|[]]. exists id. split; assumption.
      + intros Hl id Hid. pose proof (sw_listed _ _ W _ _ Hl I Hid) as Ht. unfold inside in Hid. destruct (sv_in s (casemap (t_cm t) mask) id) as [st|] eqn:Est; [|congruence].
        destruct (sv_users s id) as [w|] eqn:Eu.
        2: { exfalso. exact (sw_member _ _ W (casemap (t_cm t) mask) id ltac:(unfold inside; congruence) Eu). }
        destruct (K4 id w st Eu Est Ht) as (ms & El & _).
        assert (Hn : In (su_nick w, ms) (cm_entries (uh_members c))) by (apply (wf_entries _ _ _ K2); rewrite K1; exact El).
        destruct (Hone _ _ Hn) as (j & i & P1 & P2 & P3 & v & P4 & P5).
        assert (j = id) by exact (sw_unique _ _ W _ _ _ _ P4 Eu P5). subst j. exists i. split; [|exact P3].
        apply in_flat_map. exists (Some i). split; [|left; reflexivity]. unfold all. apply in_map_iff. exists (su_nick w, ms). split; assumption.
  Qed.

  Theorem who_ok s l s' nick : fresh t s nick -> runs t multi ext true s l s' ->
    exists r, on_events l (new_rst t nick) = Some (r, true) /\
      forall mask fields answer, cached_who r mask fields = Some answer -> who_right t s' mask (asked fields) answer.
  Proof.
    intros F H. destruct (fresh_agree t multi s nick F) as [W0 A0].
    assert (C0 : cache_ok s (new_rst t nick)) by (split; [reflexivity|reflexivity|intros k o i Hk; discriminate Hk]).
    destruct (cache_runs _ _ _ _ W0 A0 C0 H) as (W & r & E & A & C). exists r. split; [exact E|].
    intros mask fields answer Hw. exact (answer_ok s' r mask fields answer W A C Hw).
  Qed.
End Cache.
