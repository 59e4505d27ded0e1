(** Proofs about Model.Robust. *)
From Verif.Base Require Import Bytes.
From Verif.Model Require Import Message CaseMap Membership Modes Whox Roster Robust.
From Verif.Model Require Pending ChanView Isupport Detach Caps.
From Verif.Spec Require Import Robust.
From Coq Require Import Lia.
Open Scope nat_scope.

(** ** Lines: only the last parameter may be empty *)

Definition wire (m : message) : Prop := forall i, S i < length (m_params m) -> nth_error (m_params m) i <> Some [].

Lemma split_space_nonempty s x : In x (split_space s) -> x <> [].
Proof. unfold split_space. rewrite filter_In. intros [_ H] ->. discriminate. Qed.

Lemma parse_body_wire t p l m : parse_body t p l = Some m -> wire m.
Proof.
  unfold parse_body. destruct (cut_trailing l) as [mid tr]. pose proof (split_space_nonempty mid) as N.
  destruct (split_space mid) as [|cmd ps]; [discriminate|]. intros E. injection E as <-. unfold wire. cbn [m_params].
  intros i Hi Hn. rewrite nth_error_app1 in Hn.
  - apply (N []); [right; exact (nth_error_In _ _ Hn)|reflexivity].
  - rewrite app_length in Hi. destruct tr; cbn in Hi; lia.
Qed.

Lemma parse_source_wire t l m : parse_source t l = Some m -> wire m.
Proof.
  unfold parse_source. destruct l as [|c r]; [discriminate|]. destruct (aeqb c ":").
  - destruct (cut_on " " r) as [src [rest|]]; [|discriminate]. apply parse_body_wire.
  - apply parse_body_wire.
Qed.

Lemma parse_line_wire f l m : parse_line f l = Some m -> wire m.
Proof.
  unfold parse_line. destruct (trim_eol l) as [|c r]; [discriminate|]. destruct (aeqb c "@").
  - destruct (cut_on " " r) as [t [rest|]]; [|discriminate]. apply parse_source_wire.
  - apply parse_source_wire.
Qed.

(** ** Panics of Model.Roster *)

Definition named_commands : list string := ["NICK"; "SETNAME"; "JOIN"; "ACCOUNT"; "AWAY"]%string.

Lemma cache_user_none n i r : cache_user n i r = None -> n = [].
Proof. destruct n; [reflexivity|discriminate]. Qed.

Lemma one_of_spec c l : is_one_of c l = true <-> In c (map B l).
Proof. unfold is_one_of. apply bmem_In. Qed.

Lemma handle_none m p r : handle m p r = None ->
  (In (m_command m) (map B named_commands) /\ p_name p = []) \/
  (exists i, S i < length (m_params m) /\ nth_error (m_params m) i = Some []).
Proof.
  unfold handle.
  assert (G : forall (X : string) i s, m_command m = B X -> In X named_commands ->
    forall K : rst -> rst * bool, option_map K (cache_user (p_name p) i s) = None -> In (m_command m) (map B named_commands) /\ p_name p = []).
  { intros X i s E HX K H. split; [rewrite E; apply in_map; exact HX|]. destruct (cache_user (p_name p) i s) eqn:F; [discriminate|exact (cache_user_none _ _ _ F)]. }
  destruct (beqb (m_command m) (B "NICK")) eqn:E1.
  { apply beqb_eq in E1. destruct (m_params m); [discriminate|]. intros H. left. refine (G "NICK"%string _ _ E1 _ _ H). cbn; tauto. }
  destruct (beqb (m_command m) (B "SETNAME")) eqn:E2.
  { apply beqb_eq in E2. destruct (m_params m); [discriminate|]. intros H. left. refine (G "SETNAME"%string _ _ E2 _ _ H). cbn; tauto. }
  destruct (beqb (m_command m) (B "CHGHOST")) eqn:E3.
  { destruct (m_params m) as [|? [|? ?]]; discriminate. }
  destruct (beqb (m_command m) (B "JOIN")) eqn:E4.
  { apply beqb_eq in E4. destruct (m_params m); [discriminate|]. intros H. left. refine (G "JOIN"%string _ _ E4 _ _ H). cbn; tauto. }
  destruct (beqb (m_command m) (B "PART")); [destruct (m_params m); discriminate|].
  destruct (beqb (m_command m) (B "KICK")); [destruct (m_params m) as [|? [|? ?]]; discriminate|].
  destruct (beqb (m_command m) (B "QUIT")); [discriminate|].
  destruct (beqb (m_command m) (B "MODE")).
  { destruct (m_params m) as [|name [|modes args]]; try discriminate. destruct (is_channel r name); [|discriminate].
    destruct (cm_get (r_chans r) name) as [u|]; [|discriminate].
    destruct (apply_channel_modes _ _ _ _ _); discriminate. }
  destruct (beqb (m_command m) (B "324")).
  { destruct (m_params m) as [|x [|name rest]]; try discriminate.
    destruct (cm_get (r_chans r) name) as [u|]; [|discriminate].
    destruct (apply_channel_modes _ _ _ _ _); discriminate. }
  destruct (beqb (m_command m) (B "353")).
  { destruct (m_params m) as [|x [|st [|name [|mem rest]]]]; try discriminate.
    destruct (cm_get (r_chans r) name) as [u|]; [|discriminate].
    destruct st as [|c [|c' st]]; [|destruct (amem c (B "=*@")); discriminate|discriminate].
    intros _. right. exists 1. cbn. split; [lia|reflexivity]. }
  destruct (beqb (m_command m) (B "366")).
  { destruct (m_params m) as [|x [|name rest]]; try discriminate.
    destruct (cm_get (r_chans r) name) as [u|]; [|discriminate]. destruct (uh_complete u); discriminate. }
  destruct (beqb (m_command m) (B "730") || beqb (m_command m) (B "731")).
  { destruct (m_params m) as [|x [|name rest]]; discriminate. }
  destruct (beqb (m_command m) (B "AWAY")) eqn:E5.
  { apply beqb_eq in E5. destruct (cm_get (r_users r) (p_name p)) as [uu|]; [|discriminate].
    destruct (nonempty (uu_flags uu)); [|discriminate]. intros H. left. refine (G "AWAY"%string _ _ E5 _ _ H). cbn; tauto. }
  destruct (beqb (m_command m) (B "ACCOUNT")) eqn:E6; [|discriminate].
  apply beqb_eq in E6. destruct (m_params m); [discriminate|]. intros H. left. refine (G "ACCOUNT"%string _ _ E6 _ _ H). cbn; tauto.
Qed.

(** ** The nickname in Model.Roster *)

Lemma forget_nick r x : r_nick (forget r x) = r_nick r.
Proof. unfold forget. destruct (should_cache r x); reflexivity. Qed.
Lemma forgets_nick l r : r_nick (fold_left forget l r) = r_nick r.
Proof. revert r. induction l as [|x l IH]; intros r; cbn; [reflexivity|]. rewrite IH. apply forget_nick. Qed.
Lemma cache_nick n i r r' : cache_user n i r = Some r' -> r_nick r' = r_nick r.
Proof. unfold cache_user. destruct n; [discriminate|]. intros E. injection E as <-. reflexivity. Qed.
Lemma leave_nick r ch : r_nick (leave r ch) = r_nick r.
Proof. unfold leave. destruct (cm_get (r_chans r) ch); [|reflexivity]. rewrite forgets_nick. reflexivity. Qed.
Lemma drop_nick r ch x : r_nick (fst (drop_member r ch x)) = r_nick r.
Proof. unfold drop_member. destruct (cm_get (r_chans r) ch); [|reflexivity]. cbn [fst]. rewrite forget_nick. reflexivity. Qed.
Lemma until_nick {A} (f : rst -> A -> rst * bool) l : (forall r x, r_nick (fst (f r x)) = r_nick r) ->
  forall r, r_nick (fst (until_error f l r)) = r_nick r.
Proof.
  intros H. induction l as [|x l IH]; intros r; cbn; [reflexivity|]. specialize (H r x). destruct (f r x) as [r' ok]. cbn in H.
  destruct ok; [rewrite IH; exact H|exact H].
Qed.

Lemma handle_nick m p r r' ok : handle m p r = Some (r', ok) ->
  r_nick r' = r_nick r \/ (m_command m = B "NICK" /\ exists l, m_params m = r_nick r' :: l).
Proof.
  assert (C : forall i s K, (forall s', r_nick (fst (K s')) = r_nick s') -> option_map K (cache_user (p_name p) i s) = Some (r', ok) -> r_nick r' = r_nick s).
  { intros i s K HK H. destruct (cache_user (p_name p) i s) as [s'|] eqn:F; [|discriminate]. cbn in H. injection H as H.
    pose proof (HK s') as Q. rewrite H in Q. cbn in Q. rewrite Q. exact (cache_nick _ _ _ _ F). }
  unfold handle.
  destruct (beqb (m_command m) (B "NICK")) eqn:E1.
  { apply beqb_eq in E1. destruct (m_params m) as [|new l]; [intros E; injection E as <- _; left; reflexivity|].
    cbv zeta. intros H. apply C in H; [|reflexivity].
    destruct (is_our_nick r (p_name p)); cbn in H; [right; split; [exact E1|exists l; rewrite H; reflexivity]|left; exact H]. }
  destruct (beqb (m_command m) (B "SETNAME")).
  { destruct (m_params m); intros H; [injection H as <- _; left; reflexivity|]. apply C in H; [|reflexivity]. left; exact H. }
  destruct (beqb (m_command m) (B "CHGHOST")).
  { destruct (m_params m) as [|? [|? ?]]; intros H; injection H as <- _; left; reflexivity. }
  destruct (beqb (m_command m) (B "JOIN")).
  { destruct (m_params m) as [|chs l]; intros H; [injection H as <- _; left; reflexivity|]. left.
    apply C in H; [exact H|]. intros s'. apply until_nick. intros s x. unfold join_one. destruct (is_our_nick s (p_name p)); [reflexivity|].
    destruct (cm_get (r_chans s) x); reflexivity. }
  destruct (beqb (m_command m) (B "PART")).
  { destruct (m_params m) as [|chs l]; intros H; [injection H as <- _; left; reflexivity|injection H as H]. left.
    pose proof (until_nick (fun s ch => part_one s (p_name p) ch) (split_on "," chs)) as U. specialize (U ltac:(intros s x; unfold part_one; destruct (is_our_nick s (p_name p)); [apply leave_nick|apply drop_nick]) r).
    rewrite H in U. exact U. }
  destruct (beqb (m_command m) (B "KICK")).
  { destruct (m_params m) as [|ch [|user l]]; intros H; [injection H as <- _; left; reflexivity|injection H as <- _; left; reflexivity|injection H as H]. left.
    destruct (is_our_nick r user); [injection H as <- _; apply leave_nick|]. pose proof (drop_nick r ch user) as D. rewrite H in D. exact D. }
  destruct (beqb (m_command m) (B "QUIT")); [intros H; injection H as <- _; left; reflexivity|].
  destruct (beqb (m_command m) (B "MODE")).
  { destruct (m_params m) as [|name [|modes args]]; try (intros H; injection H as <- _; left; reflexivity). destruct (is_channel r name); [|intros H; injection H as <- _; left; reflexivity].
    destruct (cm_get (r_chans r) name) as [u|]; [|intros H; injection H as <- _; left; reflexivity].
    destruct (apply_channel_modes _ _ _ _ _); intros H; injection H as <- _; left; reflexivity. }
  destruct (beqb (m_command m) (B "324")).
  { destruct (m_params m) as [|x [|name rest]]; try (intros H; injection H as <- _; left; reflexivity).
    destruct (cm_get (r_chans r) name) as [u|]; [|intros H; injection H as <- _; left; reflexivity].
    destruct (apply_channel_modes _ _ _ _ _); intros H; injection H as <- _; left; reflexivity. }
  destruct (beqb (m_command m) (B "353")).
  { destruct (m_params m) as [|x [|st [|name [|mem rest]]]]; try (intros H; injection H as <- _; left; reflexivity).
    destruct (cm_get (r_chans r) name) as [u|]; [|intros H; injection H as <- _; left; reflexivity].
    destruct st as [|c [|c' st]]; [discriminate| |intros H; injection H as <- _; left; reflexivity].
    destruct (amem c (B "=*@")); intros H; injection H as <- _; left; reflexivity. }
  destruct (beqb (m_command m) (B "366")).
  { destruct (m_params m) as [|x [|name rest]]; try (intros H; injection H as <- _; left; reflexivity).
    destruct (cm_get (r_chans r) name) as [u|]; [|intros H; injection H as <- _; left; reflexivity]. destruct (uh_complete u); intros H; injection H as <- _; left; reflexivity. }
  destruct (beqb (m_command m) (B "730") || beqb (m_command m) (B "731")).
  { destruct (m_params m) as [|x [|name rest]]; intros H; injection H as <- _; left; reflexivity. }
  destruct (beqb (m_command m) (B "AWAY")).
  { destruct (cm_get (r_users r) (p_name p)) as [uu|]; [|intros H; injection H as <- _; left; reflexivity].
    destruct (nonempty (uu_flags uu)); [|intros H; injection H as <- _; left; reflexivity]. intros H. apply C in H; [|reflexivity]. left; exact H. }
  destruct (beqb (m_command m) (B "ACCOUNT")); [|intros H; injection H as <- _; left; reflexivity].
  destruct (m_params m); intros H; [injection H as <- _; left; reflexivity|]. apply C in H; [|reflexivity]. left; exact H.
Qed.

(** ** What the handlers leave alone *)

Record keeps (s s' : pst) : Prop := Keeps {
  k_reg : st_reg s' = st_reg s;
  k_server : st_server s' = st_server s;
  k_motd : st_motd s' = st_motd s;
  k_timer : st_timer s' = st_timer s;
  k_pend : forall c, incl (st_pend s' c) (st_pend s c);
  k_nick : r_nick (st_ro s') = r_nick (st_ro s)
}.
Lemma keeps_refl s : keeps s s.
Proof. constructor; try reflexivity. intros c x H. exact H. Qed.
Lemma keeps_trans a b c : keeps a b -> keeps b c -> keeps a c.
Proof.
  intros [A1 A2 A3 A4 A5 A6] [B1 B2 B3 B4 B5 B6]. constructor; try congruence.
  intros x y H. apply A5, B5, H.
Qed.
Ltac keep := constructor; try reflexivity; intros ? ? ?; assumption.

Lemma dequeue_keeps s c : keeps s (dequeue s c).
Proof.
  constructor; try reflexivity. intros x y H. unfold dequeue in H. cbn [st_pend with_pend] in H. destruct (beqb x c); [|exact H].
  destruct (st_pend s x); [exact H|right; exact H].
Qed.
Lemma update_cm_keeps cm s : keeps s (update_casemapping cm s).
Proof. constructor; try reflexivity; [intros ? ? H; exact H|]. unfold update_casemapping. cbn. destruct (st_reg s); reflexivity. Qed.

Lemma at_done l i k s ok : at_ l i k = Done s ok -> exists v, nth_error l i = Some v /\ k v = Done s ok.
Proof. unfold at_. destruct (nth_error l i); [|discriminate]. eauto. Qed.
Lemma from_done l i k s ok : from_ l i k = Done s ok -> k (skipn i l) = Done s ok.
Proof. unfold from_. destruct (i <=? length l); [auto|discriminate]. Qed.
Lemma need_done n m s k s' ok : need n m s k = Done s' ok -> (s' = s /\ ok = false) \/ k = Done s' ok.
Proof. unfold need. destruct (n <=? length (m_params m)); [auto|]. intros E. injection E as <- <-. auto. Qed.
Lemma at_panic l i k : at_ l i k = Panic -> length l <= i \/ exists v, nth_error l i = Some v /\ k v = Panic.
Proof. unfold at_. destruct (nth_error l i) eqn:E; [eauto|]. intros _. left. apply nth_error_None. exact E. Qed.
Lemma from_panic l i k : from_ l i k = Panic -> length l < i \/ k (skipn i l) = Panic.
Proof. unfold from_. destruct (i <=? length l) eqn:E; [auto|]. apply Nat.leb_gt in E. auto. Qed.
Lemma need_panic n m s k : need n m s k = Panic -> n <= length (m_params m) /\ k = Panic.
Proof. unfold need. destruct (n <=? length (m_params m)) eqn:E; [|discriminate]. apply Nat.leb_le in E. auto. Qed.

Section Robust.
  Variable tags_of : bytes -> list (bytes * bytes).
  Variable highlights : bytes -> bytes -> bool.
  Variable fails : pst -> message -> bool.
  Variable want : bytes.

  Notation is_highlight := (is_highlight highlights).
  Notation detached_message := (detached_message highlights).
  Notation on_text := (on_text highlights).
  Notation on_cap := (on_cap fails).
  Notation on_motd := (on_motd want).
  Notation on_nick_in_use := (on_nick_in_use fails).
  Notation cases := (cases highlights fails want).
  Notation handle_message := (handle_message highlights fails want).
  Notation on_line := (on_line tags_of highlights fails want).
  Notation step := (step tags_of highlights fails want).
  Notation run := (run tags_of highlights fails want).

  (** Texts *)
  Lemma highlight_none s m p : is_highlight s m p = None ->
    (m_command m = B "PRIVMSG" \/ m_command m = B "NOTICE") /\ (length (m_params m) <= 1 \/ r_nick (st_ro s) = []).
  Proof.
    unfold Robust.is_highlight. destruct (beqb (m_command m) (B "PRIVMSG") || beqb (m_command m) (B "NOTICE")) eqn:C; [|discriminate].
    cbn [negb]. intros H. split.
    - apply Bool.orb_true_iff in C. destruct C as [C|C]; apply beqb_eq in C; auto.
    - destruct (nth_error (m_params m) 1) eqn:N; [|left; apply nth_error_None; exact N].
      destruct (beqb (p_name p) (r_nick (st_ro s))); [discriminate|]. destruct (r_nick (st_ro s)); [auto|discriminate].
  Qed.

  Lemma attach_keeps s c s' : attach s c = Some s' -> keeps s s'.
  Proof.
    unfold attach. destruct (negb (sv_detached c)); [intros E; injection E as <-; apply keeps_refl|].
    destruct (st_clients s); [intros E; injection E as <-; keep|].
    destruct (cm_get (r_chans (st_ro s)) (sv_name c)) as [u|]; [destruct (uh_complete u); [|discriminate]|]; intros E; injection E as <-; keep.
  Qed.
  Lemma attach_none s c : attach s c = None -> st_clients s <> [] /\ sv_detached c = true /\
    exists u, cm_get (r_chans (st_ro s)) (sv_name c) = Some u /\ uh_complete u = false.
  Proof.
    unfold attach. destruct (sv_detached c); [|discriminate]. cbn [negb]. destruct (st_clients s) as [|x l]; [discriminate|].
    destruct (cm_get (r_chans (st_ro s)) (sv_name c)) as [u|]; [|discriminate].
    destruct (uh_complete u) eqn:U; [discriminate|]. intros _. split; [discriminate|]. split; [reflexivity|]. exists u. auto.
  Qed.
  Lemma detached_keeps s c m p s' : detached_message s c m p = Some s' -> keeps s s'.
  Proof.
    unfold Robust.detached_message. destruct (is_highlight s m p) as [h|]; [|discriminate].
    destruct (sv_reattach c); try (intros E; injection E as <-; apply keeps_refl); [|apply attach_keeps].
    destruct h; [apply attach_keeps|intros E; injection E as <-; apply keeps_refl].
  Qed.

  Lemma on_text_keeps s m p s' ok : on_text s m p = Done s' ok -> keeps s s'.
  Proof.
    unfold Robust.on_text. cbv zeta. intros H. apply need_done in H. destruct H as [[-> _]|H]; [apply keeps_refl|].
    apply at_done in H. destruct H as (t & _ & H).
    destruct (_ || _ : bool) in H; [injection H as <- _; apply keeps_refl|].
    destruct (_ || _ : bool) in H; [injection H as <- _; apply keeps_refl|].
    match type of H with match ?x with _ => _ end = _ => destruct x as [c|]; [|injection H as <- _; apply keeps_refl] end.
    destruct (_ && _ : bool) in H; [|injection H as <- _; apply keeps_refl].
    destruct (sv_detached c).
    - destruct (detached_message s c m p) as [s1|] eqn:D; [|discriminate].
      destruct (is_highlight s1 m p); [|discriminate]. injection H as <- _. exact (detached_keeps _ _ _ _ _ D).
    - destruct (is_highlight s m p); [|discriminate]. injection H as <- _. apply keeps_refl.
  Qed.

  Lemma on_text_panic s m p : is_one_of (m_command m) ["NOTICE"; "PRIVMSG"; "TAGMSG"]%string = true ->
    on_text s m p = Panic -> st_reg s = true /\
    (((m_command m = B "PRIVMSG" \/ m_command m = B "NOTICE") /\ r_nick (st_ro s) = []) \/ half_joined m s).
  Proof.
    intros C. unfold Robust.on_text. cbv zeta. intros H. apply need_panic in H. destruct H as [L H].
    apply at_panic in H. destruct H as [H|(t & _ & H)]; [destruct (beqb _ (B "TAGMSG")) in L; lia|].
    destruct (_ || _ : bool) in H; [discriminate|].
    destruct (negb (st_reg s)) eqn:R; [discriminate|]. cbn [orb] in H.
    destruct (_ || _ : bool) in H; [discriminate|].
    split; [destruct (st_reg s); [reflexivity|discriminate]|].
    match type of H with match cm_get _ ?x with _ => _ end = _ => destruct (cm_get (st_saved s) x) as [c|] eqn:G; [|discriminate] end.
    destruct (_ && _ : bool) eqn:TM in H; [|discriminate].
    apply andb_prop in TM. destruct TM as [TM _]. apply Bool.negb_true_iff in TM. rewrite TM in L.
    assert (HL : forall s1, keeps s s1 -> is_highlight s1 m p = None -> ((m_command m = B "PRIVMSG" \/ m_command m = B "NOTICE") /\ r_nick (st_ro s) = [])).
    { intros s1 K Q. apply highlight_none in Q. destruct Q as [Q [Q'|Q']]; [lia|]. rewrite (k_nick _ _ K) in Q'. auto. }
    destruct (sv_detached c) eqn:DT.
    - destruct (detached_message s c m p) as [s1|] eqn:D.
      + destruct (is_highlight s1 m p) eqn:Q; [discriminate|]. left. exact (HL s1 (detached_keeps _ _ _ _ _ D) Q).
      + unfold Robust.detached_message in D. destruct (is_highlight s m p) as [h|] eqn:Q.
        * right. assert (A : attach s c = None /\ (sv_reattach c = FMessage \/ sv_reattach c = FHighlight)).
          { destruct (sv_reattach c); try discriminate; [destruct h; [auto|discriminate]|auto]. }
          destruct A as [A RA]. apply attach_none in A. destruct A as (A1 & A2 & u & A3 & A4).
          split; [|split; [exact A1|]].
          -- apply one_of_spec in C. cbn [map In] in C. destruct C as [C|[C|[C|[]]]]; auto.
             exfalso. rewrite <- C in TM. rewrite beqb_refl in TM. discriminate.
          -- eexists. exists c, u. repeat split; try eassumption.
        * left. exact (HL s (keeps_refl s) Q).
    - destruct (is_highlight s m p) eqn:Q; [discriminate|]. left. exact (HL s (keeps_refl s) Q).
  Qed.

  (** CAP *)
  Lemma on_cap_keeps s m s' ok : on_cap s m = Done s' ok -> keeps s s'.
  Proof.
    unfold Robust.on_cap. cbv zeta. intros H. apply need_done in H. destruct H as [[-> _]|H]; [apply keeps_refl|].
    apply at_done in H. destruct H as (t & _ & H). apply from_done in H.
    destruct (beqb (to_upper t) (B "LS")).
    { destruct (_ <? 1); [injection H as <- _; apply keeps_refl|]. apply at_done in H. destruct H as (_ & _ & H).
      destruct (2 <=? _); [apply at_done in H; destruct H as (_ & _ & H)|]; injection H as <- _; apply keeps_refl. }
    destruct (_ || _ : bool) in H.
    { destruct (_ <? 1); [injection H as <- _; apply keeps_refl|]. apply at_done in H. destruct H as (x & _ & H). injection H as <- _. keep. }
    destruct (beqb (to_upper t) (B "NEW")).
    { destruct (_ <? 1); [injection H as <- _; apply keeps_refl|]. apply at_done in H. destruct H as (x & _ & H). injection H as <- _. keep. }
    destruct (beqb (to_upper t) (B "DEL")).
    { destruct (_ <? 1); [injection H as <- _; apply keeps_refl|]. apply at_done in H. destruct H as (x & _ & H). injection H as <- _. keep. }
    injection H as <- _. apply keeps_refl.
  Qed.
  Lemma on_cap_safe s m : on_cap s m <> Panic.
  Proof.
    unfold Robust.on_cap. cbv zeta. intros H. apply need_panic in H. destruct H as [L H].
    apply at_panic in H. destruct H as [H|(t & _ & H)]; [lia|]. apply from_panic in H. destruct H as [H|H]; [lia|].
    assert (SK : length (skipn 2 (m_params m)) = length (m_params m) - 2) by apply skipn_length.
    set (subs := skipn 2 (m_params m)) in *.
    destruct (beqb (to_upper t) (B "LS")).
    { destruct (length subs <? 1) eqn:N; [discriminate|]. apply Nat.ltb_ge in N. apply at_panic in H. destruct H as [H|(x & _ & H)]; [lia|].
      destruct (2 <=? length subs); [|discriminate]. apply at_panic in H. destruct H as [H|(y & _ & H)]; [lia|discriminate]. }
    destruct (_ || _ : bool) in H.
    { destruct (length subs <? 1) eqn:N; [discriminate|]. apply Nat.ltb_ge in N. apply at_panic in H. destruct H as [H|(x & _ & H)]; [lia|discriminate]. }
    destruct (beqb (to_upper t) (B "NEW")).
    { destruct (length subs <? 1) eqn:N; [discriminate|]. apply Nat.ltb_ge in N. apply at_panic in H. destruct H as [H|(x & _ & H)]; [lia|discriminate]. }
    destruct (beqb (to_upper t) (B "DEL")).
    { destruct (length subs <? 1) eqn:N; [discriminate|]. apply Nat.ltb_ge in N. apply at_panic in H. destruct H as [H|(x & _ & H)]; [lia|discriminate]. }
    discriminate.
  Qed.

  (** Authentication *)
  Lemma by_id_some s i c : by_id s i = Some c -> In c (st_clients s) /\ pc_id c = i.
  Proof. unfold by_id. intros H. apply find_some in H. destruct H as [H E]. apply N.eqb_eq in E. auto. Qed.
  Lemma on_sasl_keeps s m s' ok : on_sasl_end s m = Done s' ok -> keeps s s'.
  Proof.
    unfold on_sasl_end. cbv zeta. intros H. apply need_done in H. destruct H as [[-> _]|H]; [apply keeps_refl|].
    pose proof (dequeue_keeps s (B "AUTHENTICATE")) as K. generalize dependent (B "AUTHENTICATE"). intros A H K.
    destruct (current s A) as [pd|]; [|injection H as <- _; exact K].
    destruct (by_id s (pd_client pd)) as [dc|]; [|injection H as <- _; exact K].
    destruct (pc_sasl dc); [|injection H as <- _; exact K].
    destruct (_ && _ : bool) in H; [discriminate|]. injection H as <- _. refine (keeps_trans _ _ _ K _). keep.
  Qed.
  Lemma on_sasl_panic s m : on_sasl_end s m = Panic -> login_restarted m s.
  Proof.
    unfold on_sasl_end. cbv zeta. intros H. apply need_panic in H. destruct H as [_ H].
    unfold current in H. unfold login_restarted. generalize dependent (B "AUTHENTICATE"). intros A H.
    destruct (st_pend s A) as [|pd rest] eqn:P; [discriminate|].
    destruct (by_id s (pd_client pd)) as [dc|] eqn:D; [|discriminate]. apply by_id_some in D. destruct D as [D1 D2].
    destruct (pc_sasl dc) as [plain|] eqn:S1; [|discriminate].
    destruct (beqb (m_command m) (B "903")) eqn:C; [|discriminate]. apply beqb_eq in C. destruct plain; [discriminate|].
    split; [exact C|]. exists pd, rest, dc. auto.
  Qed.

  Lemma on_register_keeps s m s' ok : on_register s m = Done s' ok -> keeps s s'.
  Proof.
    unfold on_register. cbv zeta. intros H. pose proof (dequeue_keeps s (m_command m)) as K.
    destruct (current s (m_command m)) as [pd|]; [|injection H as <- _; exact K].
    destruct (by_id s (pd_client pd)) as [dc|]; [|injection H as <- _; exact K].
    destruct (beqb (m_command m) (B "REGISTER")); [|injection H as <- _; exact K].
    apply need_done in H. destruct H as [[-> _]|H]; [exact K|]. destruct (_ <? 3); injection H as <- _; exact K.
  Qed.
  Lemma on_register_safe s m : on_register s m <> Panic.
  Proof.
    unfold on_register. cbv zeta. destruct (current s (m_command m)) as [pd|]; [|discriminate].
    destruct (by_id s (pd_client pd)) as [dc|]; [|discriminate].
    destruct (beqb (m_command m) (B "REGISTER")); [|discriminate]. intros H. apply need_panic in H. destruct H as [_ H].
    destruct (_ <? 3); discriminate.
  Qed.

  (** RPL_ISUPPORT *)
  Lemma pairs_some s sep is : (forall i, In i is -> sep + i + 1 < length s) -> member_pairs s sep is <> None.
  Proof.
    induction is as [|i is IH]; intros H; cbn; [discriminate|].
    assert (L : sep + i + 1 < length s) by (apply H; left; reflexivity).
    destruct (nth_error s (i + 1)) eqn:A; [|apply nth_error_None in A; lia].
    destruct (nth_error s (sep + i + 1)) eqn:A'; [|apply nth_error_None in A'; lia].
    destruct (member_pairs s sep is) eqn:P; [discriminate|]. exfalso. apply IH; [|reflexivity]. intros j J. apply H. right. exact J.
  Qed.
  Lemma memberships_some s : memberships s <> None.
  Proof.
    unfold memberships. destruct s as [|c s0]; [discriminate|]. remember (c :: s0) as s.
    destruct (negb (aeqb c "(")); [discriminate|]. destruct (Isupport.index_byte ")" s) as [sep|]; [|discriminate].
    destruct (Nat.eqb (length s) (sep * 2)) eqn:E; [|discriminate]. apply Nat.eqb_eq in E. cbn [negb].
    intros H. destruct (member_pairs s sep (seq 0 (length s / 2 - 1))) eqn:P; [discriminate|].
    revert P. apply pairs_some. intros i Hi. apply in_seq in Hi. rewrite E, Nat.div_mul in Hi by lia. lia.
  Qed.

  Lemma on_token_keeps s t s' ok : on_token s t = Done s' ok -> keeps s s'.
  Proof.
    unfold on_token. destruct (Isupport.split_token t) as [[[par neg] val] tok]. cbv zeta.
    match goal with |- context [with_isup s ?x] => generalize x; intros im end.
    assert (K : keeps s (with_isup s im)) by keep. set (s0 := with_isup s im) in *. clearbody s0.
    destruct (beqb par (B "CASEMAPPING")); [intros H; injection H as <- _; exact (keeps_trans _ _ _ K (update_cm_keeps _ _))|].
    destruct (beqb par (B "CHANMODES")).
    { match goal with |- match ?x with _ => _ end = _ -> _ => destruct x end; intros H; injection H as <- _; [refine (keeps_trans _ _ _ K _); keep|exact K]. }
    destruct (beqb par (B "CHANTYPES")); [intros H; injection H as <- _; refine (keeps_trans _ _ _ K _); keep|].
    destruct (beqb par (B "STATUSMSG")); [intros H; injection H as <- _; refine (keeps_trans _ _ _ K _); keep|].
    destruct (beqb par (B "PREFIX")).
    { match goal with |- match ?x with _ => _ end = _ -> _ => destruct x as [[l|]|]; [| |discriminate] end; intros H; injection H as <- _; [refine (keeps_trans _ _ _ K _); keep|exact K]. }
    destruct (beqb par (B "BOT")); intros H; injection H as <- _; [refine (keeps_trans _ _ _ K _); keep|exact K].
  Qed.
  Lemma on_token_safe s t : on_token s t <> Panic.
  Proof.
    unfold on_token. destruct (Isupport.split_token t) as [[[par neg] val] tok]. cbv zeta.
    destruct (beqb par (B "CASEMAPPING")); [discriminate|].
    destruct (beqb par (B "CHANMODES")).
    { match goal with |- match ?x with _ => _ end <> _ => destruct x end; discriminate. }
    destruct (beqb par (B "CHANTYPES")); [discriminate|].
    destruct (beqb par (B "STATUSMSG")); [discriminate|].
    destruct (beqb par (B "PREFIX")); [|destruct (beqb par (B "BOT")); discriminate].
    destruct neg; [discriminate|]. pose proof (memberships_some (match val with Some v => v | None => [] end)) as M.
    destruct (memberships _) as [[l|]|]; [discriminate|discriminate|exfalso; apply M; reflexivity].
  Qed.
  Lemma on_tokens_keeps l : forall s s' ok, on_tokens l s = Done s' ok -> keeps s s'.
  Proof.
    induction l as [|t l IH]; intros s s' ok; cbn [on_tokens]; [intros H; injection H as <- _; apply keeps_refl|].
    destruct (on_token s t) as [s1 [|]|] eqn:T; [|intros H; injection H as <- _; exact (on_token_keeps _ _ _ _ T)|discriminate].
    intros H. exact (keeps_trans _ _ _ (on_token_keeps _ _ _ _ T) (IH _ _ _ H)).
  Qed.
  Lemma on_tokens_safe l : forall s, on_tokens l s <> Panic.
  Proof.
    induction l as [|t l IH]; intros s; cbn [on_tokens]; [discriminate|].
    destruct (on_token s t) as [s1 [|]|] eqn:T; [apply IH|discriminate|]. exfalso. exact (on_token_safe _ _ T).
  Qed.
  Lemma on_isupport_keeps s m s' ok : on_isupport s m = Done s' ok -> keeps s s'.
  Proof.
    unfold on_isupport. intros H. apply need_done in H. destruct H as [[-> _]|H]; [apply keeps_refl|]. apply from_done in H.
    destruct (skipn 1 (m_params m)) as [|a l]; [discriminate|]. exact (on_tokens_keeps _ _ _ _ H).
  Qed.
  Lemma on_isupport_safe s m : on_isupport s m <> Panic.
  Proof.
    unfold on_isupport. intros H. apply need_panic in H. destruct H as [L H]. apply from_panic in H. destruct H as [H|H]; [lia|].
    destruct (skipn 1 (m_params m)) as [|a l] eqn:K; [|exact (on_tokens_safe _ _ H)].
    assert (Z : length (skipn 1 (m_params m)) = 0) by (rewrite K; reflexivity). rewrite skipn_length in Z. lia.
  Qed.

  (** BATCH, WHO, WHOX, errors *)
  Lemma on_batch_keeps s m lb s' ok : on_batch s m lb = Done s' ok -> keeps s s'.
  Proof.
    unfold on_batch. intros H. apply need_done in H. destruct H as [[-> _]|H]; [apply keeps_refl|]. apply at_done in H.
    destruct H as (t & _ & H). destruct t as [|c t]; [injection H as <- _; apply keeps_refl|].
    destruct (aeqb c "+").
    { destruct (batch_get (st_batches s) t); [injection H as <- _; apply keeps_refl|]. apply need_done in H. destruct H as [[-> _]|H]; [apply keeps_refl|].
      apply from_done in H. injection H as <- _. keep. }
    destruct (aeqb c "-"); [|injection H as <- _; apply keeps_refl].
    destruct (batch_get (st_batches s) t); injection H as <- _; keep.
  Qed.
  Lemma on_batch_safe s m lb : on_batch s m lb <> Panic.
  Proof.
    unfold on_batch. intros H. apply need_panic in H. destruct H as [L H]. apply at_panic in H. destruct H as [H|(t & _ & H)]; [lia|].
    destruct t as [|c t]; [discriminate|]. destruct (aeqb c "+").
    { destruct (batch_get (st_batches s) t); [discriminate|]. apply need_panic in H. destruct H as [L2 H]. apply from_panic in H. destruct H as [H|H]; [lia|discriminate]. }
    destruct (aeqb c "-"); [|discriminate]. destruct (batch_get (st_batches s) t); discriminate.
  Qed.

  Lemma cached_keeps s n i s' ok : cached s n i = Done s' ok -> keeps s s'.
  Proof.
    unfold cached. destruct (should_cache (st_ro s) n); [|intros H; injection H as <- _; apply keeps_refl].
    destruct (cache_user n i (st_ro s)) as [r|] eqn:C; [|discriminate]. intros H. injection H as <- _.
    constructor; try reflexivity; [intros ? ? H; exact H|exact (cache_nick _ _ _ _ C)].
  Qed.
  Lemma cached_panic s n i : cached s n i = Panic -> n = [].
  Proof.
    unfold cached. destruct (should_cache (st_ro s) n); [|discriminate]. destruct (cache_user n i (st_ro s)) as [r|] eqn:C; [discriminate|].
    intros _. exact (cache_user_none _ _ _ C).
  Qed.
  Lemma on_who_keeps s m s' ok : on_who s m = Done s' ok -> keeps s s'.
  Proof.
    unfold on_who. intros H. apply need_done in H. destruct H as [[-> _]|H]; [apply keeps_refl|].
    destruct (current s _) as [pd|]; [|injection H as <- _; apply keeps_refl].
    destruct (by_id s (pd_client pd)); [|injection H as <- _; apply keeps_refl].
    destruct (m_params m) as [|a [|b [|u [|h [|sv [|n [|f [|t l]]]]]]]]; try discriminate.
    destruct (cut_on " " t) as [x [r|]]; [exact (cached_keeps _ _ _ _ _ H)|injection H as <- _; apply keeps_refl].
  Qed.
  Lemma on_who_safe s m : wire m -> on_who s m <> Panic.
  Proof.
    intros W. unfold on_who. intros H. apply need_panic in H. destruct H as [L H].
    destruct (current s _) as [pd|]; [|discriminate]. destruct (by_id s (pd_client pd)); [|discriminate].
    unfold wire in W. destruct (m_params m) as [|a [|b [|u [|h [|sv [|n [|f [|t l]]]]]]]]; try (cbn in L; lia).
    destruct (cut_on " " t) as [x [r|]]; [|discriminate]. apply cached_panic in H. subst n.
    apply (W 5); [cbn; lia|reflexivity].
  Qed.

  Lemma on_whox_keeps s m s' ok : on_whox s m = Done s' ok -> keeps s s'.
  Proof.
    unfold on_whox. intros H. destruct (current s _) as [pd|]; [|injection H as <- _; apply keeps_refl].
    destruct (by_id s (pd_client pd)); [|injection H as <- _; apply keeps_refl].
    destruct (1 <? length (pd_params pd)); [|injection H as <- _; apply keeps_refl].
    apply at_done in H. destruct H as (o & _ & H). cbv zeta in H.
    destruct (negb _); [injection H as <- _; apply keeps_refl|].
    destruct (parse_whox_reply m _) as [i|]; [exact (cached_keeps _ _ _ _ _ H)|injection H as <- _; apply keeps_refl].
  Qed.

  (** The nickname is after the fields that precede it. *)
  Lemma fill_app i ks1 : forall k ks2 vs, whox_fill i (ks1 ++ k :: ks2) vs <> None -> length ks1 < length vs.
  Proof.
    revert i. induction ks1 as [|a ks1 IH]; intros i k ks2 vs; cbn; destruct vs as [|v vs]; cbn; intros H; try (exfalso; apply H; reflexivity); [lia|].
    apply IH in H. lia.
  Qed.
  Lemma fill_nick_other ks : forall i vs r, ~ In "n"%char ks -> whox_fill i ks vs = Some r -> w_nickname r = w_nickname i.
  Proof.
    induction ks as [|k ks IH]; intros i vs r N; cbn; [intros E; injection E as <-; reflexivity|].
    destruct vs as [|v vs]; [discriminate|]. intros E. rewrite (IH _ _ _ (fun h => N (or_intror h)) E).
    assert (K : k <> "n"%char) by (intros ->; apply N; left; reflexivity).
    destruct i as [i1 i2 i3 i4 i5 i6 i7 i8 i9]. unfold whox_set. cbn [w_nickname]. repeat match goal with |- context [aeqb k ?c] => destruct (aeqb_spec k c); [subst; try reflexivity; exfalso; apply K; reflexivity|] end. reflexivity.
  Qed.
  Lemma fill_nick ks1 : forall i ks2 vs r, ~ In "n"%char ks1 -> ~ In "n"%char ks2 -> whox_fill i (ks1 ++ "n"%char :: ks2) vs = Some r ->
    nth_error vs (length ks1) = Some (w_nickname r).
  Proof.
    induction ks1 as [|a ks1 IH]; intros i ks2 vs r N1 N2; cbn.
    - destruct vs as [|v vs]; [discriminate|]. intros E. rewrite (fill_nick_other _ _ _ _ N2 E). destruct i; reflexivity.
    - destruct vs as [|v vs]; [discriminate|]. intros E. cbn. exact (IH _ _ _ _ (fun h => N1 (or_intror h)) N2 E).
  Qed.
  Lemma whox_nick m f i : amem "n" f = true -> parse_whox_reply m f = Some i -> nth_error (m_params m) (nick_pos f) = Some (w_nickname i).
  Proof.
    intros N. unfold parse_whox_reply. destruct (negb _); [discriminate|]. destruct (m_params m) as [|x vs]; [discriminate|].
    intros E. unfold nick_pos. cbn [nth_error].
    change whox_fields with (B "tcuihs" ++ "n"%char :: B "fdlaor") in E. rewrite filter_app in E.
    change (filter (fun k => amem k f) ("n"%char :: B "fdlaor")) with (if amem "n" f then "n"%char :: filter (fun k => amem k f) (B "fdlaor") else filter (fun k => amem k f) (B "fdlaor")) in E.
    rewrite N in E. refine (fill_nick _ _ _ _ _ _ _ E).
    - intros H. apply filter_In in H. destruct H as [H _]. revert H. cbn. intuition discriminate.
    - intros H. apply filter_In in H. destruct H as [H _]. revert H. cbn. intuition discriminate.
  Qed.

  Lemma on_whox_panic s m : m_command m = B "354" -> on_whox s m = Panic -> blank_whox m s.
  Proof.
    intros C. unfold on_whox. intros H. split; [exact C|]. unfold current in H.
    generalize dependent (B "WHO"). intros w H.
    destruct (st_pend s w) as [|pd rest]; [discriminate|].
    destruct (by_id s (pd_client pd)); [|discriminate].
    destruct (1 <? length (pd_params pd)) eqn:L; [|discriminate]. apply Nat.ltb_lt in L.
    apply at_panic in H. destruct H as [H|(o & O & H)]; [lia|]. cbv zeta in H.
    destruct (amem "n" (fst (parse_whox_options o))) eqn:N; [|discriminate]. cbn [negb] in H.
    destruct (parse_whox_reply m (fst (parse_whox_options o))) as [i|] eqn:P; [|discriminate].
    apply cached_panic in H. exists pd, rest, o. split; [reflexivity|]. split; [exact O|]. rewrite <- H. exact (whox_nick _ _ _ N P).
  Qed.

  Lemma on_no_such_keeps s m s' ok : on_no_such s m = Done s' ok -> keeps s s'.
  Proof.
    unfold on_no_such. intros H. apply need_done in H. destruct H as [[-> _]|H]; [apply keeps_refl|]. apply at_done in H.
    destruct H as (n & _ & H). pose proof (dequeue_keeps s (B "WHOIS")) as K. generalize dependent (B "WHOIS"). intros w H K.
    destruct (current s w) as [pd|]; [|injection H as <- _; apply keeps_refl].
    destruct (pd_params pd) as [|a l]; [discriminate|].
    destruct (same s _ n); injection H as <- _; [exact K|apply keeps_refl].
  Qed.
  Lemma on_failed_keeps s m i s' ok : on_failed s m i = Done s' ok -> keeps s s'.
  Proof.
    unfold on_failed. intros H. apply need_done in H. destruct H as [[-> _]|H]; [apply keeps_refl|]. apply at_done in H.
    destruct H as (n & _ & H). injection H as <- _. apply dequeue_keeps.
  Qed.
  Lemma on_failed_safe s m i : on_failed s m i <> Panic.
  Proof. unfold on_failed. intros H. apply need_panic in H. destruct H as [L H]. apply at_panic in H. destruct H as [H|(n & _ & H)]; [lia|discriminate]. Qed.

  (** ** All messages *)

  Record inv (s : pst) : Prop := Inv {
    i_timer : st_timer s = true -> st_motd s = true;
    i_whois : forall q, In q (st_pend s (B "WHOIS")) -> pd_params q <> [];
    i_pend : st_reg s = false -> forall c, st_pend s c = []
  }.
  Lemma keeps_inv s s' : keeps s s' -> inv s -> inv s'.
  Proof.
    intros K [A1 A2 A3]. constructor.
    - rewrite (k_timer _ _ K), (k_motd _ _ K). exact A1.
    - intros q H. apply A2. exact (k_pend _ _ K _ _ H).
    - rewrite (k_reg _ _ K). intros R c. pose proof (k_pend _ _ K c) as I. rewrite (A3 R c) in I.
      destruct (st_pend s' c) as [|x l]; [reflexivity|]. destruct (I x (or_introl eq_refl)).
  Qed.

  (** How the other handlers change what matters. *)
  Definition moved (m : message) (p : prefix) (s s' : pst) : Prop :=
    (inv s -> inv s') /\
    (st_server s' = st_server s \/ st_server s' = p) /\
    (st_reg s = true -> st_reg s' = true) /\
    (r_nick (st_ro s') = r_nick (st_ro s) \/
     ((m_command m = B "001" \/ m_command m = B "NICK") /\ exists l, m_params m = r_nick (st_ro s') :: l) \/
     r_nick (st_ro s') = r_nick (st_ro s) ++ B "_").
  Lemma keeps_moved m p s s' : keeps s s' -> moved m p s s'.
  Proof.
    intros K. split; [exact (keeps_inv s s' K)|]. split; [left; exact (k_server _ _ K)|]. split; [rewrite (k_reg _ _ K); auto|left; exact (k_nick _ _ K)].
  Qed.

  Lemma welcome_moved s m p s' ok : m_command m = B "001" -> on_welcome s m p = Done s' ok -> moved m p s s'.
  Proof.
    intros C. unfold on_welcome. intros H. apply need_done in H. destruct H as [[-> _]|H]; [apply keeps_moved, keeps_refl|].
    apply at_done in H. destruct H as (n & E & H). injection H as <- _.
    split; [|split; [right; reflexivity|split; [reflexivity|]]].
    - intros [A1 A2 A3]. constructor; [exact A1|exact A2|discriminate].
    - right. left. split; [left; exact C|]. cbn [st_ro with_welcome with_ro r_nick with_nick].
      destruct (m_params m) as [|x l]; [discriminate|]. cbn in E. injection E as ->. exists l. reflexivity.
  Qed.
  Lemma welcome_safe s m p : on_welcome s m p <> Panic.
  Proof. unfold on_welcome. intros H. apply need_panic in H. destruct H as [L H]. apply at_panic in H. destruct H as [H|(n & _ & H)]; [lia|discriminate]. Qed.

  Lemma motd_moved s m p s' ok : on_motd s m = Done s' ok -> moved m p s s'.
  Proof.
    unfold Robust.on_motd. destruct (st_motd s) eqn:MT; [intros H; injection H as <- _; apply keeps_moved, keeps_refl|]. cbv zeta.
    set (s1 := with_motd s true). set (s2 := match _ with Some (Some _) => s1 | _ => update_casemapping CmRFC1459 s1 end).
    assert (K : keeps s1 s2).
    { unfold s2. destruct (Isupport.im_get (st_isup s1) (B "CASEMAPPING")) as [[v|]|]; try apply update_cm_keeps. apply keeps_refl. }
    clearbody s2.
    assert (M1 : moved m p s s1).
    { split; [|split; [left; reflexivity|split; [auto|left; reflexivity]]]. intros [A1 A2 A3]. constructor; [reflexivity|exact A2|exact A3]. }
    assert (M2 : forall b, moved m p s (with_timer s2 b)).
    { intros b. destruct M1 as (I1 & S1 & R1 & N1). split; [|split; [|split]].
      - intros I. apply I1 in I. apply (keeps_inv _ _ K) in I. destruct I as [B1 B2 B3]. constructor; [|exact B2|exact B3].
        intros _. cbn [st_motd with_timer]. rewrite (k_motd _ _ K). reflexivity.
      - left. cbn [st_server with_timer]. rewrite (k_server _ _ K). reflexivity.
      - cbn [st_reg with_timer]. rewrite (k_reg _ _ K). auto.
      - left. cbn [st_ro with_timer]. rewrite (k_nick _ _ K). reflexivity. }
    assert (M3 : moved m p s s2).
    { destruct (M2 (st_timer s2)) as (I & S1 & R1 & N1). split; [|split; [exact S1|split; [exact R1|exact N1]]].
      intros Q. destruct (I Q) as [B1 B2 B3]. constructor; [exact B1|exact B2|exact B3]. }
    destruct (Isupport.im_get (st_isup s2) (B "MONITOR")); [intros H; injection H as <- _; exact M3|].
    destruct (st_timer s2); [discriminate|]. destruct (is_our_nick (st_ro s2) want); intros H; injection H as <- _; [exact M3|apply M2].
  Qed.
  Lemma motd_safe s m : inv s -> on_motd s m <> Panic.
  Proof.
    intros I. unfold Robust.on_motd. destruct (st_motd s) eqn:MT; [discriminate|]. cbv zeta.
    set (s1 := with_motd s true). set (s2 := match _ with Some (Some _) => s1 | _ => update_casemapping CmRFC1459 s1 end).
    assert (K : st_timer s2 = st_timer s).
    { unfold s2. destruct (Isupport.im_get (st_isup s1) (B "CASEMAPPING")) as [[v|]|]; try (rewrite (k_timer _ _ (update_cm_keeps _ _))); reflexivity. }
    clearbody s2. destruct (Isupport.im_get (st_isup s2) (B "MONITOR")); [discriminate|]. rewrite K.
    destruct (st_timer s) eqn:T; [rewrite (i_timer _ I T) in MT; discriminate|]. destruct (is_our_nick (st_ro s2) want); discriminate.
  Qed.

  Lemma no_such_safe s m : inv s -> on_no_such s m <> Panic.
  Proof.
    intros I. unfold on_no_such. intros H. apply need_panic in H. destruct H as [L H]. apply at_panic in H. destruct H as [H|(n & _ & H)]; [lia|].
    unfold current in H. destruct I as [_ W _]. revert W H. generalize (B "WHOIS"). intros w W H.
    destruct (st_pend s w) as [|q rest]; [discriminate|]. specialize (W q (or_introl eq_refl)).
    destruct (pd_params q) as [|a l]; [exact (W eq_refl)|]. destruct (same s _ n); discriminate.
  Qed.

  Ltac case_of H := match type of H with (if ?x then _ else _) = _ => let C := fresh "C" in destruct x eqn:C end.

  Lemma cases_moved s m p lb s' ok : cases s m p lb = Done s' ok -> moved m p s s'.
  Proof.
    unfold Robust.cases. cbv zeta. intros H.
    case_of H; [exact (keeps_moved _ _ _ _ (on_text_keeps _ _ _ _ _ H))|].
    case_of H; [exact (keeps_moved _ _ _ _ (on_cap_keeps _ _ _ _ H))|].
    case_of H; [exact (keeps_moved _ _ _ _ (on_sasl_keeps _ _ _ _ H))|].
    case_of H; [exact (keeps_moved _ _ _ _ (on_register_keeps _ _ _ _ H))|].
    case_of H; [apply beqb_eq in C3; exact (welcome_moved _ _ _ _ _ C3 H)|].
    case_of H; [exact (keeps_moved _ _ _ _ (on_isupport_keeps _ _ _ _ H))|].
    case_of H; [exact (motd_moved _ _ _ _ _ H)|].
    case_of H; [exact (keeps_moved _ _ _ _ (on_batch_keeps _ _ _ _ _ H))|].
    case_of H.
    { destruct (handle m p (st_ro s)) as [[r b]|] eqn:E; [|discriminate]. injection H as <- _.
      split; [|split; [left; reflexivity|split; [auto|]]].
      - intros [A1 A2 A3]. constructor; assumption.
      - cbn [st_ro with_ro]. destruct (handle_nick _ _ _ _ _ E) as [N|[N1 N2]]; [left; exact N|right; left; split; [right; exact N1|exact N2]]. }
    case_of H; [exact (keeps_moved _ _ _ _ (on_who_keeps _ _ _ _ H))|].
    case_of H; [exact (keeps_moved _ _ _ _ (on_whox_keeps _ _ _ _ H))|].
    case_of H; [injection H as <- _; apply keeps_moved, dequeue_keeps|].
    case_of H; [injection H as <- _; apply keeps_moved, keeps_refl|].
    case_of H; [injection H as <- _; apply keeps_moved, dequeue_keeps|].
    case_of H; [injection H as <- _; apply keeps_moved, keeps_refl|].
    case_of H; [injection H as <- _; apply keeps_moved, dequeue_keeps|].
    case_of H; [exact (keeps_moved _ _ _ _ (on_no_such_keeps _ _ _ _ H))|].
    case_of H; [exact (keeps_moved _ _ _ _ (on_failed_keeps _ _ _ _ _ H))|].
    case_of H; [exact (keeps_moved _ _ _ _ (on_failed_keeps _ _ _ _ _ H))|].
    case_of H.
    { unfold Robust.on_nick_in_use in H. destruct (_ && _ : bool) in H.
      - injection H as <- _. split; [intros [A1 A2 A3]; constructor; assumption|]. split; [left; reflexivity|]. split; [auto|]. right; right. reflexivity.
      - apply need_done in H. destruct H as [[-> _]|H]; [apply keeps_moved, keeps_refl|]. destruct (fails s m); injection H as <- _; apply keeps_moved, keeps_refl. }
    injection H as <- _. apply keeps_moved, keeps_refl.
  Qed.

  (** The causes of a panic. *)
  Definition cause (s : pst) (m : message) (p : prefix) : Prop :=
    (In (m_command m) (map B named_commands) /\ p_name p = []) \/
    (st_reg s = true /\ (m_command m = B "PRIVMSG" \/ m_command m = B "NOTICE") /\ r_nick (st_ro s) = []) \/
    (st_reg s = true /\ bad_moment m s).

  Lemma reg_pend s c q l : inv s -> st_pend s c = q :: l -> st_reg s = true.
  Proof. intros I E. destruct (st_reg s) eqn:R; [reflexivity|]. rewrite (i_pend _ I R) in E. discriminate. Qed.

  Lemma cases_panic s m p lb : inv s -> wire m -> cases s m p lb = Panic -> cause s m p.
  Proof.
    intros I W. unfold Robust.cases. cbv zeta. intros H.
    case_of H.
    { destruct (on_text_panic _ _ _ C H) as [R [[A1 A2]|A]]; [right; left; auto|right; right; split; [exact R|right; left; exact A]]. }
    case_of H; [destruct (on_cap_safe _ _ H)|].
    case_of H. { pose proof (on_sasl_panic _ _ H) as L. right; right. split; [|right; right; exact L]. destruct L as (_ & q & l & c & E & _). exact (reg_pend _ _ _ _ I E). }
    case_of H; [destruct (on_register_safe _ _ H)|].
    case_of H; [destruct (welcome_safe _ _ _ H)|].
    case_of H; [destruct (on_isupport_safe _ _ H)|].
    case_of H; [destruct (motd_safe _ _ I H)|].
    case_of H; [destruct (on_batch_safe _ _ _ H)|].
    case_of H.
    { destruct (handle m p (st_ro s)) as [[r b]|] eqn:E; [discriminate|]. destruct (handle_none _ _ _ E) as [N|(i & L & N)]; [left; exact N|].
      destruct (W i L N). }
    case_of H; [destruct (on_who_safe _ _ W H)|].
    case_of H. { apply beqb_eq in C9. pose proof (on_whox_panic _ _ C9 H) as L. right; right. split; [|left; exact L]. destruct L as (_ & q & l & o & E & _). exact (reg_pend _ _ _ _ I E). }
    case_of H; [discriminate|]. case_of H; [discriminate|]. case_of H; [discriminate|]. case_of H; [discriminate|]. case_of H; [discriminate|].
    case_of H; [destruct (no_such_safe _ _ I H)|].
    case_of H; [destruct (on_failed_safe _ _ _ H)|].
    case_of H; [destruct (on_failed_safe _ _ _ H)|].
    case_of H; [|discriminate].
    unfold Robust.on_nick_in_use in H. destruct (_ && _ : bool) in H; [discriminate|]. apply need_panic in H. destruct H as [_ H]. destruct (fails s m); discriminate.
  Qed.

  Lemma message_cases s m : handle_message s m = Done s false \/ exists lb, handle_message s m = cases s m (source s m) lb.
  Proof.
    unfold Robust.handle_message. cbv zeta. match goal with |- context [match ?x with Some _ => _ | None => Done s false end] => destruct x as [lb|] end; [|auto].
    destruct (Pending.parse_label lb); [|auto]. right. exists lb. reflexivity.
  Qed.
  Lemma message_panic s m : inv s -> wire m -> handle_message s m = Panic -> cause s m (source s m).
  Proof. intros I W H. destruct (message_cases s m) as [E|[lb E]]; rewrite E in H; [discriminate|]. exact (cases_panic _ _ _ _ I W H). Qed.
  Lemma message_moved s m s' ok : handle_message s m = Done s' ok -> moved m (source s m) s s'.
  Proof.
    intros H. destruct (message_cases s m) as [E|[lb E]]; rewrite E in H; [injection H as <- _; apply keeps_moved, keeps_refl|]. exact (cases_moved _ _ _ _ _ _ H).
  Qed.

  (** ** Runs *)
  Lemma inv_new n sv cl : inv (new_pst n sv cl).
  Proof. constructor; [discriminate|intros q []|reflexivity]. Qed.

  Lemma closed_inv s : inv s -> inv (closed s).
  Proof. intros [A1 A2 A3]. constructor; assumption. Qed.

  Lemma enqueue_inv s c i ps late : (c = B "WHOIS" -> ps <> []) -> inv s -> inv (asked s c i ps late).
  Proof.
    intros N I. unfold asked. destruct (st_reg s) eqn:R; [|exact I]. destruct I as [A1 A2 A3].
    constructor; [exact A1| |cbn [st_reg enqueue with_pend]; congruence].
    intros q. unfold enqueue. cbn [st_pend with_pend]. destruct (beqb (B "WHOIS") c) eqn:E; [|apply A2].
    apply beqb_eq in E. symmetry in E. specialize (N E). clear E. cbv zeta.
    generalize dependent (B "WHOIS"). intros w A2.
    assert (Q : forall x, In x (st_pend s w ++ [PCmd i ps]) -> pd_params x <> []).
    { intros x Hx. apply in_app_or in Hx. destruct Hx as [Hx|[<-|[]]]; [exact (A2 x Hx)|exact N]. }
    destruct late; [|apply Q]. intros Hq. apply in_app_or in Hq. destruct Hq as [Hq|[<-|[]]]; [|exact N].
    apply Q. destruct (st_pend s w ++ [PCmd i ps]); [destruct Hq|right; exact Hq].
  Qed.
  Lemma asked_server s c i ps late : st_server (asked s c i ps late) = st_server s.
  Proof. unfold asked. destruct (st_reg s); reflexivity. Qed.
  Lemma asked_nick s c i ps late : r_nick (st_ro (asked s c i ps late)) = r_nick (st_ro s).
  Proof. unfold asked. destruct (st_reg s); reflexivity. Qed.

  Lemma unmonitor_nick l : forall r, r_nick (fold_left (fun s x => forget (with_mon s (cm_del (r_mon s) x)) x) l r) = r_nick r.
  Proof. induction l as [|x l IH]; intros r; cbn [fold_left]; [reflexivity|]. rewrite IH, forget_nick. reflexivity. Qed.

  Lemma step_inv s e s' : inv s -> step s e = Alive s' -> inv s'.
  Proof.
    intros I. destruct e; cbn [Robust.step].
    - unfold Robust.on_line. destruct (st_closed s); [intros E; injection E as <-; exact I|].
      destruct (parse_line tags_of line) as [m|] eqn:P; [|intros E; injection E as <-; exact (closed_inv _ I)].
      destruct (handle_message s m) as [s1 ok|] eqn:H; [|destruct (st_reg s); discriminate].
      apply message_moved in H. destruct H as [H _]. intros E. injection E as <-.
      destruct (ok || st_reg s)%bool; [exact (H I)|exact (closed_inv _ (H I))].
    - intros E. injection E as <-. destruct (whois_params params) as [l|] eqn:W; [|exact I]. apply enqueue_inv; [|exact I].
      intros _. destruct params as [|a [|b l']]; cbn in W; [discriminate|injection W as <-; discriminate|injection W as <-; discriminate].
    - intros E. injection E as <-. destruct (is_one_of cmd _) eqn:O; [|exact I]. apply enqueue_inv; [|exact I].
      intros ->. exfalso. revert O. vm_compute. discriminate.
    - intros E. injection E as <-. destruct I as [A1 A2 A3]. constructor; assumption.
    - intros E. injection E as <-. destruct I as [A1 A2 A3]. constructor; assumption.
    - intros E. injection E as <-. destruct I as [A1 A2 A3]. constructor; assumption.
    - intros E. injection E as <-. destruct I as [A1 A2 A3]. constructor; [discriminate|assumption|assumption].
  Qed.

  (** The source of a message and the server have names. *)
  Definition server_named (s : pst) : Prop := p_name (st_server s) <> [].
  Lemma source_named s m : sourced m -> server_named s -> p_name (source s m) <> [].
  Proof. intros A B0. unfold source. destruct (m_prefix m) as [p|] eqn:P; [exact (A p P)|exact B0]. Qed.

  Definition good_line (P : message -> Prop) (line : bytes) : Prop := forall m, parse_line tags_of line = Some m -> P m.

  Lemma step_server s e s' : (forall x, e = ELine x -> good_line sourced x) -> server_named s -> step s e = Alive s' -> server_named s'.
  Proof.
    intros G N. destruct e; cbn [Robust.step].
    - unfold Robust.on_line. destruct (st_closed s); [intros E; injection E as <-; exact N|].
      destruct (parse_line tags_of line) as [m|] eqn:P; [|intros E; injection E as <-; exact N].
      destruct (handle_message s m) as [s1 ok|] eqn:H; [|destruct (st_reg s); discriminate].
      apply message_moved in H. destruct H as (_ & [H|H] & _); intros E; injection E as <-; unfold server_named;
        destruct (ok || st_reg s)%bool; cbn [st_server closed]; rewrite H; try exact N;
        exact (source_named s m (G _ eq_refl m P) N).
    - intros E. injection E as <-. destruct (whois_params params); [|exact N]. unfold server_named. rewrite asked_server. exact N.
    - intros E. injection E as <-. destruct (is_one_of cmd _); [|exact N]. unfold server_named. rewrite asked_server. exact N.
    - intros E. injection E as <-. exact N.
    - intros E. injection E as <-. exact N.
    - intros E. injection E as <-. exact N.
    - intros E. injection E as <-. exact N.
  Qed.

  Definition has_nick (s : pst) : Prop := r_nick (st_ro s) <> [].
  Lemma step_nick s e s' : (forall x, e = ELine x -> good_line nicknamed x) -> has_nick s -> step s e = Alive s' -> has_nick s'.
  Proof.
    intros G N. unfold has_nick in *. destruct e; cbn [Robust.step].
    - unfold Robust.on_line. destruct (st_closed s); [intros E; injection E as <-; exact N|].
      destruct (parse_line tags_of line) as [m|] eqn:P; [|intros E; injection E as <-; exact N].
      destruct (handle_message s m) as [s1 ok|] eqn:H; [|destruct (st_reg s); discriminate].
      apply message_moved in H. destruct H as (_ & _ & _ & H). intros E. injection E as <-.
      assert (Q : r_nick (st_ro s1) <> []).
      { destruct H as [H|[[HC [l HL]]|H]]; [rewrite H; exact N|exact (G _ eq_refl m P HC _ _ HL)|rewrite H; intros E; apply app_eq_nil in E; destruct E; discriminate]. }
      destruct (ok || st_reg s)%bool; exact Q.
    - intros E. injection E as <-. destruct (whois_params params); [|exact N]. rewrite asked_nick. exact N.
    - intros E. injection E as <-. destruct (is_one_of cmd _); [|exact N]. rewrite asked_nick. exact N.
    - intros E. injection E as <-. exact N.
    - intros E. injection E as <-. exact N.
    - intros E. injection E as <-. cbn [st_ro with_ro]. rewrite unmonitor_nick. exact N.
    - intros E. injection E as <-. exact N.
  Qed.

  (** A step that does not survive. *)
  Lemma step_dead s e : inv s -> (forall s', step s e <> Alive s') ->
    exists line m, e = ELine line /\ parse_line tags_of line = Some m /\ cause s m (source s m) /\
      step s e = if st_reg s then UserStopped else ProcessDown.
  Proof.
    intros I D. destruct e; try (exfalso; refine (D _ _); reflexivity). exists line. cbn [Robust.step] in *. unfold Robust.on_line in *.
    destruct (st_closed s); [exfalso; exact (D _ eq_refl)|].
    destruct (parse_line tags_of line) as [m|] eqn:P; [|exfalso; exact (D _ eq_refl)].
    exists m. split; [reflexivity|]. split; [reflexivity|]. destruct (handle_message s m) as [s1 ok|] eqn:H; [exfalso; exact (D _ eq_refl)|].
    split; [exact (message_panic _ _ I (parse_line_wire _ _ _ P) H)|reflexivity].
  Qed.

  Lemma run_app l1 : forall s l2, run s (l1 ++ l2) = match run s l1 with Alive s' => run s' l2 | o => o end.
  Proof. induction l1 as [|e l1 IH]; intros s l2; cbn [app Robust.run]; [reflexivity|]. destruct (step s e); [apply IH|reflexivity|reflexivity]. Qed.

  Lemma lines_in l x : In (ELine x) l -> In x (lines l).
  Proof. intros H. unfold lines. apply in_flat_map. exists (ELine x). split; [exact H|left; reflexivity]. Qed.

  (** The first theorem: servers that use names cannot take the program down. *)
  Lemma run_process l : forall s, inv s -> server_named s -> (forall x, In x (lines l) -> good_line sourced x) -> run s l <> ProcessDown.
  Proof.
    induction l as [|e l IH]; intros s I N G; cbn [Robust.run]; [discriminate|].
    assert (Ge : forall x, e = ELine x -> good_line sourced x) by (intros x ->; apply G; left; reflexivity).
    assert (Gl : forall x, In x (lines l) -> good_line sourced x) by (intros x Hx; apply G; unfold lines; cbn [flat_map]; apply in_or_app; right; exact Hx).
    destruct (step s e) as [s'| |] eqn:E; [exact (IH s' (step_inv _ _ _ I E) (step_server _ _ _ Ge N E) Gl)|discriminate|].
    destruct (step_dead s e I) as (line & m & -> & P & C & F); [rewrite E; discriminate|]. rewrite E in F.
    destruct (st_reg s) eqn:R; [discriminate|]. intros _. destruct C as [[_ C]|[[C _]|[C _]]]; [|congruence|congruence].
    exact (source_named s m (Ge _ eq_refl m P) N C).
  Qed.

  (** The second: nor stop the user, but at a bad moment. *)
  Lemma run_alive l : forall s, inv s -> server_named s -> has_nick s ->
    (forall x, In x (lines l) -> good_line (fun m => sourced m /\ nicknamed m) x) ->
    (forall l1 x l2 s1 m, l = l1 ++ ELine x :: l2 -> run s l1 = Alive s1 -> parse_line tags_of x = Some m -> ~ bad_moment m s1) ->
    exists s', run s l = Alive s'.
  Proof.
    induction l as [|e l IH]; intros s I N K G M; cbn [Robust.run]; [eauto|].
    assert (Ge : forall x, e = ELine x -> good_line (fun m => sourced m /\ nicknamed m) x) by (intros x ->; apply G; left; reflexivity).
    assert (Gl : forall x, In x (lines l) -> good_line (fun m => sourced m /\ nicknamed m) x) by (intros x Hx; apply G; unfold lines; cbn [flat_map]; apply in_or_app; right; exact Hx).
    assert (Gs : forall x, e = ELine x -> good_line sourced x) by (intros x Ex m P; exact (proj1 (Ge x Ex m P))).
    assert (Gn : forall x, e = ELine x -> good_line nicknamed x) by (intros x Ex m P; exact (proj2 (Ge x Ex m P))).
    assert (A : (exists s', step s e = Alive s') \/ (forall s', step s e <> Alive s')).
    { destruct (step s e); [left; eauto|right; discriminate|right; discriminate]. }
    destruct A as [[s' E]|D].
    - rewrite E. refine (IH s' (step_inv _ _ _ I E) (step_server _ _ _ Gs N E) (step_nick _ _ _ Gn K E) Gl _).
      intros l1 x l2 s1 m El Er P. apply (M (e :: l1) x l2 s1 m); [rewrite El; reflexivity|cbn [Robust.run]; rewrite E; exact Er|exact P].
    - destruct (step_dead s e I D) as (line & m & -> & P & C & F). exfalso.
      destruct C as [[_ C]|[[_ [_ C]]|[_ C]]].
      + exact (source_named s m (Gs _ eq_refl m P) N C).
      + exact (K C).
      + exact (M [] line l s m eq_refl eq_refl P C).
  Qed.

  Lemma process_named nick sv cl l : (forall x, In x (lines l) -> good_line sourced x) -> run (new_pst nick sv cl) l <> ProcessDown.
  Proof. apply run_process; [apply inv_new|discriminate]. Qed.

  Lemma user_named nick sv cl l : nick <> [] ->
    (forall x, In x (lines l) -> good_line (fun m => sourced m /\ nicknamed m) x) ->
    (forall l1 x l2 s1 m, l = l1 ++ ELine x :: l2 -> run (new_pst nick sv cl) l1 = Alive s1 -> parse_line tags_of x = Some m -> ~ bad_moment m s1) ->
    exists s', run (new_pst nick sv cl) l = Alive s'.
  Proof. intros N. apply run_alive; [apply inv_new|discriminate|exact N]. Qed.

  (** Whatever has happened, a line without a name of its source is the end. *)
  Lemma unnamed_line s : st_closed s = false ->
    on_line s (B ": ACCOUNT x") = if st_reg s then UserStopped else ProcessDown.
  Proof. intros C. unfold Robust.on_line. rewrite C. reflexivity. Qed.

  Lemma unnamed_panics s line m : st_closed s = false -> parse_line tags_of line = Some m ->
    tag m (B "label") = None -> tag m (B "batch") = None ->
    In (m_command m) (map B ["NICK"; "SETNAME"; "JOIN"; "ACCOUNT"]%string) -> m_params m <> [] -> p_name (source s m) = [] ->
    on_line s line = if st_reg s then UserStopped else ProcessDown.
  Proof.
    intros C P TL TB IN NE SN. unfold Robust.on_line. rewrite C, P. unfold Robust.handle_message. cbv zeta. rewrite TL, TB.
    cbn [Pending.parse_label].
    assert (H : cases s m (source s m) [] = Panic); [|rewrite H; reflexivity].
    unfold Robust.cases. cbv zeta. unfold handle. rewrite SN.
    destruct (m_params m) as [|x l] eqn:PR; [destruct (NE eq_refl)|]. clear - IN.
    cbn [map In] in IN. destruct IN as [<-|[<-|[<-|[<-|[]]]]]; reflexivity.
  Qed.
End Robust.
