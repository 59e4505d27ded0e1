From Verif.Base Require Import Bytes.
From Verif.Model Require Import Message Detach.
From Verif.Spec Require Import Detach.
Open Scope nat_scope.

Section P.
  Variable cm : bytes -> bytes.
  Variable me server service : bytes.
  Variable chantypes statusmsg : bytes.
  Variable highlight : message -> bool.

  Notation step := (nstep cm me server service chantypes statusmsg highlight).
  Notation run := (nrun cm me server service chantypes statusmsg highlight).
  Notation detached := (is_detached cm).
  Notation sees := (see cm me).

  (** * Elementary facts *)

  Lemma with_chan_get : forall s n c k, n_chans (with_chan cm s n c) k = if beqb k (cm n) then c else n_chans s k.
  Proof. reflexivity. Qed.

  Lemma get_chan_cm : forall s a b, cm a = cm b -> get_chan cm s a = get_chan cm s b.
  Proof. intros s a b H; unfold get_chan; rewrite H; reflexivity. Qed.

  Lemma detached_cm : forall s a b, cm a = cm b -> detached s a = detached s b.
  Proof. intros s a b H; unfold is_detached; rewrite (get_chan_cm s a b H); reflexivity. Qed.

  Lemma detached_ext : forall s s' n, n_chans s = n_chans s' -> detached s n = detached s' n.
  Proof. intros s s' n H; unfold is_detached, get_chan; rewrite H; reflexivity. Qed.

  Lemma up_get_In : forall up k v, up_get up k = Some v -> In (k, v) up.
  Proof.
    intros up k v; unfold up_get; destruct (find _ up) as [[k' v']|] eqn:E; [|discriminate].
    cbn; intros H; injection H as <-; apply find_some in E as [Hin E]; cbn in E; apply beqb_eq in E as ->; exact Hin.
  Qed.

  Lemma produce_In : forall s t m o x, In x (produce cm me s t m o) ->
    detached s t = false /\ exists id, In id (ids s) /\ x = OFwd id m.
  Proof.
    intros s t m o x; unfold produce; destruct (detached s t); [intros []|].
    intros H; split; [reflexivity|].
    apply in_flat_map in H as [[id e] [Hin H]].
    destruct (negb _ || e); [|destruct H]; destruct H as [<-|[]].
    exists id; split; [|reflexivity]. apply in_map_iff; exists (id, e); auto.
  Qed.

  Lemma forward_In : forall s m x, In x (forward s m) -> exists id, In id (ids s) /\ x = OFwd id m.
  Proof. intros s m x H; unfold forward in H; apply in_map_iff in H as [id [<- H]]; exists id; auto. Qed.

  Lemma by_id_In : forall s o m x, In x (forward_by_id s o m) -> exists id, x = OReply id m.
  Proof.
    intros s o m x H; unfold forward_by_id in H; apply in_flat_map in H as [id [_ H]].
    destruct (_ || _); [|destruct H]; destruct H as [<-|[]]; exists id; reflexivity.
  Qed.

  Lemma attach_In : forall s c x, In x (snd (attach cm s c)) ->
    c_detached c = true /\ exists id, In id (ids s) /\
      (x = OJoin id (c_name c) \/ x = OChannel id (c_name c) \/ x = OBacklog id (c_name c)).
  Proof.
    intros s c x; unfold attach; destruct (c_detached c); cbn [negb]; [|intros []].
    intros H; split; [reflexivity|].
    assert (Hgen : forall u : option (bytes * bool),
      In x (flat_map (fun id => OJoin id (c_name c) :: match u with Some _ => [OChannel id (c_name c)] | None => [] end
                                     ++ [OBacklog id (c_name c)]) (ids s)) ->
      exists id, In id (ids s) /\
      (x = OJoin id (c_name c) \/ x = OChannel id (c_name c) \/ x = OBacklog id (c_name c))).
    { intros u Hu; apply in_flat_map in Hu as [id [Hin Hu]]; exists id; split; [exact Hin|].
      destruct u; cbn in Hu; intuition. }
    destruct (get_up cm s (c_name c)) as [[n [|]]|] eqn:E; cbn [snd] in H.
    - exact (Hgen (Some (n, true)) H).
    - destruct (ids s) as [|i l]; [destruct H|]; destruct H as [<-|[]]; exists i; split; [left; reflexivity|auto].
    - exact (Hgen None H).
  Qed.

  Lemma attach_chans : forall s c k, n_chans (fst (attach cm s c)) k =
    if c_detached c then (if beqb k (cm (c_name c)) then Some (set_detached c false) else n_chans s k) else n_chans s k.
  Proof.
    intros s c k; unfold attach; destruct (c_detached c); cbn [negb]; [|reflexivity].
    destruct (get_up cm s (c_name c)) as [[n [|]]|]; try reflexivity.
    destruct (ids s); reflexivity.
  Qed.
  Lemma attach_up : forall s c, n_up (fst (attach cm s c)) = n_up s.
  Proof.
    intros s c; unfold attach; destruct (c_detached c); cbn [negb]; [|reflexivity].
    destruct (get_up cm s (c_name c)) as [[n [|]]|]; try reflexivity.
    destruct (ids s); reflexivity.
  Qed.
  Lemma attach_clients : forall s c, n_clients (fst (attach cm s c)) = n_clients s.
  Proof.
    intros s c; unfold attach; destruct (c_detached c); cbn [negb]; [|reflexivity].
    destruct (get_up cm s (c_name c)) as [[n [|]]|]; try reflexivity.
    destruct (ids s); reflexivity.
  Qed.
  Lemma attach_panic : forall s c, n_panic s = false -> n_panic (fst (attach cm s c)) = true ->
    c_detached c = true /\ ids s <> [] /\ exists n, get_up cm s (c_name c) = Some (n, false).
  Proof.
    intros s c Hs; unfold attach; destruct (c_detached c); cbn [negb]; [|cbn; congruence].
    destruct (get_up cm s (c_name c)) as [[n [|]]|]; cbn [fst with_chan n_panic]; try congruence.
    destruct (ids s) eqn:E; cbn [fst with_chan n_panic]; [congruence|].
    intros _; split; [reflexivity|]; split; [discriminate|]; exists n; reflexivity.
  Qed.
  Lemma attach_noop : forall s c, c_detached c = false -> attach cm s c = (s, []).
  Proof. intros s c H; unfold attach; rewrite H; reflexivity. Qed.

  Lemma detach_chans : forall s c k, n_chans (fst (detach cm s c)) k =
    if c_detached c then n_chans s k else (if beqb k (cm (c_name c)) then Some (set_detached c true) else n_chans s k).
  Proof. intros s c k; unfold detach; destruct (c_detached c); reflexivity. Qed.
  Lemma detach_up : forall s c, n_up (fst (detach cm s c)) = n_up s.
  Proof. intros s c; unfold detach; destruct (c_detached c); reflexivity. Qed.
  Lemma detach_clients : forall s c, n_clients (fst (detach cm s c)) = n_clients s.
  Proof. intros s c; unfold detach; destruct (c_detached c); reflexivity. Qed.
  Lemma detach_panic : forall s c, n_panic (fst (detach cm s c)) = n_panic s.
  Proof. intros s c; unfold detach; destruct (c_detached c); reflexivity. Qed.
  Lemma detach_In : forall s c x, In x (snd (detach cm s c)) -> exists id, In id (ids s) /\ x = OPart id (c_name c).
  Proof.
    intros s c x; unfold detach; destruct (c_detached c); [intros []|]; cbn [snd].
    intros H; apply in_map_iff in H as [id [<- H]]; exists id; auto.
  Qed.

  (** * Messages *)

  Definition same_but_up (s s' : nstate) : Prop :=
    n_chans s' = n_chans s /\ n_clients s' = n_clients s /\ n_panic s' = n_panic s.
  Lemma sbu_refl : forall s, same_but_up s s.
  Proof. intros s; repeat split. Qed.
  Lemma sbu_trans : forall a b c, same_but_up a b -> same_but_up b c -> same_but_up a c.
  Proof. intros a b c (A1 & A2 & A3) (B1 & B2 & B3); repeat split; congruence. Qed.

  (** What one round of JOIN or PART does. *)
  Definition round_ok (m : message) (f : nstate * list dout * bool -> message -> bytes -> nstate * list dout * bool) : Prop :=
    forall s outs ok ch, exists add,
      same_but_up s (fst (fst (f (s, outs, ok) m ch))) /\ snd (fst (f (s, outs, ok) m ch)) = outs ++ add /\
      (forall x, In x add -> detached s ch = false /\ exists id, In id (ids s) /\ x = OFwd id (with_param0 m ch)).

  Lemma produce_round : forall s u m ch, let s' := with_up s u in
    forall x, In x (produce cm me s' ch m 0) ->
    detached s ch = false /\ exists id, In id (ids s) /\ x = OFwd id m.
  Proof. intros s u m ch s' x H; apply produce_In in H as [H1 H2]; split; [exact H1|exact H2]. Qed.

  Lemma join_round : forall m, round_ok m (on_join1 cm me server).
  Proof.
    intros m s outs ok ch; unfold on_join1.
    destruct ok; cbn [negb]; [|exists []; rewrite app_nil_r; split; [apply sbu_refl|]; split; [reflexivity|intros x []]].
    destruct (n_up s) as [up|] eqn:Eu; [|exists []; rewrite app_nil_r; split; [apply sbu_refl|]; split; [reflexivity|intros x []]].
    destruct (same cm (prefix_name server m) me).
    - eexists; split; [|split; [reflexivity|]]; [repeat split|].
      apply produce_round.
    - destruct (up_get up (cm ch)).
      + eexists; split; [apply sbu_refl|split; [reflexivity|]]. intros x H; exact (produce_In _ _ _ _ _ H).
      + exists []; rewrite app_nil_r; split; [apply sbu_refl|]; split; [reflexivity|intros x []].
  Qed.
  Lemma part_round : forall m, round_ok m (on_part1 cm me server).
  Proof.
    intros m s outs ok ch; unfold on_part1.
    destruct ok; cbn [negb]; [|exists []; rewrite app_nil_r; split; [apply sbu_refl|]; split; [reflexivity|intros x []]].
    destruct (n_up s) as [up|] eqn:Eu; [|exists []; rewrite app_nil_r; split; [apply sbu_refl|]; split; [reflexivity|intros x []]].
    destruct (same cm (prefix_name server m) me).
    - eexists; split; [|split; [reflexivity|]]; [repeat split|].
      apply produce_round.
    - destruct (up_get up (cm ch)).
      + eexists; split; [apply sbu_refl|split; [reflexivity|]]. intros x H; exact (produce_In _ _ _ _ _ H).
      + exists []; rewrite app_nil_r; split; [apply sbu_refl|]; split; [reflexivity|intros x []].
  Qed.

  Lemma rounds : forall m f, round_ok m f -> forall chs s outs ok,
    let r := fold_left (fun x ch => f x m ch) chs (s, outs, ok) in
    same_but_up s (fst (fst r)) /\
    forall x, In x (snd (fst r)) -> In x outs \/
      exists ch id, In ch chs /\ detached s ch = false /\ In id (ids s) /\ x = OFwd id (with_param0 m ch).
  Proof.
    intros m f Hf; induction chs as [|ch chs IH]; intros s outs ok.
    - cbn; split; [apply sbu_refl|auto].
    - cbn [fold_left]. destruct (f (s, outs, ok) m ch) as [[s1 outs1] ok1] eqn:E.
      destruct (Hf s outs ok ch) as (add & Hs & Ho & Hadd). rewrite E in Hs, Ho; cbn [fst snd] in Hs, Ho.
      specialize (IH s1 outs1 ok1); cbn zeta in IH. destruct IH as [IH1 IH2].
      split; [exact (sbu_trans _ _ _ Hs IH1)|].
      destruct Hs as (Hc & Hcl & Hp).
      intros x Hx; destruct (IH2 x Hx) as [Hx'|(ch' & id & H1 & H2 & H3 & H4)].
      + rewrite Ho in Hx'; apply in_app_or in Hx' as [Hx'|Hx']; [left; exact Hx'|right].
        destruct (Hadd x Hx') as (H1 & id & H2 & H3). exists ch, id; repeat split; auto. left; reflexivity.
      + right; exists ch', id; repeat split; auto; [right; exact H1| |].
        * rewrite <- (detached_ext _ _ _ Hc); exact H2.
        * unfold ids in *; rewrite <- Hcl; exact H3.
  Qed.

  Lemma handle_In : forall s c m x, In x (snd (handle_detached cm highlight s c m)) ->
    forall id m', x <> OFwd id m'.
  Proof.
    intros s c m x; unfold handle_detached.
    set (rel := if needs_relay highlight c m && is_text m then map (fun id => ORelay id m) (ids s) else []).
    assert (Hrel : forall x, In x rel -> forall id m', x <> OFwd id m').
    { intros y Hy id m'; unfold rel in Hy; destruct (_ && _); [|destruct Hy].
      apply in_map_iff in Hy as [i [<- _]]; discriminate. }
    destruct (needs_reattach highlight c m); cbn [snd]; [|apply Hrel].
    intros H; apply in_app_or in H as [H|H]; [exact (Hrel x H)|].
    apply attach_In in H as (_ & i & _ & [->| [->| ->]]); discriminate.
  Qed.

  Lemma is_textual : forall m, beqb (m_command m) (B "PRIVMSG") || beqb (m_command m) (B "NOTICE")
    || beqb (m_command m) (B "TAGMSG") = true <-> text_cmd m.
  Proof.
    intros m; unfold text_cmd; rewrite !Bool.orb_true_iff, !beqb_eq; cbn [In]; intuition congruence.
  Qed.

  (** * What is forwarded *)

  Lemma trim_sigils : forall sig c cut, Forall (fun x => In x cut) sig ->
    ~ (exists x r, c = x :: r /\ In x cut) -> trim_left (sig ++ c) cut = c.
  Proof.
    induction sig as [|a sig IH]; intros c cut Hs Hc.
    - cbn [app]. destruct c as [|x r]; [reflexivity|]. cbn [trim_left].
      destruct (amem x cut) eqn:E; [|reflexivity].
      apply amem_In in E; exfalso; apply Hc; exists x, r; auto.
    - inversion Hs as [|? ? Ha Hs']; subst. cbn [app trim_left]. apply amem_In in Ha; rewrite Ha. exact (IH c cut Hs' Hc).
  Qed.

  Lemma channel_untrimmed : forall c, sane cm me service chantypes statusmsg ->
    is_channel chantypes c = true -> ~ (exists x r, c = x :: r /\ In x statusmsg).
  Proof.
    intros c (_ & _ & _ & Hst) Hc (x & r & -> & Hx). cbn in Hc; apply amem_In in Hc. exact (Hst x Hx Hc).
  Qed.

  Lemma no_context_of : forall s m f, no_context m -> context_of cm s m f = None.
  Proof.
    intros s m f H; unfold context_of.
    destruct (find _ (m_tags m)) as [[k v]|] eqn:E; [|reflexivity].
    apply find_some in E as [Hin E]; cbn in E; apply beqb_eq in E; subst k.
    exfalso; apply H; apply in_map_iff; exists (B "+draft/channel-context", v); auto.
  Qed.

  (** The target of a personal text without context. *)
  Lemma on_text_fwd : forall s m o f id m' c, sane cm me service chantypes statusmsg ->
    is_channel chantypes c = true -> personal cm server m -> no_context m ->
    (exists rest sig, m_params m = (sig ++ c) :: rest /\ Forall (fun x => In x statusmsg) sig) ->
    In (OFwd id m') (snd (on_text cm me server service statusmsg highlight s m o f)) ->
    m' = m /\ detached (fst (on_text cm me server service statusmsg highlight s m o f)) c = false.
  Proof.
    intros s m o f id m' c Hsane Hc Hp Hctx (rest & sig & Hpar & Hsig).
    pose proof (channel_untrimmed c Hsane Hc) as Htr.
    destruct Hsane as (Hme & Hstar & Hdol & _).
    destruct Hp as (p & Hp & Hpn).
    unfold on_text, param; rewrite Hpar; cbn [nth_error].
    destruct (negb _ && _); [intros []|].
    rewrite (trim_sigils sig c statusmsg Hsig Htr).
    destruct (same cm (prefix_name server m) service || same cm c service); [intros []|].
    assert (E : same cm (prefix_name server m) server || beqb c (B "*") || has_prefix c (B "$") = false).
    { apply Bool.orb_false_iff; split; [apply Bool.orb_false_iff; split|].
      - unfold same, prefix_name; rewrite Hp; apply beqb_neq; exact Hpn.
      - apply beqb_neq; intros ->. cbn in Hc; apply amem_In in Hc; exact (Hstar Hc).
      - destruct (has_prefix c (B "$")) eqn:E; [|reflexivity]. apply has_prefix_iff in E as [r ->].
        cbn in Hc; apply amem_In in Hc; exfalso; exact (Hdol Hc). }
    rewrite E.
    assert (E2 : same cm me c = false).
    { unfold same; apply beqb_neq; intros E3; destruct (Hme c Hc) as [E4 _]; congruence. }
    rewrite E2, (no_context_of s m f Hctx).
    match goal with |- context [match get_chan cm s c with Some c0 => @?b c0 | None => (s, []) end] =>
      set (r := match get_chan cm s c with Some c0 => b c0 | None => (s, []) end) end.
    cbn beta in r.
    cbn [fst snd]. intros Hin; apply in_app_or in Hin as [Hin|Hin].
    - exfalso. unfold r in Hin. destruct (get_chan cm s c) as [rc|]; [|destruct Hin].
      destruct (_ && c_detached rc); [|destruct Hin].
      exact (handle_In s rc m _ Hin id m' eq_refl).
    - destruct (n_panic (fst r)); [destruct Hin|].
      apply produce_In in Hin as (H1 & i & _ & H2). injection H2 as _ ->. split; [reflexivity|exact H1].
  Qed.

  Lemma step_UMsg_fwd : forall s m o f id m' c, sane cm me service chantypes statusmsg -> filed cm s ->
    is_channel chantypes c = true ->
    In (OFwd id m') (snd (step s (UMsg m o f))) ->
    about m' c \/ (text_cmd m' /\ about_some_of statusmsg m' c) ->
    (text_cmd m' -> personal cm server m' /\ no_context m') ->
    detached (fst (step s (UMsg m o f))) c = false.
  Proof.
    intros s m0 o f id m' c Hsane Hfiled Hc Hin Habout Htext.
    unfold nstep in *. destruct (n_panic s); [destruct Hin|].
    destruct (n_up s) as [up|] eqn:Eu; [|destruct Hin].
    set (m := fill_prefix server m0) in *.
    unfold on_message in *.
    destruct (beqb (m_command m) (B "PRIVMSG") || beqb (m_command m) (B "NOTICE") || beqb (m_command m) (B "TAGMSG")) eqn:Et.
    { assert (Hm : m' = m).
      { unfold on_text in Hin. destruct (param m 0); [|destruct Hin].
        destruct (negb _ && _); [destruct Hin|].
        match type of Hin with context [if ?b then (s, []) else _] => destruct b; [destruct Hin|] end.
        match type of Hin with context [if ?b then (s, produce _ _ _ _ _ _) else _] => destruct b end.
        - apply produce_In in Hin as (_ & i & _ & H); injection H as _ ->; reflexivity.
        - cbn [snd] in Hin; apply in_app_or in Hin as [Hin|Hin].
          + exfalso. destruct (get_chan cm s _) as [rc|] in Hin; [|destruct Hin].
            destruct (_ && c_detached rc) in Hin; [|destruct Hin].
            exact (handle_In s rc m _ Hin id m' eq_refl).
          + destruct (n_panic _) in Hin; [destruct Hin|].
            apply produce_In in Hin as (_ & i & _ & H); injection H as _ ->; reflexivity. }
      subst m'. apply is_textual in Et. destruct (Htext Et) as [Hp Hn].
      refine (proj2 (on_text_fwd s m o f id m c Hsane Hc Hp Hn _ Hin)).
      destruct Habout as [[[_ [rest H]]|[H _]]|[_ (sig & rest & H & Hs & _)]].
      - exists rest, []; split; [exact H|constructor].
      - exfalso. unfold text_cmd in Et; cbn [In] in Et, H.
        destruct Et as [E|[E|[E|[]]]]; rewrite <- E in H; destruct H as [H|[H|[H|[]]]]; discriminate.
      - exists rest, sig; auto. }
    assert (Hnot : ~ text_cmd m) by (rewrite <- is_textual; congruence).
    assert (Hab : forall m1, m_command m1 = m_command m -> about m1 c \/ (text_cmd m1 /\ about_some_of statusmsg m1 c) ->
              about m1 c).
    { intros m1 E [H|[H _]]; [exact H|exfalso; apply Hnot; unfold text_cmd in *; rewrite <- E; exact H]. }
    destruct (beqb (m_command m) (B "JOIN")) eqn:Ej.
    { apply beqb_eq in Ej. destruct (param m 0) as [chans|]; [|destruct Hin].
      destruct (rounds m _ (join_round m) (split_on "," chans) s [] true) as [(Hch & _) Ho].
      destruct (Ho _ Hin) as [[]|(ch & i & _ & Hd & _ & Hx)]. injection Hx as _ ->.
      apply Hab in Habout; [|reflexivity].
      destruct Habout as [[_ [rest H]]|[H _]].
      - cbn in H; injection H as -> _. rewrite (detached_ext _ _ _ Hch); exact Hd.
      - cbn [with_param0 m_command] in H; rewrite Ej in H; cbn [channel_replies In] in H; intuition discriminate. }
    destruct (beqb (m_command m) (B "PART")) eqn:Ep.
    { apply beqb_eq in Ep. destruct (param m 0) as [chans|]; [|destruct Hin].
      destruct (rounds m _ (part_round m) (split_on "," chans) s [] true) as [(Hch & _) Ho].
      destruct (Ho _ Hin) as [[]|(ch & i & _ & Hd & _ & Hx)]. injection Hx as _ ->.
      apply Hab in Habout; [|reflexivity].
      destruct Habout as [[_ [rest H]]|[H _]].
      - cbn in H; injection H as -> _. rewrite (detached_ext _ _ _ Hch); exact Hd.
      - cbn [with_param0 m_command] in H; rewrite Ep in H; cbn [channel_replies In] in H; intuition discriminate. }
    destruct (beqb (m_command m) (B "KICK")) eqn:Ek.
    { apply beqb_eq in Ek. unfold on_kick in *. rewrite Eu in *.
      destruct (m_params m) as [|ch [|nick rest]] eqn:Epar; try (destruct Hin).
      assert (Hres : forall s', In (OFwd id m') (produce cm me s' ch m 0) -> detached s' c = false).
      { intros s' Hi. apply produce_In in Hi as (Hd & i & _ & Hx); injection Hx as _ ->.
        apply Hab in Habout; [|reflexivity].
        destruct Habout as [[_ [r2 H]]|[H _]].
        - rewrite Epar in H; injection H as -> _; exact Hd.
        - rewrite Ek in H; cbn [channel_replies In] in H; intuition discriminate. }
      destruct (same cm nick me); [apply Hres; exact Hin|].
      destruct (up_get up (cm ch)); [apply Hres; exact Hin|destruct Hin]. }
    destruct (beqb (m_command m) (B "TOPIC")) eqn:Eto.
    { apply beqb_eq in Eto. destruct (param m 0) as [name|] eqn:Epar; [|destruct Hin].
      unfold get_up in *; rewrite Eu in *.
      destruct (up_get up (cm name)) as [[n b]|] eqn:Eg; [|destruct Hin].
      apply produce_In in Hin as (Hd & i & _ & Hx); injection Hx as _ ->.
      apply Hab in Habout; [|reflexivity].
      destruct Habout as [[_ [r2 H]]|[H _]].
      - unfold param in Epar; rewrite H in Epar; cbn in Epar; injection Epar as ->.
        cbn [fst]. rewrite <- Hd; apply detached_cm.
        apply up_get_In in Eg. destruct Hfiled as [_ Hf]. specialize (Hf up Eu).
        rewrite Forall_forall in Hf. symmetry; exact (Hf _ Eg).
      - rewrite Eto in H; cbn [channel_replies In] in H; intuition discriminate. }
    destruct (beqb (m_command m) (B "MODE")) eqn:Emo.
    { apply beqb_eq in Emo. unfold on_mode in *.
      destruct (m_params m) as [|name [|md rest]] eqn:Epar; try (destruct Hin).
      assert (Hm : m' = m -> c = name).
      { intros ->. apply Hab in Habout; [|reflexivity].
        destruct Habout as [[_ [r2 H]]|[H _]].
        - rewrite Epar in H; injection H as <- _; reflexivity.
        - rewrite Emo in H; cbn [channel_replies In] in H; intuition discriminate. }
      destruct (is_channel chantypes name) eqn:Ec; cbn [negb] in *.
      - destruct (get_up cm s name); [|destruct Hin].
        destruct (detached s name) eqn:Ed; cbn [negb] in Hin; [rewrite Bool.andb_false_r in Hin; destruct Hin|].
        destruct (_ && _) in Hin; [|destruct Hin].
        apply forward_In in Hin as (i & _ & Hx); injection Hx as _ Hx. rewrite (Hm Hx); exact Ed.
      - cbn [snd] in Hin. destruct (_ && _) in Hin; [|destruct Hin].
        apply forward_In in Hin as (i & _ & Hx); injection Hx as _ Hx. rewrite (Hm Hx) in Hc; congruence. }
    destruct (beqb (m_command m) (B "324") || beqb (m_command m) (B "329") || beqb (m_command m) (B "333")) eqn:Er.
    { unfold on_channel_reply in *. destruct (param m 1) as [name|] eqn:Epar; [|destruct Hin].
      destruct (get_up cm s name).
      - destruct (detached s name) eqn:Ed; cbn [negb] in Hin; [rewrite Bool.andb_false_r in Hin; destruct Hin|].
        destruct (_ && _) in Hin; [|destruct Hin].
        apply forward_In in Hin as (i & _ & Hx); injection Hx as _ ->.
        apply Hab in Habout; [|reflexivity].
        destruct Habout as [[H _]|[_ (a & rest & H)]].
        + exfalso. rewrite !Bool.orb_true_iff, !beqb_eq in Er. cbn [channel_commands In] in H.
          destruct Er as [[E|E]|E]; rewrite E in H; intuition discriminate.
        + unfold param in Epar; rewrite H in Epar; cbn in Epar; injection Epar as ->. exact Ed.
      - apply by_id_In in Hin as [i Hx]; discriminate. }
    destruct (beqb (m_command m) (B "366")).
    { unfold on_end_of_names in Hin. destruct (n_up s); [|destruct Hin]. destruct (param m 1); [|destruct Hin].
      destruct (up_get _ _) as [[n [|]]|]; [destruct Hin| |].
      - cbn [snd] in Hin. destruct (detached _ _) in Hin; [destruct Hin|].
        apply in_map_iff in Hin as (i & Hx & _); discriminate.
      - apply by_id_In in Hin as [i Hx]; discriminate. }
    destruct Hin.
  Qed.

  Lemma step_CSay_fwd : forall s i name m id m' c,
    In (OFwd id m') (snd (step s (CSay i name m))) -> about m' c ->
    detached (fst (step s (CSay i name m))) c = false.
  Proof.
    intros s i name m id m' c Hin Habout. unfold nstep in *. destruct (n_panic s); [destruct Hin|].
    destruct (beqb (m_command m) (B "PRIVMSG") || beqb (m_command m) (B "NOTICE") || beqb (m_command m) (B "TAGMSG")) eqn:Hcmd; [|destruct Hin].
    apply is_textual in Hcmd; unfold text_cmd in Hcmd.
    destruct (n_up s); [|destruct Hin].
    apply produce_In in Hin as (Hd & j & _ & Hx); injection Hx as _ ->.
    destruct Habout as [[_ [rest H]]|[H _]].
    - cbn in H; injection H as -> _; exact Hd.
    - exfalso; cbn [echo_msg m_command] in H. cbn [channel_replies In] in Hcmd, H.
      destruct H as [H|[H|[H|[]]]]; rewrite <- H in Hcmd; intuition discriminate.
  Qed.

  (** * What a text does *)

  Lemma trim_split : forall t cut, exists sig, t = sig ++ trim_left t cut /\ Forall (fun x => In x cut) sig.
  Proof.
    induction t as [|a t IH]; intros cut; [exists []; split; [reflexivity|constructor]|].
    cbn [trim_left]. destruct (amem a cut) eqn:E; [|exists []; split; [reflexivity|constructor]].
    destruct (IH cut) as (sig & H1 & H2). exists (a :: sig); split; [cbn; congruence|].
    constructor; [apply amem_In; exact E|exact H2].
  Qed.

  Lemma on_text_cases : forall s m o f, let r := on_text cm me server service statusmsg highlight s m o f in
    (fst r = s /\ forall x, In x (snd r) -> exists id, x = OFwd id m \/ x = ORelay id m) \/
    (exists buffer c outs outs', get_chan cm s buffer = Some c /\ c_detached c = true /\
       m_command m <> B "TAGMSG" /\ cm (prefix_name server m) <> cm me /\ passes highlight (c_reattach c) false m = true /\
       (no_context m -> addressed cm me statusmsg m buffer) /\
       fst r = fst (attach cm s c) /\ snd r = outs ++ snd (attach cm s c) ++ outs' /\
       (forall x, In x (outs ++ outs') -> exists id, x = OFwd id m \/ x = ORelay id m)).
  Proof.
    intros s m o f; cbn zeta. unfold on_text.
    destruct (param m 0) as [t0|] eqn:Epar; [|left; split; [reflexivity|intros x []]].
    destruct (negb (beqb (m_command m) (B "TAGMSG")) && _); [left; split; [reflexivity|intros x []]|].
    destruct (same cm (prefix_name server m) service || _); [left; split; [reflexivity|intros x []]|].
    destruct (_ || has_prefix _ _).
    { left; split; [reflexivity|]. intros x H; apply produce_In in H as (_ & id & _ & ->); exists id; left; reflexivity. }
    match goal with |- context [get_chan cm s ?b] => set (buffer := b) end.
    destruct (get_chan cm s buffer) as [c|] eqn:Ec.
    2:{ left; cbn [fst snd app]; split; [reflexivity|]. intros x H. destruct (n_panic s); [destruct H|].
        apply produce_In in H as (_ & id & _ & ->); exists id; left; reflexivity. }
    destruct (negb (beqb (m_command m) (B "TAGMSG")) && negb (same cm (prefix_name server m) me) && c_detached c) eqn:Eb.
    2:{ left; cbn [fst snd app]; split; [reflexivity|]. intros x H. destruct (n_panic s); [destruct H|].
        apply produce_In in H as (_ & id & _ & ->); exists id; left; reflexivity. }
    apply Bool.andb_true_iff in Eb as [Eb Ed]; apply Bool.andb_true_iff in Eb as [Et Eme].
    unfold handle_detached.
    set (rel := if needs_relay highlight c m && is_text m then map (fun id => ORelay id m) (ids s) else []).
    assert (Hrel : forall x, In x rel -> exists id, x = OFwd id m \/ x = ORelay id m).
    { intros y Hy; unfold rel in Hy; destruct (_ && _); [|destruct Hy].
      apply in_map_iff in Hy as [i [<- _]]; exists i; right; reflexivity. }
    assert (Hpr : forall s' (b : bool) x, In x (if b then [] else produce cm me s' buffer m o) -> exists id, x = OFwd id m \/ x = ORelay id m).
    { intros s' b x H; destruct b; [destruct H|]. apply produce_In in H as (_ & id & _ & ->); exists id; left; reflexivity. }
    destruct (needs_reattach highlight c m) eqn:Er; cbn [fst snd].
    - right; exists buffer, c, rel, (if n_panic (fst (attach cm s c)) then [] else produce cm me (fst (attach cm s c)) buffer m o).
      split; [exact Ec|]. split; [exact Ed|].
      split. { intros E; rewrite E, beqb_refl in Et; discriminate. }
      split. { apply Bool.negb_true_iff in Eme; unfold same in Eme; apply beqb_neq; exact Eme. }
      split. { unfold needs_reattach in Er; unfold passes; destruct (c_reattach c); try discriminate; exact Er. }
      split.
      { intros Hn. unfold param in Epar; destruct (m_params m) as [|p0 rest] eqn:Em; [discriminate|].
        cbn in Epar; injection Epar as ->. destruct (trim_split t0 statusmsg) as (sig & Hsig & Hall).
        exists sig, (trim_left t0 statusmsg), rest; rewrite <- Hsig; split; [exact Em|]. split; [exact Hall|].
        unfold buffer; rewrite (no_context_of s m f Hn).
        destruct (same cm me (trim_left t0 statusmsg)) eqn:Es; [|left; reflexivity].
        right; unfold same in Es; apply beqb_eq in Es; congruence. }
      split; [reflexivity|]. split; [rewrite app_assoc; reflexivity|].
      intros x H; apply in_app_or in H as [H|H]; [exact (Hrel x H)|exact (Hpr _ _ x H)].
    - left; split; [reflexivity|]. intros x H; apply in_app_or in H as [H|H]; [exact (Hrel x H)|exact (Hpr _ _ x H)].
  Qed.

  (** Other messages do not touch the records. *)
  Definition quiet_out (m : message) (x : dout) : Prop :=
    (exists id, x = OFwd id m) \/ (exists id, x = OReply id m).

  Inductive umsg_shape (s : nstate) (m : message) : nstate * list dout -> Prop :=
  | us_text f o : text_cmd m -> umsg_shape s m (on_text cm me server service statusmsg highlight s m o f)
  | us_join chans : m_command m = B "JOIN" -> param m 0 = Some chans ->
      umsg_shape s m (fst (fold_left (fun x ch => on_join1 cm me server x m ch) (split_on "," chans) (s, [], true)))
  | us_part chans : m_command m = B "PART" -> param m 0 = Some chans ->
      umsg_shape s m (fst (fold_left (fun x ch => on_part1 cm me server x m ch) (split_on "," chans) (s, [], true)))
  | us_kick : m_command m = B "KICK" -> umsg_shape s m (on_kick cm me s m)
  | us_names o : m_command m = B "366" -> umsg_shape s m (on_end_of_names cm s m o)
  | us_nothing : umsg_shape s m (s, [])
  | us_other outs : m_command m <> B "JOIN" -> m_command m <> B "PART" -> m_command m <> B "KICK" -> 
      ~ text_cmd m ->
      (forall x, In x outs -> quiet_out m x) -> umsg_shape s m (s, outs).

  Lemma on_message_shape : forall s m o f, umsg_shape s m (on_message cm me server service chantypes statusmsg highlight s m o f).
  Proof.
    intros s m o f; unfold on_message.
    destruct (beqb (m_command m) (B "PRIVMSG") || beqb (m_command m) (B "NOTICE") || beqb (m_command m) (B "TAGMSG")) eqn:Et.
    { apply us_text; apply is_textual; exact Et. }
    assert (Hnt : ~ text_cmd m) by (rewrite <- is_textual; congruence).
    destruct (beqb_spec (m_command m) (B "JOIN")) as [Ej|Ej].
    { destruct (param m 0) as [chans|] eqn:Ep; [apply us_join; assumption|apply us_nothing]. }
    destruct (beqb_spec (m_command m) (B "PART")) as [Ep|Ep].
    { destruct (param m 0) as [chans|] eqn:Epp; [apply us_part; assumption|apply us_nothing]. }
    destruct (beqb_spec (m_command m) (B "KICK")) as [Ek|Ek]; [apply us_kick; exact Ek|].
    assert (Hfw : forall (b : bool) x, In x (if b then forward s m else []) -> quiet_out m x).
    { intros b x H; destruct b; [|destruct H]. apply forward_In in H as (id & _ & ->); left; exists id; reflexivity. }
    assert (Hby : forall x, In x (forward_by_id s o m) -> quiet_out m x).
    { intros x H; apply by_id_In in H as [id ->]; right; exists id; reflexivity. }
    destruct (beqb (m_command m) (B "TOPIC")).
    { destruct (param m 0); [|apply us_nothing]. destruct (get_up cm s _) as [[n b]|]; [|apply us_nothing].
      apply us_other; try assumption. intros x H; apply produce_In in H as (_ & id & _ & ->); left; exists id; reflexivity. }
    destruct (beqb (m_command m) (B "MODE")).
    { unfold on_mode. destruct (m_params m) as [|name [|md r]]; try apply us_nothing.
      destruct (negb _); [apply us_other; try assumption; apply Hfw|].
      destruct (get_up cm s name); [|apply us_nothing]. apply us_other; try assumption; apply Hfw. }
    destruct (_ || beqb (m_command m) (B "333")).
    { unfold on_channel_reply. destruct (param m 1); [|apply us_nothing].
      destruct (get_up cm s _); (apply us_other; [assumption|assumption|assumption|assumption|]); [apply Hfw|apply Hby]. }
    destruct (beqb_spec (m_command m) (B "366")) as [E6|E6]; [apply us_names; exact E6|apply us_nothing].
  Qed.

  Lemma on_kick_shape : forall s m, let r := on_kick cm me s m in
    same_but_up s (fst r) /\ (forall x, In x (snd r) -> exists id ch nick rest,
       In id (ids s) /\ m_params m = ch :: nick :: rest /\ detached s ch = false /\ x = OFwd id m) /\
    (fst r = s /\ (forall ch nick rest, m_params m = ch :: nick :: rest -> same cm nick me = false \/ snd r = []) \/
     exists ch nick rest up, m_params m = ch :: nick :: rest /\ n_up s = Some up /\ same cm nick me = true /\ n_up (fst r) = Some (up_del up (cm ch))).
  Proof.
    intros s m; cbn zeta; unfold on_kick.
    destruct (n_up s) as [up|] eqn:Eu.
    2:{ destruct (m_params m) as [|ch [|nick rest]]; (split; [apply sbu_refl|split; [intros x []|left; split; [reflexivity|intros; right; reflexivity]]]). }
    destruct (m_params m) as [|ch [|nick rest]] eqn:Em;
      try (split; [apply sbu_refl|split; [intros x []|left; split; [reflexivity|intros; right; reflexivity]]]).
    destruct (same cm nick me) eqn:Es.
    - cbn [fst snd]. split; [repeat split|]. split.
      + intros x H. apply produce_round in H as (Hd & id & Hi & ->).
        exists id, ch, nick, rest; repeat split; auto.
      + right; exists ch, nick, rest, up; repeat split; auto.
    - destruct (up_get up (cm ch)).
      + split; [apply sbu_refl|]. split.
        * intros x H. apply produce_In in H as (Hd & id & Hi & ->). exists id, ch, nick, rest; repeat split; auto.
        * left; split; [reflexivity|]. intros a b c H; injection H as <- <- <-; left; exact Es.
      + split; [apply sbu_refl|split; [intros x []|left; split; [reflexivity|intros; right; reflexivity]]].
  Qed.

  Lemma on_names_shape : forall s m o, let r := on_end_of_names cm s m o in
    same_but_up s (fst r) /\ (forall x, In x (snd r) -> (exists id n, x = OChannel id n) \/ (exists id, x = OReply id m)) /\
    (fst r = s \/ exists up up', n_up s = Some up /\ n_up (fst r) = Some up' /\
       forall k n b, In (k, (n, b)) up' -> exists n' b', In (k, (n', b')) up /\ (In (k, (n, b')) up \/ exists k', In (k', (n, b')) up /\ k' = k)).
  Proof.
    intros s m o; cbn zeta; unfold on_end_of_names.
    destruct (n_up s) as [up|] eqn:Eu; [|split; [apply sbu_refl|split; [intros x []|left; reflexivity]]].
    destruct (param m 1) as [name|]; [|split; [apply sbu_refl|split; [intros x []|left; reflexivity]]].
    destruct (up_get up (cm name)) as [[n [|]]|] eqn:Eg.
    - split; [apply sbu_refl|split; [intros x []|left; reflexivity]].
    - cbn [fst snd]. split; [repeat split|]. split.
      + intros x H; left. destruct (detached _ name); [destruct H|].
        apply in_map_iff in H as (id & <- & _); exists id, n; reflexivity.
      + right; eexists up, _; split; [reflexivity|]. split; [reflexivity|].
        intros k n0 b H. apply in_map_iff in H as ([k1 [n1 b1]] & E & Hin). cbn [fst] in E.
        destruct (beqb_spec k1 (cm name)) as [->|Hk].
        * apply (f_equal (fun p : bytes * (bytes * bool) => (fst p, fst (snd p)))) in E; cbn in E.
          apply pair_equal_spec in E as [<- <-].
          apply up_get_In in Eg. exists n, false. split; [exact Eg|left; exact Eg].
        * injection E as <- <- <-. exists n1, b1; auto.
    - cbn [fst snd]. split; [apply sbu_refl|]. split; [|left; reflexivity].
      intros x H; right; apply by_id_In in H; exact H.
  Qed.

  (** * The records are found by their names *)

  Lemma filed_sbu : forall s s', same_but_up s s' -> filed cm s ->
    (forall up, n_up s' = Some up -> Forall (fun p => cm (fst (snd p)) = fst p) up) -> filed cm s'.
  Proof. intros s s' (H1 & _) [Hc _] Hu; split; [rewrite H1; exact Hc|exact Hu]. Qed.

  Lemma filed_with_chan : forall s name o, filed cm s -> (forall c, o = Some c -> cm (c_name c) = cm name) ->
    filed cm (with_chan cm s name o).
  Proof.
    intros s name o [Hc Hu] Ho; split; [|exact Hu].
    intros k c; rewrite with_chan_get. destruct (beqb_spec k (cm name)) as [->|_]; [apply Ho|apply Hc].
  Qed.

  Lemma filed_attach : forall s c, filed cm s -> filed cm (fst (attach cm s c)).
  Proof.
    intros s c [Hc Hu]; split.
    - intros k c'; rewrite attach_chans. destruct (c_detached c); [|apply Hc].
      destruct (beqb_spec k (cm (c_name c))) as [->|_]; [|apply Hc]. intros H; injection H as <-; reflexivity.
    - rewrite attach_up; exact Hu.
  Qed.
  Lemma filed_detach : forall s c, filed cm s -> filed cm (fst (detach cm s c)).
  Proof.
    intros s c [Hc Hu]; split.
    - intros k c'; rewrite detach_chans. destruct (c_detached c); [apply Hc|].
      destruct (beqb_spec k (cm (c_name c))) as [->|_]; [|apply Hc]. intros H; injection H as <-; reflexivity.
    - rewrite detach_up; exact Hu.
  Qed.

  Lemma fold_inv : forall (X : Type) (I : X -> Prop) (f : X -> bytes -> X) l x,
    I x -> (forall x ch, I x -> I (f x ch)) -> I (fold_left f l x).
  Proof. intros X I f l; induction l as [|a l IH]; intros x Hx Hf; [exact Hx|]. cbn [fold_left]. apply IH; auto. Qed.

  Lemma up_del_In : forall up k p, In p (up_del up k) <-> In p up /\ fst p <> k.
  Proof.
    intros up k p; unfold up_del; rewrite filter_In, Bool.negb_true_iff, <- beqb_neq; reflexivity.
  Qed.

  Lemma filed_join1 : forall m x ch, filed cm (fst (fst x)) -> filed cm (fst (fst (on_join1 cm me server x m ch))).
  Proof.
    intros m [[s outs] ok] ch [Hc Hu]; cbn [fst] in *. unfold on_join1. destruct ok; cbn [negb]; [|split; assumption].
    destruct (n_up s) as [up|] eqn:Eu; [|split; cbn; [assumption|rewrite Eu; discriminate]].
    destruct (same cm (prefix_name server m) me).
    - split; [exact Hc|]. cbn. intros up' H; injection H as <-. constructor; [reflexivity|].
      specialize (Hu up eq_refl). rewrite Forall_forall in *. intros p Hp; apply up_del_In in Hp as [Hp _]; auto.
    - destruct (up_get up (cm ch)); (split; cbn; [assumption|rewrite Eu; assumption]).
  Qed.
  Lemma filed_part1 : forall m x ch, filed cm (fst (fst x)) -> filed cm (fst (fst (on_part1 cm me server x m ch))).
  Proof.
    intros m [[s outs] ok] ch [Hc Hu]; cbn [fst] in *. unfold on_part1. destruct ok; cbn [negb]; [|split; assumption].
    destruct (n_up s) as [up|] eqn:Eu; [|split; cbn; [assumption|rewrite Eu; discriminate]].
    destruct (same cm (prefix_name server m) me).
    - split; [exact Hc|]. cbn. intros up' H; injection H as <-.
      specialize (Hu up eq_refl). rewrite Forall_forall in *. intros p Hp; apply up_del_In in Hp as [Hp _]; auto.
    - destruct (up_get up (cm ch)); (split; cbn; [assumption|rewrite Eu; assumption]).
  Qed.

  Lemma filed_message : forall s m r, umsg_shape s m r -> filed cm s -> filed cm (fst r).
  Proof.
    intros s m r H Hf. destruct H as [f o Ht|chans Hj Hp|chans Hp Hpp|Hk|o H6| |outs _ _ _ _ _].
    - destruct (on_text_cases s m o f) as [[-> _]|(b & c & o1 & o2 & _ & _ & _ & _ & _ & _ & -> & _)]; [exact Hf|].
      apply filed_attach; exact Hf.
    - apply (fold_inv _ (fun x => filed cm (fst (fst x)))); [exact Hf|]. intros x ch; apply filed_join1.
    - apply (fold_inv _ (fun x => filed cm (fst (fst x)))); [exact Hf|]. intros x ch; apply filed_part1.
    - destruct (on_kick_shape s m) as (Hs & _ & [[-> _]|(ch & nick & rest & up & _ & Eu & _ & Eu')]); [exact Hf|].
      apply (filed_sbu s); [exact Hs|exact Hf|]. intros up' H; rewrite Eu' in H; injection H as <-.
      destruct Hf as [_ Hu]; specialize (Hu up Eu). rewrite Forall_forall in *.
      intros p Hp; apply up_del_In in Hp as [Hp _]; auto.
    - destruct (on_names_shape s m o) as (Hs & _ & [->|(up & up' & Eu & Eu' & Hup)]); [exact Hf|].
      apply (filed_sbu s); [exact Hs|exact Hf|]. intros up2 H; rewrite Eu' in H; injection H as <-.
      destruct Hf as [_ Hu]; specialize (Hu up Eu). rewrite Forall_forall in *.
      intros [k [n b]] Hp; destruct (Hup k n b Hp) as (n' & b' & _ & [Hin|(k' & Hin & ->)]); exact (Hu _ Hin).
    - exact Hf.
    - exact Hf.
  Qed.

  Lemma filed_step : forall s e, filed cm s -> filed cm (fst (step s e)).
  Proof.
    intros s e Hf; unfold nstep. destruct (n_panic s); [exact Hf|].
    destruct e as [| |m o f|id echo|id|name|name dbok|name|id name m|name|name rl ra|name dt rl ra|name dbok].
    - destruct Hf as [Hc _]; split; [exact Hc|]. cbn. intros up H; injection H as <-; constructor.
    - destruct Hf as [Hc _]; split; [exact Hc|]. cbn; discriminate.
    - destruct (n_up s); [|exact Hf]. eapply filed_message; [apply on_message_shape|exact Hf].
    - exact Hf.
    - exact Hf.
    - destruct (n_up s); [|exact Hf]. destruct (negb _); [exact Hf|].
      destruct (get_chan cm s name) as [c|]; [apply filed_attach; exact Hf|].
      apply filed_with_chan; [exact Hf|]. intros c H; injection H as <-; reflexivity.
    - destruct (n_up s); [|exact Hf]. unfold delete_channel. destruct (get_chan cm s name); [|exact Hf].
      destruct dbok; [|exact Hf]. apply filed_with_chan; [exact Hf|discriminate].
    - destruct (n_up s); [|exact Hf].
      destruct (get_chan cm s name) as [c|]; [apply filed_detach; exact Hf|].
      apply filed_with_chan; [exact Hf|]. intros c H; injection H as <-; reflexivity.
    - destruct (_ || _); [|exact Hf]. destruct (n_up s); exact Hf.
    - destruct (get_chan cm s name) as [c|]; [apply filed_detach; exact Hf|exact Hf].
    - destruct (get_chan cm s name); [exact Hf|].
      match goal with |- context [if ?b then (s, []) else _] => destruct b; [exact Hf|] end.
      apply filed_with_chan; [exact Hf|]. intros c H; injection H as <-; reflexivity.
    - destruct (get_chan cm s name) as [c|]; [|exact Hf]. cbn zeta.
      assert (Hf' : filed cm (with_chan cm s (c_name c) (Some (Chrec (c_name c) (c_detached c) (from_opt (c_relay c) rl) (from_opt (c_reattach c) ra))))).
      { apply filed_with_chan; [exact Hf|]. intros c0 H; injection H as <-; reflexivity. }
      destruct dt as [[|]|]; [apply filed_detach; exact Hf'|apply filed_attach; exact Hf'|exact Hf'].
    - cbn [fst]. unfold delete_channel. destruct (get_chan cm s name); [|exact Hf].
      destruct dbok; [|exact Hf]. apply filed_with_chan; [exact Hf|discriminate].
  Qed.

  Lemma filed_loaded : forall l, filed cm (nloaded cm l).
  Proof.
    intros l; split; [|discriminate]. cbn. intros k c H; apply find_some in H as [_ H]; apply beqb_eq in H; exact H.
  Qed.

  Lemma filed_run : forall es s, filed cm s -> filed cm (fst (run s es)).
  Proof. induction es as [|e es IH]; intros s Hs; [exact Hs|]. cbn. apply IH, filed_step, Hs. Qed.

  (** * When a channel is attached again *)

  Lemma UMsg_chans : forall s m r, umsg_shape s m r -> n_chans (fst r) = n_chans s \/
    exists buffer c, get_chan cm s buffer = Some c /\ c_detached c = true /\ text_cmd m /\ m_command m <> B "TAGMSG" /\
      cm (prefix_name server m) <> cm me /\ passes highlight (c_reattach c) false m = true /\
      (no_context m -> addressed cm me statusmsg m buffer) /\ fst r = fst (attach cm s c).
  Proof.
    intros s m r H. destruct H as [f o Ht|chans Hj Hp|chans Hp Hpp|Hk|o H6| |outs _ _ _ _ _].
    - destruct (on_text_cases s m o f) as [[-> _]|(b & c & o1 & o2 & H1 & H2 & H3 & H4 & H5 & H5' & H6 & _)]; [left; reflexivity|].
      right; exists b, c; repeat split; auto.
    - left. destruct (rounds m _ (join_round m) (split_on "," chans) s [] true) as [(Hch & _) _]. exact Hch.
    - left. destruct (rounds m _ (part_round m) (split_on "," chans) s [] true) as [(Hch & _) _]. exact Hch.
    - left. destruct (on_kick_shape s m) as ((H & _) & _); exact H.
    - left. destruct (on_names_shape s m o) as ((H & _) & _); exact H.
    - left; reflexivity.
    - left; reflexivity.
  Qed.

  Lemma reattached : forall s e name c c', filed cm s ->
    get_chan cm s name = Some c -> c_detached c = true ->
    get_chan cm (fst (step s e)) name = Some c' -> c_detached c' = false ->
    (exists n, e = CJoin n /\ cm n = cm name) \/
    (exists n rl ra, e = SUpdate n (Some false) rl ra /\ cm n = cm name) \/
    (exists m o f, e = UMsg m o f /\ In (m_command m) [B "PRIVMSG"; B "NOTICE"] /\
       cm (prefix_name server m) <> cm me /\ passes highlight (c_reattach c) false (fill_prefix server m) = true /\
       (no_context m -> addressed cm me statusmsg m name)).
  Proof.
    intros s e name c c' Hf Hg Hd Hg' Hd'. change (n_chans (fst (step s e)) (cm name) = Some c') in Hg'. unfold get_chan in Hg. unfold nstep in Hg'.
    destruct (n_panic s); [cbn [fst] in Hg'; congruence|].
    assert (Hatt : forall b c0, get_chan cm s b = Some c0 -> cm b <> cm name ->
              n_chans (fst (attach cm s c0)) (cm name) = Some c' -> False).
    { intros b c0 Hb Hne H. rewrite attach_chans in H. destruct (c_detached c0); [|congruence].
      destruct Hf as [Hf _]. rewrite (Hf _ _ Hb) in H. destruct (beqb_spec (cm name) (cm b)); [congruence|congruence]. }
    assert (Hdet : forall s0 c0, n_chans s0 (cm name) = Some c -> n_chans (fst (detach cm s0 c0)) (cm name) = Some c' -> False).
    { intros s0 c0 Hs0 H. rewrite detach_chans in H. destruct (c_detached c0); [congruence|].
      destruct (beqb (cm name) _); [|congruence]. injection H as <-. discriminate Hd'. }
    destruct e as [| |m o f|id echo|id|n|n dbok|n|id n m|n|n rl ra|n dt rl ra|n dbok].
    - cbn in Hg'; congruence.
    - cbn in Hg'; congruence.
    - destruct (n_up s); [|cbn in Hg'; congruence].
      pose proof (on_message_shape s (fill_prefix server m) o f) as Hsh. apply UMsg_chans in Hsh.
      destruct Hsh as [Hsh|(b & c0 & H1 & H2 & H3 & H4 & H5 & H6 & H6' & H7)]; [rewrite Hsh in Hg'; congruence|].
      rewrite H7 in Hg'. destruct (bytes_dec (cm b) (cm name)) as [Eb|Eb]; [|exfalso; exact (Hatt b c0 H1 Eb Hg')].
      right; right. exists m, o, f; split; [reflexivity|].
      unfold get_chan in H1; rewrite Eb, Hg in H1; injection H1 as <-.
      assert (Ecm : m_command (fill_prefix server m) = m_command m) by (unfold fill_prefix; destruct (m_prefix m); reflexivity).
      assert (Epn : prefix_name server (fill_prefix server m) = prefix_name server m).
      { unfold fill_prefix, prefix_name; destruct (m_prefix m) eqn:E; [rewrite E|]; reflexivity. }
      rewrite Ecm in H4; rewrite Epn in H5. unfold text_cmd in H3; rewrite Ecm in H3.
      split; [cbn [In] in *; intuition congruence|]. split; [exact H5|]. split; [exact H6|].
      assert (Epa : m_params (fill_prefix server m) = m_params m) by (unfold fill_prefix; destruct (m_prefix m); reflexivity).
      assert (Eta : m_tags (fill_prefix server m) = m_tags m) by (unfold fill_prefix; destruct (m_prefix m); reflexivity).
      unfold no_context in *; rewrite Eta in H6'. intros Hn; destruct (H6' Hn) as (sg & t & rest & Ha & Hb & Hc').
      rewrite Epa in Ha. exists sg, t, rest; split; [exact Ha|]. split; [exact Hb|]. rewrite <- Eb; exact Hc'.
    - cbn in Hg'; congruence.
    - cbn in Hg'; congruence.
    - destruct (n_up s); [|cbn in Hg'; congruence]. destruct (negb _); [cbn in Hg'; congruence|].
      destruct (bytes_dec (cm n) (cm name)) as [En|En]; [left; exists n; auto|exfalso].
      destruct (get_chan cm s n) as [c0|] eqn:Ec; [exact (Hatt n c0 Ec En Hg')|].
      cbn [fst] in Hg'; rewrite with_chan_get in Hg'. destruct (beqb_spec (cm name) (cm n)); congruence.
    - exfalso. destruct (n_up s); [|cbn in Hg'; congruence]. cbn [fst] in Hg'. unfold delete_channel in Hg'.
      destruct (get_chan cm s n); [|congruence]. destruct dbok; [|congruence].
      rewrite with_chan_get in Hg'. destruct (beqb (cm name) (cm n)); congruence.
    - exfalso. destruct (n_up s); [|cbn in Hg'; congruence].
      destruct (get_chan cm s n) as [c0|] eqn:Ec; [exact (Hdet s c0 Hg Hg')|].
      cbn [fst] in Hg'; rewrite with_chan_get in Hg'. destruct (beqb (cm name) (cm n)); [|congruence].
      injection Hg' as <-; discriminate Hd'.
    - exfalso. destruct (_ || _); [|cbn in Hg'; congruence]. destruct (n_up s); cbn in Hg'; congruence.
    - exfalso. destruct (get_chan cm s n) as [c0|] eqn:Ec; [exact (Hdet s c0 Hg Hg')|cbn in Hg'; congruence].
    - exfalso. destruct (get_chan cm s n) as [c0|] eqn:Ec; [cbn in Hg'; congruence|].
      match type of Hg' with context [if ?b then (s, []) else _] => destruct b; [cbn in Hg'; congruence|] end.
      cbn [fst] in Hg'; rewrite with_chan_get in Hg'. destruct (beqb_spec (cm name) (cm n)) as [E|]; [|congruence].
      unfold get_chan in Ec; rewrite <- E in Ec; congruence.
    - destruct (get_chan cm s n) as [c0|] eqn:Ec; [|cbn in Hg'; congruence]. cbn zeta in Hg'.
      set (c1 := Chrec (c_name c0) (c_detached c0) (from_opt (c_relay c0) rl) (from_opt (c_reattach c0) ra)) in *.
      pose proof (proj1 Hf _ _ Ec) as Hn.
      destruct (bytes_dec (cm n) (cm name)) as [En|En].
      + destruct dt as [[|]|].
        * exfalso. rewrite detach_chans, with_chan_get in Hg'.
          unfold get_chan in Ec; rewrite En, Hg in Ec; injection Ec as <-.
          unfold c1 in Hg' at 1; cbn [c_detached] in Hg'; rewrite Hd in Hg'.
          change (c_name c1) with (c_name c) in Hg'. rewrite Hn, En, beqb_refl in Hg'. injection Hg' as <-. cbn in Hd'; congruence.
        * right; left; exists n, rl, ra; auto.
        * exfalso. cbn [fst] in Hg'; rewrite with_chan_get in Hg'; change (c_name c1) with (c_name c0) in Hg'; rewrite Hn, En, beqb_refl in Hg'. injection Hg' as <-.
          unfold get_chan in Ec; rewrite En, Hg in Ec; injection Ec as <-. cbn in Hd'; congruence.
      + exfalso. assert (Hw : n_chans (with_chan cm s (c_name c0) (Some c1)) (cm name) = Some c).
        { rewrite with_chan_get; change (c_name c1) with (c_name c0); rewrite Hn. destruct (beqb_spec (cm name) (cm n)); [congruence|exact Hg]. }
        destruct dt as [[|]|].
        * exact (Hdet _ c1 Hw Hg').
        * change (c_name c0) with (c_name c1) in Hw. rewrite attach_chans in Hg'. destruct (c_detached c1); [|congruence].
          destruct (beqb_spec (cm name) (cm (c_name c1))) as [E|]; [|congruence].
          cbn in E; congruence.
        * change (c_name c0) with (c_name c1) in Hw. cbn [fst] in Hg'; congruence.
    - exfalso. cbn [fst] in Hg'. unfold delete_channel in Hg'.
      destruct (get_chan cm s n); [|congruence]. destruct dbok; [|congruence].
      rewrite with_chan_get in Hg'. destruct (beqb (cm name) (cm n)); congruence.
  Qed.

  (** * The relayed texts *)

  Lemma relay_exact : forall s m o f c r, sane cm me service chantypes statusmsg -> n_panic s = false -> n_up s <> None ->
    is_channel chantypes c = true ->
    get_chan cm s c = Some r -> c_detached r = true -> cm (c_name r) = cm c ->
    In (m_command m) [B "PRIVMSG"; B "NOTICE"] ->
    personal cm server m -> cm (prefix_name server m) <> cm me -> cm (prefix_name server m) <> cm service -> no_context m ->
    (exists rest sig t, m_params m = (sig ++ c) :: t :: rest /\ Forall (fun x => In x statusmsg) sig) ->
    let relays := if passes highlight (c_relay r) true m then map (fun id => ORelay id m) (ids s) else [] in
    (passes highlight (c_reattach r) false m = false -> step s (UMsg m o f) = (s, relays)) /\
    (passes highlight (c_reattach r) false m = true -> (forall n, get_up cm s c <> Some (n, false)) ->
     snd (step s (UMsg m o f)) = relays ++
       flat_map (fun id => [OJoin id (c_name r)] ++ match get_up cm s c with Some _ => [OChannel id (c_name r)] | None => [] end
                           ++ [OBacklog id (c_name r)]) (ids s) ++ map (fun id => OFwd id m) (ids s)).
  Proof.
    intros s m o f c r Hsane Hpan Hup Hc Hr Hd Hrn Hcmd Hper Hnme Hnsv Hctx (rest & sig & t & Hpar & Hsig) relays.
    pose proof (channel_untrimmed c Hsane Hc) as Htr.
    destruct Hsane as (Hme & Hstar & Hdol & _).
    destruct Hper as (p & Hp & Hpn).
    assert (Efill : fill_prefix server m = m) by (unfold fill_prefix; rewrite Hp; reflexivity).
    assert (Etag : beqb (m_command m) (B "TAGMSG") = false).
    { apply beqb_neq; intros E; rewrite E in Hcmd; cbn [In] in Hcmd; destruct Hcmd as [H|[H|[]]]; discriminate. }
    assert (Etxt : is_text m = true).
    { unfold is_text; cbn [In] in Hcmd; destruct Hcmd as [<-|[<-|[]]]; rewrite beqb_refl; [reflexivity|apply Bool.orb_true_r]. }
    assert (E1 : step s (UMsg m o f) = on_text cm me server service statusmsg highlight s m o f).
    { unfold nstep; rewrite Hpan. destruct (n_up s); [|congruence]. rewrite Efill. unfold on_message.
      fold (is_text m); rewrite Etxt; reflexivity. }
    assert (E2 : on_text cm me server service statusmsg highlight s m o f =
      let r0 := handle_detached cm highlight s r m in
      (fst r0, snd r0 ++ if n_panic (fst r0) then [] else produce cm me (fst r0) c m o)).
    { unfold on_text, param; rewrite Hpar; cbn [nth_error length Nat.ltb Nat.leb]. rewrite Bool.andb_false_r.
      rewrite (trim_sigils sig c statusmsg Hsig Htr).
      assert (E0 : same cm (prefix_name server m) service || same cm c service = false).
      { unfold same; apply Bool.orb_false_iff; split; apply beqb_neq; [exact Hnsv|destruct (Hme c Hc); assumption]. }
      rewrite E0.
      assert (E : same cm (prefix_name server m) server || beqb c (B "*") || has_prefix c (B "$") = false).
      { apply Bool.orb_false_iff; split; [apply Bool.orb_false_iff; split|].
        - unfold same, prefix_name; rewrite Hp; apply beqb_neq; exact Hpn.
        - apply beqb_neq; intros ->. cbn in Hc; apply amem_In in Hc; exact (Hstar Hc).
        - destruct (has_prefix c (B "$")) eqn:E; [|reflexivity]. apply has_prefix_iff in E as [r' ->].
          cbn in Hc; apply amem_In in Hc; exfalso; exact (Hdol Hc). }
      rewrite E.
      assert (E2 : same cm me c = false).
      { unfold same; apply beqb_neq; intros E3; destruct (Hme c Hc) as [E4 _]; congruence. }
      rewrite E2, (no_context_of s m f Hctx), Hr, Etag, Hd.
      assert (E3 : same cm (prefix_name server m) me = false) by (unfold same; apply beqb_neq; exact Hnme).
      rewrite E3; cbn [negb andb]. reflexivity. }
    rewrite E1, E2; cbn zeta. clear E1 E2.
    assert (Erel : (if needs_relay highlight r m && is_text m then map (fun id => ORelay id m) (ids s) else []) = relays).
    { unfold relays, needs_relay, passes; rewrite Etxt, Bool.andb_true_r. destruct (c_relay r); reflexivity. }
    assert (Ere : needs_reattach highlight r m = passes highlight (c_reattach r) false m).
    { unfold needs_reattach, passes; destruct (c_reattach r); reflexivity. }
    unfold handle_detached; rewrite Erel, Ere.
    split; intros Hpass; rewrite Hpass; cbn [fst snd].
    - rewrite Hpan. unfold produce, is_detached; rewrite Hr, Hd, app_nil_r; reflexivity.
    - intros Hcomp.
      assert (Eg : get_up cm s (c_name r) = get_up cm s c) by (unfold get_up; rewrite Hrn; reflexivity).
      assert (Eatt : attach cm s r = (with_chan cm s (c_name r) (Some (set_detached r false)),
        flat_map (fun id => OJoin id (c_name r) :: match get_up cm s c with Some _ => [OChannel id (c_name r)] | None => [] end
                                     ++ [OBacklog id (c_name r)]) (ids s))).
      { unfold attach; rewrite Hd, Eg; cbn [negb]. destruct (get_up cm s c) as [[n [|]]|] eqn:E; [reflexivity| |reflexivity].
        exfalso; exact (Hcomp n eq_refl). }
      rewrite Eatt; cbn [fst snd]. cbn [with_chan n_panic]. rewrite Hpan, <- app_assoc. f_equal. f_equal.
      unfold produce, is_detached, get_chan. cbn [n_chans n_clients]. rewrite with_chan_get, Hrn, beqb_refl.
      cbn [set_detached c_detached].
      assert (Efu : from_us cm me m = false) by (unfold from_us, same; rewrite Hp; unfold prefix_name in Hnme; rewrite Hp in Hnme; apply beqb_neq; exact Hnme).
      unfold ids. cbn [with_chan n_clients]. induction (n_clients s) as [|[id e] l IH]; [reflexivity|].
      cbn [flat_map map fst]. rewrite IH, Efu, Bool.andb_false_r; reflexivity.
  Qed.

  (** * Attaching a channel whose members are being listed *)

  Lemma UMsg_panic : forall s m r, umsg_shape s m r -> n_panic s = false -> n_panic (fst r) = true ->
    exists buffer c, get_chan cm s buffer = Some c /\ n_panic (fst (attach cm s c)) = true.
  Proof.
    intros s m r H Hp Hr. destruct H as [f o Ht|chans Hj Hpp|chans Hpp Hppp|Hk|o H6| |outs _ _ _ _ _].
    - destruct (on_text_cases s m o f) as [[E _]|(b & c & o1 & o2 & H1 & H2 & H3 & H4 & H5 & H5' & H6 & _)]; [congruence|].
      exists b, c; split; [exact H1|congruence].
    - exfalso. destruct (rounds m _ (join_round m) (split_on "," chans) s [] true) as [(_ & _ & E) _]. congruence.
    - exfalso. destruct (rounds m _ (part_round m) (split_on "," chans) s [] true) as [(_ & _ & E) _]. congruence.
    - exfalso. destruct (on_kick_shape s m) as ((_ & _ & E) & _); congruence.
    - exfalso. destruct (on_names_shape s m o) as ((_ & _ & E) & _); congruence.
    - cbn in Hr; congruence.
    - cbn in Hr; congruence.
  Qed.

  Lemma panic_cause : forall s e, filed cm s -> n_panic s = false -> n_panic (fst (step s e)) = true ->
    exists name n, detached s name = true /\ get_up cm s name = Some (n, false) /\ ids s <> [].
  Proof.
    intros s e Hf Hp H. unfold nstep in H; rewrite Hp in H.
    assert (Hatt : forall name c, get_chan cm s name = Some c -> n_panic (fst (attach cm s c)) = true ->
      exists name n, detached s name = true /\ get_up cm s name = Some (n, false) /\ ids s <> []).
    { intros name c Hg Ha. destruct (attach_panic s c Hp Ha) as (H1 & H2 & n & H3).
      exists (c_name c), n. split; [|split; [exact H3|exact H2]].
      unfold is_detached, get_chan. rewrite (proj1 Hf _ _ Hg). unfold get_chan in Hg; rewrite Hg. exact H1. }
    destruct e as [| |m o f|id echo|id|n|n dbok|n|id n m|n|n rl ra|n dt rl ra|n dbok].
    - cbn in H; congruence.
    - cbn in H; congruence.
    - destruct (n_up s); [|cbn in H; congruence].
      destruct (UMsg_panic _ _ _ (on_message_shape s (fill_prefix server m) o f) Hp H) as (b & c & H1 & H2).
      exact (Hatt b c H1 H2).
    - cbn in H; congruence.
    - cbn in H; congruence.
    - destruct (n_up s); [|cbn in H; congruence]. destruct (negb _); [cbn in H; congruence|].
      destruct (get_chan cm s n) as [c|] eqn:Ec; [exact (Hatt n c Ec H)|cbn in H; congruence].
    - exfalso. destruct (n_up s); cbn [fst] in H; [|congruence]. unfold delete_channel in H.
      destruct (get_chan cm s n); [destruct dbok|]; cbn in H; congruence.
    - exfalso. destruct (n_up s); [|cbn in H; congruence].
      destruct (get_chan cm s n) as [c|]; [rewrite detach_panic in H; congruence|cbn in H; congruence].
    - exfalso. destruct (_ || _); [|cbn in H; congruence]. destruct (n_up s); cbn in H; congruence.
    - exfalso. destruct (get_chan cm s n) as [c|]; [rewrite detach_panic in H; congruence|cbn in H; congruence].
    - exfalso. destruct (get_chan cm s n); [cbn in H; congruence|].
      match type of H with context [if ?b then (s, []) else _] => destruct b; cbn in H; congruence end.
    - destruct (get_chan cm s n) as [c|] eqn:Ec; [|cbn in H; congruence]. cbn zeta in H.
      destruct dt as [[|]|]; [rewrite detach_panic in H; cbn in H; congruence| |cbn in H; congruence].
      apply attach_panic in H; [|exact Hp]. cbn [c_detached c_name] in H. destruct H as (H1 & H2 & u & H3).
      exists (c_name c), u. split; [|split; [exact H3|exact H2]].
      unfold is_detached, get_chan. rewrite (proj1 Hf _ _ Ec). unfold get_chan in Ec; rewrite Ec. exact H1.
    - exfalso. cbn [fst] in H. unfold delete_channel in H.
      destruct (get_chan cm s n); [destruct dbok|]; cbn in H; congruence.
  Qed.

  (** * What the clients know *)

  Definition tells (o : dout) (id : N) (k : bytes) : option bool :=
    match o with
    | OJoin i name => if N.eqb id i && beqb k (cm name) then Some true else None
    | OPart i name => if N.eqb id i && beqb k (cm name) then Some false else None
    | OFwd i m =>
        let mine := match m_prefix m with Some p => beqb (cm (p_name p)) (cm me) | None => false end in
        match m_params m with
        | name :: rest =>
            if N.eqb id i && beqb k (cm name) then
              if beqb (m_command m) (B "JOIN") && mine then Some true
              else if beqb (m_command m) (B "PART") && mine then Some false
              else if beqb (m_command m) (B "KICK") && match rest with n :: _ => beqb (cm n) (cm me) | [] => false end
              then Some false else None
            else None
        | [] => None
        end
    | _ => None
    end.

  Lemma see_tells : forall v o id k, sees v o id k = match tells o id k with Some b => b | None => v id k end.
  Proof.
    intros v o id k; destruct o as [i m|i m|i n|i n|i n|i n|i m]; cbn [see tells]; try reflexivity.
    - destruct (m_params m) as [|name rest]; [reflexivity|].
      destruct (beqb (m_command m) (B "JOIN") && _); [unfold told; destruct (_ && _); reflexivity|].
      destruct (beqb (m_command m) (B "PART") && _); [unfold told; destruct (_ && _); reflexivity|].
      destruct (beqb (m_command m) (B "KICK") && _); [unfold told; destruct (_ && _); reflexivity|].
      destruct (_ && _); reflexivity.
    - unfold told; destruct (_ && _); reflexivity.
    - unfold told; destruct (_ && _); reflexivity.
  Qed.

  Lemma sees_keep : forall outs v id k, (forall o, In o outs -> tells o id k = None) -> fold_left sees outs v id k = v id k.
  Proof.
    induction outs as [|o outs IH]; intros v id k H; [reflexivity|]. cbn [fold_left].
    rewrite IH by (intros o' Ho'; apply H; right; exact Ho'). rewrite see_tells, (H o (or_introl eq_refl)); reflexivity.
  Qed.
  Lemma sees_stays : forall b outs v id k, (forall o, In o outs -> tells o id k = None \/ tells o id k = Some b) ->
    v id k = b -> fold_left sees outs v id k = b.
  Proof.
    intros b; induction outs as [|o outs IH]; intros v id k H Hv; [exact Hv|]. cbn [fold_left].
    apply IH; [intros o' Ho'; apply H; right; exact Ho'|]. rewrite see_tells.
    destruct (H o (or_introl eq_refl)) as [-> | ->]; [exact Hv|reflexivity].
  Qed.
  Lemma sees_becomes : forall b outs v id k, (forall o, In o outs -> tells o id k = None \/ tells o id k = Some b) ->
    (exists o, In o outs /\ tells o id k = Some b) -> fold_left sees outs v id k = b.
  Proof.
    intros b; induction outs as [|o outs IH]; intros v id k H (o1 & Ho1 & Ht); [destruct Ho1|]. cbn [fold_left].
    destruct Ho1 as [->|Ho1].
    - apply sees_stays; [intros o' Ho'; apply H; right; exact Ho'|]. rewrite see_tells, Ht; reflexivity.
    - apply IH; [intros o' Ho'; apply H; right; exact Ho'|exists o1; auto].
  Qed.

  Definition det (s : nstate) (k : bytes) : bool := match n_chans s k with Some c => c_detached c | None => false end.
  Lemma det_detached : forall s n, detached s n = det s (cm n).
  Proof. reflexivity. Qed.

  (** Detached channels are hidden. *)
  Definition hidden (s : nstate) (v : view) : Prop :=
    forall id k, In id (ids s) -> det s k = true -> v id k = false.
  (** Joined channels that are not detached are shown. *)
  Definition shown (s : nstate) (v : view) : Prop :=
    ~ In 0%N (ids s) /\
    (n_panic s = false -> forall up k n b id, n_up s = Some up -> In (k, (n, b)) up -> det s k = false ->
      In id (ids s) -> v id k = true).

  Lemma hidden_keep : forall s s' v outs, hidden s v -> (forall id, In id (ids s') -> In id (ids s)) ->
    (forall k, det s' k = true -> det s k = true) ->
    (forall o id k, In o outs -> In id (ids s') -> det s' k = true -> tells o id k = None \/ tells o id k = Some false) ->
    hidden s' (fold_left sees outs v).
  Proof.
    intros s s' v outs H Hi Hk Ho id k Hid Hd. apply sees_stays; [intros o Hin; exact (Ho o id k Hin Hid Hd)|].
    apply H; [apply Hi; exact Hid|apply Hk; exact Hd].
  Qed.

  Lemma shown_keep : forall s s' v outs, shown s v -> n_clients s' = n_clients s -> (n_panic s' = false -> n_panic s = false) ->
    (forall up' k n b, n_up s' = Some up' -> In (k, (n, b)) up' -> det s' k = false ->
      det s k = false /\ exists up n' b', n_up s = Some up /\ In (k, (n', b')) up) ->
    (forall up' o id k n b, n_panic s' = false -> n_up s' = Some up' -> In (k, (n, b)) up' -> In o outs -> tells o id k = None \/ tells o id k = Some true) ->
    shown s' (fold_left sees outs v).
  Proof.
    intros s s' v outs [H0 H] Hcl Hpan Hup Ho. unfold shown, ids in *. rewrite Hcl. split; [exact H0|].
    intros Hp up' k n b id Hu Hin Hd Hid. apply sees_stays.
    - intros o Hin'; exact (Ho up' o id k n b Hp Hu Hin Hin').
    - destruct (Hup up' k n b Hu Hin Hd) as (Hd' & up & n' & b' & Hu' & Hin').
      exact (H (Hpan Hp) up k n' b' id Hu' Hin' Hd' Hid).
  Qed.

  Lemma tells_other : forall id m i k, m_command m <> B "JOIN" -> m_command m <> B "PART" -> m_command m <> B "KICK" ->
    tells (OFwd id m) i k = None.
  Proof.
    intros id m i k H1 H2 H3; cbn [tells]. destruct (m_params m); [reflexivity|].
    destruct (_ && beqb k _); [|reflexivity].
    apply beqb_neq in H1, H2, H3; rewrite H1, H2, H3; reflexivity.
  Qed.
  Lemma text_not : forall m, text_cmd m -> m_command m <> B "JOIN" /\ m_command m <> B "PART" /\ m_command m <> B "KICK".
  Proof.
    intros m H; unfold text_cmd in H; cbn [In] in H.
    destruct H as [<-|[<-|[<-|[]]]]; repeat split; discriminate.
  Qed.

  (** ** Attaching and detaching *)

  Lemma attach_tells : forall s c o id k, In o (snd (attach cm s c)) -> tells o id k = None \/
    (tells o id k = Some true /\ k = cm (c_name c)).
  Proof.
    intros s c o id k H; apply attach_In in H as (_ & i & _ & [->| [->| ->]]); cbn [tells]; auto.
    destruct (N.eqb id i); cbn [andb]; [|left; reflexivity].
    destruct (beqb_spec k (cm (c_name c))); [right; auto|left; reflexivity].
  Qed.
  Lemma detach_tells : forall s c o id k, In o (snd (detach cm s c)) -> tells o id k = None \/
    (tells o id k = Some false /\ k = cm (c_name c)).
  Proof.
    intros s c o id k H; apply detach_In in H as (i & _ & ->); cbn [tells].
    destruct (N.eqb id i); cbn [andb]; [|left; reflexivity].
    destruct (beqb_spec k (cm (c_name c))); [right; auto|left; reflexivity].
  Qed.
  Lemma attach_det : forall s c k, det (fst (attach cm s c)) k =
    if c_detached c && beqb k (cm (c_name c)) then false else det s k.
  Proof.
    intros s c k; unfold det; rewrite attach_chans. destruct (c_detached c); [|reflexivity].
    cbn [andb]. destruct (beqb k (cm (c_name c))); reflexivity.
  Qed.
  Lemma detach_det : forall s c k, det (fst (detach cm s c)) k =
    if negb (c_detached c) && beqb k (cm (c_name c)) then true else det s k.
  Proof.
    intros s c k; unfold det; rewrite detach_chans. destruct (c_detached c); [reflexivity|].
    cbn [andb negb]. destruct (beqb k (cm (c_name c))); reflexivity.
  Qed.

  Lemma hidden_attach : forall s c v, hidden s v -> hidden (fst (attach cm s c)) (fold_left sees (snd (attach cm s c)) v).
  Proof.
    intros s c v H. apply (hidden_keep s); [exact H| | |].
    - unfold ids; rewrite attach_clients; auto.
    - intros k; rewrite attach_det; destruct (_ && _); [discriminate|auto].
    - intros o id k Ho Hid Hd. destruct (attach_tells s c o id k Ho) as [E|[E Ek]]; [left; exact E|].
      apply attach_In in Ho as [Hc _]. rewrite attach_det, Hc, Ek, beqb_refl in Hd; discriminate.
  Qed.
  Lemma hidden_detach : forall s c v, hidden s v -> hidden (fst (detach cm s c)) (fold_left sees (snd (detach cm s c)) v).
  Proof.
    intros s c v H id k Hid Hd. unfold ids in Hid; rewrite detach_clients in Hid; fold (ids s) in Hid.
    rewrite detach_det in Hd.
    destruct (negb (c_detached c) && beqb k (cm (c_name c))) eqn:E.
    - apply Bool.andb_true_iff in E as [E1 E2]; apply beqb_eq in E2; apply Bool.negb_true_iff in E1.
      apply sees_becomes.
      + intros o Ho; destruct (detach_tells s c o id k Ho) as [Ht|[Ht _]]; auto.
      + exists (OPart id (c_name c)). split.
        * unfold detach; rewrite E1; cbn [snd]. apply in_map_iff; exists id; auto.
        * cbn [tells]; rewrite N.eqb_refl, E2, beqb_refl; reflexivity.
    - apply sees_stays; [|exact (H id k Hid Hd)].
      intros o Ho; destruct (detach_tells s c o id k Ho) as [Ht|[Ht _]]; auto.
  Qed.

  Lemma shown_attach : forall s c v, shown s v -> n_panic s = false ->
    shown (fst (attach cm s c)) (fold_left sees (snd (attach cm s c)) v).
  Proof.
    intros s c v [H0 H] Hp. unfold shown, ids; rewrite attach_clients; split; [exact H0|].
    intros Hp' up k n b id Hu Hin Hd Hid. rewrite attach_up in Hu. rewrite attach_det in Hd. fold (ids s) in Hid.
    assert (Hall : forall o, In o (snd (attach cm s c)) -> tells o id k = None \/ tells o id k = Some true).
    { intros o Ho; destruct (attach_tells s c o id k Ho) as [Ht|[Ht _]]; auto. }
    destruct (c_detached c && beqb k (cm (c_name c))) eqn:E.
    - apply Bool.andb_true_iff in E as [E1 E2]; apply beqb_eq in E2.
      apply sees_becomes; [exact Hall|]. exists (OJoin id (c_name c)). split.
      + unfold attach in *; rewrite E1 in *; cbn [negb] in *.
        destruct (get_up cm s (c_name c)) as [[u [|]]|]; cbn [snd fst] in *.
        * apply in_flat_map; exists id; split; [exact Hid|left; reflexivity].
        * destruct (ids s); [destruct Hid|]. cbn in Hp'; discriminate.
        * apply in_flat_map; exists id; split; [exact Hid|left; reflexivity].
      + cbn [tells]; rewrite N.eqb_refl, E2, beqb_refl; reflexivity.
    - apply sees_stays; [exact Hall|]. exact (H Hp up k n b id Hu Hin Hd Hid).
  Qed.
  Lemma shown_detach : forall s c v, shown s v -> n_panic s = false ->
    shown (fst (detach cm s c)) (fold_left sees (snd (detach cm s c)) v).
  Proof.
    intros s c v [H0 H] Hp. unfold shown, ids; rewrite detach_clients; split; [exact H0|].
    intros _ up k n b id Hu Hin Hd Hid. rewrite detach_up in Hu. rewrite detach_det in Hd. fold (ids s) in Hid.
    destruct (negb (c_detached c) && beqb k (cm (c_name c))) eqn:E; [discriminate|].
    rewrite sees_keep; [exact (H Hp up k n b id Hu Hin Hd Hid)|].
    intros o Ho; destruct (detach_tells s c o id k Ho) as [Ht|[Ht Ek]]; [exact Ht|].
    unfold detach in Ho. destruct (c_detached c); [destruct Ho|]. rewrite Ek, beqb_refl in E; discriminate.
  Qed.

  (** ** Messages *)

  Lemma hidden_join1 : forall v m x ch, hidden (fst (fst x)) (fold_left sees (snd (fst x)) v) ->
    hidden (fst (fst (on_join1 cm me server x m ch))) (fold_left sees (snd (fst (on_join1 cm me server x m ch))) v).
  Proof.
    intros v m [[s outs] ok] ch H; cbn [fst snd] in H.
    destruct (join_round m s outs ok ch) as (add & (H1 & H2 & H3) & Ho & Hadd). rewrite Ho, fold_left_app.
    apply (hidden_keep s); [exact H|unfold ids; rewrite H2; auto|unfold det; rewrite H1; auto|].
    intros o id k Hin _ Hd; left. apply Hadd in Hin as (Hdet & i & _ & ->).
    assert (Ek : k <> cm ch). { intros ->. unfold det in Hd; rewrite H1 in Hd. rewrite det_detached in Hdet; unfold det in Hdet; congruence. }
    cbn [tells with_param0 m_params]. apply beqb_neq in Ek; rewrite Ek, Bool.andb_false_r; reflexivity.
  Qed.
  Lemma hidden_part1 : forall v m x ch, hidden (fst (fst x)) (fold_left sees (snd (fst x)) v) ->
    hidden (fst (fst (on_part1 cm me server x m ch))) (fold_left sees (snd (fst (on_part1 cm me server x m ch))) v).
  Proof.
    intros v m [[s outs] ok] ch H; cbn [fst snd] in H.
    destruct (part_round m s outs ok ch) as (add & (H1 & H2 & H3) & Ho & Hadd). rewrite Ho, fold_left_app.
    apply (hidden_keep s); [exact H|unfold ids; rewrite H2; auto|unfold det; rewrite H1; auto|].
    intros o id k Hin _ Hd; left. apply Hadd in Hin as (Hdet & i & _ & ->).
    assert (Ek : k <> cm ch). { intros ->. unfold det in Hd; rewrite H1 in Hd. rewrite det_detached in Hdet; unfold det in Hdet; congruence. }
    cbn [tells with_param0 m_params]. apply beqb_neq in Ek; rewrite Ek, Bool.andb_false_r; reflexivity.
  Qed.

  Lemma hidden_message : forall s m r v, umsg_shape s m r -> hidden s v -> hidden (fst r) (fold_left sees (snd r) v).
  Proof.
    intros s m r v H Hh. destruct H as [f o Ht|chans Hj Hp|chans Hp Hpp|Hk|o H6| |outs N1 N2 N3 _ Hq].
    - destruct (text_not m Ht) as (N1 & N2 & N3).
      assert (Hq : forall x, (exists id, x = OFwd id m \/ x = ORelay id m) -> forall i k, tells x i k = None).
      { intros x (id & [-> | ->]) i k; [apply tells_other; assumption|reflexivity]. }
      destruct (on_text_cases s m o f) as [[Es Ho]|(b & c & o1 & o2 & _ & _ & _ & _ & _ & _ & Es & Eo & Ho)]; rewrite Es.
      + apply (hidden_keep s); auto.
      + rewrite Eo, !fold_left_app.
        apply (hidden_keep (fst (attach cm s c))); auto.
        * apply hidden_attach. apply (hidden_keep s); auto. intros x i k Hin _ _; left; apply Hq, Ho, in_or_app; left; exact Hin.
        * intros x i k Hin _ _; left; apply Hq, Ho, in_or_app; right; exact Hin.
    - apply (fold_inv _ (fun x => hidden (fst (fst x)) (fold_left sees (snd (fst x)) v))); [exact Hh|]. intros x ch; apply hidden_join1.
    - apply (fold_inv _ (fun x => hidden (fst (fst x)) (fold_left sees (snd (fst x)) v))); [exact Hh|]. intros x ch; apply hidden_part1.
    - destruct (on_kick_shape s m) as ((H1 & H2 & H3) & Ho & _).
      apply (hidden_keep s); [exact Hh|unfold ids; rewrite H2; auto|unfold det; rewrite H1; auto|].
      intros o id k Hin _ Hd; left. destruct (Ho o Hin) as (i & ch & nick & rest & _ & Em & Hdet & ->).
      assert (Ek : k <> cm ch). { intros ->. unfold det in Hd; rewrite H1 in Hd. rewrite det_detached in Hdet; unfold det in Hdet; congruence. }
      cbn [tells]. rewrite Em. apply beqb_neq in Ek; rewrite Ek, Bool.andb_false_r; reflexivity.
    - destruct (on_names_shape s m o) as ((H1 & H2 & H3) & Ho & _).
      apply (hidden_keep s); [exact Hh|unfold ids; rewrite H2; auto|unfold det; rewrite H1; auto|].
      intros x id k Hin _ Hd; left. destruct (Ho x Hin) as [(i & n & ->)|(i & ->)]; reflexivity.
    - exact Hh.
    - apply (hidden_keep s); auto. cbn [snd]. intros x id k Hin _ _; left.
      destruct (Hq x Hin) as [(i & ->)|(i & ->)]; [apply tells_other; assumption|reflexivity].
  Qed.

  Definition filled (m : message) : Prop := m_prefix m <> None.

  Lemma produce_all : forall s t m id, detached s t = false -> In id (ids s) -> id <> 0%N -> In (OFwd id m) (produce cm me s t m 0).
  Proof.
    intros s t m id Hd Hid H0; unfold produce; rewrite Hd. unfold ids in Hid; apply in_map_iff in Hid as ([i e] & E & Hin). cbn in E; subst i.
    apply in_flat_map; exists (id, e); split; [exact Hin|]. apply N.eqb_neq in H0; rewrite H0; left; reflexivity.
  Qed.

  Lemma shown_join1 : forall v m x ch, filled m -> m_command m = B "JOIN" -> 
    shown (fst (fst x)) (fold_left sees (snd (fst x)) v) ->
    shown (fst (fst (on_join1 cm me server x m ch))) (fold_left sees (snd (fst (on_join1 cm me server x m ch))) v).
  Proof.
    intros v m [[s outs] ok] ch Hfl Hcm H; cbn [fst snd] in H. unfold filled in Hfl.
    unfold on_join1. destruct ok; cbn [negb]; [|exact H].
    destruct (n_up s) as [up|] eqn:Eu; [|exact H].
    destruct (same cm (prefix_name server m) me) eqn:Es.
    - cbn [fst snd]. rewrite fold_left_app. destruct H as [H0 H]. split; [exact H0|].
      cbn [with_up n_panic n_up]. intros Hp up' k n b id Hu Hin Hd Hid. injection Hu as <-.
      assert (Hall : forall o, In o (produce cm me (with_up s (Some (up_set up (cm ch) (ch, false)))) ch (with_param0 m ch) 0) ->
        tells o id k = None \/ tells o id k = Some true).
      { intros o Ho; apply produce_In in Ho as (_ & i & _ & ->). cbn [tells with_param0 m_params m_command m_prefix].
        rewrite Hcm, beqb_refl. destruct (N.eqb id i && beqb k (cm ch)); [|left; reflexivity].
        destruct (m_prefix m) as [pf|] eqn:Ep; [|congruence]. unfold same, prefix_name in Es; rewrite Ep in Es; rewrite Es. right; reflexivity. }
      destruct (bytes_dec k (cm ch)) as [->|Hk].
      + apply sees_becomes; [exact Hall|]. exists (OFwd id (with_param0 m ch)). split.
        * apply produce_all; [exact Hd|exact Hid|intros ->; exact (H0 Hid)].
        * cbn [tells with_param0 m_params m_command m_prefix]. rewrite N.eqb_refl, beqb_refl, Hcm, beqb_refl. cbn [andb].
          destruct (m_prefix m) as [pf|] eqn:Ep; [|congruence]. unfold same, prefix_name in Es; rewrite Ep in Es; rewrite Es; reflexivity.
      + apply sees_stays; [exact Hall|]. destruct Hin as [Hin|Hin]; [injection Hin as <- _ _; congruence|].
        apply up_del_In in Hin as [Hin _]. exact (H Hp up k n b id Eu Hin Hd Hid).
    - destruct (up_get up (cm ch)); [|exact H]. cbn [fst snd]. rewrite fold_left_app.
      apply (shown_keep s); auto.
      + intros up' k n b Hu Hin Hd; split; [exact Hd|]. exists up', n, b; auto.
      + intros up' o id k n b _ Hu Hin Ho. left. apply produce_In in Ho as (_ & i & _ & ->).
        cbn [tells with_param0 m_params m_command m_prefix]. match goal with |- (if ?b then _ else _) = None => destruct b; [|reflexivity] end.
        destruct (m_prefix m) as [pf|] eqn:Ep; [|congruence]. unfold same, prefix_name in Es; rewrite Ep in Es; rewrite Es, Bool.andb_false_r.
        rewrite Hcm; reflexivity.
  Qed.
  Lemma shown_part1 : forall v m x ch, m_command m = B "PART" -> filled m ->
    shown (fst (fst x)) (fold_left sees (snd (fst x)) v) ->
    shown (fst (fst (on_part1 cm me server x m ch))) (fold_left sees (snd (fst (on_part1 cm me server x m ch))) v).
  Proof.
    intros v m [[s outs] ok] ch Hcm Hfl H; cbn [fst snd] in H. unfold filled in Hfl.
    unfold on_part1. destruct ok; cbn [negb]; [|exact H].
    destruct (n_up s) as [up|] eqn:Eu; [|exact H].
    destruct (same cm (prefix_name server m) me) eqn:Es.
    - cbn [fst snd]. rewrite fold_left_app. apply (shown_keep s); auto.
      + intros up' k n b Hu Hin Hd; split; [exact Hd|]. cbn in Hu; injection Hu as <-. apply up_del_In in Hin as [Hin _]. exists up, n, b; auto.
      + intros up' o id k n b _ Hu Hin Ho. left. apply produce_In in Ho as (_ & i & _ & ->). cbn in Hu; injection Hu as <-.
        apply up_del_In in Hin as [_ Hk]. cbn in Hk. cbn [tells with_param0 m_params].
        apply beqb_neq in Hk; rewrite Hk, Bool.andb_false_r; reflexivity.
    - destruct (up_get up (cm ch)); [|exact H]. cbn [fst snd]. rewrite fold_left_app.
      apply (shown_keep s); auto.
      + intros up' k n b Hu Hin Hd; split; [exact Hd|]. exists up', n, b; auto.
      + intros up' o id k n b _ Hu Hin Ho. left. apply produce_In in Ho as (_ & i & _ & ->).
        cbn [tells with_param0 m_params m_command m_prefix]. match goal with |- (if ?b then _ else _) = None => destruct b; [|reflexivity] end.
        destruct (m_prefix m) as [pf|] eqn:Ep; [|congruence]. unfold same, prefix_name in Es; rewrite Ep in Es; rewrite Es, !Bool.andb_false_r.
        rewrite Hcm; reflexivity.
  Qed.

  Lemma shown_quiet : forall s v outs, shown s v -> (forall o id k, In o outs -> tells o id k = None) -> shown s (fold_left sees outs v).
  Proof.
    intros s v outs H Ho. apply (shown_keep s); auto.
    - intros up' k n b Hu Hin Hd; split; [exact Hd|]. exists up', n, b; auto.
  Qed.

  Lemma shown_message : forall s m r v, filled m -> n_panic s = false -> umsg_shape s m r -> shown s v -> shown (fst r) (fold_left sees (snd r) v).
  Proof.
    intros s m r v Hfl Hpan H Hh. destruct H as [f o Ht|chans Hj Hp|chans Hp Hpp|Hk|o H6| |outs N1 N2 N3 _ Hq].
    - destruct (text_not m Ht) as (N1 & N2 & N3).
      assert (Hq : forall x, (exists id, x = OFwd id m \/ x = ORelay id m) -> forall i k, tells x i k = None).
      { intros x (id & [-> | ->]) i k; [apply tells_other; assumption|reflexivity]. }
      destruct (on_text_cases s m o f) as [[Es Ho]|(b & c & o1 & o2 & _ & _ & _ & _ & _ & _ & Es & Eo & Ho)]; rewrite Es.
      + apply shown_quiet; [exact Hh|]. intros x i k Hin; apply Hq, Ho, Hin.
      + rewrite Eo, !fold_left_app. apply shown_quiet.
        * apply shown_attach; [|exact Hpan]. apply shown_quiet; [exact Hh|]. intros x i k Hin; apply Hq, Ho, in_or_app; left; exact Hin.
        * intros x i k Hin; apply Hq, Ho, in_or_app; right; exact Hin.
    - apply (fold_inv _ (fun x => shown (fst (fst x)) (fold_left sees (snd (fst x)) v))); [exact Hh|]. intros x ch; apply shown_join1; assumption.
    - apply (fold_inv _ (fun x => shown (fst (fst x)) (fold_left sees (snd (fst x)) v))); [exact Hh|]. intros x ch; apply shown_part1; assumption.
    - destruct (on_kick_shape s m) as ((H1 & H2 & H3) & Ho & Hcase).
      destruct Hcase as [[Es Hn]|(ch & nick & rest & up & Em & Eu & Es & Eu')].
      + rewrite Es. apply shown_quiet; [exact Hh|]. intros o id k Hin.
        destruct (Ho o Hin) as (i & ch & nick & rest & _ & Em & _ & ->). cbn [tells]; rewrite Em.
        destruct (_ && _); [|reflexivity]. rewrite Hk.
        destruct (Hn ch nick rest Em) as [En|En]; [|rewrite En in Hin; destruct Hin].
        unfold same in En; rewrite En. reflexivity.
      + apply (shown_keep s); [exact Hh|exact H2|intros _; exact Hpan| |].
        * intros up' k n b Hu Hin Hd. rewrite Eu' in Hu; injection Hu as <-. apply up_del_In in Hin as [Hin _].
          split; [unfold det in *; rewrite H1 in Hd; exact Hd|]. exists up, n, b; auto.
        * intros up' o id k n b _ Hu Hin Hino. rewrite Eu' in Hu; injection Hu as <-. apply up_del_In in Hin as [_ Hne]. cbn in Hne.
          left. destruct (Ho o Hino) as (i & ch2 & nick2 & rest2 & _ & Em2 & _ & ->). cbn [tells]; rewrite Em.
          apply beqb_neq in Hne; rewrite Hne, Bool.andb_false_r; reflexivity.
    - destruct (on_names_shape s m o) as ((H1 & H2 & H3) & Ho & Hcase).
      assert (Hq : forall x id k, In x (snd (on_end_of_names cm s m o)) -> tells x id k = None).
      { intros x id k Hin; destruct (Ho x Hin) as [(i & n & ->)|(i & ->)]; reflexivity. }
      destruct Hcase as [->|(up & up' & Eu & Eu' & Hup)]; [apply shown_quiet; assumption|].
      apply (shown_keep s); [exact Hh|exact H2|intros _; exact Hpan| |intros up2 x id k n b _ _ _ Hin; left; exact (Hq x id k Hin)].
      intros up2 k n b Hu Hin Hd. rewrite Eu' in Hu; injection Hu as <-.
      destruct (Hup k n b Hin) as (n' & b' & Hin' & _).
      split; [unfold det in *; rewrite H1 in Hd; exact Hd|]. exists up, n', b'; auto.
    - exact Hh.
    - apply shown_quiet; [exact Hh|]. cbn [snd]. intros x id k Hin.
      destruct (Hq x Hin) as [(i & ->)|(i & ->)]; [apply tells_other; assumption|reflexivity].
  Qed.

  (** ** All events *)

  Lemma welcome_In : forall s id o up, In o (flat_map (fun p : bytes * (bytes * bool) => let '(_, (n, complete)) := p in
                        if complete && negb (detached s n) then [OJoin id n; OChannel id n] else []) up) ->
    exists k n, In (k, (n, true)) up /\ detached s n = false /\ (o = OJoin id n \/ o = OChannel id n).
  Proof.
    intros s id o up H; apply in_flat_map in H as ([k [n b]] & Hin & H).
    destruct b; cbn [andb] in H; [|destruct H]. destruct (detached s n) eqn:E; cbn [negb] in H; [destruct H|].
    exists k, n; repeat split; auto. cbn in H; intuition.
  Qed.

  Lemma det_with_chan : forall s n c k, det (with_chan cm s n c) k =
    if beqb k (cm n) then match c with Some c => c_detached c | None => false end else det s k.
  Proof. intros s n c k; unfold det; rewrite with_chan_get. destruct (beqb k (cm n)); reflexivity. Qed.

  Lemma hidden_nil : forall s s' v, hidden s v -> n_clients s' = n_clients s -> (forall k, det s' k = true -> det s k = true) -> hidden s' v.
  Proof. intros s s' v H Hc Hd id k Hid Hk. unfold ids in *; rewrite Hc in Hid. apply H; [exact Hid|apply Hd, Hk]. Qed.

  Lemma hidden_step : forall s v e, filed cm s -> hidden s v -> known_detach cm s e ->
    hidden (fst (step s e)) (fold_left sees (snd (step s e)) (arrive v e)).
  Proof.
    intros s v e Hf Hh Hok.
    assert (Har : hidden s (arrive v e)).
    { intros id k Hid Hd; specialize (Hh id k Hid Hd). destruct e; cbn [arrive]; try exact Hh. destruct (N.eqb id _); [reflexivity|exact Hh]. }
    unfold nstep. destruct (n_panic s); [exact Har|].
    destruct e as [| |m o f|id echo|id|n|n dbok|n|id n m|n|n rl ra|n dt rl ra|n dbok].
    - exact Har.
    - exact Har.
    - destruct (n_up s); [|exact Har]. eapply hidden_message; [apply on_message_shape|exact Har].
    - cbn [fst snd]. clear Har. intros i k Hid Hd. unfold ids in Hid; cbn [with_clients n_clients] in Hid. change (det s k = true) in Hd.
      assert (Hv : arrive v (CConnect id echo) i k = false).
      { cbn [arrive]. destruct (N.eqb_spec i id) as [->|Hne]; [reflexivity|].
        rewrite map_app in Hid; apply in_app_or in Hid as [Hid|[Hid|[]]]; [exact (Hh i k Hid Hd)|cbn in Hid; congruence]. }
      destruct (n_up s) as [up|]; [|exact Hv].
      apply sees_stays; [|exact Hv].
      intros o Ho; left. apply welcome_In in Ho as (k0 & n & Hin & Hdn & [->| ->]); [|reflexivity].
      cbn [tells]. destruct (beqb_spec k (cm n)) as [->|]; [|rewrite Bool.andb_false_r; reflexivity].
      rewrite det_detached in Hdn; congruence.
    - cbn [fst snd fold_left]. intros i k Hid Hd. cbn [arrive] in *. apply Hh; [|exact Hd].
      unfold ids in *; cbn [with_clients n_clients] in Hid. apply in_map_iff in Hid as (x & <- & Hin).
      apply filter_In in Hin as [Hin _]. apply in_map; exact Hin.
    - destruct (n_up s); [|exact Har]. destruct (negb _); [exact Har|].
      destruct (get_chan cm s n) as [c|]; [apply hidden_attach; exact Har|].
      apply (hidden_nil s); auto. intros k; cbn [fst]; rewrite det_with_chan; destruct (beqb k (cm n)); [discriminate|auto].
    - destruct (n_up s); [|exact Har]. cbn [fst snd fold_left]. unfold delete_channel. destruct (get_chan cm s n); [|exact Har].
      destruct dbok; [|exact Har]. apply (hidden_nil s); auto.
      intros k; rewrite det_with_chan; destruct (beqb k (cm n)); [discriminate|auto].
    - destruct (n_up s); [|exact Har].
      destruct (get_chan cm s n) as [c|] eqn:Ec; [apply hidden_detach; exact Har|].
      exfalso; cbn [known_detach] in Hok; exact (Hok Ec).
    - destruct (beqb (m_command m) (B "PRIVMSG") || beqb (m_command m) (B "NOTICE") || beqb (m_command m) (B "TAGMSG")) eqn:Et; [|exact Har].
      destruct (n_up s); [|exact Har]. cbn [fst snd]. apply (hidden_keep s); auto.
      intros x i k Hin _ _; left. apply produce_In in Hin as (_ & j & _ & ->).
      apply is_textual, text_not in Et as (N1 & N2 & N3). apply tells_other; assumption.
    - destruct (get_chan cm s n) as [c|]; [apply hidden_detach; exact Har|exact Har].
    - destruct (get_chan cm s n); [exact Har|].
      match goal with |- context [if ?b then (s, []) else _] => destruct b; [exact Har|] end.
      apply (hidden_nil s); auto. intros k; cbn [fst]; rewrite det_with_chan; destruct (beqb k (cm n)); [discriminate|auto].
    - destruct (get_chan cm s n) as [c|] eqn:Ec; [|exact Har]. cbn zeta.
      set (c1 := Chrec (c_name c) (c_detached c) (from_opt (c_relay c) rl) (from_opt (c_reattach c) ra)).
      assert (Hh' : hidden (with_chan cm s (c_name c1) (Some c1)) (arrive v (SUpdate n dt rl ra))).
      { apply (hidden_nil s); auto. intros k; rewrite det_with_chan. change (c_name c1) with (c_name c).
        rewrite (proj1 Hf _ _ Ec). destruct (beqb_spec k (cm n)) as [->|]; [|auto].
        cbn [c1 c_detached]. unfold det; unfold get_chan in Ec; rewrite Ec; auto. }
      destruct dt as [[|]|]; [apply hidden_detach; exact Hh'|apply hidden_attach; exact Hh'|exact Hh'].
    - cbn [fst snd fold_left]. unfold delete_channel. destruct (get_chan cm s n); [|exact Har].
      destruct dbok; [|exact Har]. apply (hidden_nil s); auto.
      intros k; rewrite det_with_chan; destruct (beqb k (cm n)); [discriminate|auto].
  Qed.

  Lemma shown_nil : forall s s' v, shown s v -> n_clients s' = n_clients s -> n_up s' = n_up s -> n_panic s' = n_panic s ->
    (forall k, det s' k = false -> det s k = false) -> shown s' v.
  Proof.
    intros s s' v [H0 H] Hc Hu Hp Hd. unfold shown, ids; rewrite Hc; split; [exact H0|]. rewrite Hp, Hu.
    intros Hpan up k n b id E Hin Hk Hid. exact (H Hpan up k n b id E Hin (Hd k Hk) Hid).
  Qed.

  Lemma shown_step : forall s v e, filed cm s -> shown s v -> settled cm s e ->
    shown (fst (step s e)) (fold_left sees (snd (step s e)) (arrive v e)).
  Proof.
    intros s v e Hf Hh Hok.
    unfold nstep. destruct (n_panic s) eqn:Hpan.
    { split; [exact (proj1 Hh)|]. cbn [fst]; congruence. }
    destruct e as [| |m o f|id echo|id|n|n dbok|n|id n m|n|n rl ra|n dt rl ra|n dbok]; cbn [arrive].
    - destruct Hh as [H0 _]; split; [exact H0|]. cbn. intros _ up k n b id H; injection H as <-; intros [].
    - destruct Hh as [H0 _]; split; [exact H0|]. cbn. intros _ up k n b id H; discriminate.
    - destruct (n_up s); [|exact Hh]. eapply shown_message; [|exact Hpan|apply on_message_shape|exact Hh].
      unfold filled, fill_prefix; destruct (m_prefix m) eqn:E; [rewrite E|cbn]; discriminate.
    - cbn [fst snd]. destruct Hok as [Hid0 Hcomp]. destruct Hh as [H0 H]. split.
      { unfold ids; cbn [with_clients n_clients]. rewrite map_app. intros Hin; apply in_app_or in Hin as [Hin|[Hin|[]]]; [exact (H0 Hin)|cbn in Hin; congruence]. }
      cbn [with_clients n_up n_panic n_clients]. intros _ up k n b i Hu Hin Hd Hi. change (det s k = false) in Hd.
      rewrite Hu. pose proof (Hcomp up Hu) as Hc. rewrite Forall_forall in Hc. pose proof (Hc _ Hin) as Hb; cbn in Hb; subst b.
      pose proof (proj2 Hf up Hu) as Hk. rewrite Forall_forall in Hk. pose proof (Hk _ Hin) as Hkn; cbn in Hkn.
      assert (Hall : forall x, In x (flat_map (fun p : bytes * (bytes * bool) => let '(_, (n, complete)) := p in
                        if complete && negb (detached s n) then [OJoin id n; OChannel id n] else []) up) ->
                tells x i k = None \/ tells x i k = Some true).
      { intros x Hx; apply welcome_In in Hx as (k0 & n0 & _ & _ & [->| ->]); cbn [tells]; [|left; reflexivity].
        destruct (_ && _); auto. }
      destruct (N.eqb_spec i id) as [->|Hne].
      + apply sees_becomes; [exact Hall|]. exists (OJoin id n). split.
        * apply in_flat_map. exists (k, (n, true)); split; [exact Hin|].
          rewrite det_detached, Hkn, Hd. left; reflexivity.
        * cbn [tells]; rewrite N.eqb_refl, Hkn, beqb_refl; reflexivity.
      + apply sees_stays; [exact Hall|]. destruct (N.eqb_spec i id); [congruence|].
        unfold ids in Hi; cbn [with_clients n_clients] in Hi; rewrite map_app in Hi; apply in_app_or in Hi as [Hi|[Hi|[]]]; [|cbn in Hi; congruence].
        exact (H Hpan up k n true i Hu Hin Hd Hi).
    - cbn [fst snd fold_left]. destruct Hh as [H0 H].
      assert (Hsub : forall i, In i (ids (with_clients s (filter (fun c => negb (N.eqb (fst c) id)) (n_clients s)))) -> In i (ids s)).
      { intros i Hi; unfold ids in *; cbn [with_clients n_clients] in Hi. apply in_map_iff in Hi as (x & <- & Hin).
        apply filter_In in Hin as [Hin _]. apply in_map; exact Hin. }
      split; [intros Hi; exact (H0 (Hsub _ Hi))|].
      intros Hp up k n b i Hu Hin Hd Hi. exact (H Hpan up k n b i Hu Hin Hd (Hsub _ Hi)).
    - destruct (n_up s) eqn:Eu; [|exact Hh]. destruct (negb _); [exact Hh|].
      destruct (get_chan cm s n) as [c|] eqn:Ec; [apply shown_attach; [exact Hh|exact Hpan]|].
      apply (shown_nil s); auto. intros k; cbn [fst]; rewrite det_with_chan. destruct (beqb_spec k (cm n)) as [->|]; [|auto].
      intros _; unfold det; unfold get_chan in Ec; rewrite Ec; reflexivity.
    - destruct (n_up s); [|exact Hh]. cbn [fst snd fold_left]. unfold delete_channel. destruct (get_chan cm s n); [|exact Hh].
      destruct dbok; [|exact Hh]. apply (shown_nil s); auto.
      intros k; rewrite det_with_chan. destruct (beqb_spec k (cm n)) as [->|]; [|auto]. intros _; exact Hok.
    - destruct (n_up s); [|exact Hh].
      destruct (get_chan cm s n) as [c|] eqn:Ec; [apply shown_detach; [exact Hh|exact Hpan]|].
      apply (shown_nil s); auto. intros k; cbn [fst]; rewrite det_with_chan. destruct (beqb k (cm n)); [discriminate|auto].
    - destruct (beqb (m_command m) (B "PRIVMSG") || beqb (m_command m) (B "NOTICE") || beqb (m_command m) (B "TAGMSG")) eqn:Et; [|exact Hh].
      destruct (n_up s); [|exact Hh]. cbn [fst snd]. apply shown_quiet; [exact Hh|].
      intros x i k Hin. apply produce_In in Hin as (_ & j & _ & ->).
      apply is_textual, text_not in Et as (N1 & N2 & N3). apply tells_other; assumption.
    - destruct (get_chan cm s n) as [c|]; [apply shown_detach; [exact Hh|exact Hpan]|exact Hh].
    - destruct (get_chan cm s n) eqn:Ec; [exact Hh|].
      match goal with |- context [if ?b then (s, []) else _] => destruct b; [exact Hh|] end.
      apply (shown_nil s); auto. intros k; cbn [fst]; rewrite det_with_chan. destruct (beqb_spec k (cm n)) as [->|]; [|auto].
      intros _; unfold det; unfold get_chan in Ec; rewrite Ec; reflexivity.
    - destruct (get_chan cm s n) as [c|] eqn:Ec; [|exact Hh]. cbn zeta.
      set (c1 := Chrec (c_name c) (c_detached c) (from_opt (c_relay c) rl) (from_opt (c_reattach c) ra)).
      assert (Hh' : shown (with_chan cm s (c_name c1) (Some c1)) v).
      { apply (shown_nil s); auto. intros k; rewrite det_with_chan. change (c_name c1) with (c_name c).
        rewrite (proj1 Hf _ _ Ec). destruct (beqb_spec k (cm n)) as [->|]; [|auto].
        cbn [c1 c_detached]. unfold det; unfold get_chan in Ec; rewrite Ec; auto. }
      destruct dt as [[|]|]; [apply shown_detach; [exact Hh'|exact Hpan]|apply shown_attach; [exact Hh'|exact Hpan]|exact Hh'].
    - cbn [fst snd fold_left]. unfold delete_channel. destruct (get_chan cm s n); [|exact Hh].
      destruct dbok; [|exact Hh]. apply (shown_nil s); auto.
      intros k; rewrite det_with_chan. destruct (beqb_spec k (cm n)) as [->|]; [|auto]. intros _; exact Hok.
  Qed.

  Notation hist := (history cm me server service chantypes statusmsg highlight).

  Lemma history_filed : forall ok s v, hist ok s v -> filed cm s.
  Proof. intros ok s v H; induction H; [apply filed_loaded|apply filed_step; assumption]. Qed.

  Lemma history_hidden : forall s v id name, hist (known_detach cm) s v -> In id (ids s) -> detached s name = true -> v id (cm name) = false.
  Proof.
    intros s v id name H. assert (Hh : hidden s v).
    { induction H as [l|s v e H IH Hok]; [intros i k []|]. apply hidden_step; [exact (history_filed _ _ _ H)|exact IH|exact Hok]. }
    intros Hid Hd; apply Hh; [exact Hid|exact Hd].
  Qed.

  Lemma history_shown : forall s v id name n b, hist (settled cm) s v -> n_panic s = false -> In id (ids s) ->
    get_up cm s name = Some (n, b) -> detached s name = false -> v id (cm name) = true.
  Proof.
    intros s v id name n b H. assert (Hh : shown s v).
    { induction H as [l|s v e H IH Hok]; [split; [intros []|cbn; discriminate]|].
      apply shown_step; [exact (history_filed _ _ _ H)|exact IH|exact Hok]. }
    intros Hp Hid Hg Hd. unfold get_up in Hg. destruct (n_up s) as [up|] eqn:Eu; [|discriminate].
    exact (proj2 Hh Hp up (cm name) n b id Eu (up_get_In _ _ _ Hg) Hd Hid).
  Qed.
End P.
