(** Proofs about what clients know about topics and modes. *)
From Verif.Base Require Import Bytes.
From Verif.Model Require Import CaseMap Membership Message Modes ChanView.
From Verif.Spec Require Import Modes ChanView.
From Verif.Proof Require Modes.
From Coq Require Import Permutation Lia.
Open Scope nat_scope.

(** ** The channels of the connection. *)
Lemma ch_get_del l k j : ch_get (ch_del l k) j = if beqb j k then None else ch_get l j.
Proof.
  induction l as [|[k' v] l IH]; simpl; [destruct (beqb j k); reflexivity|].
  destruct (beqb_spec k' k) as [->|Hn]; simpl.
  - rewrite IH. destruct (beqb_spec j k) as [E|Hj]; [reflexivity|].
    destruct (beqb_spec k j) as [E|_]; [congruence|reflexivity].
  - rewrite IH. destruct (beqb_spec k' j) as [->|Hj]; [|reflexivity].
    destruct (beqb_spec j k) as [E|_]; [congruence|reflexivity].
Qed.
Lemma ch_get_set l k v j : ch_get (ch_set l k v) j = if beqb j k then Some v else ch_get l j.
Proof.
  unfold ch_set. simpl. rewrite ch_get_del. destruct (beqb_spec k j) as [->|Hn].
  - rewrite beqb_refl. reflexivity.
  - destruct (beqb_spec j k) as [E|_]; [congruence|reflexivity].
Qed.
Lemma ch_del_keys l k x : In x (map fst (ch_del l k)) -> In x (map fst l) /\ x <> k.
Proof.
  intros H. apply in_map_iff in H as [p [E H]]. subst x. apply filter_In in H as [H1 H2].
  split; [apply in_map; exact H1|]. intros E. rewrite E in H2. rewrite beqb_refl in H2. discriminate.
Qed.
Lemma ch_del_nodup l k : NoDup (map fst l) -> NoDup (map fst (ch_del l k)).
Proof.
  induction l as [|[k' v] l IH]; simpl; [intros _; constructor|]. intros H. inversion H as [|? ? H1 H2]. subst.
  destruct (beqb_spec k' k) as [->|Hn]; simpl; [exact (IH H2)|]. constructor; [|exact (IH H2)].
  intros Hi. apply ch_del_keys in Hi as [Hi _]. exact (H1 Hi).
Qed.
Lemma ch_set_nodup l k v : NoDup (map fst l) -> NoDup (map fst (ch_set l k v)).
Proof.
  intros H. unfold ch_set. simpl. constructor; [|apply ch_del_nodup; exact H].
  intros Hi. apply ch_del_keys in Hi as [_ Hi]. congruence.
Qed.

(** ** Prefixes. *)
Lemma parse_format p : wf_prefix p -> parse_prefix (format_prefix p) = p.
Proof.
  destruct p as [n u h]. unfold wf_prefix, format_prefix, parse_prefix. cbn [p_name p_user p_host].
  intros (H1 & H2 & H3).
  assert (E : forall t, ~ In "@"%char t ->
     cut_on "@" (t ++ match h with [] => [] | c :: h' => "@"%char :: c :: h' end) = (t, match h with [] => None | c :: h' => Some (c :: h') end)).
  { intros t Ht. destruct h as [|c h]; [rewrite app_nil_r; apply cut_on_nosep; exact Ht|apply cut_on_app; exact Ht]. }
  assert (E2 : cut_on "!" (n ++ match u with [] => [] | c :: u' => "!"%char :: c :: u' end) = (n, match u with [] => None | c :: u' => Some (c :: u') end)).
  { destruct u as [|c u]; [rewrite app_nil_r; apply cut_on_nosep; exact H2|apply cut_on_app; exact H2]. }
  assert (Hu : ~ In "@"%char (n ++ match u with [] => [] | c :: u' => "!"%char :: c :: u' end)).
  { rewrite in_app_iff. intros [H|H]; [exact (H1 H)|]. destruct u as [|c u]; [exact H|].
    destruct H as [H|H]; [discriminate|exact (H3 H)]. }
  rewrite app_assoc, (E _ Hu). cbn [fst snd]. rewrite E2. cbn [fst snd]. destruct u, h; reflexivity.
Qed.

(** ** Modes. *)
Lemma same_refl m : same_modes m m. Proof. intros c. reflexivity. Qed.
Lemma same_sym a b : same_modes a b -> same_modes b a. Proof. intros H c. symmetry. apply H. Qed.
Lemma same_trans a b c : same_modes a b -> same_modes b c -> same_modes a c.
Proof. intros H1 H2 x. rewrite (H1 x). apply H2. Qed.

Section Modes.
  Variable avail : list membership.
  Variable table : list (ascii * mode_type).

  Definition msame (a b : chan) : Prop :=
    match ch_modes a, ch_modes b with
    | Some x, Some y => same_modes x y
    | None, None => True
    | _, _ => False
    end.
  Lemma msame_set a b c v : msame a b -> msame (set_mode a c v) (set_mode b c v).
  Proof.
    unfold msame, set_mode. destruct (ch_modes a) as [x|] eqn:Ea, (ch_modes b) as [y|] eqn:Eb; try tauto; simpl.
    - intros H k. rewrite !Proof.Modes.al_get_set. destruct (aeqb k c); [reflexivity|apply H].
    - rewrite Ea, Eb. tauto.
  Qed.
  Lemma msame_del a b c : msame a b -> msame (del_mode a c) (del_mode b c).
  Proof.
    unfold msame, del_mode. destruct (ch_modes a) as [x|] eqn:Ea, (ch_modes b) as [y|] eqn:Eb; try tauto; simpl.
    - intros H k. rewrite !Proof.Modes.al_get_del. destruct (aeqb k c); [reflexivity|apply H].
    - rewrite Ea, Eb. tauto.
  Qed.
  Lemma msame_apply s : forall a b cur args, msame a b ->
    msame (fst (apply_modes avail table a cur s args)) (fst (apply_modes avail table b cur s args)) /\
    snd (apply_modes avail table a cur s args) = snd (apply_modes avail table b cur s args).
  Proof.
    induction s as [|c s IH]; intros a b cur args H; cbn [apply_modes]; [split; [exact H|reflexivity]|].
    destruct (aeqb c "+"); [apply IH; exact H|]. destruct (aeqb c "-"); [apply IH; exact H|].
    destruct cur as [plus|]; [|split; [exact H|reflexivity]].
    destruct (find_membership avail c) as [mb|].
    - destruct args as [|x args]; [split; [exact H|reflexivity]|]. apply IH.
      unfold msame. rewrite !Proof.Modes.change_member_modes. exact H.
    - destruct (al_get table c) as [[]|]; [| | | |apply IH; exact H].
      + apply IH; exact H.
      + apply IH. destruct plus; [apply msame_set|apply msame_del]; exact H.
      + destruct plus; apply IH; [apply msame_set|apply msame_del]; exact H.
      + apply IH. destruct plus; [apply msame_set|apply msame_del]; exact H.
  Qed.

  Lemma apply_none s : forall ch cur args, ch_modes ch = None -> ch_modes (fst (apply_modes avail table ch cur s args)) = None.
  Proof.
    induction s as [|c s IH]; intros ch cur args H; cbn [apply_modes]; [exact H|].
    assert (Hs : forall v, ch_modes (set_mode ch c v) = None). { intros v. unfold set_mode. rewrite H. exact H. }
    assert (Hd : ch_modes (del_mode ch c) = None). { unfold del_mode. rewrite H. exact H. }
    destruct (aeqb c "+"); [apply IH; exact H|]. destruct (aeqb c "-"); [apply IH; exact H|].
    destruct cur as [plus|]; [|exact H].
    destruct (find_membership avail c) as [mb|].
    - destruct args as [|x args]; [exact H|]. apply IH. rewrite Proof.Modes.change_member_modes. exact H.
    - destruct (al_get table c) as [[]|]; try (apply IH; exact H);
        destruct plus; apply IH; first [apply Hs|exact Hd].
  Qed.

  Local Notation apply := (mapply avail table).
  (** Snapshots that say the same still do after the same line. *)
  Lemma apply_same a b s args b' ok : same_modes a b -> apply (Some b) s args = (Some b', ok) ->
    exists a', apply (Some a) s args = (Some a', ok) /\ same_modes a' b'.
  Proof.
    intros H E. unfold mapply, apply_channel_modes in *.
    destruct (msame_apply s (Chan (Some a) (cm_new CmRFC1459)) (Chan (Some b) (cm_new CmRFC1459)) None args H) as [E1 E2].
    injection E as Eb Eo. rewrite E2, Eo. unfold msame in E1. rewrite Eb in E1.
    destruct (ch_modes (fst (apply_modes avail table (Chan (Some a) (cm_new CmRFC1459)) None s args))) as [a'|] eqn:Ea; [|contradiction].
    exists a'. split; [reflexivity|exact E1].
  Qed.
  Lemma apply_consistent a s args a' ok : modes_consistent avail table a -> apply (Some a) s args = (Some a', ok) ->
    modes_consistent avail table a'.
  Proof.
    intros H E. unfold mapply, apply_channel_modes in E. injection E as E1 E2.
    pose proof (Proof.Modes.apply_modes_consistent avail table (Chan (Some a) (cm_new CmRFC1459)) None s args H) as Hc.
    unfold Proof.Modes.chan_consistent in Hc. rewrite E1 in Hc. exact Hc.
  Qed.
  Lemma apply_nil s args ok : snd (apply None s args) = ok -> fst (apply None s args) = None.
  Proof. intros _. unfold mapply. cbn [fst]. apply apply_none. reflexivity. Qed.
  Lemma consistent_nil : modes_consistent avail table [].
  Proof. split; [constructor|]. intros c v []. Qed.

  Lemma al_get_some_In {V} (l : list (ascii * V)) c v : al_get l c = Some v -> In (c, v) l.
  Proof.
    induction l as [|[c' v'] l IH]; simpl; [discriminate|].
    destruct (aeqb c c') eqn:E; [|intros H; right; exact (IH H)].
    intros H. left. apply aeqb_eq in E. congruence.
  Qed.

  (** What the bouncer answers is read back as what it knows. *)
  Lemma apply_format order m str params :
    (forall c t, In (c, t) table -> (code c < 128)%N) -> Permutation (order m) m ->
    modes_consistent avail table m -> format_modes (order m) = (str, params) ->
    exists m', apply (Some []) str params = (Some m', true) /\ same_modes m' m.
  Proof.
    intros Ha Hp Hc Hf.
    pose proof (Proof.Modes.format_apply avail table m (order m) (cm_new CmRFC1459) Hc) as H. rewrite Hf in H.
    destruct H as [m' (E & _ & Hg)]; [|exact Hp|].
    - intros c v Hi. destruct Hc as [_ Hc]. destruct (Hc c v Hi) as (_ & _ & Ht).
      assert (Hx : exists t, al_get table c = Some t) by (destruct Ht as [Ht|[Ht|[Ht _]]]; eexists; exact Ht).
      destruct Hx as [t Ht']. apply (Ha c t). apply al_get_some_In. exact Ht'.
    - exists m'. unfold mapply. rewrite E. split; [reflexivity|exact Hg].
  Qed.
End Modes.

Lemma received_each cl i (l : list message) : NoDup cl -> In i cl ->
  received i (flat_map (fun id => map (fun m => (id, m)) l) cl) = l.
Proof.
  unfold received. intros Hn Hi.
  assert (Hs : forall id, map snd (filter (fun o : N * message => N.eqb (fst o) i) (map (fun m => (id, m)) l)) = if N.eqb id i then l else []).
  { intros id. destruct (N.eqb_spec id i) as [->|Hne].
    - induction l as [|x l IH]; simpl; [reflexivity|]. rewrite N.eqb_refl. simpl. f_equal. exact IH.
    - induction l as [|x l IH]; simpl; [reflexivity|]. apply N.eqb_neq in Hne. rewrite Hne. exact IH. }
  assert (Hz : forall cl, ~ In i cl -> map snd (filter (fun o : N * message => N.eqb (fst o) i) (flat_map (fun id => map (fun m => (id, m)) l) cl)) = []).
  { intros cl0. induction cl0 as [|x cl0 IH]; simpl; [reflexivity|]. intros Hx.
    rewrite filter_app, map_app, Hs, IH by tauto. destruct (N.eqb_spec x i); [tauto|reflexivity]. }
  induction cl as [|x cl IH]; [destruct Hi|]. inversion Hn as [|? ? H1 H2]. subst. simpl.
  rewrite filter_app, map_app, Hs. destruct (N.eqb_spec x i) as [->|Hne].
  - rewrite (Hz cl H1), app_nil_r. reflexivity.
  - simpl. apply IH; [exact H2|]. destruct Hi; [contradiction|assumption].
Qed.
Lemma received_all s m i : NoDup (x_clients s) -> In i (x_clients s) -> received i (to_all s m) = [m].
Proof.
  intros Hn Hi. replace (to_all s m) with (flat_map (fun id => map (fun m => (id, m)) [m]) (x_clients s)).
  { apply received_each; assumption. }
  unfold to_all. clear Hn Hi. induction (x_clients s) as [|y l0 IH0]; simpl; [reflexivity|]. rewrite <- IH0. reflexivity.
Qed.
Lemma received_to_id s o m i : forall x, In x (received i (to_id s o m)) -> x = m.
Proof.
  intros x H. unfold received in H. apply in_map_iff in H as [p [<- H]]. apply filter_In in H as [H _].
  unfold to_id in H. apply in_flat_map in H as [id [_ H]]. destruct (_ || _); [|destruct H].
  destruct H as [<-|[]]. reflexivity.
Qed.

Section Main.
  Variable cm : bytes -> bytes.
  Variable me server chantypes : bytes.
  Variable avail : list membership.
  Variable table : list (ascii * mode_type).
  Variable order : list (ascii * bytes) -> list (ascii * bytes).
  Hypothesis Horder : forall m, Permutation (order m) m.
  Hypothesis Hascii : forall c t, In (c, t) table -> (code c < 128)%N.

  Local Notation apply := (mapply avail table).
  Local Notation look := (look cm me avail table).
  Local Notation says := (says cm me chantypes avail table).
  Local Notation mine := (mine cm me).
  Local Notation detached := (detached cm).
  Local Notation get := (get cm).
  Local Notation on_message := (on_message cm me server chantypes avail table).

  Lemma look_join k v tags p a r : look k v (Message tags p (B "JOIN") (a :: r)) =
    if mine (Message tags p (B "JOIN") (a :: r)) && beqb (cm a) k then CView true [] None None None None false else v.
  Proof. reflexivity. Qed.
  Lemma look_part k v tags p a r : look k v (Message tags p (B "PART") (a :: r)) =
    if mine (Message tags p (B "PART") (a :: r)) && beqb (cm a) k then away else v.
  Proof. reflexivity. Qed.
  Lemma look_kick k v tags p a n r : look k v (Message tags p (B "KICK") (a :: n :: r)) =
    if beqb (cm a) k && beqb (cm n) (cm me) then away else v.
  Proof. reflexivity. Qed.
  Lemma look_topic k v tags p a t r : look k v (Message tags p (B "TOPIC") (a :: t :: r)) =
    if negb (v_on v) then v else if beqb (cm a) k then
      CView true t (option_map format_prefix p) None (v_modes v) (v_created v) (v_asked v) else v.
  Proof. reflexivity. Qed.
  Lemma look_clear k v tags p a : look k v (Message tags p (B "TOPIC") [a]) =
    if negb (v_on v) then v else if beqb (cm a) k then
      CView true [] (v_who v) (v_time v) (v_modes v) (v_created v) (v_asked v) else v.
  Proof. reflexivity. Qed.
  Lemma look_mode k v tags p a s args : look k v (Message tags p (B "MODE") (a :: s :: args)) =
    if negb (v_on v) then v else if beqb (cm a) k then
      CView true (v_topic v) (v_who v) (v_time v)
        (match v_modes v with Some md => fst (apply (Some md) s args) | None => None end) (v_created v) (v_asked v) else v.
  Proof.
    change (look k v (Message tags p (B "MODE") (a :: s :: args))) with
      (if negb (v_on v) then v else if beqb (cm a) k then
      CView true (v_topic v) (v_who v) (v_time v)
        (match v_modes v, s :: args with Some md, s :: args => fst (apply (Some md) s args) | o, _ => o end) (v_created v) (v_asked v) else v).
    destruct (v_modes v); reflexivity.
  Qed.
  Lemma look_331 k v tags p a c r : look k v (Message tags p (B "331") (a :: c :: r)) =
    if negb (v_on v) then v else if negb (beqb (cm c) k) then v else
      CView true [] (v_who v) (v_time v) (v_modes v) (v_created v) (v_asked v).
  Proof. reflexivity. Qed.
  Lemma look_332 k v tags p a c x r : look k v (Message tags p (B "332") (a :: c :: x :: r)) =
    if negb (v_on v) then v else if negb (beqb (cm c) k) then v else
      CView true x (v_who v) (v_time v) (v_modes v) (v_created v) (v_asked v).
  Proof. reflexivity. Qed.
  Lemma look_333 k v tags p a c x r : look k v (Message tags p (B "333") (a :: c :: x :: r)) =
    if negb (v_on v) then v else if negb (beqb (cm c) k) then v else
      CView true (v_topic v) (Some x) (hd_error r) (v_modes v) (v_created v) (v_asked v).
  Proof. reflexivity. Qed.
  Lemma look_324 k v tags p a c x r : look k v (Message tags p (B "324") (a :: c :: x :: r)) =
    if negb (v_on v) then v else if negb (beqb (cm c) k) then v else
      CView true (v_topic v) (v_who v) (v_time v) (fst (apply (Some []) x r)) (v_created v) (v_asked v).
  Proof. reflexivity. Qed.
  Lemma look_329 k v tags p a c x r : look k v (Message tags p (B "329") (a :: c :: x :: r)) =
    if negb (v_on v) then v else if negb (beqb (cm c) k) then v else
      CView true (v_topic v) (v_who v) (v_time v) (v_modes v) (Some x) (v_asked v).
  Proof. reflexivity. Qed.

  Definition numerics : list bytes := [B "331"; B "332"; B "333"; B "324"; B "329"; B "366"].
  (** A numeric tells those out of the channel nothing, and nothing about other channels. *)
  Lemma look_num_off k v tags p cmd a c r : In cmd numerics -> v_on v = false \/ cm c <> k ->
    look k v (Message tags p cmd (a :: c :: r)) = v.
  Proof.
    intros Hc H.
    assert (E : look k v (Message tags p cmd (a :: c :: r)) = if negb (v_on v) then v else if negb (beqb (cm c) k) then v else
       look k v (Message tags p cmd (a :: c :: r))).
    { unfold numerics in Hc. simpl in Hc.
      destruct Hc as [<-|[<-|[<-|[<-|[<-|[<-|[]]]]]]];
      unfold ChanView.look; cbn [m_params m_command];
      repeat (match goal with |- context [beqb (B ?x) (B ?y)] => let r := eval vm_compute in (beqb (B x) (B y)) in change (beqb (B x) (B y)) with r end; cbn iota);
      destruct (v_on v); cbn [negb]; try reflexivity; destruct (beqb (cm c) k); reflexivity. }
    rewrite E. destruct H as [->|H]; [reflexivity|]. destruct (v_on v); [|reflexivity]. cbn [negb].
    apply beqb_neq in H. rewrite H. reflexivity.
  Qed.

  Record chan_inv (k : bytes) (h : srv) (x : vchan) : Prop := {
    ci_name : cm (x_name x) = k;
    ci_complete : x_complete x = s_named h;
    ci_topic : x_topic x = if s_told h then s_topic h else [];
    ci_who : x_who x = if s_told_who h then s_who h else None;
    ci_time : s_told_who h = true -> forall t, s_time h = Some t -> x_time x = t;
    ci_named : s_named h = true -> (s_told h = true \/ s_topic h = []) /\ (s_told_who h = true \/ s_who h = None);
    ci_modes : forall m, x_modes x = Some m -> same_modes m (s_modes h) /\ modes_consistent avail table m;
    ci_created : x_created x = [] \/ x_created x = s_created h;
    ci_wf : forall t, s_time h = Some t -> exists w, s_who h = Some w /\ wf_prefix w;
    ci_made : s_created h <> []
  }.
  Definition vinv (h : srv) (x : vchan) (v : cview) : Prop :=
    v_on v = true ->
    (x_complete x = true -> v_topic v = x_topic x /\
       (x_topic x <> [] -> v_who v = option_map format_prefix (x_who x) /\ forall t, s_time h = Some t -> v_time v = Some (dec t))) /\
    (x_complete x = false -> (x_topic x = [] -> v_topic v = []) /\ (x_who x = None -> v_who v = None)) /\
    (forall m, v_modes v = Some m -> same_modes m (s_modes h)) /\
    (v_asked v = true -> x_modes x <> None -> v_modes v <> None) /\
    (v_created v = None \/ v_created v = Some (s_created h)).
  Definition kinv (k : bytes) (h : option srv) (x : option vchan) : Prop :=
    match h, x with Some h, Some x => chan_inv k h x | None, None => True | _, _ => False end.
  Definition vio (h : option srv) (x : option vchan) (v : cview) : Prop :=
    match h, x with Some h, Some x => vinv h x v | _, _ => True end.

  Definition wfb (b : vst) : Prop :=
    NoDup (map fst (x_chans b)) /\ (forall p, In p (x_chans b) -> cm (x_name (snd p)) = fst p) /\ NoDup (x_clients b).

  Definition effect (k : bytes) (b b' : vst) (outs : list (N * message)) (xo : option vchan) (mi : N -> list message) : Prop :=
    x_saved b' = x_saved b /\ x_clients b' = x_clients b /\ x_panic b' = x_panic b /\ wfb b' /\
    (forall j, ch_get (x_chans b') j = if beqb j k then xo else ch_get (x_chans b) j) /\
    (forall i, In i (x_clients b) -> received i outs = mi i).

  Lemma eff_set k b c x' outs mi : wfb b -> cm c = k -> cm (x_name x') = k ->
    (forall i, In i (x_clients b) -> received i outs = mi i) -> effect k b (with_chan cm b c x') outs (Some x') mi.
  Proof.
    intros (H1 & H2 & H3) Hc Hn Ho. repeat (split; [reflexivity|]). split; [|split; [|exact Ho]].
    - split; [apply ch_set_nodup; exact H1|]. split; [|exact H3].
      intros p Hp. unfold with_chan, with_chans in Hp. cbn [x_chans] in Hp. destruct Hp as [<-|Hp]; [cbn [fst snd]; congruence|].
      apply filter_In in Hp as [Hp _]. apply H2. exact Hp.
    - intros j. unfold with_chan, with_chans. cbn [x_chans]. rewrite ch_get_set, Hc. reflexivity.
  Qed.
  Lemma eff_del k b c outs mi : wfb b -> cm c = k ->
    (forall i, In i (x_clients b) -> received i outs = mi i) ->
    effect k b (with_chans b (ch_del (x_chans b) (cm c))) outs None mi.
  Proof.
    intros (H1 & H2 & H3) Hc Ho. repeat (split; [reflexivity|]). split; [|split; [|exact Ho]].
    - split; [apply ch_del_nodup; exact H1|]. split; [|exact H3].
      intros p Hp. cbn [x_chans with_chans] in Hp. apply filter_In in Hp as [Hp _]. apply H2. exact Hp.
    - intros j. cbn [x_chans with_chans]. rewrite ch_get_del, Hc. reflexivity.
  Qed.
  Lemma eff_same k b outs mi : wfb b ->
    (forall i, In i (x_clients b) -> received i outs = mi i) -> effect k b b outs (ch_get (x_chans b) k) mi.
  Proof.
    intros H Ho. repeat (split; [reflexivity|]). split; [exact H|]. split; [|exact Ho].
    intros j. destruct (beqb_spec j k) as [E|_]; [rewrite E|]; reflexivity.
  Qed.

  (** To everybody, unless the channel is detached. *)
  Lemma received_det b b' (c : bytes) m i : wfb b -> x_clients b' = x_clients b -> x_saved b' = x_saved b -> In i (x_clients b) ->
    received i (if negb (detached b' c) then to_all b' m else []) = if detached b c then [] else [m].
  Proof.
    intros (_ & _ & H) Ec Es Hi. unfold ChanView.detached. rewrite Es.
    destruct (x_saved b (cm c)) as [[]|]; cbn [negb]; [reflexivity| |]; apply received_all; rewrite Ec; assumption.
  Qed.
  Lemma received_produce b b' (c : bytes) m i : wfb b -> x_clients b' = x_clients b -> x_saved b' = x_saved b -> In i (x_clients b) ->
    received i (produce cm b' c m) = if detached b c then [] else [m].
  Proof.
    intros H Ec Es Hi. rewrite <- (received_det b b' c m i H Ec Es Hi). unfold produce. destruct (detached b' c); reflexivity.
  Qed.

  (** The view after the topic is sent. *)
  Lemma send_view k x v : cm (x_name x) = k -> v_on v = true ->
    fold_left (look k) (send_topic me server x) v =
    CView true (x_topic x)
      (match x_topic x, x_who x with _ :: _, Some w => Some (format_prefix w) | _, _ => v_who v end)
      (match x_topic x, x_who x with _ :: _, Some _ => Some (dec (x_time x)) | _, _ => v_time v end)
      (v_modes v) (v_created v) (v_asked v).
  Proof.
    intros Hk Hv. unfold send_topic. destruct (x_topic x) as [|a t] eqn:Et.
    - cbn [fold_left]. unfold reply. rewrite look_331, Hv, Hk, beqb_refl. reflexivity.
    - destruct (x_who x) as [w|]; cbn [fold_left]; unfold reply; rewrite look_332, Hv, Hk, beqb_refl; cbn [negb]; [|reflexivity].
      rewrite look_333. cbn [v_on negb]. rewrite Hk, beqb_refl. reflexivity.
  Qed.
  Lemma send_off k x v : v_on v = false \/ cm (x_name x) <> k -> fold_left (look k) (send_topic me server x) v = v.
  Proof.
    intros H. unfold send_topic. unfold reply.
    assert (E : forall cmd r, In cmd numerics -> look k v (Message [] (Some (Prefix server [] [])) cmd (me :: x_name x :: r)) = v).
    { intros cmd r Hc. apply look_num_off; assumption. }
    assert (I1 : In (B "331") numerics) by (left; reflexivity).
    assert (I2 : In (B "332") numerics) by (right; left; reflexivity).
    assert (I3 : In (B "333") numerics) by (right; right; left; reflexivity).
    destruct (x_topic x) as [|a t]; [|destruct (x_who x) as [w|]]; cbn [fold_left]; rewrite E by assumption; [reflexivity| |reflexivity].
    apply E. exact I3.
  Qed.
  Lemma forward_off k x v : v_on v = false \/ cm (x_name x) <> k -> fold_left (look k) (forward_channel me server x) v = v.
  Proof. intros H. unfold forward_channel. destruct (x_topic x); [reflexivity|]. apply send_off. exact H. Qed.
  Lemma forward_view k h x v : chan_inv k h x -> v_on v = true -> (s_told_who h = true \/ s_who h = None) ->
    (x_topic x = [] -> v_topic v = []) -> (x_who x = None -> v_who v = None) ->
    exists v', fold_left (look k) (forward_channel me server x) v = v' /\ v_on v' = true /\
    v_topic v' = x_topic x /\
    (x_topic x <> [] -> v_who v' = option_map format_prefix (x_who x) /\ forall t, s_time h = Some t -> v_time v' = Some (dec t)) /\
    v_modes v' = v_modes v /\ v_created v' = v_created v /\ v_asked v' = v_asked v.
  Proof.
    intros Hi Hv Hw Ht Hn. eexists. split; [reflexivity|]. unfold forward_channel. destruct (x_topic x) as [|a t] eqn:Et.
    - cbn [fold_left]. split; [exact Hv|]. split; [apply Ht; reflexivity|]. split; [congruence|]. tauto.
    - rewrite (send_view k x v (ci_name _ _ _ Hi) Hv), Et. cbn [v_on v_topic v_who v_time v_modes v_created v_asked].
      split; [reflexivity|]. split; [reflexivity|]. split; [|tauto]. intros _.
      destruct (x_who x) as [w|] eqn:Ew; cbn [option_map].
      + split; [reflexivity|]. intros tm Hm.
        assert (Hw1 : s_told_who h = true).
        { destruct Hw as [Hw|Hw]; [exact Hw|]. destruct (ci_wf _ _ _ Hi tm Hm) as [w' [E _]]. congruence. }
        rewrite (ci_time _ _ _ Hi Hw1 tm Hm). reflexivity.
      + split; [apply Hn; reflexivity|]. intros tm Hm. exfalso.
        destruct (ci_wf _ _ _ Hi tm Hm) as [w' [E _]].
        destruct Hw as [Hw|Hw]; [|congruence]. pose proof (ci_who _ _ _ Hi) as Hc. rewrite Hw in Hc. congruence.
  Qed.

  Definition is_modes (k : bytes) (m : message) : bool :=
    beqb (m_command m) (B "324") && match m_params m with _ :: c :: _ :: _ => beqb (cm c) k | _ => false end.
  Definition is_leave (k : bytes) (m : message) : bool :=
    (beqb (m_command m) (B "PART") && mine m && match m_params m with c :: _ => beqb (cm c) k | [] => false end)
    || (beqb (m_command m) (B "KICK") && match m_params m with c :: n :: _ => beqb (cm c) k && beqb (cm n) (cm me) | _ => false end).

  Definition stepok (k : bytes) (h h' : option srv) (b : vst) (m : message) (r : vres) : Prop :=
    exists b' outs ups xo mi, r = (b', outs, ups) /\ effect k b b' outs xo mi /\ kinv k h' xo /\
    (forall i v, In i (x_clients b) -> (x_saved b k = Some true -> v_on v = false) -> vio h (ch_get (x_chans b) k) v ->
       vio h' xo (fold_left (look k) (mi i) v) /\ (x_saved b k = Some true -> v_on (fold_left (look k) (mi i) v) = false)) /\
    (forall i x j v, In i (x_clients b) -> In x (mi i) -> j <> k -> look j v x = v) /\
    (forall x', xo = Some x' -> x_modes x' = None ->
       (exists c, cm c = k /\ In (msg (B "MODE") [c]) ups) \/
       ((exists x, ch_get (x_chans b) k = Some x /\ x_modes x = None) /\ is_modes k m = false /\ is_leave k m = false)).

  Lemma det_saved b c k : cm c = k -> detached b c = true <-> x_saved b k = Some true.
  Proof. intros <-. unfold ChanView.detached. destruct (x_saved b (cm c)) as [[]|]; split; congruence. Qed.

  Lemma step_set k h h' b m c x x' ml outs ups :
    wfb b -> cm c = k -> ch_get (x_chans b) k = Some x -> chan_inv k h' x' ->
    (forall i, In i (x_clients b) -> received i outs = if detached b c then [] else ml) ->
    (forall v, vinv h x v -> vinv h' x' (fold_left (look k) ml v)) ->
    (forall y j v, In y ml -> j <> k -> look j v y = v) ->
    (x_modes x' = None -> x_modes x = None /\ is_modes k m = false /\ is_leave k m = false) ->
    stepok k (Some h) (Some h') b m (with_chan cm b c x', outs, ups).
  Proof.
    intros Hw Hc Hg Hi Ho Hv Hl Hm.
    exists (with_chan cm b c x'), outs, ups, (Some x'), (fun _ => if detached b c then [] else ml).
    split; [reflexivity|]. split; [apply eff_set; try assumption; exact (ci_name _ _ _ Hi)|]. split; [exact Hi|].
    split; [|split].
    - intros i v _ Hd Hvi. rewrite Hg in Hvi. cbn [vio] in *. destruct (detached b c) eqn:Ed.
      + cbn [fold_left]. assert (Hf : v_on v = false) by (apply Hd; apply (det_saved b c k Hc); exact Ed).
        split; [intros H; congruence|]. intros _. exact Hf.
      + split; [apply Hv; exact Hvi|]. intros H. apply (det_saved b c k Hc) in H. congruence.
    - intros i y j v _ Hy. destruct (detached b c); [destruct Hy|]. apply Hl. exact Hy.
    - intros z [= <-] Hz. right. destruct (Hm Hz) as (H1 & H2 & H3). split; [|split; assumption]. exists x. split; assumption.
  Qed.

  Lemma fill_shape tags p cmd ps : exists q, fill_prefix server (Message tags p cmd ps) = Message tags (Some q) cmd ps /\
    forall z, p = Some z -> q = z.
  Proof.
    destruct p as [z|]; eexists; (split; [reflexivity|]); intros y H; [congruence|discriminate].
  Qed.

  Lemma get_eq b c k : cm c = k -> get b c = ch_get (x_chans b) k.
  Proof. intros <-. reflexivity. Qed.
  Lemma neq_beqb (a b : bytes) : a <> b -> beqb a b = false.
  Proof. intros H. apply beqb_neq. exact H. Qed.

  Lemma step_join k tags p c rest t w tm md cr b o n : wfb b -> ch_get (x_chans b) k = None ->
    cm (p_name p) = cm me -> cm c = k -> ~ In ","%char c ->
    (t = [] -> w = None) -> (forall q, w = Some q -> wf_prefix q) -> (w = None <-> tm = None) -> cr <> [] ->
    stepok k None (Some (Srv t w tm md cr false false false)) b (Message tags (Some p) (B "JOIN") (c :: rest))
      (on_message b o n (Message tags (Some p) (B "JOIN") (c :: rest))).
  Proof.
    intros Hw Hg Hp Hc Hcm Ht Hwf Htm Hcr.
    assert (E : on_message b o n (Message tags (Some p) (B "JOIN") (c :: rest)) =
      fst (fold_left (fun x ch => on_join1 cm me x (Message tags (Some p) (B "JOIN") (c :: rest)) ch) (split_on "," c) ((b, [], []), true))) by reflexivity.
    rewrite E, (split_on_nosep _ _ Hcm). cbn [fold_left on_join1 negb]. unfold is_me. cbn [m_prefix]. rewrite Hp, beqb_refl.
    set (x' := VChan c [] None 0 None [] false). cbn [fst app].
    change (with_param0 (Message tags (Some p) (B "JOIN") (c :: rest)) c) with (Message tags (Some p) (B "JOIN") (c :: rest)).
    set (m := Message tags (Some p) (B "JOIN") (c :: rest)).
    assert (Hm : mine m = true). { unfold ChanView.mine. cbn. rewrite Hp, beqb_refl. reflexivity. }
    exists (with_chan cm b c x'), (produce cm (with_chan cm b c x') c m), [msg (B "MODE") [c]], (Some x'), (fun _ => if detached b c then [] else [m]).
    split; [reflexivity|]. split; [|split; [|split; [|split]]].
    - apply eff_set; [exact Hw|exact Hc|exact Hc|]. intros i Hi. apply (received_produce b); try assumption; reflexivity.
    - constructor; cbn; try reflexivity; try congruence; try (left; reflexivity); try discriminate; try exact Hc.
      intros t0 E0. destruct w as [q|]; [exists q; split; [reflexivity|apply Hwf; reflexivity]|]. destruct Htm as [Htm _]. rewrite Htm in E0 by reflexivity. discriminate.
    - intros i v _ Hd _. destruct (detached b c) eqn:Ed.
      + cbn [fold_left]. assert (Hf : v_on v = false) by (apply Hd; apply (det_saved b c k Hc); exact Ed).
        split; [intros H; congruence|intros _; exact Hf].
      + cbn [fold_left]. split; [|intros H; apply (det_saved b c k Hc) in H; congruence].
        unfold m. rewrite look_join. fold m. rewrite Hm, Hc, beqb_refl. cbn [andb]. intros _. cbn.
        split; [discriminate|]. split; [intros _; split; reflexivity|]. split; [discriminate|]. split; [discriminate|left; reflexivity].
    - intros i y j v _ Hy Hj. destruct (detached b c); [destruct Hy|]. destruct Hy as [<-|[]].
      unfold m. rewrite look_join, Hc, (neq_beqb k j) by congruence. rewrite andb_false_r. reflexivity.
    - intros y [= <-] _. left. exists c. split; [exact Hc|left; reflexivity].
  Qed.

  Lemma step_leave k h b m m' c outs ups : wfb b -> cm c = k ->
    (forall i, In i (x_clients b) -> received i outs = if detached b c then [] else [m']) ->
    (forall j v, j <> k -> look j v m' = v) ->
    stepok k (Some h) None b m (with_chans b (ch_del (x_chans b) (cm c)), outs, ups).
  Proof.
    intros Hw Hc Ho Hl.
    exists (with_chans b (ch_del (x_chans b) (cm c))), outs, ups, None, (fun _ => if detached b c then [] else [m']).
    split; [reflexivity|]. split; [apply eff_del; assumption|]. split; [exact I|]. split; [|split].
    - intros i v _ Hd _. split; [exact I|]. intros Hs. rewrite (proj2 (det_saved b c k Hc) Hs). exact (Hd Hs).
    - intros i y j v _ Hy Hj. destruct (detached b c); [destruct Hy|]. destruct Hy as [<-|[]]. apply Hl. exact Hj.
    - intros x' H. discriminate.
  Qed.

  Lemma step_effect k h m h' b o n : wfb b -> kinv k h (ch_get (x_chans b) k) -> says k h m h' ->
    stepok k h h' b m (on_message b o n m).
  Proof.
    intros Hw Hk Hs. destruct Hs as
      [tags p c rest t w tm md cr Hp Hc Hcm Ht Hwf Htm Hcr|tags p c rest h Hp Hc Hcm|tags p c n0 rest h Hn Hc
      |tags p c h Hc Ht|tags p c text h Hc Ht|tags p c w t h Hc Hwho Htime|tags p c w t h Hc Hwho Htime Htold Hwf
      |tags q c t h Hc|tags q c h Hc|tags q c s args h md Hc Hch Ha|tags p c s args h md Hc Ha Hsm|tags p c h Hc
      |tags p c rest h Hc H1 H2|tags p c rest h cmd Hp Hc Hcm Hcmd|tags p c rest cmd Hc Hcmd].
    - (* JOIN *) destruct (ch_get (x_chans b) k) eqn:Hg; [destruct Hk|]. apply step_join; assumption.
    - (* PART *)
      set (m := Message tags (Some p) (B "PART") (c :: rest)).
      assert (E : on_message b o n m = fst (fold_left (fun x ch => on_part1 cm me x m ch) (split_on "," c) ((b, [], []), true))) by reflexivity.
      rewrite E, (split_on_nosep _ _ Hcm). cbn [fold_left on_part1 negb]. unfold is_me. cbn [m_prefix m]. rewrite Hp, beqb_refl.
      cbn [fst app]. change (with_param0 (Message tags (Some p) (B "PART") (c :: rest)) c) with m.
      apply (step_leave k h b m m c); [exact Hw|exact Hc| |].
      + intros i Hi. apply (received_produce b); try assumption; reflexivity.
      + intros j v Hj. unfold m. rewrite look_part, Hc, (neq_beqb k j) by congruence. rewrite andb_false_r. reflexivity.
    - (* KICK *)
      set (m := Message tags p (B "KICK") (c :: n0 :: rest)).
      assert (E : on_message b o n m = on_kick cm me b (fill_prefix server m)) by (destruct p; reflexivity).
      rewrite E. destruct (fill_shape tags p (B "KICK") (c :: n0 :: rest)) as [q [Eq _]]. fold m in Eq. rewrite Eq.
      unfold on_kick. cbn [m_params]. rewrite Hn, beqb_refl.
      apply (step_leave k h b m (Message tags (Some q) (B "KICK") (c :: n0 :: rest)) c); [exact Hw|exact Hc| |].
      + intros i Hi. apply (received_produce b); try assumption; reflexivity.
      + intros j v Hj. rewrite look_kick, Hc, (neq_beqb k j) by congruence. reflexivity.
    - (* 332 *)
      destruct (ch_get (x_chans b) k) as [x|] eqn:Hg; [|destruct Hk]. cbn [kinv] in Hk.
      set (m := Message tags p (B "332") [me; c; s_topic h]).
      assert (E : on_message b o n m = on_topic_reply cm b o (fill_prefix server m)) by (destruct p; reflexivity).
      rewrite E. destruct (fill_shape tags p (B "332") [me; c; s_topic h]) as [q [Eq _]]. fold m in Eq. rewrite Eq.
      unfold on_topic_reply. cbn [m_params m_command]. rewrite (get_eq b c k Hc), Hg. change (beqb (B "332") (B "332")) with true. cbv iota.
      apply (step_set k h _ b m c x _ []); [exact Hw|exact Hc|exact Hg| | | | |].
      + destruct Hk. constructor; cbn; try assumption; try reflexivity. intros Hn. specialize (ci_named0 Hn). tauto.
      + intros i Hi. destruct (detached b c); reflexivity.
      + intros v Hv Hon. cbn [fold_left] in *. specialize (Hv Hon). cbn [set_topic x_complete x_topic x_who x_modes] in *.
        destruct Hv as (Hv1 & Hv2 & Hv3). destruct Hk. split; [|split; [|exact Hv3]].
        * intros Hco. destruct (Hv1 Hco) as [Hva Hvb]. rewrite ci_complete0 in Hco. destruct (ci_named0 Hco) as [[Hn|Hn] _]; [|congruence].
          rewrite Hn in ci_topic0. rewrite ci_topic0 in *. split; assumption.
        * intros Hco. split; [congruence|apply (Hv2 Hco)].
      + intros y j v [].
      + cbn. intros Hm. split; [exact Hm|]. split; [reflexivity|]. destruct p; reflexivity.
    - (* 331 *)
      destruct (ch_get (x_chans b) k) as [x|] eqn:Hg; [|destruct Hk]. cbn [kinv] in Hk.
      set (m := Message tags p (B "331") [me; c; text]).
      assert (E : on_message b o n m = on_topic_reply cm b o (fill_prefix server m)) by (destruct p; reflexivity).
      rewrite E. destruct (fill_shape tags p (B "331") [me; c; text]) as [q [Eq _]]. fold m in Eq. rewrite Eq.
      unfold on_topic_reply. cbn [m_params m_command]. rewrite (get_eq b c k Hc), Hg. change (beqb (B "331") (B "332")) with false. cbv iota.
      assert (Hx : x_topic x = []). { destruct Hk. rewrite ci_topic0. destruct (s_told h); [exact Ht|reflexivity]. }
      apply (step_set k h _ b m c x _ []); [exact Hw|exact Hc|exact Hg| | | | |].
      + destruct Hk. constructor; cbn; try assumption; try (symmetry; exact Ht). intros Hn. specialize (ci_named0 Hn). tauto.
      + intros i Hi. destruct (detached b c); reflexivity.
      + intros v Hv Hon. cbn [fold_left] in *. specialize (Hv Hon). unfold set_topic. cbn [x_complete x_topic x_who x_modes] in *.
        rewrite Hx in Hv. exact Hv.
      + intros y j v [].
      + cbn. intros Hm. split; [exact Hm|]. split; [reflexivity|]. destruct p; reflexivity.
    - (* 333 *)
      destruct (ch_get (x_chans b) k) as [x|] eqn:Hg; [|destruct Hk]. cbn [kinv] in Hk.
      set (m := Message tags p (B "333") [me; c; format_prefix w; dec t]).
      assert (E : on_message b o n m = on_setter cm b o (fill_prefix server m)) by (destruct p; reflexivity).
      rewrite E. destruct (fill_shape tags p (B "333") [me; c; format_prefix w; dec t]) as [q [Eq _]]. fold m in Eq. rewrite Eq.
      unfold on_setter. cbn [m_params]. rewrite (get_eq b c k Hc), Hg, undec_dec.
      assert (Hwf : wf_prefix w). { destruct Hk. destruct (ci_wf0 t Htime) as [w' [Ew Hwf]]. congruence. }
      rewrite (parse_format w Hwf).
      set (m' := Message tags (Some q) (B "333") [me; c; format_prefix w; dec t]).
      apply (step_set k h _ b m c x _ (if match x_who x with None => true | Some _ => false end then [m'] else [])); [exact Hw|exact Hc|exact Hg| | | | |].
      + destruct Hk. constructor; cbn; try assumption; try (symmetry; exact Hwho).
        * intros _ t' Ht'. congruence.
        * intros Hn. specialize (ci_named0 Hn). tauto.
      + intros i Hi. destruct (x_who x); cbn [andb]; [destruct (detached b c); reflexivity|]. apply (received_det b); try assumption; reflexivity.
      + intros v Hv. destruct (x_who x) as [z|] eqn:Ez.
        * cbn [fold_left]. intros Hon. specialize (Hv Hon). unfold set_setter. cbn [x_complete x_topic x_who x_modes s_time s_modes s_created] in *.
          assert (z = w) as ->. { destruct Hk. rewrite Ez in ci_who0. destruct (s_told_who h); congruence. }
          rewrite Ez in Hv. destruct Hv as (Hv1 & Hv2 & Hv3). split; [exact Hv1|]. split; [|exact Hv3].
          intros Hco. destruct (Hv2 Hco) as [Hva _]. split; [exact Hva|discriminate].
        * cbn [fold_left]. unfold m'. rewrite look_333. destruct (v_on v) eqn:Hon; cbn [negb]; [|intros H; congruence].
          rewrite Hc, beqb_refl. cbn [negb]. intros _. specialize (Hv Hon). unfold set_setter. cbn [v_topic v_who v_time v_modes v_created v_asked x_complete x_topic x_who x_modes s_time s_modes s_created hd_error] in *.
          destruct Hv as (Hv1 & Hv2 & Hv3). split; [|split; [|exact Hv3]].
          -- intros Hco. destruct (Hv1 Hco) as [Hva Hvb]. split; [exact Hva|]. intros Htp. split; [reflexivity|]. intros t' Ht'. congruence.
          -- intros Hco. destruct (Hv2 Hco) as [Hva _]. split; [exact Hva|discriminate].
      + intros y j v Hy Hj. destruct (x_who x); [destruct Hy|]. destruct Hy as [<-|[]]. apply look_num_off; [do 2 right; left; reflexivity|]. right. congruence.
      + cbn. intros Hm. split; [exact Hm|]. split; [reflexivity|]. destruct p; reflexivity.
    - (* 333 again *)
      destruct (ch_get (x_chans b) k) as [x|] eqn:Hg; [|destruct Hk]. cbn [kinv] in Hk.
      set (m := Message tags p (B "333") [me; c; format_prefix w; dec t]).
      assert (E : on_message b o n m = on_setter cm b o (fill_prefix server m)) by (destruct p; reflexivity).
      rewrite E. destruct (fill_shape tags p (B "333") [me; c; format_prefix w; dec t]) as [q [Eq _]]. fold m in Eq. rewrite Eq.
      unfold on_setter. cbn [m_params]. rewrite (get_eq b c k Hc), Hg, undec_dec, (parse_format w Hwf).
      assert (Hx : x_who x = Some w). { destruct Hk. rewrite ci_who0, Htold. exact Hwho. }
      rewrite Hx. cbn [andb].
      apply (step_set k h _ b m c x _ []); [exact Hw|exact Hc|exact Hg| | | | |].
      + destruct Hk. constructor; cbn; try assumption; [rewrite Htold; symmetry; exact Hwho|]. intros _ t' Ht'. congruence.
      + intros i Hi. destruct (detached b c); reflexivity.
      + intros v Hv Hon. cbn [fold_left] in *. specialize (Hv Hon). unfold set_setter. cbn [x_complete x_topic x_who x_modes] in *.
        rewrite Hx in Hv. exact Hv.
      + intros y j v [].
      + cbn. intros Hm. split; [exact Hm|]. split; [reflexivity|]. destruct p; reflexivity.
    - (* TOPIC *)
      destruct (ch_get (x_chans b) k) as [x|] eqn:Hg; [|destruct Hk]. cbn [kinv] in Hk.
      set (m := Message tags (Some q) (B "TOPIC") [c; t]).
      assert (E : on_message b o n m = on_topic cm b n m) by reflexivity.
      rewrite E. unfold on_topic. cbn [m_params m]. rewrite (get_eq b c k Hc), Hg. fold m.
      apply (step_set k h _ b m c x _ [m]); [exact Hw|exact Hc|exact Hg| | | | |].
      + destruct Hk. constructor; cbn; try assumption; try reflexivity; try discriminate. tauto.
      + intros i Hi. cbn [x_name set_setter set_topic].
        replace (detached b c) with (detached b (x_name x)).
        * apply (received_produce b); try assumption; reflexivity.
        * unfold ChanView.detached. rewrite Hc, (ci_name _ _ _ Hk). reflexivity.
      + intros v Hv. cbn [fold_left]. unfold m. rewrite look_topic. destruct (v_on v) eqn:Hon; cbn [negb]; [|intros H; congruence].
        rewrite Hc, beqb_refl. intros _. specialize (Hv Hon). cbn. destruct Hv as (Hv1 & Hv2 & Hv3).
        split; [intros _; split; [reflexivity|]; intros _; split; [reflexivity|discriminate]|].
        split; [intros _; split; [exact (fun H => H)|discriminate]|]. exact Hv3.
      + intros y j v [<-|[]] Hj. unfold m. rewrite look_topic, Hc, (neq_beqb k j) by congruence. destruct (v_on v); reflexivity.
      + cbn. intros Hm. split; [exact Hm|]. split; reflexivity.
    - (* TOPIC without a topic *)
      destruct (ch_get (x_chans b) k) as [x|] eqn:Hg; [|destruct Hk]. cbn [kinv] in Hk.
      set (m := Message tags (Some q) (B "TOPIC") [c]).
      assert (E : on_message b o n m = on_topic cm b n m) by reflexivity.
      rewrite E. unfold on_topic. cbn [m_params m]. rewrite (get_eq b c k Hc), Hg. fold m.
      apply (step_set k h _ b m c x _ [m]); [exact Hw|exact Hc|exact Hg| | | | |].
      + destruct Hk. constructor; cbn; try assumption; try reflexivity. intros Hn. specialize (ci_named0 Hn). tauto.
      + intros i Hi. cbn [x_name set_topic].
        replace (detached b c) with (detached b (x_name x)).
        * apply (received_produce b); try assumption; reflexivity.
        * unfold ChanView.detached. rewrite Hc, (ci_name _ _ _ Hk). reflexivity.
      + intros v Hv. cbn [fold_left]. unfold m. rewrite look_clear. destruct (v_on v) eqn:Hon; cbn [negb]; [|intros H; congruence].
        rewrite Hc, beqb_refl. intros _. specialize (Hv Hon). cbn. destruct Hv as (Hv1 & Hv2 & Hv3).
        split; [intros _; split; [reflexivity|]; congruence|].
        split; [intros Hco; split; [reflexivity|apply (Hv2 Hco)]|]. exact Hv3.
      + intros y j v [<-|[]] Hj. unfold m. rewrite look_clear, Hc, (neq_beqb k j) by congruence. destruct (v_on v); reflexivity.
      + cbn. intros Hm. split; [exact Hm|]. split; reflexivity.
    - (* MODE *)
      destruct (ch_get (x_chans b) k) as [x|] eqn:Hg; [|destruct Hk]. cbn [kinv] in Hk.
      set (m := Message tags q (B "MODE") (c :: s :: args)).
      assert (E : on_message b o n m = on_mode cm chantypes avail table b (fill_prefix server m)) by (destruct q; reflexivity).
      rewrite E. destruct (fill_shape tags q (B "MODE") (c :: s :: args)) as [q' [Eq _]]. fold m in Eq. rewrite Eq.
      unfold on_mode. cbn [m_params]. rewrite Hch, (get_eq b c k Hc), Hg. cbn [negb].
      set (m' := Message tags (Some q') (B "MODE") (c :: s :: args)).
      assert (Hs : snd (apply (x_modes x) s args) = true).
      { destruct (x_modes x) as [mx|] eqn:Ex.
        - destruct (ci_modes _ _ _ Hk mx Ex) as [Hsm _]. destruct (apply_same avail table mx _ s args md true Hsm Ha) as [a' [Ea _]].
          rewrite Ea. reflexivity.
        - assert (Hn : snd (apply None s args) = snd (apply (Some (s_modes h)) s args)); [|rewrite Hn, Ha; reflexivity].
          unfold mapply, apply_channel_modes. cbn [snd].
          destruct (snd (apply_modes avail table (Chan None (cm_new CmRFC1459)) None s args)) eqn:E1;
          destruct (snd (apply_modes avail table (Chan (Some (s_modes h)) (cm_new CmRFC1459)) None s args)) eqn:E2; try reflexivity; exfalso.
          + pose proof (proj1 (Proof.Modes.line_fails avail table s _ None args) E2) as Hx.
            apply (Proof.Modes.line_fails avail table s (Chan None (cm_new CmRFC1459)) None args) in Hx. congruence.
          + pose proof (proj1 (Proof.Modes.line_fails avail table s _ None args) E1) as Hx.
            apply (Proof.Modes.line_fails avail table s (Chan (Some (s_modes h)) (cm_new CmRFC1459)) None args) in Hx. congruence. }
      rewrite Hs. cbn [andb].
      apply (step_set k h _ b m c x _ [m']); [exact Hw|exact Hc|exact Hg| | | | |].
      + destruct Hk. constructor; cbn; try assumption. intros mm Hmm. destruct (x_modes x) as [mx|] eqn:Ex.
        * destruct (ci_modes0 mx eq_refl) as [Hsm Hcons]. destruct (apply_same avail table mx _ s args md true Hsm Ha) as [a' [Ea Hsa]].
          unfold mapply in Ea, Hmm. injection Ea as Ea _. cbn [fst] in Hmm. rewrite Ea in Hmm. injection Hmm as <-.
          split; [exact Hsa|]. apply (apply_consistent avail table mx s args a' true Hcons). unfold mapply. f_equal; [exact Ea|].
          exact Hs.
        * change (fst (apply None s args) = Some mm) in Hmm. rewrite (apply_nil avail table s args _ eq_refl) in Hmm. discriminate.
      + intros i Hi. apply (received_det b); try assumption; reflexivity.
      + intros v Hv. cbn [fold_left]. unfold m'. rewrite look_mode. destruct (v_on v) eqn:Hon; cbn [negb]; [|intros H; congruence].
        rewrite Hc, beqb_refl. intros _. specialize (Hv Hon). unfold set_modes. cbn [v_topic v_who v_time v_modes v_created v_asked x_complete x_topic x_who x_modes s_time s_modes s_created].
        destruct Hv as (Hv1 & Hv2 & Hv3 & Hv4 & Hv5). split; [exact Hv1|]. split; [exact Hv2|].
        assert (Hvm : match v_modes v with
                      | Some mv => exists a', fst (apply (Some mv) s args) = Some a' /\ same_modes a' md
                      | None => True end).
        { destruct (v_modes v) as [mv|]; [|exact I]. destruct (apply_same avail table mv _ s args md true (Hv3 mv eq_refl) Ha) as [a' [Ea Hsa]].
          exists a'. rewrite Ea. split; [reflexivity|exact Hsa]. }
        split; [|split; [|exact Hv5]].
        * intros mm Hmm. destruct (v_modes v) as [mv|]; [|discriminate]. destruct Hvm as [a' [Ea Hsa]]. rewrite Ea in Hmm. congruence.
        * intros Has Hx. destruct (v_modes v) as [mv|].
          -- destruct Hvm as [a' [Ea _]]. rewrite Ea. discriminate.
          -- apply Hv4; [exact Has|]. intros Hn. apply Hx. rewrite Hn. apply (apply_nil avail table s args _ eq_refl).
      + intros y j v [<-|[]] Hj. unfold m'. rewrite look_mode, Hc, (neq_beqb k j) by congruence. destruct (v_on v); reflexivity.
      + cbn [set_modes x_modes]. intros Hm. split; [|split; [reflexivity|destruct q; reflexivity]].
        destruct (x_modes x) as [mx|] eqn:Ex; [|reflexivity]. exfalso.
        destruct (ci_modes _ _ _ Hk mx Ex) as [Hsm _]. destruct (apply_same avail table mx _ s args md true Hsm Ha) as [a' [Ea _]].
        rewrite Ea in Hm. discriminate.
    - (* 324 *)
      destruct (ch_get (x_chans b) k) as [x|] eqn:Hg; [|destruct Hk]. cbn [kinv] in Hk.
      set (m := Message tags p (B "324") (me :: c :: s :: args)).
      assert (E : on_message b o n m = on_modes_reply cm avail table b o (fill_prefix server m)) by (destruct p; reflexivity).
      rewrite E. destruct (fill_shape tags p (B "324") (me :: c :: s :: args)) as [q [Eq _]]. fold m in Eq. rewrite Eq.
      unfold on_modes_reply. cbn [m_params hd tl]. rewrite (get_eq b c k Hc), Hg, Ha. cbn [fst snd andb].
      set (m' := Message tags (Some q) (B "324") (me :: c :: s :: args)).
      apply (step_set k h _ b m c x _ (if match x_modes x with None => true | Some _ => false end then [m'] else [])); [exact Hw|exact Hc|exact Hg| | | | |].
      + destruct Hk. constructor; cbn; try assumption. intros mm [= <-]. split; [exact Hsm|].
        apply (apply_consistent avail table [] s args md true); [apply consistent_nil|exact Ha].
      + intros i Hi. destruct (x_modes x); cbn [andb]; [destruct (detached b c); reflexivity|]. apply (received_det b); try assumption; reflexivity.
      + intros v Hv. destruct (x_modes x) as [mx|] eqn:Ex.
        * cbn [fold_left]. intros Hon. specialize (Hv Hon). unfold set_modes. cbn [x_complete x_topic x_who x_modes].
          destruct Hv as (Hv1 & Hv2 & Hv3 & Hv4 & Hv5). split; [exact Hv1|]. split; [exact Hv2|]. split; [exact Hv3|]. split; [|exact Hv5].
          intros Has _. apply Hv4; [exact Has|congruence].
        * cbn [fold_left]. unfold m'. rewrite look_324. destruct (v_on v) eqn:Hon; cbn [negb]; [|intros H; congruence].
          rewrite Hc, beqb_refl, Ha. cbn [negb fst]. intros _. specialize (Hv Hon). unfold set_modes. cbn [v_topic v_who v_time v_modes v_created v_asked x_complete x_topic x_who x_modes].
          destruct Hv as (Hv1 & Hv2 & Hv3 & Hv4 & Hv5). split; [exact Hv1|]. split; [exact Hv2|]. split; [intros mm [= <-]; exact Hsm|]. split; [discriminate|exact Hv5].
      + intros y j v Hy Hj. destruct (x_modes x); [destruct Hy|]. destruct Hy as [<-|[]]. apply look_num_off; [do 3 right; left; reflexivity|]. right. congruence.
      + discriminate.
    - (* 329 *)
      destruct (ch_get (x_chans b) k) as [x|] eqn:Hg; [|destruct Hk]. cbn [kinv] in Hk.
      set (m := Message tags p (B "329") [me; c; s_created h]).
      assert (E : on_message b o n m = on_created cm b o (fill_prefix server m)) by (destruct p; reflexivity).
      rewrite E. destruct (fill_shape tags p (B "329") [me; c; s_created h]) as [q [Eq _]]. fold m in Eq. rewrite Eq.
      unfold on_created. cbn [m_params]. rewrite (get_eq b c k Hc), Hg.
      set (m' := Message tags (Some q) (B "329") [me; c; s_created h]).
      apply (step_set k h _ b m c x _ (if match x_created x with [] => true | _ => false end then [m'] else [])); [exact Hw|exact Hc|exact Hg| | | | |].
      + destruct Hk. constructor; cbn; try assumption. right. reflexivity.
      + intros i Hi. destruct (x_created x); cbn [andb]; [|destruct (detached b c); reflexivity]. apply (received_det b); try assumption; reflexivity.
      + intros v Hv. destruct (x_created x) as [|z zs] eqn:Ex.
        * cbn [fold_left]. unfold m'. rewrite look_329. destruct (v_on v) eqn:Hon; cbn [negb]; [|intros H; congruence].
          rewrite Hc, beqb_refl. cbn [negb]. intros _. specialize (Hv Hon). unfold set_created. cbn [v_topic v_who v_time v_modes v_created v_asked x_complete x_topic x_who x_modes].
          destruct Hv as (Hv1 & Hv2 & Hv3 & Hv4 & Hv5). split; [exact Hv1|]. split; [exact Hv2|]. split; [exact Hv3|]. split; [exact Hv4|right; reflexivity].
        * cbn [fold_left]. intros Hon. exact (Hv Hon).
      + intros y j v Hy Hj. destruct (x_created x); [|destruct Hy]. destruct Hy as [<-|[]]. apply look_num_off; [do 4 right; left; reflexivity|]. right. congruence.
      + cbn. intros Hm. split; [exact Hm|]. split; [reflexivity|]. destruct p; reflexivity.
    - (* 366 *)
      destruct (ch_get (x_chans b) k) as [x|] eqn:Hg; [|destruct Hk]. cbn [kinv] in Hk.
      set (m := Message tags p (B "366") (me :: c :: rest)).
      assert (E : on_message b o n m = on_end_of_names cm me server b o (fill_prefix server m)) by (destruct p; reflexivity).
      rewrite E. destruct (fill_shape tags p (B "366") (me :: c :: rest)) as [q [Eq _]]. fold m in Eq. rewrite Eq.
      unfold on_end_of_names. cbn [m_params]. rewrite (get_eq b c k Hc), Hg.
      set (h2 := Srv (s_topic h) (s_who h) (s_time h) (s_modes h) (s_created h) (s_told h) (s_told_who h) true).
      assert (Hk2 : chan_inv k h2 (set_complete x)). { destruct Hk. constructor; cbn; try assumption; try reflexivity. intros _. tauto. }
      destruct (x_complete x) eqn:Eco.
      + exists b, [], [], (ch_get (x_chans b) k), (fun _ => []). split; [reflexivity|].
        split; [apply eff_same; [exact Hw|reflexivity]|]. rewrite Hg.
        assert (Ex : set_complete x = x) by (destruct x; cbn in *; rewrite Eco; reflexivity). rewrite Ex in Hk2.
        split; [exact Hk2|]. split; [|split].
        * intros i v _ Hd Hv. cbn [fold_left]. split; [exact Hv|exact Hd].
        * intros i y j v _ [].
        * intros x' [= <-] Hm. right. split; [exists x; split; [reflexivity|exact Hm]|]. split; [reflexivity|destruct p; reflexivity].
      + apply (step_set k h _ b m c x _ (forward_channel me server x)); [exact Hw|exact Hc|exact Hg|exact Hk2| | | |].
        * intros i Hi. unfold ChanView.detached. cbn [x_saved with_chan with_chans x_clients].
          destruct Hw as (_ & _ & Hn). destruct (x_saved b (cm c)) as [[]|]; [reflexivity| |]; apply received_each; assumption.
        * intros v Hv. destruct (v_on v) eqn:Hon.
          -- intros _. specialize (Hv Hon). destruct Hv as (Hv1 & Hv2 & Hv3 & Hv4 & Hv5). destruct (Hv2 Eco) as [Hva Hvb].
             destruct (forward_view k h x v Hk Hon H2 Hva Hvb) as [v' (Ev & Hon' & Htp & Hwt & Em & Ec & Eas)].
             rewrite Ev. cbn [set_complete x_complete x_topic x_who x_modes h2 s_time s_modes s_created].
             split; [intros _; split; assumption|]. split; [discriminate|]. rewrite Em, Ec, Eas. split; [exact Hv3|]. split; [exact Hv4|exact Hv5].
          -- rewrite forward_off by (left; exact Hon). intros H. congruence.
        * intros y j v Hy Hj.
          assert (Hfor : forall l, (forall v, fold_left (look j) l v = v) -> forall y v, In y l -> (forall z, In z l -> exists cmd r, In cmd numerics /\ z = Message [] (Some (Prefix server [] [])) cmd (me :: x_name x :: r)) -> look j v y = v).
          { intros l _ y0 v0 Hy0 Hall. destruct (Hall y0 Hy0) as [cmd [r [Hcmd ->]]]. apply look_num_off; [exact Hcmd|]. right. rewrite (ci_name _ _ _ Hk). congruence. }
          apply (Hfor (forward_channel me server x)); [|exact Hy|].
          -- intros v0. apply forward_off. right. rewrite (ci_name _ _ _ Hk). congruence.
          -- intros z Hz. unfold forward_channel, send_topic, reply in Hz. destruct (x_topic x) as [|a t]; [destruct Hz|].
             destruct Hz as [<-|Hz]; [do 2 eexists; split; [|reflexivity]; right; left; reflexivity|].
             destruct (x_who x); [|destruct Hz]. destruct Hz as [<-|[]]. do 2 eexists. split; [|reflexivity]. do 2 right. left. reflexivity.
        * cbn. intros Hm. split; [exact Hm|]. split; [reflexivity|destruct p; reflexivity].
    - (* others *)
      destruct (ch_get (x_chans b) k) as [x|] eqn:Hg; [|destruct Hk]. cbn [kinv] in Hk.
      assert (Hme : is_me cm me (Some p) = false). { unfold is_me. apply beqb_neq. exact Hp. }
      set (m := Message tags (Some p) cmd (c :: rest)).
      assert (Hmine : mine m = false) by exact Hme.
      assert (E : exists outs, on_message b o n m = (b, outs, []) /\ (forall i, In i (x_clients b) -> received i outs = if detached b c then [] else [m])).
      { exists (produce cm b c m). split; [|intros i Hi; apply (received_produce b); try assumption; reflexivity].
        destruct Hcmd as [->| ->].
        - assert (E : on_message b o n m = fst (fold_left (fun x ch => on_join1 cm me x m ch) (split_on "," c) ((b, [], []), true))) by reflexivity.
          rewrite E, (split_on_nosep _ _ Hcm). cbn [fold_left on_join1 negb m m_prefix]. rewrite Hme, (get_eq b c k Hc), Hg. reflexivity.
        - assert (E : on_message b o n m = fst (fold_left (fun x ch => on_part1 cm me x m ch) (split_on "," c) ((b, [], []), true))) by reflexivity.
          rewrite E, (split_on_nosep _ _ Hcm). cbn [fold_left on_part1 negb m m_prefix]. rewrite Hme, (get_eq b c k Hc), Hg. reflexivity. }
      destruct E as [outs [E Ho]]. rewrite E.
      assert (Hl : forall j v, look j v m = v).
      { intros j v. unfold m in *. destruct Hcmd as [->| ->]; [rewrite look_join|rewrite look_part]; rewrite Hmine; reflexivity. }
      exists b, outs, [], (ch_get (x_chans b) k), (fun _ => if detached b c then [] else [m]). split; [reflexivity|].
      split; [apply eff_same; assumption|]. rewrite Hg. split; [exact Hk|].
      assert (Hf : forall v, fold_left (look k) (if detached b c then [] else [m]) v = v).
      { intros v. destruct (detached b c); [reflexivity|]. cbn [fold_left]. apply Hl. }
      split; [|split].
      + intros i v _ Hd Hv. rewrite Hf. split; assumption.
      + intros i y j v _ Hy _. destruct (detached b c); [destruct Hy|]. destruct Hy as [<-|[]]. apply Hl.
      + intros x' [= <-] Hm. right. split; [exists x; split; [reflexivity|exact Hm]|].
        unfold is_modes, is_leave, m. cbn [m_command m_params]. fold m. rewrite Hmine.
        destruct Hcmd as [->| ->]; split; reflexivity.
    - (* outside *)
      destruct (ch_get (x_chans b) k) as [x|] eqn:Hg; [destruct Hk|].
      set (m := Message tags p cmd (me :: c :: rest)).
      destruct (fill_shape tags p cmd (me :: c :: rest)) as [q [Eq _]]. fold m in Eq.
      assert (E : exists outs, on_message b o n m = (b, outs, []) /\ (forall i y, In y (received i outs) -> y = fill_prefix server m)).
      { assert (E : on_message b o n m = (b, to_id b o (fill_prefix server m), []) \/ on_message b o n m = (b, [], [])).
        { pose proof (get_eq b c k Hc) as Hgc. rewrite Hg in Hgc.
          simpl in Hcmd. destruct Hcmd as [<-|[<-|[<-|[<-|[<-|[<-|[]]]]]]].
          - assert (E : on_message b o n m = on_topic_reply cm b o (fill_prefix server m)) by (destruct p; reflexivity).
            rewrite E, Eq. unfold on_topic_reply. cbn [m_params]. destruct rest; [right; reflexivity|]. rewrite Hgc. left. reflexivity.
          - assert (E : on_message b o n m = on_topic_reply cm b o (fill_prefix server m)) by (destruct p; reflexivity).
            rewrite E, Eq. unfold on_topic_reply. cbn [m_params]. destruct rest; [right; reflexivity|]. rewrite Hgc. left. reflexivity.
          - assert (E : on_message b o n m = on_setter cm b o (fill_prefix server m)) by (destruct p; reflexivity).
            rewrite E, Eq. unfold on_setter. cbn [m_params]. destruct rest as [|r0 [|r1 rest]]; [right; reflexivity|right; reflexivity|]. rewrite Hgc. left. reflexivity.
          - assert (E : on_message b o n m = on_modes_reply cm avail table b o (fill_prefix server m)) by (destruct p; reflexivity).
            rewrite E, Eq. unfold on_modes_reply. cbn [m_params]. rewrite Hgc. left. reflexivity.
          - assert (E : on_message b o n m = on_created cm b o (fill_prefix server m)) by (destruct p; reflexivity).
            rewrite E, Eq. unfold on_created. cbn [m_params]. destruct rest; [right; reflexivity|]. rewrite Hgc. left. reflexivity.
          - assert (E : on_message b o n m = on_end_of_names cm me server b o (fill_prefix server m)) by (destruct p; reflexivity).
            rewrite E, Eq. unfold on_end_of_names. cbn [m_params]. rewrite Hgc. left. reflexivity. }
        destruct E as [E|E]; rewrite E; eexists; (split; [reflexivity|]).
        - intros i y. apply received_to_id.
        - intros i y []. }
      destruct E as [outs [E Ho]]. rewrite E.
      exists b, outs, [], (ch_get (x_chans b) k), (fun i => received i outs). split; [reflexivity|].
      split; [apply eff_same; [exact Hw|reflexivity]|]. rewrite Hg. split; [exact I|].
      split; [|split].
      + intros i v _ Hd _. split; [exact I|]. intros Hs. specialize (Hd Hs).
        assert (Hall : forall l v, (forall y, In y l -> y = fill_prefix server m) -> v_on v = false -> fold_left (look k) l v = v).
        { intros l. induction l as [|y l IH]; intros v0 Hy Hv0; [reflexivity|]. cbn [fold_left].
          rewrite (Hy y (or_introl eq_refl)), Eq, look_num_off; [|exact Hcmd|left; exact Hv0]. apply IH; [|exact Hv0].
          intros z Hz. apply Hy. right. exact Hz. }
        rewrite Hall; [exact Hd|apply Ho|exact Hd].
      + intros i y j v _ Hy Hj. rewrite (Ho i y Hy), Eq. apply look_num_off; [exact Hcmd|]. right. congruence.
      + intros x' H. discriminate.
  Qed.

  Lemma says_about k h m h' j : says k h m h' -> j <> k -> is_modes j m = false /\ is_leave j m = false.
  Proof.
    intros Hs Hj. assert (Hne : forall c, cm c = k -> beqb (cm c) j = false) by (intros c Hc; apply beqb_neq; congruence).
    destruct Hs as
      [tags p c rest t w tm md cr Hp Hc Hcm Ht Hwf Htm Hcr|tags p c rest h Hp Hc Hcm|tags p c n0 rest h Hn Hc
      |tags p c h Hc Ht|tags p c text h Hc Ht|tags p c w t h Hc Hwho Htime|tags p c w t h Hc Hwho Htime Htold Hwf
      |tags q c t h Hc|tags q c h Hc|tags q c s args h md Hc Hch Ha|tags p c s args h md Hc Ha Hsm|tags p c h Hc
      |tags p c rest h Hc H1 H2|tags p c rest h cmd Hp Hc Hcm Hcmd|tags p c rest cmd Hc Hcmd];
    unfold is_modes, is_leave; cbn [m_command m_params];
    try (split; [reflexivity|reflexivity]); try rewrite (Hne c Hc).
    - split; [reflexivity|]. rewrite andb_false_r. reflexivity.
    - split; reflexivity.
    - split; [rewrite andb_false_r; reflexivity|reflexivity].
    - destruct Hcmd as [->| ->]; split; try reflexivity. rewrite andb_false_r. reflexivity.
    - simpl in Hcmd. destruct Hcmd as [<-|[<-|[<-|[<-|[<-|[<-|[]]]]]]]; split; try reflexivity.
      destruct rest; apply andb_false_r.
  Qed.
  Lemma says_leave k h m : says k (Some h) m None -> is_leave k m = true.
  Proof.
    intros Hs. inversion Hs as [|tags p c rest h0 Hp Hc Hcm|tags p c n0 rest h0 Hn Hc| | | | | | | | | | | |]; subst;
    unfold is_leave, ChanView.mine; cbn [m_command m_params m_prefix].
    - rewrite Hp, !beqb_refl. reflexivity.
    - rewrite Hn, !beqb_refl, orb_true_r. reflexivity.
  Qed.

  (** The states the server goes through with the lines on the way. *)
  Inductive walk : (bytes -> option srv) -> list message -> (bytes -> option srv) -> Prop :=
  | w_nil w z : (forall j, w j = z j) -> walk w [] z
  | w_cons w k m h ms w' z : says k (w k) m h -> (forall j, w' j = if beqb j k then h else w j) -> walk w' ms z -> walk w (m :: ms) z.
  Lemma walk_ext w ms z z' : walk w ms z -> (forall j, z j = z' j) -> walk w ms z'.
  Proof.
    intros H. revert z'. induction H as [w z H|w k m h ms w' z H1 H2 H3 IH]; intros z' E.
    - constructor. intros j. rewrite H. apply E.
    - econstructor; [exact H1|exact H2|]. apply IH. exact E.
  Qed.
  Lemma walk_snoc w ms z k m h : walk w ms z -> says k (z k) m h -> walk w (ms ++ [m]) (upd z k h).
  Proof.
    intros H Hs. induction H as [w z H|w k0 m0 h0 ms w' z H1 H2 H3 IH].
    - cbn [app]. apply (w_cons w k m h [] (upd w k h)); [rewrite H; exact Hs|reflexivity|].
      constructor. intros j. unfold upd. destruct (beqb j k); [reflexivity|apply H].
    - cbn [app]. econstructor; [exact H1|exact H2|]. apply IH. exact Hs.
  Qed.
  Lemma walk_leave w ms z k : walk w ms z -> w k <> None -> z k = None -> exists m, In m ms /\ is_leave k m = true.
  Proof.
    intros H. induction H as [w z H|w k0 m h ms w' z H1 H2 H3 IH]; intros Hw Hz; [rewrite H in Hw; contradiction|].
    destruct (beqb_spec k k0) as [E|Hne].
    - subst k0. destruct h as [h|].
      + destruct IH as [y [Hy Hl]]; [rewrite H2, beqb_refl; discriminate|exact Hz|]. exists y. split; [right; exact Hy|exact Hl].
      + destruct (w k) as [h0|] eqn:Ew; [|contradiction]. exists m. split; [left; reflexivity|]. apply (says_leave k h0). exact H1.
    - destruct IH as [y [Hy Hl]]; [|exact Hz|exists y; split; [right; exact Hy|exact Hl]].
      rewrite H2. apply beqb_neq in Hne. rewrite Hne. exact Hw.
  Qed.

  Definition pend (k : bytes) (u d : list message) : Prop :=
    (exists c, cm c = k /\ In (msg (B "MODE") [c]) u) \/ (exists m, In m d /\ (is_modes k m = true \/ is_leave k m = true)).

  Definition inv (s : sys) : Prop :=
    x_panic (y_b s) = false ->
    exists w, walk w (y_down s) (y_srv s) /\ wfb (y_b s) /\
      (forall k, kinv k (w k) (ch_get (x_chans (y_b s)) k)) /\
      (forall i k, In i (x_clients (y_b s)) ->
         (x_saved (y_b s) k = Some true -> v_on (y_view s i k) = false) /\
         vio (w k) (ch_get (x_chans (y_b s)) k) (y_view s i k)) /\
      (forall k x, ch_get (x_chans (y_b s)) k = Some x -> x_modes x = None -> pend k (y_up s) (y_down s)).

  Lemma fold_others j k l v : (forall x v, In x l -> look j v x = v) -> j <> k -> fold_left (look j) l v = v.
  Proof.
    intros H Hj. revert v. induction l as [|x l IH]; intros v; [reflexivity|]. cbn [fold_left].
    rewrite (H x v (or_introl eq_refl)). apply IH. intros y v0 Hy. apply H. right. exact Hy.
  Qed.

  (** What clients do. *)
  Lemma received_map i id l : received i (map (fun m => (id, m)) l) = if N.eqb id i then l else [].
  Proof.
    unfold received. destruct (N.eqb_spec id i) as [->|Hne].
    - induction l as [|x l IH]; simpl; [reflexivity|]. rewrite N.eqb_refl. simpl. f_equal. exact IH.
    - apply N.eqb_neq in Hne. induction l as [|x l IH]; simpl; [reflexivity|]. rewrite Hne. exact IH.
  Qed.
  Lemma received_app i a b : received i (a ++ b) = received i a ++ received i b.
  Proof. unfold received. rewrite filter_app, map_app. reflexivity. Qed.

  Local Notation jmsg := (join_msg me).
  Lemma mine_join name : mine (jmsg name) = true.
  Proof. unfold ChanView.mine, join_msg, my_prefix. cbn [m_prefix p_name]. apply beqb_refl. Qed.
  Lemma look_jmsg k v name : look k v (jmsg name) = if beqb (cm name) k then CView true [] None None None None false else v.
  Proof.
    unfold join_msg. rewrite look_join. change (mine (Message [] (Some (my_prefix me)) (B "JOIN") [name])) with (mine (jmsg name)).
    rewrite mine_join. reflexivity.
  Qed.

  (** A client is shown a channel. *)
  Lemma shown k h x name v : chan_inv k h x -> x_complete x = true -> cm name = k ->
    vinv h x (fold_left (look k) (jmsg name :: forward_channel me server x) v).
  Proof.
    intros Hi Hco Hn. cbn [fold_left]. rewrite look_jmsg, Hn, beqb_refl.
    pose proof (ci_complete _ _ _ Hi) as Hc. rewrite Hco in Hc. destruct (ci_named _ _ _ Hi (eq_sym Hc)) as [_ Hw].
    destruct (forward_view k h x (CView true [] None None None None false) Hi eq_refl Hw (fun _ => eq_refl) (fun _ => eq_refl))
      as [v' (Ev & Hon & Htp & Hwt & Em & Ec & Ea)].
    rewrite Ev. intros _. cbn in Em, Ec, Ea. split; [intros _; split; assumption|]. split; [congruence|].
    rewrite Em, Ec, Ea. split; [discriminate|]. split; [discriminate|left; reflexivity].
  Qed.
  Lemma shown_other j k x name v : cm (x_name x) = k -> cm name = k -> j <> k ->
    fold_left (look j) (jmsg name :: forward_channel me server x) v = v.
  Proof.
    intros Hx Hn Hj. cbn [fold_left]. rewrite look_jmsg, Hn, (neq_beqb k j) by congruence. apply forward_off. right. congruence.
  Qed.

  Definition clientok (b : vst) (w : bytes -> option srv) (v : views) (r : vres) : Prop :=
    exists b' outs ups, r = (b', outs, ups) /\
    (x_panic b' = false ->
     wfb b' /\ x_chans b' = x_chans b /\
     forall i k, In i (x_clients b') ->
       (x_saved b' k = Some true -> v_on (fold_left (look k) (received i outs) (v i k)) = false) /\
       vio (w k) (ch_get (x_chans b) k) (fold_left (look k) (received i outs) (v i k))).

  Definition vall (b : vst) (w : bytes -> option srv) (v : views) : Prop :=
    forall i k, In i (x_clients b) -> (x_saved b k = Some true -> v_on (v i k) = false) /\ vio (w k) (ch_get (x_chans b) k) (v i k).

  Lemma client_saved b w v name val ups : wfb b -> vall b w v -> (val = Some true -> x_saved b (cm name) = Some true) ->
    clientok b w v (with_saved cm b name val, [], ups).
  Proof.
    intros Hw Hv Hs. exists (with_saved cm b name val), [], ups. split; [reflexivity|]. intros _. split; [exact Hw|]. split; [reflexivity|].
    intros i k Hi. cbn [received filter map fold_left]. destruct (Hv i k Hi) as [H1 H2]. split; [|exact H2].
    cbn [with_saved x_saved]. destruct (beqb_spec k (cm name)) as [->|Hne]; [|exact H1]. intros E. apply H1. apply Hs. exact E.
  Qed.

  Lemma client_attach b w v name : wfb b -> vall b w v -> x_panic b = false -> (forall k, kinv k (w k) (ch_get (x_chans b) k)) ->
    clientok b w v (attach cm me server b name).
  Proof.
    intros Hw Hv Hp Hk. unfold attach. destruct (negb (detached b name)) eqn:Ed.
    { exists b, [], []. split; [reflexivity|]. intros _. split; [exact Hw|]. split; [reflexivity|]. exact Hv. }
    assert (Hoth : forall i k l, In i (x_clients b) -> k <> cm name ->
       fold_left (look k) l (v i k) = v i k ->
       (x_saved (with_saved cm b name (Some false)) k = Some true -> v_on (fold_left (look k) l (v i k)) = false) /\
       vio (w k) (ch_get (x_chans b) k) (fold_left (look k) l (v i k))).
    { intros i k l Hi Hne E. rewrite E. cbn [with_saved x_saved]. rewrite (neq_beqb k (cm name) Hne). apply Hv. exact Hi. }
    rewrite (get_eq b name (cm name) eq_refl). specialize (Hk (cm name)).
    destruct (ch_get (x_chans b) (cm name)) as [x|] eqn:Hg.
    - destruct (x_complete x) eqn:Eco; [|destruct (x_clients b) as [|id cl] eqn:Ecl].
      + exists (with_saved cm b name (Some false)). eexists. eexists. split; [reflexivity|].
        intros _. split; [exact Hw|]. split; [reflexivity|]. intros i k Hi.
        change (x_clients (with_saved cm b name (Some false))) with (x_clients b) in Hi.
        match goal with |- context [received i ?o] => change o with (flat_map (fun id => map (fun m => (id, m)) (jmsg name :: forward_channel me server x)) (x_clients b)) end.
        rewrite received_each; [|apply Hw|exact Hi].
        destruct (w (cm name)) as [h|] eqn:Ew; [|destruct Hk]. cbn [kinv] in Hk.
        destruct (beqb_spec k (cm name)) as [->|Hne].
        * rewrite Hg, Ew. split; [cbn [with_saved x_saved]; rewrite beqb_refl; discriminate|]. apply (shown (cm name)); [exact Hk|exact Eco|reflexivity].
        * apply Hoth; [exact Hi|exact Hne|]. apply (shown_other k (cm name)); [exact (ci_name _ _ _ Hk)|reflexivity|exact Hne].
      + eexists _, _, _. split; [reflexivity|]. intros _. split; [exact Hw|]. split; [reflexivity|]. intros i k Hi.
        cbn [with_saved x_clients] in Hi. rewrite Ecl in Hi. destruct Hi.
      + eexists _, _, _. split; [reflexivity|]. cbn [x_panic]. discriminate.
    - eexists _, _, _. split; [reflexivity|]. intros _. split; [exact Hw|]. split; [reflexivity|]. intros i k Hi.
      change (x_clients (with_saved cm b name (Some false))) with (x_clients b) in Hi.
      rewrite received_all; [|apply Hw|exact Hi].
      destruct (beqb_spec k (cm name)) as [->|Hne].
      + rewrite Hg. split; [cbn [with_saved x_saved]; rewrite beqb_refl; discriminate|]. unfold vio. destruct (w (cm name)); exact I.
      + apply Hoth; [exact Hi|exact Hne|]. cbn [fold_left]. rewrite look_jmsg, (neq_beqb (cm name) k) by congruence. reflexivity.
  Qed.

  (** The channels a connecting client is shown. *)
  Lemma connect_view b k id l v : NoDup (map fst l) -> (forall p, In p l -> cm (x_name (snd p)) = fst p) ->
    fold_left (look k) (received id (flat_map (fun p : bytes * vchan =>
           if x_complete (snd p) && negb (detached b (x_name (snd p)))
           then (id, jmsg (x_name (snd p))) :: map (fun m => (id, m)) (forward_channel me server (snd p)) else []) l)) v =
    match ch_get l k with
    | Some x => if x_complete x && negb (detached b (x_name x)) then fold_left (look k) (jmsg (x_name x) :: forward_channel me server x) v else v
    | None => v
    end.
  Proof.
    revert v. induction l as [|[k' x] l IH]; intros v Hn Hk; [reflexivity|]. inversion Hn as [|? ? Hn1 Hn2]. subst.
    cbn [flat_map snd]. rewrite received_app, fold_left_app. cbn [ch_get].
    assert (Hkx : cm (x_name x) = k') by (apply (Hk (k', x)); left; reflexivity).
    assert (E : received id (if x_complete x && negb (detached b (x_name x))
           then (id, jmsg (x_name x)) :: map (fun m => (id, m)) (forward_channel me server x) else []) =
      if x_complete x && negb (detached b (x_name x)) then jmsg (x_name x) :: forward_channel me server x else []).
    { destruct (_ && _); [|reflexivity].
      change ((id, jmsg (x_name x)) :: map (fun m => (id, m)) (forward_channel me server x)) with (map (fun m => (id, m)) (jmsg (x_name x) :: forward_channel me server x)).
      rewrite received_map, N.eqb_refl. reflexivity. }
    rewrite E. rewrite IH; [|exact Hn2|intros p Hp; apply Hk; right; exact Hp].
    destruct (beqb_spec k' k) as [E'|Hne].
    - assert (Hnone : ch_get l k = None).
      { destruct (ch_get l k) as [y|] eqn:Ey; [|reflexivity]. exfalso. apply Hn1. cbn [fst]. rewrite E'. clear -Ey.
        induction l as [|[k2 x2] l IH]; cbn [ch_get] in Ey; [discriminate|]. destruct (beqb_spec k2 k) as [->|_]; [left; reflexivity|]. right. exact (IH Ey). }
      rewrite Hnone. destruct (_ && _); reflexivity.
    - assert (Hsame : fold_left (look k) (if x_complete x && negb (detached b (x_name x)) then jmsg (x_name x) :: forward_channel me server x else []) v = v).
      { destruct (_ && _); [|reflexivity]. apply (shown_other k k'); [exact Hkx|exact Hkx|congruence]. }
      rewrite Hsame. reflexivity.
  Qed.
  Lemma connect_other b i id l : i <> id ->
    received i (flat_map (fun p : bytes * vchan =>
           if x_complete (snd p) && negb (detached b (x_name (snd p)))
           then (id, jmsg (x_name (snd p))) :: map (fun m => (id, m)) (forward_channel me server (snd p)) else []) l) = [].
  Proof.
    intros Hne. induction l as [|[k' x] l IH]; [reflexivity|]. cbn [flat_map]. rewrite received_app, IH, app_nil_r.
    destruct (_ && _); [|reflexivity].
    change ((id, jmsg (x_name (snd (k', x)))) :: map (fun m => (id, m)) (forward_channel me server (snd (k', x)))) with (map (fun m => (id, m)) (jmsg (x_name x) :: forward_channel me server x)).
    rewrite received_map. destruct (N.eqb_spec id i); [congruence|reflexivity].
  Qed.

  Lemma client_effect b w v e : wfb b -> vall b w v -> x_panic b = false -> (forall k, kinv k (w k) (ch_get (x_chans b) k)) ->
    known_detach cm b e -> fresh b e -> clientok b w (before cm v e) (on_client cm me server order b e).
  Proof.
    intros Hw Hv Hp Hk Hd Hf. destruct e as [id|id|name|name|name|name|id name|id name]; cbn [on_client].
    - (* connect *)
      eexists _, _, _. split; [reflexivity|]. intros _. cbn [fresh] in Hf. destruct Hw as (Hw1 & Hw2 & Hw3). cbn [x_chans x_clients x_saved]. split; [|split; [reflexivity|]].
      + split; [exact Hw1|]. split; [exact Hw2|]. apply NoDup_Add with (a := id) (l := x_clients b); [|split; assumption].
        rewrite <- (app_nil_r (x_clients b)) at 1. apply Add_app.
      + intros i k Hi. destruct (N.eq_dec i id) as [->|Hne].
        * rewrite (connect_view b k id _ _ Hw1 Hw2). cbn [before]. rewrite N.eqb_refl. specialize (Hk k).
          destruct (ch_get (x_chans b) k) as [x|] eqn:Hg; [|split; [reflexivity|]; unfold vio; destruct (w k); exact I].
          destruct (w k) as [h|]; [|destruct Hk]. cbn [kinv] in Hk. cbn [vio].
          destruct (x_complete x) eqn:Eco; cbn [andb]; [|split; [reflexivity|discriminate]].
          destruct (detached b (x_name x)) eqn:Ed; cbn [negb]; [split; [reflexivity|discriminate]|].
          split.
          -- intros Hs. apply (det_saved b (x_name x) k (ci_name _ _ _ Hk)) in Hs. congruence.
          -- apply (shown k); [exact Hk|exact Eco|exact (ci_name _ _ _ Hk)].
        * rewrite (connect_other b i id _ Hne). cbn [fold_left before]. apply N.eqb_neq in Hne as Hne'. rewrite Hne'. apply Hv.
          apply in_app_iff in Hi as [Hi|[Hi|[]]]; [exact Hi|congruence].
    - (* disconnect *)
      eexists _, _, _. split; [reflexivity|]. intros _. cbn [x_chans x_clients x_saved]. destruct Hw as (Hw1 & Hw2 & Hw3).
      split; [split; [exact Hw1|]; split; [exact Hw2|]; apply NoDup_filter; exact Hw3|]. split; [reflexivity|].
      intros i k Hi. apply filter_In in Hi as [Hi _]. cbn [received filter map fold_left before]. apply Hv. exact Hi.
    - (* JOIN *)
      destruct (x_saved b (cm name)) as [sv|] eqn:Es.
      + destruct (client_attach b w v name Hw Hv Hp Hk) as [b' [outs [ups [E H]]]]. rewrite E.
        exists b', outs. eexists. split; [reflexivity|exact H].
      + apply client_saved; [exact Hw|exact Hv|discriminate].
    - (* detach *)
      unfold detach. cbn [known_detach] in Hd. destruct (x_saved b (cm name)) as [[|]|] eqn:Es; [| |contradiction].
      + exists b, [], []. split; [reflexivity|]. intros _. split; [exact Hw|]. split; [reflexivity|exact Hv].
      + eexists _, _, _. split; [reflexivity|]. intros _. split; [exact Hw|]. split; [reflexivity|]. intros i k Hi.
        change (x_clients (with_saved cm b name (Some true))) with (x_clients b) in Hi. rewrite received_all; [|apply Hw|exact Hi].
        cbn [fold_left before]. rewrite look_part. unfold ChanView.mine, my_prefix. cbn [m_prefix p_name]. rewrite beqb_refl. cbn [andb].
        destruct (beqb_spec (cm name) k) as [<-|Hne].
        * split; [reflexivity|]. unfold vio. destruct (w (cm name)); [|exact I]. destruct (ch_get (x_chans b) (cm name)); [|exact I]. discriminate.
        * cbn [with_saved x_saved]. rewrite (neq_beqb k (cm name)) by congruence. apply Hv. exact Hi.
    - (* attach *) apply client_attach; assumption.
    - (* forget *) apply client_saved; [exact Hw|exact Hv|discriminate].
    - (* TOPIC *)
      rewrite (get_eq b name (cm name) eq_refl). destruct (ch_get (x_chans b) (cm name)) as [x|] eqn:Hg.
      + eexists _, _, _. split; [reflexivity|]. intros _. split; [exact Hw|]. split; [reflexivity|]. intros i k Hi.
        rewrite received_map. cbn [before]. destruct (Hv i k Hi) as [H1 H2].
        destruct (N.eqb_spec id i) as [->|_]; [|cbn [fold_left]; split; assumption].
        pose proof (Hk (cm name)) as Hkn. rewrite Hg in Hkn. destruct (w (cm name)) as [h|] eqn:Ew; [|destruct Hkn]. cbn [kinv] in Hkn.
        destruct (beqb_spec k (cm name)) as [->|Hne].
        * destruct (v_on (v i (cm name))) eqn:Hon.
          -- split; [intros Hs; specialize (H1 Hs); discriminate|]. rewrite Hg, Ew in *. cbn [vio] in *. specialize (H2 Hon).
             rewrite (send_view (cm name) x _ (ci_name _ _ _ Hkn) Hon). intros _. cbn [v_topic v_who v_time v_modes v_created v_asked].
             destruct H2 as (Hv1 & Hv2 & Hv3). split; [|split; [|exact Hv3]].
             ++ intros Hco. split; [reflexivity|]. intros Hne. destruct (Hv1 Hco) as [_ Hvb]. destruct (Hvb Hne) as [Hvw Hvt].
                destruct (x_topic x) as [|a t]; [congruence|]. destruct (x_who x) as [q|] eqn:Eq; [|split; assumption].
                split; [reflexivity|]. intros tm Htm. f_equal. f_equal.
                pose proof (ci_who _ _ _ Hkn) as Hwho. rewrite Eq in Hwho. destruct (s_told_who h) eqn:Etw; [|discriminate].
                apply (ci_time _ _ _ Hkn Etw). exact Htm.
             ++ intros Hco. split; [exact (fun H => H)|]. intros Hn. rewrite Hn. destruct (Hv2 Hco) as [_ Hvb].
                destruct (x_topic x); apply Hvb; exact Hn.
          -- rewrite send_off by (left; exact Hon). split; [intros _; exact Hon|]. rewrite Hg, Ew in *. cbn [vio]. intros Hx. congruence.
        * rewrite send_off; [split; assumption|]. right. rewrite (ci_name _ _ _ Hkn). congruence.
      + exists b, []. eexists. split; [reflexivity|]. intros _. split; [exact Hw|]. split; [reflexivity|exact Hv].
    - (* MODE *)
      assert (Hv' : forall i k, In i (x_clients b) -> (x_saved b k = Some true -> v_on (before cm v (VMode id name) i k) = false) /\
         (N.eqb i id && beqb k (cm name) = false -> before cm v (VMode id name) i k = v i k) /\
         v_on (before cm v (VMode id name) i k) = v_on (v i k)).
      { intros i k Hi. destruct (Hv i k Hi) as [H1 _]. cbn [before].
        destruct (N.eqb i id && beqb k (cm name)) eqn:E1; cbn [andb]; [|split; [exact H1|split; reflexivity]].
        destruct (v_on (v i k)) eqn:Eo; cbn [v_on]; [|split; [intros _; exact Eo|split; [discriminate|exact Eo]]].
        split; [intros Hs; specialize (H1 Hs); discriminate|]. split; [discriminate|reflexivity]. }
      rewrite (get_eq b name (cm name) eq_refl). destruct (ch_get (x_chans b) (cm name)) as [x|] eqn:Hg.
      + pose proof (Hk (cm name)) as Hkn. rewrite Hg in Hkn. destruct (w (cm name)) as [h|] eqn:Ew; [|destruct Hkn]. cbn [kinv] in Hkn.
        destruct (x_modes x) as [md|] eqn:Em.
        * destruct (format_modes (order md)) as [str params] eqn:Ef.
          destruct (ci_modes _ _ _ Hkn md Em) as [Hsm Hcons].
          destruct (apply_format avail table order md str params Hascii (Horder md) Hcons Ef) as [m' [Ea Hsa]].
          eexists _, _, _. split; [reflexivity|]. intros _. split; [exact Hw|]. split; [reflexivity|]. intros i k Hi.
          set (l := reply server (B "324") (me :: name :: str :: params) :: match x_created x with [] => [] | t => [reply server (B "329") [me; name; t]] end).
          match goal with |- context [received i ?o] => replace o with (map (fun m => (id, m)) l) by (unfold l; destruct (x_created x); reflexivity) end.
          rewrite received_map. destruct (Hv' i k Hi) as (Hb1 & Hb2 & Hb3). destruct (Hv i k Hi) as [H1 H2].
          destruct (N.eqb_spec id i) as [->|Hne].
          -- rewrite N.eqb_refl in Hb2. cbn [andb] in Hb2. destruct (beqb_spec k (cm name)) as [->|Hnk].
             ++ destruct (v_on (v i (cm name))) eqn:Hon.
                ** split; [intros Hs; specialize (H1 Hs); discriminate|]. rewrite Hg, Ew in *. cbn [vio] in *. specialize (H2 Hon). destruct H2 as (Hv1 & Hv2 & Hv3 & Hv4 & Hv5).
                   assert (E0 : before cm v (VMode i name) i (cm name) = CView true (v_topic (v i (cm name))) (v_who (v i (cm name))) (v_time (v i (cm name))) (v_modes (v i (cm name))) (v_created (v i (cm name))) true).
                   { cbn [before]. rewrite N.eqb_refl, beqb_refl, Hon. reflexivity. }
                   rewrite E0. unfold l, reply. cbn [fold_left]. rewrite look_324. cbn [v_on negb]. rewrite beqb_refl, Ea. cbn [negb fst v_topic v_who v_time v_modes v_created v_asked].
                   assert (Hms : forall m, Some m' = Some m -> same_modes m (s_modes h)).
                   { intros m0 [= <-]. apply (same_trans m' md); assumption. }
                   destruct (x_created x) as [|z zs] eqn:Ec; cbn [fold_left].
                   --- intros _. cbn [v_topic v_who v_time v_modes v_created v_asked]. split; [exact Hv1|]. split; [exact Hv2|]. split; [exact Hms|]. split; [discriminate|exact Hv5].
                   --- rewrite look_329. cbn [v_on negb]. rewrite beqb_refl. cbn [negb v_topic v_who v_time v_modes v_created v_asked].
                       intros _. cbn [v_topic v_who v_time v_modes v_created v_asked]. split; [exact Hv1|]. split; [exact Hv2|]. split; [exact Hms|]. split; [discriminate|].
                       right. destruct (ci_created _ _ _ Hkn) as [Hx|Hx]; [congruence|]. rewrite <- Hx, Ec. reflexivity.
                ** assert (Hoff : forall v0, v_on v0 = false -> fold_left (look (cm name)) l v0 = v0).
                   { intros v0 Hv0. unfold l, reply. cbn [fold_left]. rewrite look_num_off; [|do 3 right; left; reflexivity|left; exact Hv0].
                     destruct (x_created x); cbn [fold_left]; [reflexivity|]. apply look_num_off; [do 4 right; left; reflexivity|left; exact Hv0]. }
                   rewrite (Hoff _ Hb3). split; [exact Hb1|]. rewrite Hg, Ew. cbn [vio]. intros Hx. congruence.
             ++ rewrite (Hb2 eq_refl).
                assert (Hoff : fold_left (look k) l (v i k) = v i k).
                { assert (Hcc : cm name <> k) by congruence.
                  unfold l, reply. cbn [fold_left]. rewrite look_num_off; [|do 3 right; left; reflexivity|right; exact Hcc].
                  destruct (x_created x); cbn [fold_left]; [reflexivity|]. apply look_num_off; [do 4 right; left; reflexivity|right; exact Hcc]. }
                rewrite Hoff. split; assumption.
          -- cbn [fold_left]. rewrite Hb2; [split; assumption|]. apply N.eqb_neq in Hne. rewrite N.eqb_sym, Hne. reflexivity.
        * exists b, [], []. split; [reflexivity|]. intros _. split; [exact Hw|]. split; [reflexivity|]. intros i k Hi.
          cbn [received filter map fold_left]. destruct (Hv' i k Hi) as (Hb1 & Hb2 & Hb3). split; [exact Hb1|].
          destruct (Hv i k Hi) as [H1 H2]. destruct (N.eqb i id && beqb k (cm name)) eqn:E1; [|rewrite Hb2; [exact H2|reflexivity]].
          apply andb_prop in E1 as [E1 E2]. apply beqb_eq in E2. subst k. rewrite Hg, Ew in *. cbn [vio] in *.
          intros Hon. rewrite Hb3 in Hon. specialize (H2 Hon). cbn [before]. rewrite E1, beqb_refl, Hon. cbn [andb v_topic v_who v_time v_modes v_created v_asked].
          destruct H2 as (Hv1 & Hv2 & Hv3 & Hv4 & Hv5). split; [exact Hv1|]. split; [exact Hv2|]. split; [exact Hv3|]. split; [|exact Hv5]. intros _ Hx. contradiction.
      + exists b, []. eexists. split; [reflexivity|]. intros _. split; [exact Hw|]. split; [reflexivity|]. intros i k Hi.
        cbn [received filter map fold_left]. destruct (Hv' i k Hi) as (Hb1 & Hb2 & Hb3). split; [exact Hb1|].
        destruct (Hv i k Hi) as [H1 H2]. destruct (N.eqb i id && beqb k (cm name)) eqn:E1; [|rewrite Hb2; [exact H2|reflexivity]].
        apply andb_prop in E1 as [E1 E2]. apply beqb_eq in E2. subst k. rewrite Hg. unfold vio. destruct (w (cm name)); exact I.
  Qed.

  Local Notation reach := (reach cm me server chantypes avail table order).

  Lemma inv_reach s : reach (known_detach cm) s -> inv s.
  Proof.
    intros H. induction H as
      [saved|b w d u v k m h H IH Hs|b w d c u v h m H IH Hw Hs Hm|b w d x u v H IH Hx
      |b w m d u v origin now b' outs ups H IH E|b w d u v e b' outs ups H IH Hok Hf E|b w d u v H IH]; intros Hp; cbn [y_b y_srv y_down y_up y_view] in *.
    - exists (fun _ => None). split; [constructor; reflexivity|]. split; [split; [constructor|split; [intros p []|constructor]]|].
      split; [intros k; exact I|]. split; [intros i k []|discriminate].
    - destruct (IH Hp) as [w0 (H1 & H2 & H3 & H4 & H5)]. cbn [y_b y_srv y_down y_up y_view] in *. exists w0. split; [apply walk_snoc; assumption|].
      split; [exact H2|]. split; [exact H3|]. split; [exact H4|]. intros j x Hx Hn. destruct (H5 j x Hx Hn) as [Hu|[y [Hy Hd]]]; [left; exact Hu|].
      right. exists y. split; [apply in_or_app; left; exact Hy|exact Hd].
    - destruct (IH Hp) as [w0 (H1 & H2 & H3 & H4 & H5)]. cbn [y_b y_srv y_down y_up y_view] in *. exists w0.
      rewrite <- Hw in Hs at 1. split.
      { apply (walk_ext w0 _ (upd w (cm c) (Some h))); [apply walk_snoc; assumption|]. intros j. unfold upd.
        destruct (beqb_spec j (cm c)) as [->|_]; [symmetry; exact Hw|reflexivity]. }
      split; [exact H2|]. split; [exact H3|]. split; [exact H4|]. intros j x Hx Hn.
      destruct (H5 j x Hx Hn) as [[c' [Hc' [Hu|Hu]]]|[y [Hy Hd]]].
      + assert (Ec : c' = c). { assert (E0 : hd [] (m_params (msg (B "MODE") [c])) = hd [] (m_params (msg (B "MODE") [c']))) by (rewrite Hu; reflexivity). symmetry. exact E0. }
        subst c'. right. exists m. split; [apply in_or_app; right; left; reflexivity|]. left.
        rewrite Hw in Hs. clear -Hs Hm Hc'. unfold is_modes.
        assert (Hd : forall a : bytes, a = B "324" -> a <> B "324" -> False) by (intros a H1 H2; exact (H2 H1)).
        inversion Hs; subst; cbn [m_command m_params] in *; try (exfalso; revert Hm; vm_compute; discriminate).
        * rewrite H0, !beqb_refl. reflexivity.
        * exfalso. match goal with H : _ \/ _ |- _ => destruct H as [-> | ->] end; revert Hm; vm_compute; discriminate.
      + left. exists c'. split; [exact Hc'|exact Hu].
      + right. exists y. split; [apply in_or_app; left; exact Hy|exact Hd].
    - destruct (IH Hp) as [w0 (H1 & H2 & H3 & H4 & H5)]. cbn [y_b y_srv y_down y_up y_view] in *. exists w0. split; [exact H1|].
      split; [exact H2|]. split; [exact H3|]. split; [exact H4|]. intros j y Hy Hn. destruct (H5 j y Hy Hn) as [[c' [Hc' [Hu|Hu]]]|Hd].
      + specialize (Hx c' Hu). right. specialize (H3 j). rewrite Hy in H3.
        destruct (w0 j) as [h0|] eqn:Ew; [|destruct H3].
        destruct (walk_leave w0 d w j H1) as [z [Hz Hl]]; [congruence|congruence|]. exists z. split; [exact Hz|right; exact Hl].
      + left. exists c'. split; assumption.
      + right. exact Hd.
    - (* deliver *)
      unfold on_srv in E. destruct (x_panic b) eqn:Hpb; [injection E as <- <- <-; congruence|].
      destruct (IH Hpb) as [w0 (H1 & H2 & H3 & H4 & H5)]. cbn [y_b y_srv y_down y_up y_view] in *.
      inversion H1 as [|w1 k m1 h ms w' z Hs Hw' Hrest]. subst.
      pose proof (step_effect k (w0 k) m h b origin now H2 (H3 k) Hs) as (b1 & outs1 & ups1 & xo & mi & Er & He & Hk & Hv & Hl & Hm).
      rewrite Er in E. injection E as -> -> ->.
      destruct He as (Hsv & Hcl & _ & Hwf & Hg & Ho).
      exists w'. split; [exact Hrest|]. split; [exact Hwf|]. split; [|split].
      + intros j. rewrite Hg, Hw'. destruct (beqb_spec j k) as [->|_]; [exact Hk|apply H3].
      + intros i j Hi. rewrite Hcl in Hi. rewrite Hsv, Hg, Hw'. unfold deliver. rewrite (Ho i Hi).
        destruct (beqb_spec j k) as [->|Hne].
        * destruct (H4 i k Hi) as [Ha Hb]. destruct (Hv i (v i k) Hi Ha Hb) as [Hc Hd]. split; assumption.
        * rewrite (fold_others j k); [|intros x v0 Hx; apply (Hl i); assumption|exact Hne]. apply H4. exact Hi.
      + intros j x Hx Hn. rewrite Hg in Hx. destruct (beqb_spec j k) as [->|Hne].
        * destruct (Hm x Hx Hn) as [[c [Hc Hu]]|[[y [Hy Hyn]] [Hd1 Hd2]]].
          -- left. exists c. split; [exact Hc|apply in_or_app; right; exact Hu].
          -- destruct (H5 k y Hy Hyn) as [[c [Hc Hu]]|[z [[Hz|Hz] Hd]]].
             ++ left. exists c. split; [exact Hc|apply in_or_app; left; exact Hu].
             ++ subst z. destruct Hd; congruence.
             ++ right. exists z. split; assumption.
        * destruct (says_about k (w0 k) m h j Hs Hne) as [Hd1 Hd2].
          destruct (H5 j x Hx Hn) as [[c [Hc Hu]]|[z [[Hz|Hz] Hd]]].
          -- left. exists c. split; [exact Hc|apply in_or_app; left; exact Hu].
          -- subst z. destruct Hd; congruence.
          -- right. exists z. split; assumption.
    - (* client *)
      unfold on_ev in E. destruct (x_panic b) eqn:Hpb; [injection E as <- <- <-; congruence|].
      destruct (IH Hpb) as [w0 (H1 & H2 & H3 & H4 & H5)]. cbn [y_b y_srv y_down y_up y_view] in *.
      destruct (client_effect b w0 v e H2 H4 Hpb H3 Hok Hf) as [b1 [outs1 [ups1 [Er Hr]]]].
      rewrite Er in E. injection E as -> -> ->. destruct (Hr Hp) as (Hwf & Hch & Hvs).
      exists w0. rewrite Hch. split; [exact H1|]. split; [exact Hwf|]. split; [exact H3|]. split; [exact Hvs|].
      intros j x Hx Hn. destruct (H5 j x Hx Hn) as [[c [Hc Hu]]|Hd]; [|right; exact Hd].
      left. exists c. split; [exact Hc|apply in_or_app; left; exact Hu].
    - (* again *)
      destruct (IH Hp) as [w0 (H1 & H2 & H3 & H4 & H5)]. cbn [y_b y_srv y_down y_up y_view] in *.
      exists (fun _ => None). split; [constructor; reflexivity|]. destruct H2 as (_ & _ & Hn).
      split; [split; [constructor|split; [intros p []|exact Hn]]|]. split; [intros k; exact I|].
      split; [|discriminate]. intros i k Hi. split; [apply (H4 i k Hi)|exact I].
  Qed.

  (** Nothing on the way: the bouncer knows what the server has told. *)
  Lemma at_rest b w u v k h : reach (known_detach cm) (Sys b w [] u v) -> x_panic b = false -> w k = Some h ->
    exists x, ch_get (x_chans b) k = Some x /\ chan_inv k h x /\
      (forall i, In i (x_clients b) -> vinv h x (v i k)) /\ (u = [] -> x_modes x <> None).
  Proof.
    intros H Hp Hw. destruct (inv_reach _ H Hp) as [w0 (H1 & H2 & H3 & H4 & H5)]. cbn [y_b y_srv y_down y_up y_view] in *.
    inversion H1 as [w1 z Hz|]. subst. specialize (H3 k). rewrite Hz, Hw in H3.
    destruct (ch_get (x_chans b) k) as [x|] eqn:Hg; [|destruct H3]. exists x. split; [reflexivity|]. split; [exact H3|]. split.
    - intros i Hi. destruct (H4 i k Hi) as [_ Hv]. rewrite Hz, Hw, Hg in Hv. exact Hv.
    - intros -> Hn. destruct (H5 k x Hg Hn) as [[c [_ []]]|[y [[] _]]].
  Qed.

  Lemma topic_known b w u v k h i : reach (known_detach cm) (Sys b w [] u v) -> x_panic b = false ->
    w k = Some h -> s_named h = true -> In i (x_clients b) -> v_on (v i k) = true ->
    v_topic (v i k) = s_topic h /\
    (s_topic h <> [] -> v_who (v i k) = option_map format_prefix (s_who h) /\
       forall t, s_time h = Some t -> v_time (v i k) = Some (dec t)).
  Proof.
    intros H Hp Hw Hn Hi Hon. destruct (at_rest b w u v k h H Hp Hw) as [x (Hg & Hc & Hv & _)].
    destruct (Hv i Hi Hon) as (Hv1 & _). rewrite (ci_complete _ _ _ Hc) in Hv1. destruct (Hv1 Hn) as [Ht Hw'].
    assert (Et : x_topic x = s_topic h).
    { rewrite (ci_topic _ _ _ Hc). destruct (ci_named _ _ _ Hc Hn) as [[->| ->] _]; [reflexivity|]. destruct (s_told h); reflexivity. }
    assert (Ew : x_who x = s_who h).
    { rewrite (ci_who _ _ _ Hc). destruct (ci_named _ _ _ Hc Hn) as [_ [->| ->]]; [reflexivity|]. destruct (s_told_who h); reflexivity. }
    rewrite Et, Ew in *. split; assumption.
  Qed.

  Lemma modes_known b w u v k h i : reach (known_detach cm) (Sys b w [] u v) -> x_panic b = false ->
    w k = Some h -> In i (x_clients b) -> v_on (v i k) = true ->
    (forall m, v_modes (v i k) = Some m -> same_modes m (s_modes h)) /\
    (forall t, v_created (v i k) = Some t -> t = s_created h) /\
    (u = [] -> v_asked (v i k) = true -> v_modes (v i k) <> None).
  Proof.
    intros H Hp Hw Hi Hon. destruct (at_rest b w u v k h H Hp Hw) as [x (Hg & Hc & Hv & Hu)].
    destruct (Hv i Hi Hon) as (_ & _ & Hv3 & Hv4 & Hv5). split; [exact Hv3|]. split.
    - intros t Ht. destruct Hv5; congruence.
    - intros He Ha. apply Hv4; [exact Ha|apply Hu; exact He].
  Qed.

  Lemma topic_answer b w u v k h id name : reach (known_detach cm) (Sys b w [] u v) -> x_panic b = false ->
    w k = Some h -> s_named h = true -> cm name = k ->
    exists l c, on_ev cm me server order b (VTopic id name) = (b, map (fun m => (id, m)) l, []) /\ cm c = k /\
      (s_topic h = [] -> exists tags p text, l = [Message tags p (B "331") [me; c; text]]) /\
      (s_topic h <> [] -> exists tags p rest, l = Message tags p (B "332") [me; c; s_topic h] :: rest /\
         (s_who h = None -> rest = []) /\
         (forall q, s_who h = Some q -> exists t, rest = [Message tags p (B "333") [me; c; format_prefix q; t]] /\
            forall tm, s_time h = Some tm -> t = dec tm)).
  Proof.
    intros H Hp Hw Hn Hnm. destruct (at_rest b w u v k h H Hp Hw) as [x (Hg & Hc & _)].
    unfold on_ev. rewrite Hp. cbn [on_client]. rewrite (get_eq b name k Hnm), Hg.
    exists (send_topic me server x), (x_name x). split; [reflexivity|]. split; [exact (ci_name _ _ _ Hc)|].
    assert (Et : x_topic x = s_topic h).
    { rewrite (ci_topic _ _ _ Hc). destruct (ci_named _ _ _ Hc Hn) as [[->| ->] _]; [reflexivity|]. destruct (s_told h); reflexivity. }
    assert (Ew : x_who x = s_who h).
    { rewrite (ci_who _ _ _ Hc). destruct (ci_named _ _ _ Hc Hn) as [_ [->| ->]]; [reflexivity|]. destruct (s_told_who h); reflexivity. }
    unfold send_topic. rewrite Et, Ew. split.
    - intros E. rewrite E. do 3 eexists. reflexivity.
    - intros E. destruct (s_topic h) as [|a t]; [congruence|]. do 3 eexists. split; [reflexivity|]. split; [intros E1; rewrite E1; reflexivity|].
      intros q Hq. rewrite Hq. eexists. split; [reflexivity|]. intros tm Htm. f_equal.
      destruct (s_told_who h) eqn:Etw; [apply (ci_time _ _ _ Hc Etw); exact Htm|].
      destruct (ci_named _ _ _ Hc Hn) as [_ [Hx|Hx]]; congruence.
  Qed.

  Lemma modes_answer b w v k h id name : reach (known_detach cm) (Sys b w [] [] v) -> x_panic b = false ->
    w k = Some h -> cm name = k ->
    exists tags p str params rest md, on_ev cm me server order b (VMode id name) =
        (b, (id, Message tags p (B "324") (me :: name :: str :: params)) :: rest, []) /\
      apply (Some []) str params = (Some md, true) /\ same_modes md (s_modes h) /\
      (rest = [] \/ rest = [(id, Message tags p (B "329") [me; name; s_created h])]).
  Proof.
    intros H Hp Hw Hnm. destruct (at_rest b w [] v k h H Hp Hw) as [x (Hg & Hc & _ & Hu)].
    unfold on_ev. rewrite Hp. cbn [on_client]. rewrite (get_eq b name k Hnm), Hg.
    destruct (x_modes x) as [m|] eqn:Em; [|exfalso; apply (Hu eq_refl); reflexivity].
    destruct (ci_modes _ _ _ Hc m Em) as [Hsm Hcons].
    destruct (format_modes (order m)) as [str params] eqn:Ef.
    destruct (apply_format avail table order m str params Hascii (Horder m) Hcons Ef) as [m' [Ea Hsa]].
    do 6 eexists. split; [reflexivity|]. split; [exact Ea|]. split; [apply (same_trans m' m); assumption|].
    destruct (ci_created _ _ _ Hc) as [Hx|Hx].
    - rewrite Hx. left. reflexivity.
    - rewrite Hx. destruct (s_created h) as [|a t]; [left; reflexivity|right; reflexivity].
  Qed.
End Main.
