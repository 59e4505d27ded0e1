(** Proofs about conversations. *)
From Verif.Base Require Import Bytes.
From Verif.Model Require Import Message Relay.
From Verif.Spec Require Import Relay.
From Coq Require Import Lia Permutation.

Lemma tag_get_set l k j v : j <> k -> tag_get (tag_set l j v) k = tag_get l k.
Proof.
  intros H. unfold tag_set, tag_del, tag_get. f_equal. induction l as [|[a b] l IH]; cbn [filter app find fst].
  - rewrite (proj2 (beqb_neq _ _) H). reflexivity.
  - destruct (beqb_spec a j) as [E|Hn]; cbn [negb app find fst].
    + subst a. rewrite IH, (proj2 (beqb_neq _ _) H). reflexivity.
    + destruct (beqb a k); [reflexivity|exact IH].
Qed.
Lemma tag_get_spec l k t : tag_get l k = Some t <-> exists a b, l = a ++ (k, t) :: b /\ ~ In k (map fst a).
Proof.
  unfold tag_get. induction l as [|[x y] l IH]; cbn [find fst].
  - split; [discriminate|]. intros ([|? ?] & b & E & _); discriminate.
  - destruct (beqb_spec x k) as [E|Hn].
    + subst x. cbn [option_map snd]. split.
      * intros [= ->]. exists [], l. split; [reflexivity|intros []].
      * intros ([|p a] & b & E & Hi); [injection E as -> _; reflexivity|]. injection E as <- _. exfalso. apply Hi. left. reflexivity.
    + rewrite IH. split.
      * intros (a & b & -> & Hi). exists ((x, y) :: a), b. split; [reflexivity|]. intros [H|H]; [exact (Hn H)|exact (Hi H)].
      * intros ([|p a] & b & E & Hi); [injection E as E _ _; congruence|]. injection E as <- E. exists a, b. split; [exact E|]. intros H. apply Hi. right. exact H.
Qed.

Lemma untimed_set l v p c ps : untimed (Message (tag_set l (B "time") v) p c ps) = untimed (Message l p c ps).
Proof.
  unfold untimed, tag_set, tag_del. cbn [m_tags m_prefix m_command m_params]. f_equal. rewrite filter_app.
  cbn [filter fst]. change (beqb (B "time") (B "time")) with true. cbn [negb]. rewrite app_nil_r.
  induction l as [|[a b] l IH]; cbn [filter fst]; [reflexivity|]. destruct (beqb a (B "time")) eqn:E; cbn [negb filter fst]; [exact IH|].
  rewrite E. cbn [negb]. f_equal. exact IH.
Qed.
Lemma account_set l v : filter (fun t : bytes * bytes => beqb (fst t) (B "account")) (tag_set l (B "time") v) = filter (fun t : bytes * bytes => beqb (fst t) (B "account")) l.
Proof.
  unfold tag_set, tag_del. rewrite filter_app. cbn [filter fst]. change (beqb (B "time") (B "account")) with false. cbn iota. rewrite app_nil_r.
  induction l as [|[a b] l IH]; cbn [filter fst]; [reflexivity|]. destruct (beqb_spec a (B "time")) as [E|Hn]; cbn [negb filter fst].
  - subst a. change (beqb (B "time") (B "account")) with false. exact IH.
  - destruct (beqb a (B "account")); [f_equal|]; exact IH.
Qed.
Lemma filter_ext_all {A} (f g : A -> bool) l : (forall x, f x = g x) -> filter f l = filter g l.
Proof. intros H. induction l as [|x l IH]; [reflexivity|]. cbn [filter]. rewrite H, IH. reflexivity. Qed.
Lemma shown_view c m : map untimed (shown c m) = view c m.
Proof.
  unfold shown, view, is_tagmsg. destruct (c_tags c); [reflexivity|]. destruct (beqb (m_command m) (B "TAGMSG")); [reflexivity|].
  cbn [map]. unfold untimed. cbn [m_tags m_prefix m_command m_params]. f_equal. f_equal.
  induction (m_tags m) as [|[a b] l IH]; [destruct (c_account c); reflexivity|]. cbn [filter fst].
  destruct (beqb_spec a (B "time")) as [E|Hn].
  - subst a. change (beqb (B "time") (B "account")) with false. destruct (c_time c); cbn [filter fst];
      [change (beqb (B "time") (B "time")) with true; cbn [negb]|]; rewrite IH; destruct (c_account c); reflexivity.
  - destruct (beqb a (B "account")) eqn:E; destruct (c_account c); cbn [filter fst]; try exact IH.
    rewrite (proj2 (beqb_neq _ _) Hn). cbn [negb]. f_equal. exact IH.
Qed.
Lemma view_timed c l v p cd ps : view c (Message (tag_set l (B "time") v) p cd ps) = view c (Message l p cd ps).
Proof.
  unfold view. cbn [m_tags m_prefix m_command m_params]. rewrite untimed_set, account_set. reflexivity.
Qed.

Lemma received_app id a b : received id (a ++ b) = received id a ++ received id b.
Proof. apply flat_map_app. Qed.
Lemma received_to id i ms : received id (map (OTo i) ms) = if N.eqb i id then map untimed ms else [].
Proof.
  induction ms as [|m ms IH]; cbn [map received flat_map]; [destruct (N.eqb i id); reflexivity|].
  change (flat_map _ (map (OTo i) ms)) with (received id (map (OTo i) ms)). rewrite IH. destruct (N.eqb i id); reflexivity.
Qed.

Section Relay.
  Variable cm : bytes -> bytes.
  Variable host server statusmsg : bytes.
  Variable admin utags : bool.
  Variable detached : bytes -> bool.
  Variable context : bytes -> bytes -> option bytes.
  Variable account : bytes.
  Notation step := (step cm host server statusmsg admin utags detached context).
  Notation run := (run cm host server statusmsg admin utags detached context).
  Notation produce := (produce cm detached).
  Notation relay := (relay cm host admin utags detached).
  Notation on_text := (on_text cm server statusmsg detached context).
  Notation on_line := (on_line cm host admin utags detached).
  Notation sees := (sees cm server statusmsg detached context account).
  Notation keeps := (keeps cm server statusmsg context account).
  Notation hidden := (hidden cm detached).

  Definition hiddenb (name : bytes) : bool := match name with [] => false | _ => detached (cm name) end.
  Lemma hiddenb_spec name : hiddenb name = true <-> hidden name.
  Proof. unfold hiddenb, Relay.hidden. destruct name; [split; [discriminate|intros [H _]; congruence]|]. split; [intros H; split; [discriminate|exact H]|intros [_ H]; exact H]. Qed.

  (* what the clients get of a production *)
  Lemma produce_received s target m o c :
    NoDup (map c_id (t_conns s)) -> In c (t_conns s) ->
    received (c_id c) (snd (produce s target m o)) =
      if negb (hiddenb target) && (negb (N.eqb (c_id c) o && beqb (cm (t_nick s)) (cm (name_of m))) || c_echo c) then view c m else [].
  Proof.
    intros Hd Hc. cbn [Relay.produce snd]. induction (t_conns s) as [|d l IH]; [destruct Hc|]. cbn [flat_map]. rewrite received_app.
    cbn [map] in Hd. inversion Hd as [|? ? Hn Hd']; subst. 
    assert (X : forall d, received (c_id c) (if negb match target with [] => false | _ :: _ => detached (cm target) end && (negb (N.eqb (c_id d) o && beqb (cm (t_nick s)) (cm (name_of m))) || c_echo d) then map (OTo (c_id d)) (shown d m) else [])
      = if N.eqb (c_id d) (c_id c) then (if negb (hiddenb target) && (negb (N.eqb (c_id d) o && beqb (cm (t_nick s)) (cm (name_of m))) || c_echo d) then view d m else []) else []).
    { intros x. unfold hiddenb. match goal with |- received _ (if ?b then _ else _) = _ => destruct b end.
      - rewrite received_to, shown_view. reflexivity.
      - destruct (N.eqb (c_id x) (c_id c)); reflexivity. }
    rewrite X. destruct Hc as [->|Hc].
    - rewrite N.eqb_refl. match goal with |- ?a ++ ?b = _ => enough (Y : b = []) by (rewrite Y, app_nil_r; reflexivity) end.
      clear -Hn X. induction l as [|d l IH]; [reflexivity|]. cbn [flat_map]. rewrite received_app, X.
      rewrite (proj2 (N.eqb_neq (c_id d) (c_id c))); [|intros E; apply Hn; left; exact E]. apply IH. intros H. apply Hn. right. exact H.
    - rewrite (proj2 (N.eqb_neq (c_id d) (c_id c))); [|intros E; apply Hn; rewrite E; apply in_map; exact Hc]. apply IH; assumption.
  Qed.
  Lemma produce_turns s target m o : turns (snd (produce s target m o)) = [] /\ server_turns (snd (produce s target m o)) = [].
  Proof.
    cbn [Relay.produce snd]. induction (t_conns s) as [|d l IH]; [split; reflexivity|]. cbn [flat_map]. unfold turns, server_turns in *. rewrite !flat_map_app.
    destruct IH as [-> ->]. match goal with |- context [if ?b then map _ _ else _] => destruct b end; [|split; reflexivity]. generalize (shown d m). intros ms. induction ms as [|x ms IHm]; [split; reflexivity|exact IHm].
  Qed.

  Definition storableb (name : bytes) (m : message) : bool :=
    match name with [] => false | _ => true end &&
    negb (is_tagmsg m && negb (existsb (fun p => bmem (fst p) [B "+draft/react"; B "+react"]) (m_tags m))) &&
    negb (has_prefix name (B "$")) && negb (beqb (cm name) (B "nickserv")).
  Lemma storableb_spec name m : storableb name m = true <-> storable cm name m.
  Proof.
    unfold storableb, storable. destruct name as [|c0 name]; [split; [discriminate|intros [H _]; congruence]|]. cbn [andb].
    rewrite !andb_true_iff, !negb_true_iff. split.
    - intros [[H1 H2] H3]. split; [discriminate|]. split; [intros r E; rewrite (proj2 (has_prefix_iff _ _)) in H2; [discriminate|exists r; exact E]|].
      split; [apply beqb_neq; exact H3|]. intros Ec. unfold is_tagmsg in H1. rewrite Ec in H1. change (beqb (B "TAGMSG") (B "TAGMSG")) with true in H1. cbn [andb] in H1.
      apply negb_false_iff in H1. apply existsb_exists in H1 as ([k v] & Hi & Hm). exists k, v. split; [exact Hi|]. cbn [fst] in Hm. apply bmem_In in Hm. destruct Hm as [ <-|[ <-|[]]]; auto.
    - intros (_ & H2 & H3 & H4). split; [split|].
      + unfold is_tagmsg. destruct (beqb_spec (m_command m) (B "TAGMSG")) as [E|Hn]; [|reflexivity]. cbn [andb]. apply negb_false_iff.
        destruct (H4 E) as (k & v & Hi & Hk). apply existsb_exists. exists (k, v). split; [exact Hi|]. apply bmem_In. cbn [fst]. destruct Hk as [ ->| ->]; cbn [In]; auto.
      + destruct (has_prefix (c0 :: name) (B "$")) eqn:E; [|reflexivity]. apply has_prefix_iff in E as [r E]. exfalso. apply (H2 r). exact E.
      + apply beqb_neq. exact H3.
  Qed.
  Lemma produce_log s target m o :
    t_log (fst (produce s target m o)) = t_log s ++ (if storableb target m then [(cm target, m)] else []).
  Proof.
    cbn [Relay.produce fst]. destruct target as [|c0 target]; [rewrite app_nil_r; reflexivity|]. unfold Relay.append_log, storableb. cbn [andb].
    destruct (is_tagmsg m && _); cbn [negb andb]; [rewrite app_nil_r; reflexivity|].
    destruct (has_prefix _ _); cbn [negb andb]; [rewrite app_nil_r; reflexivity|].
    destruct (beqb _ _); cbn [negb]; [rewrite app_nil_r; reflexivity|reflexivity].
  Qed.
  Lemma produce_state s target m o : exists l, fst (produce s target m o) = with_log s l.
  Proof.
    cbn [Relay.produce fst]. assert (E : s = with_log s (t_log s)) by (destruct s; reflexivity).
    destruct target; [exists (t_log s); exact E|]. unfold Relay.append_log. destruct (_ && _); [exists (t_log s); exact E|].
    destruct (has_prefix _ _); [exists (t_log s); exact E|]. destruct (beqb _ _); [exists (t_log s); exact E|]. eexists. reflexivity.
  Qed.

  Definition timed (m : message) (now : bytes) : message := Message (tag_set (m_tags m) (B "time") now) (m_prefix m) (m_command m) (m_params m).
  Lemma storableb_timed name m now : storableb name (timed m now) = storableb name m.
  Proof.
    unfold storableb, timed, is_tagmsg. cbn [m_command m_tags].
    assert (X : existsb (fun p : bytes * bytes => bmem (fst p) [B "+draft/react"; B "+react"]) (tag_set (m_tags m) (B "time") now)
      = existsb (fun p : bytes * bytes => bmem (fst p) [B "+draft/react"; B "+react"]) (m_tags m)); [|rewrite X; reflexivity].
    unfold tag_set, tag_del. rewrite existsb_app. cbn [existsb fst]. change (bmem (B "time") [B "+draft/react"; B "+react"]) with false. rewrite !orb_false_r.
    induction (m_tags m) as [|[a b] l IH]; [reflexivity|]. cbn [filter fst existsb]. destruct (beqb_spec a (B "time")) as [E|Hn]; cbn [negb existsb fst].
    - subst a. change (bmem (B "time") [B "+draft/react"; B "+react"]) with false. exact IH.
    - rewrite IH. reflexivity.
  Qed.

  Lemma bare_trim t : trim_left t statusmsg = bare statusmsg t.
  Proof. induction t as [|c t IH]; [reflexivity|]. cbn [trim_left bare]. rewrite IH. reflexivity. Qed.

  (* the conversation of a text, computed *)
  Definition convb (nick : bytes) (m : message) : bytes :=
    let buffer := if beqb (cm nick) (cm (target statusmsg m)) then sender server m else target statusmsg m in
    match tag_get (m_tags m) (B "+draft/channel-context") with
    | Some t => match context t (sender server m) with Some name => name | None => buffer end
    | None => buffer
    end.
  Lemma in_context_spec from tags ch : in_context context from tags ch <-> exists t, tag_get tags (B "+draft/channel-context") = Some t /\ context t from = Some ch.
  Proof.
    unfold in_context. split.
    - intros (a & t & b & E & Hn & Hc). exists t. split; [|exact Hc]. apply tag_get_spec. exists a, b. auto.
    - intros (t & E & Hc). apply tag_get_spec in E as (a & b & E & Hn). exists a, t, b. auto.
  Qed.
  Lemma convb_spec nick m : conversation cm server statusmsg context nick m (convb nick m).
  Proof.
    unfold conversation, convb.
    assert (Y : (if beqb (cm nick) (cm (target statusmsg m)) then sender server m else target statusmsg m) =
      (if bytes_dec (cm nick) (cm (target statusmsg m)) then sender server m else target statusmsg m)).
    { destruct (bytes_dec _ _) as [E|Hn]; [rewrite E, beqb_refl; reflexivity|rewrite (proj2 (beqb_neq _ _) Hn); reflexivity]. }
    destruct (tag_get (m_tags m) (B "+draft/channel-context")) as [t|] eqn:Et.
    - destruct (context t (sender server m)) as [ch|] eqn:Ec.
      + left. apply in_context_spec. exists t. auto.
      + right. split; [|exact Y]. intros ch H. apply in_context_spec in H as (t' & E & H). congruence.
    - right. split; [|exact Y]. intros ch H. apply in_context_spec in H as (t' & E & H). congruence.
  Qed.

  (** A text of the server. *)
  Definition kind (nick : bytes) (m : message) : option (option bytes) := (* None: dropped; Some None: of the server *)
    if (if is_tagmsg m then match m_params m with [] => false | _ => true end else match m_params m with _ :: _ :: _ => true | _ => false end) then
      if beqb (cm (sender server m)) (cm (B "BouncerServ")) || beqb (cm (target statusmsg m)) (cm (B "BouncerServ")) then None
      else if beqb (cm (sender server m)) (cm server) || beqb (target statusmsg m) (B "*") || has_prefix (target statusmsg m) (B "$") then Some None
      else Some (Some (convb nick m))
    else None.
  Lemma on_text_eq s label m now :
    on_text s label m now =
      match kind (t_nick s) m with
      | None => (s, [])
      | Some None => produce s [] (timed (sourced server m) now) 0
      | Some (Some name) => produce s name (timed (sourced server m) now) (match label with Some id => id | None => 0%N end)
      end.
  Proof.
    unfold Relay.on_text, kind, is_tagmsg. cbn [m_command m_params m_tags m_prefix name_of].
    assert (Es : p_name match m_prefix m with Some p => p | None => Prefix server [] [] end = sender server m) by (unfold sender; destruct (m_prefix m); reflexivity).
    assert (Et : forall t l, m_params m = t :: l -> trim_left t statusmsg = target statusmsg m) by (intros t l E; unfold target; rewrite E; apply bare_trim).
    assert (G : forall t l, m_params m = t :: l ->
      (let target0 := trim_left t statusmsg in
       let from := name_of (Message (tag_set (m_tags m) (B "time") now) (Some match m_prefix m with Some p => p | None => Prefix server [] [] end) (m_command m) (m_params m)) in
       let service := cm (B "BouncerServ") in
       if beqb (cm from) service || beqb (cm target0) service then (s, [])
       else if beqb (cm from) (cm server) || beqb target0 (B "*") || has_prefix target0 (B "$") then
         produce s [] (Message (tag_set (m_tags m) (B "time") now) (Some match m_prefix m with Some p => p | None => Prefix server [] [] end) (m_command m) (m_params m)) 0
       else
         let buffer := if our_nick cm s target0 then from else target0 in
         let buffer0 := match tag_get (tag_set (m_tags m) (B "time") now) (B "+draft/channel-context") with
                        | Some t => match context t from with Some name => name | None => buffer end
                        | None => buffer end in
         produce s buffer0 (Message (tag_set (m_tags m) (B "time") now) (Some match m_prefix m with Some p => p | None => Prefix server [] [] end) (m_command m) (m_params m))
           match label with Some id => id | None => 0%N end) =
      match (if beqb (cm (sender server m)) (cm (B "BouncerServ")) || beqb (cm (target statusmsg m)) (cm (B "BouncerServ")) then None
        else if beqb (cm (sender server m)) (cm server) || beqb (target statusmsg m) (B "*") || has_prefix (target statusmsg m) (B "$") then Some None
        else Some (Some (convb (t_nick s) m))) with
      | None => (s, [])
      | Some None => produce s [] (timed (sourced server m) now) 0
      | Some (Some name) => produce s name (timed (sourced server m) now) (match label with Some id => id | None => 0%N end)
      end).
    { intros t l E. cbv zeta. rewrite (Et t l E). cbn [name_of m_prefix]. rewrite Es.
      destruct (beqb (cm (sender server m)) (cm (B "BouncerServ")) || _); [reflexivity|].
      destruct (_ || _ || _); [reflexivity|]. unfold convb, our_nick. rewrite tag_get_set by discriminate. reflexivity. }
    destruct (beqb (m_command m) (B "TAGMSG")).
    - destruct (m_params m) as [|t l] eqn:E; [reflexivity|]. apply (G t l eq_refl).
    - destruct (m_params m) as [|t [|x l]] eqn:E; [reflexivity|reflexivity|]. apply (G t (x :: l) eq_refl).
  Qed.

  Notation whole := (whole).
  Notation of_service := (of_service cm server statusmsg).
  Notation of_server := (of_server cm server statusmsg).
  Lemma kind_spec n m :
    match kind n m with
    | None => ~ whole m \/ whole m /\ of_service m
    | Some None => whole m /\ ~ of_service m /\ of_server m
    | Some (Some name) => whole m /\ ~ of_service m /\ ~ of_server m /\ conversation cm server statusmsg context n m name
    end.
  Proof.
    unfold kind.
    assert (W : (if is_tagmsg m then match m_params m with [] => false | _ => true end else match m_params m with _ :: _ :: _ => true | _ => false end) = true <-> whole m).
    { unfold whole, is_tagmsg. destruct (beqb (m_command m) (B "TAGMSG")).
      - destruct (m_params m); split; congruence.
      - destruct (m_params m) as [|a [|b l]]; split; try discriminate.
        + intros (? & ? & ? & ?). discriminate.
        + intros (? & ? & ? & ?). discriminate.
        + intros _. exists a, b, l. reflexivity.
        + intros _. reflexivity. }
    destruct (if is_tagmsg m then _ else _); [|left; intros H; apply W in H; discriminate].
    assert (Hw : whole m) by (apply W; reflexivity).
    assert (S : beqb (cm (sender server m)) (cm (B "BouncerServ")) || beqb (cm (target statusmsg m)) (cm (B "BouncerServ")) = true <-> of_service m).
    { rewrite orb_true_iff, !beqb_eq. reflexivity. }
    destruct (beqb (cm (sender server m)) (cm (B "BouncerServ")) || _); [right; split; [exact Hw|apply S; reflexivity]|].
    assert (Hs : ~ of_service m) by (intros H; apply S in H; discriminate).
    assert (V : beqb (cm (sender server m)) (cm server) || beqb (target statusmsg m) (B "*") || has_prefix (target statusmsg m) (B "$") = true <-> of_server m).
    { rewrite !orb_true_iff, !beqb_eq, has_prefix_iff. unfold Spec.Relay.of_server. tauto. }
    destruct (_ || _ || _); [split; [exact Hw|split; [exact Hs|apply V; reflexivity]]|].
    split; [exact Hw|]. split; [exact Hs|]. split; [intros H; apply V in H; discriminate|]. apply convb_spec.
  Qed.

  Lemma theirs_seen s c i m now :
    NoDup (map c_id (t_conns s)) -> In c (t_conns s) -> c_id c <> 0%N ->
    (forall id, i = Some id -> sender server m = t_nick s) ->
    sees c (Theirs (t_nick s) i m) (received (c_id c) (snd (on_text s i m now))).
  Proof.
    intros Hd Hc H0 Hi. rewrite on_text_eq. pose proof (kind_spec (t_nick s) m) as K.
    assert (V : view c (timed (sourced server m) now) = view c (sourced server m)) by apply view_timed.
    assert (Nm : name_of (timed (sourced server m) now) = sender server m) by (unfold name_of, sender; cbn [timed sourced m_prefix]; destruct (m_prefix m); reflexivity).
    destruct (kind (t_nick s) m) as [[name|]|].
    - destruct K as (Hw & Hs & Hv & Hn). rewrite produce_received by assumption. rewrite Nm, V.
      destruct (hiddenb name) eqn:Eh; cbn [negb andb].
      { apply (see_detached cm server statusmsg detached context account c _ i m name); auto. apply hiddenb_spec. exact Eh. }
      assert (Hh : ~ hidden name) by (intros H; apply hiddenb_spec in H; congruence).
      assert (D : i = Some (c_id c) \/ i <> Some (c_id c)).
      { destruct i as [id|]; [|right; discriminate]. destruct (N.eq_dec id (c_id c)) as [->|Hne]; [left; reflexivity|right; congruence]. }
      destruct D as [Ei|Ei].
      + rewrite Ei, N.eqb_refl, (Hi _ Ei), beqb_refl. cbn [andb negb orb]. destruct (c_echo c) eqn:Ee.
        * apply (see_text cm server statusmsg detached context account c _ _ m name); auto.
        * apply (see_echo cm server statusmsg detached context account c _ m name); auto.
      + assert (E : N.eqb (c_id c) (match i with Some id => id | None => 0%N end) = false).
        { apply N.eqb_neq. destruct i as [id|]; [intros E; apply Ei; rewrite E; reflexivity|exact H0]. }
        rewrite E. cbn [andb negb orb]. apply (see_text cm server statusmsg detached context account c _ _ m name); auto.
    - destruct K as (Hw & Hs & Hv). rewrite produce_received by assumption. cbn [hiddenb negb andb].
      rewrite (proj2 (N.eqb_neq _ _) H0). cbn [andb negb orb]. rewrite V. apply see_server; auto.
    - cbn [snd]. destruct K as [Hw|[Hw Hs]]; [apply see_broken; exact Hw|apply see_service; assumption].
  Qed.

  Definition klog (l : list (bytes * message)) : list (bytes * message) := map (fun p => (fst p, untimed (snd p))) l.
  Lemma theirs_kept s i m now :
    exists ls, keeps (Theirs (t_nick s) i m) ls /\ klog (t_log (fst (on_text s i m now))) = klog (t_log s) ++ ls.
  Proof.
    rewrite on_text_eq. pose proof (kind_spec (t_nick s) m) as K.
    destruct (kind (t_nick s) m) as [[name|]|].
    - destruct K as (Hw & Hs & Hv & Hn). rewrite produce_log, storableb_timed.
      assert (E : storableb name (sourced server m) = storableb name m) by reflexivity. rewrite E.
      destruct (storableb name m) eqn:Es.
      + exists [(cm name, untimed (sourced server m))]. split; [apply (keep_text cm server statusmsg context account _ _ _ name); auto; apply storableb_spec; exact Es|].
        unfold klog. rewrite map_app. f_equal. cbn [map fst snd]. f_equal. f_equal. apply untimed_set.
      + exists []. split; [|rewrite !app_nil_r; reflexivity]. apply (keep_not cm server statusmsg context account _ _ _ name); auto. intros H. apply storableb_spec in H. congruence.
    - destruct K as (Hw & Hs & Hv). rewrite produce_log. exists []. split; [apply keep_server; auto|]. cbn [storableb andb]. rewrite !app_nil_r. reflexivity.
    - exists []. cbn [fst]. split; [destruct K as [Hw|[Hw Hs]]; [apply keep_broken; exact Hw|apply keep_service; assumption]|]. rewrite app_nil_r. reflexivity.
  Qed.
  Lemma on_text_state s i m now : exists l, fst (on_text s i m now) = with_log s l.
  Proof.
    rewrite on_text_eq. destruct (kind (t_nick s) m) as [[name|]|]; [apply produce_state|apply produce_state|].
    exists (t_log s). destruct s; reflexivity.
  Qed.
  Lemma produce_outs s target m o x : In x (snd (produce s target m o)) -> exists id m, x = OTo id m.
  Proof.
    cbn [Relay.produce snd]. intros H. apply in_flat_map in H as (c & _ & H).
    match type of H with In _ (if ?b then _ else _) => destruct b end; [|destruct H]. apply in_map_iff in H as (y & <- & _). eauto.
  Qed.
  Lemma on_text_outs s i m now x : In x (snd (on_text s i m now)) -> exists id m, x = OTo id m.
  Proof.
    rewrite on_text_eq. destruct (kind (t_nick s) m) as [[name|]|]; [apply produce_outs|apply produce_outs|intros []].
  Qed.
  Lemma only_to o : (forall x, In x o -> exists id m, x = OTo id m) ->
    turns o = [] /\ server_turns o = [] /\ sent o = [] /\ taken o = [] /\ said o = [] /\ heard o = [].
  Proof.
    intros H. induction o as [|x o IH]; [repeat split; reflexivity|].
    destruct (H x (or_introl eq_refl)) as (id & m & ->). apply IH. intros y Hy. apply H. right. exact Hy.
  Qed.

  (** A line of a client. *)
  Notation passing := (passing cm host admin).
  Definition params (command text name : bytes) : list bytes := if beqb command (B "TAGMSG") then [name] else [name; text].
  Lemma tag_del_set l k v : tag_del (tag_set l k v) k = tag_del l k.
  Proof.
    unfold tag_set, tag_del. rewrite filter_app. cbn [filter fst]. rewrite beqb_refl. cbn [negb]. rewrite app_nil_r.
    induction l as [|[a b] l IH]; [reflexivity|]. cbn [filter fst]. destruct (beqb a k) eqn:E; cbn [negb]; [exact IH|]. cbn [filter fst]. rewrite E. cbn [negb]. f_equal. exact IH.
  Qed.
  Lemma tag_del_none l k : ~ In k (map fst l) -> tag_del l k = l.
  Proof.
    intros H. unfold tag_del. induction l as [|[a b] l IH]; [reflexivity|]. cbn [filter fst].
    rewrite (proj2 (beqb_neq a k)) by (intros E; apply H; left; exact E). cbn [negb]. f_equal. apply IH. intros Hi. apply H. right. exact Hi.
  Qed.

  Definition same (s s' : st) : Prop := exists n l u, s' = with_up (with_seq (with_log s l) n) u.
  Lemma same_refl s : same s s.
  Proof. exists (t_seq s), (t_log s), (t_up s). destruct s; reflexivity. Qed.
  Lemma same_trans a b c : same a b -> same b c -> same a c.
  Proof. intros (n & l & u & ->) (n' & l' & u' & ->). exists n', l', u'. reflexivity. Qed.

  Definition no_talk (o : list out) : Prop := taken o = [] /\ said o = [] /\ heard o = [].
  Lemma no_talk_app a b : no_talk a -> no_talk b -> no_talk (a ++ b).
  Proof. unfold no_talk, taken, said, heard. rewrite !flat_map_app. intros (-> & -> & ->) (-> & -> & ->). auto. Qed.
  Lemma echo_outs id ms : no_talk (map (OEcho id) ms) /\ sent (map (OEcho id) ms) = [] /\ (forall i, received i (map (OEcho id) ms) = []) /\ turns (map (OEcho id) ms) = [].
  Proof. unfold no_talk. induction ms as [|m ms IH]; [repeat split; reflexivity|exact IH]. Qed.
  Lemma sent_app a b : sent (a ++ b) = sent a ++ sent b. Proof. apply flat_map_app. Qed.
  Lemma turns_app a b : turns (a ++ b) = turns a ++ turns b. Proof. apply flat_map_app. Qed.
  Lemma server_turns_app a b : server_turns (a ++ b) = server_turns a ++ server_turns b. Proof. apply flat_map_app. Qed.

  Lemma relay_sent c command text now tags0 names : forall s tags, tag_del tags (B "label") = tags0 ->
    let r := relay s c command text tags now names in
    same s (fst r) /\ no_talk (snd r) /\
    sent (snd r) = map (fun t => (c_id c, Message tags0 None command (params command text t))) (passing names) /\
    t_up (fst r) = t_up s ++ map (fun t => UMsg (c_id c) (if t_label s && utags then Some (c_id c) else None)
                                (wire utags (Message tags0 None command (params command text t)))) (passing names).
  Proof.
    induction names as [|name names IH]; intros s tags Ht; cbn [Relay.relay Spec.Relay.passing].
    { cbn [fst snd map]. split; [apply same_refl|]. split; [repeat split; reflexivity|]. split; [reflexivity|]. rewrite app_nil_r. reflexivity. }
    cbv zeta. fold (params command text name). destruct (bytes_dec name (B "$" ++ host)) as [E|Hn].
    { rewrite (proj2 (beqb_eq _ _) E). destruct admin.
      - specialize (IH s tags Ht). cbv zeta in IH. revert IH. match goal with |- context [Model.Relay.relay ?a ?b ?d ?e ?f s c command text tags now names] => destruct (Model.Relay.relay a b d e f s c command text tags now names) as [s' outs] end. intros IH. exact IH.
      - cbn [fst snd map]. split; [apply same_refl|]. split; [repeat split; reflexivity|]. split; [reflexivity|]. rewrite app_nil_r. reflexivity. }
    rewrite (proj2 (beqb_neq _ _) Hn). destruct (bytes_dec (cm name) (B "bouncerserv")) as [E|Hb].
    { rewrite (proj2 (beqb_eq _ _) E). specialize (IH s tags Ht). cbv zeta in IH. revert IH. destruct (relay s c command text tags now names) as [s' outs]. intros IH. cbn [fst snd] in *.
      destruct IH as (H1 & H2 & H3 & H4). split; [exact H1|].
      assert (Q : forall o, no_talk o -> sent o = [] -> no_talk (o ++ outs) /\ sent (o ++ outs) = map (fun t => (c_id c, Message tags0 None command (params command text t))) (passing names)).
      { intros o Ho Es. split; [apply no_talk_app; assumption|]. rewrite sent_app, Es. exact H3. }
      assert (R : no_talk ((if beqb command (B "PRIVMSG") then [OService (c_id c) text] else []) ++ outs) /\ sent ((if beqb command (B "PRIVMSG") then [OService (c_id c) text] else []) ++ outs) = map (fun t => (c_id c, Message tags0 None command (params command text t))) (passing names)).
      { apply Q; destruct (beqb command (B "PRIVMSG")); repeat split; reflexivity. }
      destruct R as [R1 R2]. destruct (c_echo c).
      - destruct (echo_outs (c_id c) (shown c (Message (tag_set tags (B "time") now) (Some (Prefix (t_nick s) [] [])) command (params command text name)))) as (E1 & E2 & _).
        split; [apply no_talk_app; assumption|]. split; [rewrite sent_app, E2; exact R2|exact H4].
      - split; [exact R1|]. split; [exact R2|exact H4]. }
    rewrite (proj2 (beqb_neq _ _) Hb).
    set (s1 := with_up s (t_up s ++ [UMsg (c_id c) (if t_label s && utags then Some (c_id c) else None) (wire utags (Message (tag_del tags (B "label")) None command (params command text name)))])).
    set (tags1 := if t_label s then tag_set tags (B "label") (B "sd-" ++ dec (c_id c) ++ B "-" ++ dec (t_seq s)) else tags).
    set (s2 := if t_label s then with_seq s1 (t_seq s + 1) else s1).
    assert (Ht1 : tag_del tags1 (B "label") = tags0) by (unfold tags1; destruct (t_label s); [rewrite tag_del_set|]; exact Ht).
    set (etags := match t_account s with [] => tag_set tags1 (B "time") now | a => tag_set (tag_set tags1 (B "time") now) (B "account") a end).
    assert (P : exists l o, (if t_echo s then (s2, []) else produce s2 name (Message etags (Some (Prefix (t_nick s) [] [])) command (params command text name)) (c_id c)) = (with_log s2 l, o) /\ no_talk o /\ sent o = []).
    { destruct (t_echo s).
      - exists (t_log s2), []. split; [|repeat split; reflexivity]. f_equal. destruct s2; reflexivity.
      - pose proof (produce_outs s2 name (Message etags (Some (Prefix (t_nick s) [] [])) command (params command text name)) (c_id c)) as O.
        destruct (produce_state s2 name (Message etags (Some (Prefix (t_nick s) [] [])) command (params command text name)) (c_id c)) as [l El].
        destruct (produce s2 name _ _) as [s3 o]. cbn [fst snd] in *. exists l, o. split; [rewrite El; reflexivity|].
        destruct (only_to o O) as (_ & _ & O1 & O2 & O3 & O4). split; [repeat split; assumption|exact O1]. }
    destruct P as (l & o & P & P1 & P2). rewrite P.
    specialize (IH (with_log s2 l) tags1 Ht1). cbv zeta in IH. revert IH. destruct (relay (with_log s2 l) c command text tags1 now names) as [s4 outs]. intros IH. cbn [fst snd] in *.
    destruct IH as (H1 & H2 & H3 & H4). rewrite Ht.
    assert (S2 : same s (with_log s2 l)) by (unfold s2, s1; destruct (t_label s); [exists (t_seq s + 1)%N, l|exists (t_seq s), l]; eexists; reflexivity).
    split; [apply (same_trans s (with_log s2 l)); assumption|].
    split. { change (no_talk ([OSent (c_id c) (t_nick s) (Message tags0 None command (params command text name))] ++ o ++ outs)). apply no_talk_app; [repeat split; reflexivity|]. apply no_talk_app; assumption. }
    split. { cbn [map]. change (sent ([OSent (c_id c) (t_nick s) (Message tags0 None command (params command text name))] ++ o ++ outs) = [(c_id c, Message tags0 None command (params command text name))] ++ map (fun t => (c_id c, Message tags0 None command (params command text t))) (passing names)).
      rewrite !sent_app, P2, H3. reflexivity. }
    rewrite H4. assert (El : t_label (with_log s2 l) = t_label s) by (destruct S2 as (? & ? & ? & ->); reflexivity). rewrite El.
    assert (Eu : t_up (with_log s2 l) = t_up s ++ [UMsg (c_id c) (if t_label s && utags then Some (c_id c) else None) (wire utags (Message tags0 None command (params command text name)))]).
    { unfold s2, s1. rewrite Ht. destruct (t_label s); reflexivity. }
    rewrite Eu, <- app_assoc. reflexivity.
  Qed.

  Lemma server_turns_heard o : server_turns o = map (fun p => Theirs (fst (fst p)) (snd (fst p)) (snd p)) (heard o).
  Proof. induction o as [|[| | | | | | | |nick origin m] o IH]; [reflexivity|try exact IH ..]. change (Theirs nick origin m :: server_turns o = Theirs nick origin m :: map (fun p => Theirs (fst (fst p)) (snd (fst p)) (snd p)) (heard o)). rewrite IH. reflexivity. Qed.

  (* with echo-message, a line of a client is for the server only *)
  Lemma relay_echo c command text now names : forall s tags, t_echo s = true ->
    let r := relay s c command text tags now names in
    (forall id, received id (snd r) = []) /\ t_log (fst r) = t_log s.
  Proof.
    induction names as [|name names IH]; intros s tags He; cbn [Relay.relay]; [split; reflexivity|]. cbv zeta.
    destruct (beqb name _).
    { destruct admin; [|split; reflexivity]. specialize (IH s tags He). cbv zeta in IH. revert IH.
      match goal with |- context [Model.Relay.relay ?a ?b ?d ?e ?f s c command text tags now names] => destruct (Model.Relay.relay a b d e f s c command text tags now names) as [s' outs] end. intros IH. exact IH. }
    destruct (beqb (cm name) _).
    { specialize (IH s tags He). cbv zeta in IH. revert IH. destruct (relay s c command text tags now names) as [s' outs]. intros [IH1 IH2]. cbn [fst snd] in *. split; [|exact IH2].
      intros id. rewrite !received_app, IH1, app_nil_r.
      assert (E : received id (if beqb command (B "PRIVMSG") then [OService (c_id c) text] else []) = []) by (destruct (beqb command (B "PRIVMSG")); reflexivity).
      rewrite E, app_nil_r. destruct (c_echo c); [|reflexivity]. apply echo_outs. }
    rewrite He. match goal with |- context [Model.Relay.relay _ _ _ _ _ ?a c command text ?b now names] => set (s3 := a); set (t1 := b) end.
    assert (E3 : t_echo s3 = true /\ t_log s3 = t_log s) by (unfold s3; destruct (t_label s); cbn [with_seq with_up t_echo t_log]; auto).
    destruct E3 as [E3 E4]. specialize (IH s3 t1 E3). cbv zeta in IH. clearbody s3 t1. revert IH. destruct (relay s3 c command text t1 now names) as [s' outs]. intros [IH1 IH2]. cbn [fst snd app] in *. split; [exact IH1|rewrite IH2; exact E4].
  Qed.

  (* without it, clients are told by the bouncer *)
  Definition plain (tags : list (bytes * bytes)) : Prop := forall k v, In (k, v) tags -> has_prefix k (B "+") = true.
  Definition acc : list (bytes * bytes) := match account with [] => [] | _ => [(B "account", account)] end.
  Lemma plain_not k tags : plain tags -> has_prefix k (B "+") = false -> ~ In k (map fst tags).
  Proof. intros H E Hi. apply in_map_iff in Hi as ([k' v] & Ek & Hi). cbn [fst] in Ek. subst k'. rewrite (H _ _ Hi) in E. discriminate. Qed.
  Lemma etags_eq tags now : plain tags ->
    match account with [] => tag_set tags (B "time") now | x :: a => tag_set (tag_set tags (B "time") now) (B "account") (x :: a) end = tags ++ (B "time", now) :: acc.
  Proof.
    intros H. unfold acc. assert (E : tag_set tags (B "time") now = tags ++ [(B "time", now)]).
    { unfold tag_set. rewrite tag_del_none; [reflexivity|]. apply plain_not; [exact H|reflexivity]. }
    rewrite E. destruct account as [|x a]; [reflexivity|]. unfold tag_set. rewrite tag_del_none; [rewrite <- app_assoc; reflexivity|].
    rewrite map_app. intros Hi. apply in_app_iff in Hi as [Hi|[Hi|[]]]; [|discriminate]. revert Hi. apply plain_not; [exact H|reflexivity].
  Qed.
  Lemma untimed_mid tags now p cd ps : untimed (Message (tags ++ (B "time", now) :: acc) p cd ps) = untimed (Message (tags ++ acc) p cd ps).
  Proof.
    unfold untimed. cbn [m_tags m_prefix m_command m_params]. f_equal. rewrite !filter_app. f_equal.
  Qed.
  Lemma view_mid c tags now p cd ps : view c (Message (tags ++ (B "time", now) :: acc) p cd ps) = view c (Message (tags ++ acc) p cd ps).
  Proof.
    unfold view. rewrite untimed_mid. cbn [m_tags m_prefix m_command m_params]. destruct (c_tags c); [reflexivity|]. destruct (beqb _ _); [reflexivity|].
    destruct (c_account c); [|reflexivity]. f_equal. f_equal. rewrite !filter_app. f_equal.
  Qed.
  Lemma storableb_mid name tags now p p' cd ps : storableb name (Message (tags ++ (B "time", now) :: acc) p cd ps) = storableb name (Message tags p' cd ps).
  Proof.
    unfold storableb, is_tagmsg. cbn [m_command m_tags]. rewrite existsb_app. cbn [existsb fst].
    change (bmem (B "time") [B "+draft/react"; B "+react"]) with false.
    assert (E : existsb (fun p : bytes * bytes => bmem (fst p) [B "+draft/react"; B "+react"]) acc = false) by (unfold acc; destruct account; reflexivity).
    rewrite E, !orb_false_r. reflexivity.
  Qed.

  Lemma relay_local c command text now names : forall s tags, t_echo s = false -> t_label s = false -> t_account s = account ->
    plain tags -> ~ In (B "+draft/channel-context") (map fst tags) -> (forall t, In t names -> bare statusmsg t = t) ->
    let r := relay s c command text tags now names in
    (forall d, NoDup (map c_id (t_conns s)) -> In d (t_conns s) ->
      exists ls, Forall2 (sees d) (turns (snd r)) ls /\ received (c_id d) (snd r) = concat ls) /\
    (exists ks, Forall2 keeps (turns (snd r)) ks /\ klog (t_log (fst r)) = klog (t_log s) ++ concat ks).
  Proof.
    induction names as [|name names IH]; intros s tags He Hl Ha Hp Hc Hb; cbn [Relay.relay].
    { split; [intros; exists []; split; [constructor|reflexivity]|]. exists []. split; [constructor|]. symmetry. apply app_nil_r. }
    assert (Hb' : forall t, In t names -> bare statusmsg t = t) by (intros t Ht; apply Hb; right; exact Ht).
    cbv zeta. destruct (beqb name _).
    { destruct admin; [|split; [intros; exists []; split; [constructor|reflexivity]|exists []; split; [constructor|symmetry; apply app_nil_r]]].
      specialize (IH s tags He Hl Ha Hp Hc Hb'). cbv zeta in IH. revert IH.
      match goal with |- context [Model.Relay.relay ?a ?b ?d ?e ?f s c command text tags now names] => destruct (Model.Relay.relay a b d e f s c command text tags now names) as [s' outs] end. intros IH. exact IH. }
    destruct (beqb (cm name) _).
    { specialize (IH s tags He Hl Ha Hp Hc Hb'). cbv zeta in IH. revert IH. destruct (relay s c command text tags now names) as [s' outs]. intros [IH1 IH2]. cbn [fst snd] in *.
      match goal with |- context [Forall2 keeps (turns (?a ++ ?b ++ outs))] => set (o := a ++ b) in *; assert (Eo : a ++ b ++ outs = o ++ outs) by apply app_assoc; rewrite Eo;
        assert (Q : turns o = [] /\ forall id, received id o = []) end.
      { unfold o. destruct (c_echo c).
        - destruct (echo_outs (c_id c) (shown c (Message (tag_set tags (B "time") now) (Some (Prefix (t_nick s) [] [])) command (if beqb command (B "TAGMSG") then [name] else [name; text])))) as (_ & _ & E3 & E4).
          destruct (beqb command (B "PRIVMSG")); rewrite turns_app, E4; split; try reflexivity; intros id; rewrite received_app, E3; reflexivity.
        - destruct (beqb command (B "PRIVMSG")); split; reflexivity. }
      destruct Q as [Q1 Q2]. rewrite turns_app, Q1. split; [|exact IH2]. intros d Hd Hi. rewrite received_app, Q2. apply IH1; assumption. }
    rewrite He, Hl, Ha, (etags_eq tags now Hp). fold (params command text name).
    set (m := Message (tag_del tags (B "label")) None command (params command text name)).
    assert (Em : m = Message tags None command (params command text name)).
    { unfold m. rewrite tag_del_none; [reflexivity|]. apply plain_not; [exact Hp|reflexivity]. }
    set (s2 := with_up s (t_up s ++ [UMsg (c_id c) (if false && utags then Some (c_id c) else None) (wire utags m)])).
    set (em := Message (tags ++ (B "time", now) :: acc) (Some (Prefix (t_nick s) [] [])) command (params command text name)).
    destruct (produce_state s2 name em (c_id c)) as [l El].
    pose proof (produce_log s2 name em (c_id c)) as Lg.
    pose proof (produce_received s2 name em (c_id c)) as Rc.
    destruct (only_to _ (produce_outs s2 name em (c_id c))) as (Pt & _).
    destruct (produce s2 name em (c_id c)) as [s3 o]. cbn [fst snd] in El, Lg, Rc, Pt.
    assert (H3 : t_echo s3 = false /\ t_label s3 = false /\ t_account s3 = account /\ t_conns s3 = t_conns s) by (rewrite El; auto).
    destruct H3 as (H31 & H32 & H33 & H34).
    specialize (IH s3 tags H31 H32 H33 Hp Hc Hb'). cbv zeta in IH. revert IH. destruct (relay s3 c command text tags now names) as [s4 outs]. intros [IH1 IH2]. cbn [fst snd] in *.
    rewrite H34 in IH1.
    assert (Tn : turns (OSent (c_id c) (t_nick s) m :: o ++ outs) = Own (c_id c) (t_nick s) m :: turns outs).
    { change (turns ([OSent (c_id c) (t_nick s) m] ++ o ++ outs) = [Own (c_id c) (t_nick s) m] ++ turns outs). rewrite !turns_app, Pt. reflexivity. }
    rewrite Tn.
    assert (Oc : own_conversation statusmsg context (t_nick s) m name).
    { right. split.
      - intros ch (a & x & b & E & _ & _). rewrite Em in E. cbn [m_tags] in E. apply Hc. rewrite E, map_app. apply in_app_iff. right. left. reflexivity.
      - rewrite Em. unfold target. cbn [m_params]. symmetry. unfold params. destruct (beqb command (B "TAGMSG")); cbn [hd]; apply Hb; left; reflexivity. }
    assert (Sp : spoken account (t_nick s) m = Message (tags ++ acc) (Some (Prefix (t_nick s) [] [])) command (params command text name)) by (rewrite Em; reflexivity).
    assert (Sb : storableb name em = storableb name m) by (rewrite Em; apply storableb_mid).
    split.
    - intros d Hd Hi. destruct (IH1 d Hd Hi) as (ls & Hf & Hr).
      exists (received (c_id d) o :: ls). split.
      + constructor; [|exact Hf]. rewrite (Rc d Hd Hi). unfold em at 2. rewrite view_mid, <- Sp.
        cbn [name_of m_prefix em p_name]. change (t_nick s2) with (t_nick s). rewrite beqb_refl, andb_true_r.
        destruct (hiddenb name) eqn:Eh; cbn [negb andb].
        { apply (see_own_detached cm server statusmsg detached context account d _ _ m name); [exact Oc|]. apply hiddenb_spec. exact Eh. }
        assert (Hh : ~ hidden name) by (intros H; apply hiddenb_spec in H; congruence).
        destruct (N.eqb_spec (c_id d) (c_id c)) as [E|Hne]; cbn [negb orb].
        * destruct (c_echo d) eqn:Ee; [apply (see_own cm server statusmsg detached context account d _ _ m name); auto|].
          rewrite <- E. apply see_own_echo. exact Ee.
        * apply (see_own cm server statusmsg detached context account d _ _ m name); auto.
      + change (received (c_id d) ([OSent (c_id c) (t_nick s) m] ++ o ++ outs) = received (c_id d) o ++ concat ls). rewrite !received_app, Hr. reflexivity.
    - destruct IH2 as (ks & Hf & Hk). exists ((if storableb name m then [(cm name, untimed (spoken account (t_nick s) m))] else []) :: ks). split.
      + constructor; [|exact Hf]. destruct (storableb name m) eqn:Es.
        * apply (keep_own cm server statusmsg context account _ _ m name); [exact Oc|]. apply storableb_spec. exact Es.
        * apply (keep_own_not cm server statusmsg context account _ _ m name); [exact Oc|]. intros H. apply storableb_spec in H. congruence.
      + rewrite Hk, Lg, Sb. cbn [concat]. rewrite app_assoc. f_equal. unfold klog. rewrite map_app. f_equal.
        destruct (storableb name m); [|reflexivity]. cbn [map fst snd]. f_equal. f_equal. rewrite Sp. unfold em. apply untimed_mid.
  Qed.

  (** Lines. *)
  Notation texts := (texts cm host admin).
  Lemma on_line_cases s c m now :
    (exists text, on_line s c m now = relay s c (m_command m) text (copy_client_tags (m_tags m)) now (split_on "," (hd [] (m_params m))) /\
      texts m = map (fun t => Message (copy_client_tags (m_tags m)) None (m_command m) (params (m_command m) text t)) (passing (split_on "," (hd [] (m_params m))))) \/
    on_line s c m now = (s, [OErr (c_id c)]) /\ texts m = [].
  Proof.
    unfold Relay.on_line, Spec.Relay.texts, is_tagmsg, copy_client_tags, params. destruct (m_params m) as [|targets rest].
    - right. destruct (beqb _ _); split; reflexivity.
    - cbn [hd]. destruct (beqb (m_command m) (B "TAGMSG")).
      + left. exists []. split; reflexivity.
      + destruct rest as [|text rest]; [right; split; reflexivity|]. left. exists text. split; reflexivity.
  Qed.
  Lemma plain_copy tags : plain (copy_client_tags tags).
  Proof. intros k v H. apply filter_In in H as [_ H]. exact H. Qed.
  Lemma label_copy tags : tag_del (copy_client_tags tags) (B "label") = copy_client_tags tags.
  Proof. apply tag_del_none, plain_not; [apply plain_copy|reflexivity]. Qed.
  Lemma on_line_sent s c m now :
    let r := on_line s c m now in
    same s (fst r) /\ no_talk (snd r) /\ sent (snd r) = map (fun t => (c_id c, t)) (texts m) /\
    t_up (fst r) = t_up s ++ map (fun t => UMsg (c_id c) (if t_label s && utags then Some (c_id c) else None) (wire utags t)) (texts m).
  Proof.
    cbv zeta. destruct (on_line_cases s c m now) as [(text & E & T)|[E T]]; rewrite E, T.
    - rewrite !map_map. apply relay_sent, label_copy.
    - cbn [fst snd map]. split; [apply same_refl|]. split; [repeat split; reflexivity|]. split; [reflexivity|]. rewrite app_nil_r. reflexivity.
  Qed.

  (** While no capability changes. *)
  Definition up_ok (b : bool) (u : uline) : Prop :=
    match u with UMsg i l _ => l = if b then Some i else None | UCap _ _ => False end.
  Fixpoint down_ok (n v : bytes) (l : list dline) : Prop :=
    match l with
    | [] => n = v
    | DMsg i lab m :: l' => lab = i /\ (forall id, i = Some id -> sender server m = n) /\ down_ok n v l'
    | DNick n' :: l' => down_ok n' v l'
    | _ => False
    end.
  Lemma down_ok_msg v i m l : forall n, down_ok n v l -> (forall id, i = Some id -> sender server m = v) -> down_ok n v (l ++ [DMsg i i m]).
  Proof.
    induction l as [|d l IH]; intros n H Hi; cbn [app down_ok] in *.
    - split; [reflexivity|]. split; [|exact H]. rewrite H. exact Hi.
    - destruct d; try contradiction; [|apply IH; assumption]. destruct H as (H1 & H2 & H3). split; [exact H1|]. split; [exact H2|]. apply IH; assumption.
  Qed.
  Lemma down_ok_nick v w l : forall n, down_ok n v l -> down_ok n w (l ++ [DNick w]).
  Proof.
    induction l as [|d l IH]; intros n H; cbn [app down_ok] in *; [reflexivity|].
    destruct d; try contradiction; [|apply IH; assumption]. destruct H as (H1 & H2 & H3). split; [exact H1|]. split; [exact H2|]. apply IH; assumption.
  Qed.
  Lemma downlink_msg v i lab m l : forall n, down_ok n v l -> downlink n (l ++ [DMsg i lab m]) = downlink n l ++ [(v, i, m)].
  Proof.
    induction l as [|d l IH]; intros n H; cbn [app down_ok downlink] in *; [rewrite H; reflexivity|].
    destruct d; try contradiction; [|apply IH; assumption]. destruct H as (H1 & H2 & H3). cbn [app]. f_equal. apply IH. exact H3.
  Qed.
  Lemma downlink_nick w l : forall n, downlink n (l ++ [DNick w]) = downlink n l.
  Proof. induction l as [|d l IH]; intros n; [reflexivity|]. destruct d; cbn [app downlink]; try apply IH. f_equal. apply IH. Qed.

  Record inv (b : bool) (s : st) : Prop := Inv {
    i_caps : t_label s = b /\ t_echo s = b /\ v_label s = b /\ v_echo s = b;
    i_utags : b = true -> utags = true;
    i_account : t_account s = account;
    i_nodup : NoDup (map c_id (t_conns s));
    i_ids : forall c, In c (t_conns s) -> (0 < c_id c <= t_next s)%N;
    i_up : Forall (up_ok b) (t_up s);
    i_down : down_ok (t_nick s) (v_nick s) (t_down s)
  }.
  Lemma inv_fresh b nick log : (b = true -> utags = true) -> inv b (fresh nick account b log).
  Proof. intros H. constructor; cbn; auto. constructor. intros c []. Qed.
  Lemma inv_same b s s' : inv b s -> same s s' -> Forall (up_ok b) (t_up s') -> inv b s'.
  Proof. intros [] (n & l & u & ->) H. constructor; assumption. Qed.
  Lemma inv_text b s l : inv b s -> inv b (with_log s l).
  Proof. intros []. constructor; assumption. Qed.

  Definition tn (b : bool) (o : list out) : list turn := if b then server_turns o else turns o.
  Lemma tn_app b x y : tn b (x ++ y) = tn b x ++ tn b y.
  Proof. destruct b; [apply server_turns_app|apply turns_app]. Qed.
  Lemma nodup_filter (f : client -> bool) l : NoDup (map c_id l) -> NoDup (map c_id (filter f l)).
  Proof.
    induction l as [|c l IH]; cbn [map filter]; intros H; [exact H|]. inversion H as [|? ? Hn Hd]; subst. destruct (f c); [|apply IH; exact Hd].
    cbn [map]. constructor; [|apply IH; exact Hd]. intros Hi. apply Hn. apply in_map_iff in Hi as (d & Ed & Hi). apply filter_In in Hi as [Hi _]. rewrite <- Ed. apply in_map. exact Hi.
  Qed.

  Lemma step_inv b s e : inv b s -> steady e -> inv b (fst (step s e)).
  Proof.
    intros I He. pose proof I as [[Cl [Ce [Vl Ve]]] Hu Ha Hd Hi Hup Hdn].
    destruct e as [c|id|c|id m now|now|m| |ok|m|n|label|label echo]; cbn [steady] in He; try contradiction; cbn [Relay.step].
    - constructor; cbn [fst with_next with_conns t_next t_conns t_nick t_account t_label t_echo t_up t_down v_nick v_label v_echo]; auto.
      + rewrite map_app. cbn [map with_id c_id].
        assert (E : ~ In (t_next s + 1)%N (map c_id (t_conns s))).
        { intros H. apply in_map_iff in H as (d & Ed & H). apply Hi in H. rewrite Ed in H. lia. }
        apply (Permutation_NoDup (l := (t_next s + 1)%N :: map c_id (t_conns s))); [apply Permutation_cons_append|]. constructor; assumption.
      + intros d H. apply in_app_iff in H as [H|[H|[]]]; [apply Hi in H; lia|]. subst d. cbn [with_id c_id]. lia.
    - constructor; cbn [fst with_next with_conns t_next t_conns t_nick t_account t_label t_echo t_up t_down v_nick v_label v_echo]; auto.
      + apply nodup_filter. exact Hd.
      + intros d H. apply filter_In in H as [H _]. apply Hi. exact H.
    - assert (E : forall d : client, c_id (if N.eqb (c_id d) (c_id c) then c else d) = c_id d) by (intros d; destruct (N.eqb_spec (c_id d) (c_id c)); congruence).
      constructor; cbn [fst with_next with_conns t_next t_conns t_nick t_account t_label t_echo t_up t_down v_nick v_label v_echo]; auto.
      + rewrite map_map. rewrite (map_ext _ c_id E). exact Hd.
      + intros d H. apply in_map_iff in H as (x & <- & H). rewrite E. apply Hi. exact H.
    - destruct (the_client s id) as [c|]; [|exact I]. destruct (on_line_sent s c m now) as (H1 & _ & _ & H4).
      apply (inv_same b s); [exact I|exact H1|]. rewrite H4. apply Forall_app. split; [exact Hup|]. apply Forall_forall. intros u H. apply in_map_iff in H as (t & <- & _).
      cbn [up_ok]. rewrite Cl. destruct b; [rewrite Hu; reflexivity|reflexivity].
    - destruct (t_down s) as [|d l] eqn:Ed; [exact I|]. cbn [down_ok] in Hdn. destruct d as [i lab m|n|x|x y|x y]; try contradiction; cbn [on_dline].
      + destruct Hdn as (H1 & H2 & H3). destruct (on_text_state (with_down s l) lab m now) as [lg E].
        destruct (on_text (with_down s l) lab m now) as [s' o]. cbn [fst] in *. rewrite E. apply inv_text. constructor; auto.
      + constructor; auto.
    - destruct (t_up s) as [|[i lab t|x y] l] eqn:Eu; [exact I| |exact I]. pose proof (Forall_inv Hup) as Hl; pose proof (Forall_inv_tail Hup) as Hup'. cbn [up_ok] in Hl.
      cbn [with_up v_echo v_label v_nick]. rewrite Ve. destruct b; cbn [fst].
      + rewrite Vl, Hl. constructor; cbn [with_up with_down t_next t_conns t_nick t_account t_label t_echo t_up t_down v_nick v_label v_echo]; auto.
        apply down_ok_msg; [exact Hdn|]. intros id0 _. reflexivity.
      + constructor; auto.
    - destruct (t_up s) as [|[i lab t|x y] l] eqn:Eu; [exact I| |exact I]. pose proof (Forall_inv Hup) as Hl; pose proof (Forall_inv_tail Hup) as Hup'. constructor; auto.
    - constructor; auto. cbn [fst with_down t_nick v_nick t_down]. apply down_ok_msg; [exact Hdn|]. discriminate.
    - constructor; auto. cbn [fst with_down with_server t_nick v_nick t_down]. apply (down_ok_nick (v_nick s)). exact Hdn.
  Qed.

  Lemma step_link b s e : inv b s -> steady e ->
    let r := step s e in
    heard (snd r) ++ downlink (t_nick (fst r)) (t_down (fst r)) = downlink (t_nick s) (t_down s) ++ said (snd r) /\
    taken (snd r) ++ uplink (fst r) = uplink s ++ map (fun p => (fst p, wire utags (snd p))) (sent (snd r)).
  Proof.
    intros I He. pose proof I as [[Cl [Ce [Vl Ve]]] Hu Ha Hd Hi Hup Hdn].
    assert (T : forall s', t_nick s' = t_nick s -> t_down s' = t_down s -> t_up s' = t_up s ->
       [] ++ downlink (t_nick s') (t_down s') = downlink (t_nick s) (t_down s) ++ [] /\ [] ++ uplink s' = uplink s ++ []).
    { intros s' -> -> E. rewrite !app_nil_r. unfold uplink. rewrite E. auto. }
    destruct e as [c|id|c|id m now|now|m| |ok|m|n|label|label echo]; cbn [steady] in He; try contradiction; cbn [Relay.step]; cbv zeta;
      try (apply T; reflexivity).
    - destruct (the_client s id) as [c|]; [|apply T; reflexivity]. destruct (on_line_sent s c m now) as (H1 & (N1 & N2 & N3) & H3 & H4).
      rewrite N1, N2, N3, H3. split.
      + destruct H1 as (? & ? & ? & ->). rewrite app_nil_r. reflexivity.
      + unfold uplink. rewrite H4, flat_map_app. cbn [app]. f_equal. rewrite map_map. clear. induction (texts m) as [|x l IH]; [reflexivity|]. cbn [map flat_map app fst snd]. f_equal. exact IH.
    - destruct (t_down s) as [|d l] eqn:Ed; [apply T; auto|]. cbn [down_ok] in Hdn. destruct d as [i lab m|n|x|x y|x y]; try contradiction; cbn [on_dline].
      + destruct Hdn as (H1 & H2 & H3). destruct (on_text_state (with_down s l) lab m now) as [lg E].
        destruct (only_to _ (on_text_outs (with_down s l) lab m now)) as (_ & _ & O1 & O2 & O3 & O4).
        destruct (on_text (with_down s l) lab m now) as [s' o]. cbn [fst snd] in *. subst s'.
        change (heard (OHeard (t_nick (with_down s l)) i m :: o)) with ((t_nick s, i, m) :: heard o).
        change (said (OHeard (t_nick (with_down s l)) i m :: o)) with (said o). change (taken (OHeard (t_nick (with_down s l)) i m :: o)) with (taken o). change (sent (OHeard (t_nick (with_down s l)) i m :: o)) with (sent o).
        rewrite O1, O2, O3, O4. cbn [map downlink app]. split; [rewrite app_nil_r; reflexivity|rewrite app_nil_r; reflexivity].
      + cbn [fst snd downlink heard said taken sent flat_map app map]. rewrite !app_nil_r. split; reflexivity.
    - destruct (t_up s) as [|[i lab t|x y] l] eqn:Eu.
      + apply T; auto.
      + pose proof (Forall_inv Hup) as Hl; pose proof (Forall_inv_tail Hup) as Hup'. cbn [up_ok] in Hl. cbn [with_up v_echo v_label v_nick]. rewrite Ve. unfold uplink. rewrite Eu. destruct b; cbn [fst snd].
        * cbn [with_down with_up t_down t_nick t_up heard said taken sent flat_map app map]. rewrite (downlink_msg (v_nick s)) by exact Hdn. rewrite app_nil_r. split; reflexivity.
        * cbn [with_down with_up t_down t_nick t_up heard said taken sent flat_map app map]. rewrite !app_nil_r. split; reflexivity.
      + apply T; auto.
    - destruct (t_up s) as [|[i lab t|x y] l] eqn:Eu; [apply T; auto| |apply T; auto]. unfold uplink. rewrite Eu. cbn [fst snd].
      cbn [with_down with_up t_down t_nick t_up heard said taken sent flat_map app map]. rewrite !app_nil_r. split; reflexivity.
    - unfold uplink. cbn [fst snd with_down t_down t_nick t_up heard said taken sent flat_map app map]. rewrite (downlink_msg (v_nick s)) by exact Hdn. rewrite app_nil_r. split; reflexivity.
    - unfold uplink. cbn [fst snd with_down with_server t_down t_nick t_up heard said taken sent flat_map app map]. rewrite downlink_nick, !app_nil_r. split; reflexivity.
  Qed.

  Notation simple := (simple statusmsg).
  Lemma step_turns b s e : inv b s -> steady e -> (b = false -> simple e) ->
    let r := step s e in
    (forall c, In c (t_conns s) -> exists ls, Forall2 (sees c) (tn b (snd r)) ls /\ received (c_id c) (snd r) = concat ls) /\
    (exists ks, Forall2 keeps (tn b (snd r)) ks /\ klog (t_log (fst r)) = klog (t_log s) ++ concat ks).
  Proof.
    intros I He Hs. pose proof I as [[Cl [Ce [Vl Ve]]] Hu Ha Hd Hi Hup Hdn].
    assert (T : forall r : st * list out, tn b (snd r) = [] -> (forall id, received id (snd r) = []) -> t_log (fst r) = t_log s ->
      (forall c, In c (t_conns s) -> exists ls, Forall2 (sees c) (tn b (snd r)) ls /\ received (c_id c) (snd r) = concat ls) /\
      (exists ks, Forall2 keeps (tn b (snd r)) ks /\ klog (t_log (fst r)) = klog (t_log s) ++ concat ks)).
    { intros r -> E ->. split; [intros; exists []; split; [constructor|apply E]|]. exists []. split; [constructor|]. symmetry. apply app_nil_r. }
    assert (B0 : tn b [] = []) by (destruct b; reflexivity).
    destruct e as [c|id|c|id m now|now|m| |ok|m|n|label|label echo]; cbn [steady] in He; try contradiction; cbn [Relay.step]; cbv zeta;
      try (apply T; [exact B0|reflexivity|reflexivity]).
    - destruct (the_client s id) as [c|]; [|apply T; [exact B0|reflexivity|reflexivity]].
      destruct (on_line_cases s c m now) as [(text & E & _)|[E _]]; rewrite E; [|apply T; [destruct b; reflexivity|reflexivity|reflexivity]].
      destruct b.
      + destruct (relay_echo c (m_command m) text now (split_on "," (hd [] (m_params m))) s (copy_client_tags (m_tags m)) Ce) as [R1 R2].
        apply T; [|exact R1|exact R2]. cbn [tn]. rewrite server_turns_heard.
        destruct (relay_sent c (m_command m) text now _ (split_on "," (hd [] (m_params m))) s (copy_client_tags (m_tags m)) eq_refl) as (_ & (_ & _ & ->) & _). reflexivity.
      + destruct (Hs eq_refl) as [S1 S2].
        destruct (relay_local c (m_command m) text now (split_on "," (hd [] (m_params m))) s (copy_client_tags (m_tags m))) as [R1 R2]; auto.
        { apply plain_copy. }
        { intros H. apply S1. apply in_map_iff in H as (p & Ep & H). apply filter_In in H as [H _]. rewrite <- Ep. apply in_map. exact H. }
    - destruct (t_down s) as [|d l] eqn:Ed; [apply T; [exact B0|reflexivity|reflexivity]|]. cbn [down_ok] in Hdn. destruct d as [i lab m|n|x|x y|x y]; try contradiction; cbn [on_dline].
      + destruct Hdn as (-> & H2 & H3).
        pose proof (theirs_kept (with_down s l) i m now) as K.
        assert (S : forall c, In c (t_conns s) -> sees c (Theirs (t_nick s) i m) (received (c_id c) (snd (on_text (with_down s l) i m now)))).
        { intros c Hc. apply (theirs_seen (with_down s l)); [exact Hd|exact Hc| |exact H2]. apply Hi in Hc. lia. }
        destruct (only_to _ (on_text_outs (with_down s l) i m now)) as (O1 & O2 & _).
        destruct (on_text (with_down s l) i m now) as [s' o]. cbn [fst snd] in *.
        assert (E : tn b (OHeard (t_nick (with_down s l)) i m :: o) = [Theirs (t_nick s) i m]).
        { change (OHeard (t_nick (with_down s l)) i m :: o) with ([OHeard (t_nick (with_down s l)) i m] ++ o). rewrite tn_app. destruct b; cbn [tn]; [rewrite O2|rewrite O1]; reflexivity. }
        rewrite E. split.
        * intros c Hc. exists [received (c_id c) o]. split; [constructor; [apply S; exact Hc|constructor]|]. cbn [concat]. rewrite app_nil_r. reflexivity.
        * destruct K as (ks & K1 & K2). exists [ks]. split; [constructor; [exact K1|constructor]|]. cbn [concat]. rewrite app_nil_r. exact K2.
      + apply T; [exact B0|reflexivity|reflexivity].
    - destruct (t_up s) as [|[i lab t|x y] l] eqn:Eu; try (apply T; [exact B0|reflexivity|reflexivity]).
      cbn [with_up v_echo]. destruct (v_echo s); apply T; try reflexivity; destruct b; reflexivity.
    - destruct (t_up s) as [|[i lab t|x y] l] eqn:Eu; apply T; try reflexivity; destruct b; reflexivity.
  Qed.

  Lemma run_inv b tr : forall s, inv b s -> Forall steady tr -> inv b (fst (run s tr)).
  Proof.
    induction tr as [|e tr IH]; intros s I H; cbn [Relay.run]; [exact I|]. inversion H as [|? ? He Ht]; subst.
    pose proof (step_inv b s e I He) as I1. destruct (step s e) as [s1 o1]. cbn [fst] in I1. specialize (IH s1 I1 Ht). destruct (run s1 tr) as [s2 o2]. exact IH.
  Qed.
  Lemma run_link b tr : forall s, inv b s -> Forall steady tr ->
    let r := run s tr in
    heard (snd r) ++ downlink (t_nick (fst r)) (t_down (fst r)) = downlink (t_nick s) (t_down s) ++ said (snd r) /\
    taken (snd r) ++ uplink (fst r) = uplink s ++ map (fun p => (fst p, wire utags (snd p))) (sent (snd r)).
  Proof.
    induction tr as [|e tr IH]; intros s I H; cbn [Relay.run].
    - cbv zeta. cbn [fst snd heard said taken sent flat_map app map]. rewrite !app_nil_r. split; reflexivity.
    - inversion H as [|? ? He Ht]; subst. pose proof (step_inv b s e I He) as I1. destruct (step_link b s e I He) as [L1 L2].
      destruct (step s e) as [s1 o1]. cbn [fst snd] in *. specialize (IH s1 I1 Ht). destruct (run s1 tr) as [s2 o2]. cbn [fst snd] in *. destruct IH as [J1 J2].
      unfold heard, said, taken, sent in *. rewrite !flat_map_app, map_app, <- !app_assoc.  rewrite J1, J2. rewrite !app_assoc. rewrite L1, L2. split; reflexivity.
  Qed.
  Lemma step_stays s e c : stays (c_id c) e -> In c (t_conns s) -> In c (t_conns (fst (step s e))).
  Proof.
    intros Hs Hc. destruct e as [d|id|d|id m now|now|m| |ok|m|n|label|label echo]; cbn [stays] in Hs; cbn [Relay.step].
    - apply in_app_iff. left. exact Hc.
    - apply filter_In. split; [exact Hc|]. rewrite (proj2 (N.eqb_neq _ _)); [reflexivity|congruence].
    - apply in_map_iff. exists c. split; [|exact Hc]. rewrite (proj2 (N.eqb_neq _ _)); [reflexivity|congruence].
    - destruct (the_client s id) as [d|]; [|exact Hc]. destruct (on_line_sent s d m now) as ((? & ? & ? & ->) & _). exact Hc.
    - destruct (t_down s) as [|d l]; [exact Hc|]. destruct d as [i lab m|n|x|x y|x y]; cbn [on_dline]; try exact Hc.
      + destruct (on_text_state (with_down s l) lab m now) as [lg E]. destruct (on_text (with_down s l) lab m now) as [s' o]. cbn [fst] in *. rewrite E. exact Hc.
      + cbn [fst]. unfold update_caps. destruct (_ && _); [exact Hc|]. destruct (_ && _); [exact Hc|]. destruct (_ && _); exact Hc.
    - destruct (t_up s) as [|[i lab t|x y] l]; try exact Hc. cbn [with_up v_echo]. destruct (v_echo s); exact Hc.
    - destruct (t_up s) as [|[i lab t|x y] l]; exact Hc.
    - destruct (t_up s) as [|[i lab t|x y] l]; try exact Hc. destruct ok; exact Hc.
    - exact Hc.
    - exact Hc.
    - exact Hc.
    - exact Hc.
  Qed.
  Lemma run_seen b tr c : forall s, inv b s -> Forall steady tr -> (b = false -> Forall simple tr) -> Forall (stays (c_id c)) tr -> In c (t_conns s) ->
    exists ls, Forall2 (sees c) (tn b (snd (run s tr))) ls /\ received (c_id c) (snd (run s tr)) = concat ls.
  Proof.
    induction tr as [|e tr IH]; intros s I H Hs Hst Hc; cbn [Relay.run].
    - exists []. cbn [snd]. split; [destruct b; constructor|reflexivity].
    - inversion H as [|? ? He Ht]; subst. inversion Hst as [|? ? Se St]; subst.
      assert (Hs1 : b = false -> simple e) by (intros E; specialize (Hs E); inversion Hs; assumption).
      assert (Hs2 : b = false -> Forall simple tr) by (intros E; specialize (Hs E); inversion Hs; assumption).
      pose proof (step_inv b s e I He) as I1. destruct (step_turns b s e I He Hs1) as [T1 _]. destruct (T1 c Hc) as (ls & F & R).
      pose proof (step_stays s e c Se Hc) as Hc1.
      destruct (step s e) as [s1 o1]. cbn [fst snd] in *. destruct (IH s1 I1 Ht Hs2 St Hc1) as (ls2 & F2 & R2). destruct (run s1 tr) as [s2 o2]. cbn [fst snd] in *.
      exists (ls ++ ls2). rewrite tn_app, received_app, concat_app, R, R2. split; [apply Forall2_app; assumption|reflexivity].
  Qed.
  Lemma run_kept b tr : forall s, inv b s -> Forall steady tr -> (b = false -> Forall simple tr) ->
    exists ks, Forall2 keeps (tn b (snd (run s tr))) ks /\ klog (t_log (fst (run s tr))) = klog (t_log s) ++ concat ks.
  Proof.
    induction tr as [|e tr IH]; intros s I H Hs; cbn [Relay.run].
    - exists []. cbn [fst snd]. split; [destruct b; constructor|symmetry; apply app_nil_r].
    - inversion H as [|? ? He Ht]; subst.
      assert (Hs1 : b = false -> simple e) by (intros E; specialize (Hs E); inversion Hs; assumption).
      assert (Hs2 : b = false -> Forall simple tr) by (intros E; specialize (Hs E); inversion Hs; assumption).
      pose proof (step_inv b s e I He) as I1. destruct (step_turns b s e I He Hs1) as [_ (ks & F & R)].
      destruct (step s e) as [s1 o1]. cbn [fst snd] in *. destruct (IH s1 I1 Ht Hs2) as (ks2 & F2 & R2). destruct (run s1 tr) as [s2 o2]. cbn [fst snd] in *.
      exists (ks ++ ks2). rewrite tn_app, concat_app, R2, R, app_assoc. split; [apply Forall2_app; assumption|reflexivity].
  Qed.

  (* what is sent *)
  Lemma update_caps_uplink s : uplink (update_caps s) = uplink s.
  Proof.
    unfold update_caps, uplink. destruct (_ && _); [|destruct (_ && _); [|destruct (_ && _); [|reflexivity]]];
      cbn [with_up t_up]; rewrite flat_map_app; cbn [flat_map]; rewrite app_nil_r; reflexivity.
  Qed.
  Lemma step_sent s e : sent (snd (step s e)) =
    match e with Line id m _ => if existsb (fun c => N.eqb (c_id c) id) (t_conns s) then map (fun t => (id, t)) (texts m) else [] | _ => [] end.
  Proof.
    destruct e as [d|id|d|id m now|now|m| |ok|m|n|label|label echo]; cbn [Relay.step]; try reflexivity.
    - unfold the_client. destruct (find _ (t_conns s)) as [c|] eqn:E.
      + apply find_some in E as [Hc Ei]. pose proof Ei as Ej. apply N.eqb_eq in Ei.
        rewrite (proj2 (existsb_exists _ _)); [|exists c; auto]. destruct (on_line_sent s c m now) as (_ & _ & -> & _). rewrite Ei. reflexivity.
      + destruct (existsb _ (t_conns s)) eqn:Ee; [|reflexivity]. apply existsb_exists in Ee as (c & Hc & Ei). pose proof (find_none _ _ E c Hc) as X. cbn beta in X. congruence.
    - destruct (t_down s) as [|d l]; [reflexivity|]. destruct d as [i lab m|n|x|x y|x y]; cbn [on_dline]; try reflexivity.
      destruct (only_to _ (on_text_outs (with_down s l) lab m now)) as (_ & _ & O1 & _). destruct (on_text (with_down s l) lab m now) as [s' o]. exact O1.
    - destruct (t_up s) as [|[i lab t|x y] l]; try reflexivity. cbn [with_up v_echo]. destruct (v_echo s); reflexivity.
    - destruct (t_up s) as [|[i lab t|x y] l]; reflexivity.
    - destruct (t_up s) as [|[i lab t|x y] l]; try reflexivity. destruct ok; reflexivity.
  Qed.

  (** The specification leaves no choice. *)
  Lemma in_context_fun from tags a b : in_context context from tags a -> in_context context from tags b -> a = b.
  Proof. rewrite !in_context_spec. intros (t & E & H) (t' & E' & H'). congruence. Qed.
  Lemma conversation_fun n m a b : conversation cm server statusmsg context n m a -> conversation cm server statusmsg context n m b -> a = b.
  Proof.
    intros [H|[H E]] [H'|[H' E']]; [apply (in_context_fun _ _ _ _ H H')|exfalso; apply (H' _ H)|exfalso; apply (H _ H')|congruence].
  Qed.
  Lemma own_conversation_fun n m a b : own_conversation statusmsg context n m a -> own_conversation statusmsg context n m b -> a = b.
  Proof.
    intros [H|[H E]] [H'|[H' E']]; [apply (in_context_fun _ _ _ _ H H')|exfalso; apply (H' _ H)|exfalso; apply (H _ H')|congruence].
  Qed.
  Ltac same_name := repeat match goal with
    | H : conversation _ _ _ _ ?n ?m ?a, H' : conversation _ _ _ _ ?n ?m ?b |- _ => pose proof (conversation_fun n m a b H H'); subst b; clear H'
    | H : own_conversation _ _ ?n ?m ?a, H' : own_conversation _ _ ?n ?m ?b |- _ => pose proof (own_conversation_fun n m a b H H'); subst b; clear H'
    end.
  Lemma sees_fun c t a b : sees c t a -> sees c t b -> a = b.
  Proof.
    intros H H'. inversion H; subst; inversion H'; subst; same_name; try contradiction; try reflexivity; try (exfalso; intuition congruence).
  Qed.
  Lemma keeps_fun t a b : keeps t a -> keeps t b -> a = b.
  Proof.
    intros H H'. inversion H; subst; inversion H'; subst; same_name; try contradiction; try reflexivity; try (exfalso; intuition congruence).
  Qed.

  Lemma refute_seen c t l o id : turns o = [t] -> sees c t l -> received id o <> l -> ~ exists ls, Forall2 (sees c) (turns o) ls /\ received id o = concat ls.
  Proof.
    intros Et Hs Hn (ls & F & R). rewrite Et in F. inversion F as [|x y a b H1 H2]; subst. inversion H2; subst. cbn [concat] in R. rewrite app_nil_r in R.
    apply Hn. rewrite R. apply (sees_fun c t); assumption.
  Qed.
  Lemma refute_kept t l o log : turns o = [t] -> keeps t l -> klog log <> l -> ~ exists ks, Forall2 keeps (turns o) ks /\ klog log = concat ks.
  Proof.
    intros Et Hs Hn (ls & F & R). rewrite Et in F. inversion F as [|x y a b H1 H2]; subst. inversion H2; subst. cbn [concat] in R. rewrite app_nil_r in R.
    apply Hn. rewrite R. apply (keeps_fun t); assumption.
  Qed.
End Relay.
