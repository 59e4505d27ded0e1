(** C27, C70, C71: detached channels. *)
From Verif.Base Require Import Bytes.
From Verif.Model Require Import Message Detach.
From Verif.Spec Require Import Detach.
From Verif.Proof Require Detach.
Open Scope nat_scope.

Section Props.
  Variable cm : bytes -> bytes.
  Variable me server service chantypes statusmsg : bytes.
  Variable highlight : message -> bool.
  Notation step := (nstep cm me server service chantypes statusmsg highlight).
  Notation run := (nrun cm me server service chantypes statusmsg highlight).
  Notation hist := (history cm me server service chantypes statusmsg highlight).

  (** C27, silence: in a network with any saved channels and after any events, a message that the
      server sends and the bouncer passes on is not about a channel that is detached. Missing: texts
      of the server itself, and texts with a channel context. *)
  Theorem C27_silent_partial : forall saved es m origin f id m' c,
    sane cm me service chantypes statusmsg -> is_channel chantypes c = true ->
    let s := fst (run (nloaded cm saved) es) in
    In (OFwd id m') (snd (step s (UMsg m origin f))) ->
    about m' c \/ (text_cmd m' /\ about_some_of statusmsg m' c) ->
    (text_cmd m' -> personal cm server m' /\ no_context m') ->
    is_detached cm (fst (step s (UMsg m origin f))) c = false.
  Proof.
    exact (fun saved es m origin f id m' c Hs Hc =>
      Proof.Detach.step_UMsg_fwd cm me server service chantypes statusmsg highlight _ m origin f id m' c Hs
        (Proof.Detach.filed_run cm me server service chantypes statusmsg highlight es _ (Proof.Detach.filed_loaded cm saved)) Hc).
  Qed.

  (** C27, silence for what the other clients of the user say in the channel. *)
  Theorem C27_silent_clients_partial : forall s from name m id m' c,
    In (OFwd id m') (snd (step s (CSay from name m))) -> about m' c ->
    is_detached cm (fst (step s (CSay from name m))) c = false.
  Proof. exact (Proof.Detach.step_CSay_fwd cm me server service chantypes statusmsg highlight). Qed.

  (** C27, relaying: a text in a detached channel is relayed to each client by the service if the
      relay filter lets it through, where the default is to relay highlights; if the reattach filter
      does not let it through nothing else happens, otherwise each client is shown the channel
      and then the text. *)
  Theorem C27_relay : forall s m origin f c r,
    sane cm me service chantypes statusmsg -> n_panic s = false -> n_up s <> None -> is_channel chantypes c = true ->
    get_chan cm s c = Some r -> c_detached r = true -> cm (c_name r) = cm c ->
    In (m_command m) [B "PRIVMSG"; B "NOTICE"] ->
    personal cm server m -> cm (prefix_name server m) <> cm me -> cm (prefix_name server m) <> cm service -> no_context m ->
    (exists rest sigils t, m_params m = (sigils ++ c) :: t :: rest /\ Forall (fun x => In x statusmsg) sigils) ->
    let relays := if passes highlight (c_relay r) true m then map (fun id => ORelay id m) (ids s) else [] in
    (passes highlight (c_reattach r) false m = false -> step s (UMsg m origin f) = (s, relays)) /\
    (passes highlight (c_reattach r) false m = true -> (forall n, get_up cm s c <> Some (n, false)) ->
     snd (step s (UMsg m origin f)) = relays ++
       flat_map (fun id => [OJoin id (c_name r)] ++ match get_up cm s c with Some _ => [OChannel id (c_name r)] | None => [] end
                           ++ [OBacklog id (c_name r)]) (ids s) ++ map (fun id => OFwd id m) (ids s)).
  Proof. exact (Proof.Detach.relay_exact cm me server service chantypes statusmsg highlight). Qed.

  (** C27, a detached channel is attached only if a client joins it, if the service is told so, or by
      a text of somebody else in it which its filter lets through. *)
  Theorem C27_reattach : forall saved es e name c c',
    let s := fst (run (nloaded cm saved) es) in
    get_chan cm s name = Some c -> c_detached c = true ->
    get_chan cm (fst (step s e)) name = Some c' -> c_detached c' = false ->
    (exists n, e = CJoin n /\ cm n = cm name) \/
    (exists n rl ra, e = SUpdate n (Some false) rl ra /\ cm n = cm name) \/
    (exists m o f, e = UMsg m o f /\ In (m_command m) [B "PRIVMSG"; B "NOTICE"] /\
       cm (prefix_name server m) <> cm me /\ passes highlight (c_reattach c) false (fill_prefix server m) = true /\
       (no_context m -> addressed cm me statusmsg m name)).
  Proof.
    exact (fun saved es e name c c' =>
      Proof.Detach.reattached cm me server service chantypes statusmsg highlight _ e name c c'
        (Proof.Detach.filed_run cm me server service chantypes statusmsg highlight es _ (Proof.Detach.filed_loaded cm saved))).
  Qed.

  (** C70, a client does not believe to be in a detached channel, if only channels with a record are
      left with the reason "detach". *)
  Theorem C70_hidden_partial : forall s v id name,
    hist (known_detach cm) s v -> In id (ids s) -> is_detached cm s name = true -> v id (cm name) = false.
  Proof. exact (Proof.Detach.history_hidden cm me server service chantypes statusmsg highlight). Qed.

  (** C70, a client knows to be in each joined channel that is not detached, if no client connects
      while the members of a channel are being listed and no detached channel is deleted. *)
  Theorem C70_shown_partial : forall s v id name n b,
    hist (settled cm) s v -> n_panic s = false -> In id (ids s) ->
    get_up cm s name = Some (n, b) -> is_detached cm s name = false -> v id (cm name) = true.
  Proof. exact (Proof.Detach.history_shown cm me server service chantypes statusmsg highlight). Qed.

  (** C71, the only cause of a crash: attaching a channel while its members are being listed. *)
  Theorem C71_cause : forall saved es e,
    let s := fst (run (nloaded cm saved) es) in
    n_panic s = false -> n_panic (fst (step s e)) = true ->
    exists name n, is_detached cm s name = true /\ get_up cm s name = Some (n, false) /\ ids s <> [].
  Proof.
    exact (fun saved es e =>
      Proof.Detach.panic_cause cm me server service chantypes statusmsg highlight _ e
        (Proof.Detach.filed_run cm me server service chantypes statusmsg highlight es _ (Proof.Detach.filed_loaded cm saved))).
  Qed.
End Props.
Print Assumptions C27_silent_partial.
Print Assumptions C27_silent_clients_partial.
Print Assumptions C27_relay.
Print Assumptions C27_reattach.
Print Assumptions C70_hidden_partial.
Print Assumptions C70_shown_partial.
Print Assumptions C71_cause.

(** * A network *)

Definition hl (m : message) : bool := match m_params m with _ :: t :: _ => has_prefix t (B "joe") | _ => false end.
Definition stp := nstep to_lower (B "joe") (B "irc.net") (B "BouncerServ") (B "#&") (B "@+") hl.
Definition rn := nrun to_lower (B "joe") (B "irc.net") (B "BouncerServ") (B "#&") (B "@+") hl.
Definition ms (from cmd : string) (ps : list bytes) : message := Message [] (Some (Prefix (B from) [] [])) (B cmd) ps.
Definition fl := Flags true true true.
Definition server_says (m : message) : nev := UMsg m 0 fl.
Definition joined (c : string) : list nev :=
  [server_says (ms "joe" "JOIN" [B c]); server_says (ms "irc.net" "366" [B "joe"; B c; B "End"])].
Definition saved0 : list chrec := [Chrec (B "#A") true FDefault FHighlight; Chrec (B "#b") false FDefault FDefault].
Definition start0 : list nev := UConnected :: joined "#a" ++ joined "#b" ++ [CConnect 1 false; CConnect 2 true].
Definition state0 : nstate := fst (rn (nloaded to_lower saved0) start0).

Lemma sane0 : sane to_lower (B "joe") (B "BouncerServ") (B "#&") (B "@+").
Proof.
  split; [|split; [|split]].
  - intros c H. destruct c as [|x c]; [discriminate|]. cbn [is_channel] in H. apply amem_In in H.
    cbn in H. destruct H as [<-|[<-|[]]]; split; discriminate.
  - cbn; intuition discriminate.
  - cbn; intuition discriminate.
  - intros x [<-|[<-|[]]]; cbn; intuition discriminate.
Qed.

(** The hypotheses of the theorems above hold here, the texts are relayed and attach channels. *)
Example C27_nonvacuous :
  is_detached to_lower state0 (B "#a") = true /\ is_detached to_lower state0 (B "#b") = false /\
  snd (stp state0 (server_says (ms "ann" "PRIVMSG" [B "#a"; B "hi"]))) = [] /\
  snd (stp state0 (server_says (ms "ann" "PRIVMSG" [B "@#b"; B "hi"]))) =
    [OFwd 1 (ms "ann" "PRIVMSG" [B "@#b"; B "hi"]); OFwd 2 (ms "ann" "PRIVMSG" [B "@#b"; B "hi"])] /\
  (let m := ms "ann" "PRIVMSG" [B "#a"; B "joe: hi"] in
   snd (stp state0 (server_says m)) =
    [ORelay 1 m; ORelay 2 m;
     OJoin 1 (B "#A"); OChannel 1 (B "#A"); OBacklog 1 (B "#A"); OJoin 2 (B "#A"); OChannel 2 (B "#A"); OBacklog 2 (B "#A");
     OFwd 1 m; OFwd 2 m] /\ is_detached to_lower (fst (stp state0 (server_says m))) (B "#a") = false) /\
  snd (stp state0 (CPartDetach (B "#b"))) = [OPart 1 (B "#b"); OPart 2 (B "#b")].
Proof. vm_compute; repeat split. Qed.

(** C27 fails for texts of the server itself in a detached channel. *)
Theorem C27_server_refuted : exists saved es m c,
  let s := fst (rn (nloaded to_lower saved) es) in
  about m c /\ is_detached to_lower s c = true /\ is_detached to_lower (fst (stp s (server_says m))) c = true /\
  In (OFwd 1 m) (snd (stp s (server_says m))).
Proof.
  exists saved0, start0, (ms "irc.net" "NOTICE" [B "#a"; B "op did this"]), (B "#a").
  split; [left; split; [right; left; reflexivity|exists [B "op did this"]; reflexivity]|].
  vm_compute; repeat split. left; reflexivity.
Qed.
Print Assumptions C27_server_refuted.

(** C27 fails for a text in a detached channel whose tags name another channel as context. *)
Theorem C27_context_refuted : exists saved es m c,
  let s := fst (rn (nloaded to_lower saved) es) in
  about m c /\ personal to_lower (B "irc.net") m /\
  is_detached to_lower s c = true /\ is_detached to_lower (fst (stp s (server_says m))) c = true /\
  In (OFwd 1 m) (snd (stp s (server_says m))).
Proof.
  exists saved0, start0, (Message [(B "+draft/channel-context", B "#b")] (Some (Prefix (B "ann") [] [])) (B "PRIVMSG") [B "#a"; B "hi"]), (B "#a").
  split; [left; split; [left; reflexivity|exists [B "hi"]; reflexivity]|].
  split; [exists (Prefix (B "ann") [] []); split; [reflexivity|discriminate]|].
  vm_compute; repeat split. left; reflexivity.
Qed.
Print Assumptions C27_context_refuted.

(** C27 fails for what another client of the user says to the operators of a detached channel. *)
Theorem C27_status_refuted : exists saved es m c,
  let s := fst (rn (nloaded to_lower saved) es) in
  let e := CSay 1 (B "@" ++ c) m in
  about_some_of (B "@+") (echo_msg (B "joe") m (B "@" ++ c)) c /\
  is_detached to_lower s c = true /\ is_detached to_lower (fst (stp s e)) c = true /\
  In (OFwd 2 (echo_msg (B "joe") m (B "@" ++ c))) (snd (stp s e)).
Proof.
  exists saved0, start0, (ms "joe" "PRIVMSG" [B "@#a"; B "hi"]), (B "#a").
  split.
  { exists (B "@"), [B "hi"]. split; [reflexivity|]. split; [repeat constructor|].
    intros (x & r & E & H). injection E as <- <-. cbn in H; intuition discriminate. }
  vm_compute; repeat split. left; reflexivity.
Qed.
Print Assumptions C27_status_refuted.

(** * What the clients know *)

Definition hist0 := history to_lower (B "joe") (B "irc.net") (B "BouncerServ") (B "#&") (B "@+") hl.
Definition views (saved : list chrec) (es : list nev) : nstate * view :=
  fold_left (fun x e => (fst (stp (fst x) e), fold_left (see to_lower (B "joe")) (snd (stp (fst x) e)) (arrive (snd x) e))) es
    (nloaded to_lower saved, fun _ _ => false).

Lemma views_history : forall (ok : nstate -> nev -> Prop) saved es,
  (forall a e b, es = a ++ e :: b -> ok (fst (views saved a)) e) ->
  hist0 ok (fst (views saved es)) (snd (views saved es)).
Proof.
  intros ok saved es; induction es as [|e es IH] using rev_ind; intros H; [apply h_start|].
  unfold views; rewrite fold_left_app. cbn [fold_left fst snd]. apply h_step.
  - apply IH. intros a x b ->. apply (H a x (b ++ [e])). rewrite <- app_assoc; reflexivity.
  - exact (H es e [] eq_refl).
Qed.
Lemma any_history : forall saved es, hist0 (fun _ _ => True) (fst (views saved es)) (snd (views saved es)).
Proof. intros saved es; apply views_history; auto. Qed.

(** A history in which the clients are shown one of two channels, then the other one. *)
Example C70_nonvacuous :
  (exists s v, hist0 (fun s e => known_detach to_lower s e /\ settled to_lower s e) s v /\
     v 1%N (B "#a") = false /\ v 1%N (B "#b") = true /\ is_detached to_lower s (B "#a") = true) /\
  (exists s v, hist0 (fun s e => known_detach to_lower s e /\ settled to_lower s e) s v /\
     v 1%N (B "#a") = true /\ v 2%N (B "#b") = false /\ is_detached to_lower s (B "#B") = true).
Proof.
  assert (H1 : hist0 (fun s e => known_detach to_lower s e /\ settled to_lower s e) (fst (views saved0 start0)) (snd (views saved0 start0))).
  { apply views_history. intros a e b E.
    assert (Hn : forall n, n = length a -> a = firstn n start0 /\ nth_error start0 n = Some e).
    { intros n ->; rewrite E, firstn_app, Nat.sub_diag, firstn_all, app_nil_r, nth_error_app2, Nat.sub_diag; auto. }
    destruct (Hn _ eq_refl) as [Ea En]. rewrite Ea. assert (Hl : length a < 7).
    { apply (f_equal (@length nev)) in E; rewrite app_length in E; cbn in E. lia. }
    clear E Hn Ea. set (k := length a) in *; clearbody k. clear a b.
    destruct k as [|[|[|[|[|[|[|k]]]]]]]; try lia; cbn in En; injection En as <-; split; try exact I.
    - split; [discriminate|]. intros up; vm_compute. intros H; injection H as <-. repeat constructor.
    - split; [discriminate|]. intros up; vm_compute. intros H; injection H as <-. repeat constructor. }
  split.
  - exists (fst (views saved0 start0)), (snd (views saved0 start0)). split; [exact H1|]. vm_compute; repeat split.
  - eexists _, _. split.
    + eapply (h_step _ _ _ _ _ _ _ _ _ _ (CPartDetach (B "#b"))); [eapply (h_step _ _ _ _ _ _ _ _ _ _ (CJoin (B "#a"))); [exact H1|split; exact I]|].
      split; [vm_compute; discriminate|exact I].
    + vm_compute; repeat split.
Qed.

(** C70 fails: a client that leaves with the reason "detach" a channel without record, into which the
    server put the user, keeps believing to be in it; so do the others. *)
Theorem C70_hidden_refuted : exists s v id name,
  hist0 (fun _ _ => True) s v /\ In id (ids s) /\ is_detached to_lower s name = true /\ v id (to_lower name) = true.
Proof.
  exists (fst (views [] ([UConnected; CConnect 1 false] ++ joined "#c" ++ [CPartDetach (B "#c")]))),
    (snd (views [] ([UConnected; CConnect 1 false] ++ joined "#c" ++ [CPartDetach (B "#c")]))), 1%N, (B "#c").
  split; [apply any_history|]. vm_compute; repeat split. left; reflexivity.
Qed.
Print Assumptions C70_hidden_refuted.

(** C70 fails: a client that connects while the members of a channel are being listed is never told
    that the user is in the channel. *)
Theorem C70_connecting_refuted : exists s v id name n,
  hist0 (fun _ _ => True) s v /\ n_panic s = false /\ In id (ids s) /\
  get_up to_lower s name = Some (n, true) /\ is_detached to_lower s name = false /\ v id (to_lower name) = false.
Proof.
  set (es := [UConnected; server_says (ms "joe" "JOIN" [B "#b"]); CConnect 1 false;
              server_says (ms "irc.net" "366" [B "joe"; B "#b"; B "End"])]).
  exists (fst (views saved0 es)), (snd (views saved0 es)), 1%N, (B "#b"), (B "#b").
  split; [apply any_history|]. vm_compute; repeat split. left; reflexivity.
Qed.
Print Assumptions C70_connecting_refuted.

(** C70 fails: when a detached channel is deleted, and until the server confirms that the user has
    left it, its texts reach clients that were not told of the channel. *)
Theorem C70_deleted_refuted : exists s v id name n m,
  hist0 (fun _ _ => True) s v /\ n_panic s = false /\ In id (ids s) /\
  get_up to_lower s name = Some (n, true) /\ v id (to_lower name) = false /\
  about m name /\ In (OFwd id m) (snd (stp s (server_says m))).
Proof.
  set (es := start0 ++ [SDelete (B "#a") true]).
  exists (fst (views saved0 es)), (snd (views saved0 es)), 1%N, (B "#a"), (B "#a"), (ms "ann" "PRIVMSG" [B "#a"; B "hi"]).
  split; [apply any_history|]. split; [reflexivity|]. split; [left; reflexivity|]. split; [reflexivity|].
  split; [reflexivity|]. split; [left; split; [left; reflexivity|exists [B "hi"]; reflexivity]|].
  left; reflexivity.
Qed.
Print Assumptions C70_deleted_refuted.

(** C71 fails: a client that joins a detached channel after the bouncer has joined it and before the
    server has listed its members crashes the bouncer. *)
Theorem C71_crash_refuted : exists saved es,
  let s := fst (rn (nloaded to_lower saved) es) in
  n_panic s = false /\ n_panic (fst (stp s (CJoin (B "#a")))) = true.
Proof.
  exists saved0, [CConnect 1 false; UConnected; server_says (ms "joe" "JOIN" [B "#a"])].
  vm_compute; split; reflexivity.
Qed.
Print Assumptions C71_crash_refuted.
