(** Properties C50 and C78. *)
From Verif.Base Require Import Bytes.
From Verif.Model Require Import Message CaseMap Roster Monitor.
From Verif.Proof Require CaseMap Roster Monitor.
From Verif.Spec Require Import Monitor.
From Coq Require Import NArith Lia.
Open Scope nat_scope.

(** C50, in runs in which no notification crosses a command that ends it: while
    the server supports MONITOR, it monitors what any client does, at any time, once
    it got what was sent. *)
Theorem C50_covered_partial : forall cm want tr s k, mruns orderly cm want tr s -> mo_on s = true -> wanted s k -> server_has s k.
Proof. intros cm want tr s k H Ho Hw. exact (proj2 (Proof.Monitor.orderly_runs cm want tr s H) Ho k Hw). Qed.
Print Assumptions C50_covered_partial.

(** C50, in any run: after the lists changed, the server monitors nothing else,
    except what a notification on the way is about. *)
Theorem C50_no_excess : forall cm want tr s e s' o k, mruns anything cm want tr s -> sane e -> mstep e s = Some (s', o) -> syncs e -> mo_on s' = true ->
  server_has s' k -> wanted s' k \/ on_the_way s' k.
Proof. exact (Proof.Monitor.no_excess anything). Qed.
Print Assumptions C50_no_excess.

(** C50: hence in orderly runs it monitors exactly what clients do, once nothing else
    is on the way. *)
Theorem C50_sync_partial : forall cm want tr s e s' o, mruns orderly cm want tr s -> sane e -> mstep e s = Some (s', o) -> syncs e -> mo_on s' = true -> orderly s' ->
  (forall k, on_the_way s' k -> wanted s' k) -> forall k, server_has s' k <-> wanted s' k.
Proof.
  intros cm want tr s e s' o H Sn E Sy Ho Or Hw k. split.
  - intros Hs. destruct (Proof.Monitor.no_excess orderly cm want tr s e s' o k H Sn E Sy Ho Hs) as [Hk|Hk]; [exact Hk|exact (Hw k Hk)].
  - apply (C50_covered_partial cm want ((e, o) :: tr) s' k); [exact (MCons orderly cm want tr s e s' o H Sn E Or)|exact Ho].
Qed.
Print Assumptions C50_sync_partial.

(** C78: a notification of the server is given to exactly the clients that monitor
    a target of it. *)
Theorem C78_relay : forall cm want tr s s' o b l r c m, mruns anything cm want tr s -> mo_s2c s = (b, l) :: r -> mstep MRecv s = Some (s', o) ->
  (In (c, m) o <-> exists x t, In x (mo_clients s) /\ mc_id x = c /\ In t l /\ on_list s c (casemap cm (prefix_name t)) /\ m = (if b then B "730" else B "731", [mc_nick x; t])).
Proof.
  intros cm want tr s s' o b l r c m H Es E. destruct (Proof.Monitor.runs_known _ _ _ _ _ H) as [O _].
  pose proof (Proof.Monitor.recv_step s s' o b l r Es E) as En. apply (f_equal snd) in En. cbn [notified snd] in En. subst o.
  rewrite in_flat_map. split.
  - intros [x [Hx Hm]]. apply in_flat_map in Hm as [t [Ht Hm]]. destruct (cm_has _ _) eqn:Hh; [|destruct Hm]. destruct Hm as [Hm|[]].
    apply pair_equal_spec in Hm as [Hc Hm]. exists x, t. split; [exact Hx|]. split; [exact Hc|]. split; [exact Ht|]. split; [|symmetry; exact Hm].
    apply (Proof.Monitor.on_list_look cm s c _ O). exists x. split; [exact Hx|]. split; [exact Hc|].
    destruct (Proof.Monitor.ok_clients _ _ O x Hx) as [_ [F _]]. rewrite Proof.Roster.look_has, F in Hh. destruct (Proof.Roster.look _ _); congruence.
  - intros [x [t [Hx [Hc [Ht [Hl ->]]]]]]. exists x. split; [exact Hx|]. apply in_flat_map. exists t. split; [exact Ht|].
    apply (Proof.Monitor.on_list_look cm s c _ O) in Hl as [y [Hy [Hd Hk]]]. assert (y = x) by (apply (Proof.Monitor.same_client s y x (Proof.Monitor.ok_ids _ _ O) Hy Hx); congruence). subst y.
    destruct (Proof.Monitor.ok_clients _ _ O x Hx) as [_ [F _]]. rewrite Proof.Roster.look_has, F. destruct (Proof.Roster.look _ _); [|congruence]. left. unfold num. rewrite Hc. reflexivity.
Qed.
Print Assumptions C78_relay.

(** C78: that the list of the server is full is told to exactly the clients that
    monitor a target which was refused. *)
Theorem C78_full : forall cm want tr s limit l c m, mruns anything cm want tr s ->
  (In (c, m) (list_full s limit l) <-> exists x t, In x (mo_clients s) /\ mc_id x = c /\ In t l /\ on_list s c (casemap cm t) /\ m = (B "734", [mc_nick x; limit; t])).
Proof.
  intros cm want tr s limit l c m H. destruct (Proof.Monitor.runs_known _ _ _ _ _ H) as [O _]. unfold list_full.
  rewrite in_flat_map. split.
  - intros [x [Hx Hm]]. apply in_flat_map in Hm as [t [Ht Hm]]. destruct (cm_has _ _) eqn:Hh; [|destruct Hm]. destruct Hm as [Hm|[]].
    apply pair_equal_spec in Hm as [Hc Hm]. exists x, t. split; [exact Hx|]. split; [exact Hc|]. split; [exact Ht|]. split; [|symmetry; exact Hm].
    apply (Proof.Monitor.on_list_look cm s c _ O). exists x. split; [exact Hx|]. split; [exact Hc|].
    destruct (Proof.Monitor.ok_clients _ _ O x Hx) as [_ [F _]]. rewrite Proof.Roster.look_has, F in Hh. destruct (Proof.Roster.look _ _); congruence.
  - intros [x [t [Hx [Hc [Ht [Hl ->]]]]]]. exists x. split; [exact Hx|]. apply in_flat_map. exists t. split; [exact Ht|].
    apply (Proof.Monitor.on_list_look cm s c _ O) in Hl as [y [Hy [Hd Hk]]]. assert (y = x) by (apply (Proof.Monitor.same_client s y x (Proof.Monitor.ok_ids _ _ O) Hy Hx); congruence). subst y.
    destruct (Proof.Monitor.ok_clients _ _ O x Hx) as [_ [F _]]. rewrite Proof.Roster.look_has, F. destruct (Proof.Roster.look _ _); [|congruence]. left. unfold num. rewrite Hc. reflexivity.
Qed.
Print Assumptions C78_full.

(** C78: whatever the server last said about a nickname which has been monitored
    since, every client that monitors it was told last, also if it asked only later;
    whatever crosses on the wire. *)
Theorem C78_told : forall cm want k b tr s c, known anything cm want k b tr s -> k <> B "bouncerserv" -> on_list s c k -> last_told cm c k tr = Some b.
Proof.
  intros cm want k b tr s c K Hk Hl. destruct (Proof.Monitor.known_status _ _ _ _ _ _ _ K) as [Hu _].
  exact (Proof.Monitor.runs_informed _ _ _ _ _ (Proof.Monitor.known_runs _ _ _ _ _ _ _ K) c k b Hk Hu Hl).
Qed.
Print Assumptions C78_told.

(** C78: [MONITOR L] shows what the client monitors, each nickname once. *)
Theorem C78_list : forall cm want tr s c s' o, mruns anything cm want tr s -> mo_link s = true -> mo_on s = true ->
  mstep (MCommand c [B "L"]) s = Some (s', o) ->
  exists nick l, s' = s /\ o = map (fun t => (c, (B "732", [nick; t]))) l ++ [(c, (B "733", [nick; B "End of MONITOR list"]))] /\
    (forall k, on_list s c k <-> In k (map (casemap cm) l)) /\ NoDup (map (casemap cm) l).
Proof.
  intros cm want tr s c s' o H L On E. destruct (Proof.Monitor.runs_known _ _ _ _ _ H) as [O _]. unfold mstep in E.
  destruct (find_client c (mo_clients s)) as [x|] eqn:Ef; [|discriminate E]. apply Proof.Monitor.find_In in Ef as [Hx Hc].
  assert (E' : client_monitor s x [B "L"] = (s', o)) by congruence. clear E. unfold client_monitor in E'. rewrite L, On in E'. cbn [andb negb] in E'.
  change (beqb (B "L") (B "+") || beqb (B "L") (B "-")) with false in E'. change (beqb (B "L") (B "C") || beqb (B "L") (B "c")) with false in E'. change (beqb (B "L") (B "L") || beqb (B "L") (B "l")) with true in E'.
  apply pair_equal_spec in E' as [E1 E2]. destruct (Proof.Monitor.ok_clients _ _ O x Hx) as [W [F _]].
  exists (mc_nick x), (map fst (cm_entries (mc_mon x))). split; [congruence|]. split; [|split].
  - rewrite <- E2. unfold num. rewrite Hc, map_map. reflexivity.
  - intros k. unfold on_list. rewrite (Proof.Monitor.ok_cm _ _ O), map_map. split.
    + intros [y [n [Hy [Hd [Hi Hk]]]]]. assert (y = x) by (apply (Proof.Monitor.same_client s y x (Proof.Monitor.ok_ids _ _ O) Hy Hx); congruence). subst y. apply in_map_iff. exists (n, tt). auto.
    + intros Hi. apply in_map_iff in Hi as [[n []] [Hk Hi]]. exists x, n. auto.
  - destruct W as [Hnd Hf]. unfold cm_entries. rewrite !map_map. cbn [fst]. unfold Proof.CaseMap.gkeys in Hnd. rewrite F in Hf.
    rewrite (map_ext_in _ fst); [exact Hnd|]. intros ke Hi. symmetry. exact (proj1 (Forall_forall _ _) Hf ke Hi).
Qed.
Print Assumptions C78_list.

(** ** Running events, to write examples *)

Definition fitsb (t : bytes) : bool := negb (beqb t []) && negb (amem "," t) && negb (amem "!" t) && negb (amem "@" t) && (length t <=? 480).
Lemma fitsb_fits t : fitsb t = true -> fits t.
Proof.
  unfold fitsb, fits. rewrite !Bool.andb_true_iff, !Bool.negb_true_iff. intros [[[[H1 H2] H3] H4] H5]. apply amem_nIn in H2, H3, H4. apply Nat.leb_le in H5.
  split; [intros ->; discriminate H1|]. auto.
Qed.
Definition saneb (e : mev) : bool :=
  match e with
  | MCommand _ (sub :: targets :: _) => if beqb sub (B "+") then forallb fitsb (split_on "," targets) else true
  | MWant w => fitsb w
  | _ => true
  end.
Lemma saneb_sane e : saneb e = true -> sane e.
Proof.
  destruct e as [? ?| |?|? ?|w|? ?|?|c params| |?|? ?]; cbn [saneb sane]; auto using fitsb_fits.
  destruct params as [|sub [|t r]]; auto. intros H E. rewrite E, beqb_refl in H. rewrite forallb_forall in H. intros x Hx. apply fitsb_fits. exact (H x Hx).
Qed.
Definition orderlyb (s : mst) : bool :=
  forallb (fun k => bmem k (fold_left (fun set m => serve (mo_cm s) m set) (mo_c2s s) (mo_set s)))
    (map (casemap (mo_cm s)) (flat_map asks (mo_c2s s)) ++ map (fun t => casemap (mo_cm s) (prefix_name t)) (flat_map snd (mo_s2c s))).
Lemma orderlyb_orderly s : orderlyb s = true -> orderly s.
Proof.
  unfold orderlyb. rewrite forallb_forall. intros H k Hk. apply bmem_In. apply H. apply in_or_app. destruct Hk as [[m [t [Hm [Ht <-]]]]|[b [l [t [Hl [Ht <-]]]]]].
  - left. apply in_map. apply in_flat_map. exists m. auto.
  - right. apply (in_map (fun t => casemap (mo_cm s) (prefix_name t))). apply in_flat_map. exists (b, l). auto.
Qed.
Fixpoint mrun (chk : mst -> bool) (l : list mev) (tr : mtrace) (s : mst) : option (mtrace * mst) :=
  match l with
  | [] => Some (tr, s)
  | e :: r => match mstep e s with Some (s', o) => if chk s' && saneb e then mrun chk r ((e, o) :: tr) s' else None | None => None end
  end.
Lemma mrun_runs (P : mst -> Prop) chk cm want l tr s tr' s' : (forall s, chk s = true -> P s) -> mruns P cm want tr s -> mrun chk l tr s = Some (tr', s') -> mruns P cm want tr' s'.
Proof.
  intros HP. revert tr s. induction l as [|e r IH]; cbn; intros tr s H E; [congruence|]. destruct (mstep e s) as [[s1 o]|] eqn:E1; [|discriminate].
  destruct (chk s1 && saneb e) eqn:Ec; [|discriminate]. apply Bool.andb_true_iff in Ec as [C1 C2].
  exact (IH _ _ (MCons P cm want tr s e s1 o H (saneb_sane e C2) E1 (HP s1 C1)) E).
Qed.
Definition new : mst := new_mst CmRFC1459 (B "me").
Lemma new_runs (P : mst -> Prop) : P new -> mruns P CmRFC1459 (B "me") [] new.
Proof. intros H. apply MNil; [apply fitsb_fits; reflexivity|exact H]. Qed.

(** Two clients monitor Ann, Bob[ and Bob{, which is the same nickname; the server
    answers; then the first one clears its list. *)
Definition monitor_script : list mev :=
  [MOpen 1 (B "x"); MOpen 2 (B "y"); MUp (B "me") true; MIsupport true; MCommand 1 [B "+"; B "Ann,Bob["];
   MServe [(true, [B "Ann!a@h"]); (false, [B "bob{"])]; MRecv; MRecv; MCommand 2 [B "+"; B "Bob{"]; MCommand 1 [B "C"]].
Example C50_nonvacuous :
  exists tr s o, mrun orderlyb monitor_script [] new = Some ((MCommand 1 [B "C"], o) :: tr, s) /\ mruns orderly CmRFC1459 (B "me") ((MCommand 1 [B "C"], o) :: tr) s /\
    mo_on s = true /\ syncs (MCommand 1 [B "C"]) /\ wanted s (B "bob[") /\ (forall k, on_the_way s k -> wanted s k) /\ server_has s (B "bob[") /\ ~ server_has s (B "ann").
Proof.
  destruct (mrun orderlyb monitor_script [] new) as [[tr s]|] eqn:E; [|vm_compute in E; discriminate].
  pose proof (mrun_runs orderly orderlyb _ _ _ _ _ _ _ orderlyb_orderly (new_runs orderly (orderlyb_orderly new eq_refl)) E) as H.
  vm_compute in E. assert (Et : tr <> []) by (intros ->; discriminate E). destruct tr as [|[e o] tr]; [congruence|].
  injection E as <- <- <- <-. eexists _, _, _. split; [reflexivity|]. split; [exact H|]. split; [reflexivity|]. split; [right; reflexivity|]. split.
  { split; [discriminate|]. exists 2%N. eexists (MClient 2 (B "y") _), (B "Bob{"). split; [cbn; auto|]. split; [reflexivity|]. split; [left; reflexivity|reflexivity]. }
  split; [|split; [left; reflexivity|intros [Hx|[]]; discriminate Hx]].
  intros k [[m [t [[<-|[]] [[] _]]]]|[b [l [t [[] _]]]]].
Qed.

Example C78_nonvacuous :
  exists tr s, mrun (fun _ => true) (firstn 9 monitor_script) [] new = Some (tr, s) /\ known anything CmRFC1459 (B "me") (B "bob[") false tr s /\ on_list s 1 (B "bob[") /\ on_list s 2 (B "bob[") /\
    last_told CmRFC1459 2 (B "bob[") tr = Some false /\
    map snd (firstn 3 tr) = [[(2%N, (B "731", [B "y"; B "Bob{"]))]; [(1%N, (B "731", [B "x"; B "bob{"]))]; [(1%N, (B "730", [B "x"; B "Ann!a@h"]))]].
Proof.
  destruct (mrun (fun _ => true) (firstn 7 monitor_script) [] new) as [[tr0 s0]|] eqn:E0; [|vm_compute in E0; discriminate].
  pose proof (mrun_runs anything (fun _ => true) _ _ _ _ _ _ _ (fun _ _ => I) (new_runs anything I) E0) as H0.
  destruct (mstep MRecv s0) as [[s1 o1]|] eqn:E1; [|vm_compute in E0; injection E0 as <- <-; vm_compute in E1; discriminate].
  destruct (mstep (MCommand 2 [B "+"; B "Bob{"]) s1) as [[s2 o2]|] eqn:E2; [|vm_compute in E0; injection E0 as <- <-; vm_compute in E1; injection E1 as <- <-; vm_compute in E2; discriminate].
  assert (Es : mo_s2c s0 = [(false, [B "bob{"])]) by (vm_compute in E0; injection E0 as <- <-; reflexivity).
  assert (K1 : known anything CmRFC1459 (B "me") (B "bob[") false ((MRecv, o1) :: tr0) s1).
  { apply (KSaid _ _ _ _ _ tr0 s0 s1 o1 [B "bob{"] []); [exact H0|exact Es|exists (B "bob{"); split; [left|]; reflexivity|exact E1|exact I]. }
  exists ((MCommand 2 [B "+"; B "Bob{"], o2) :: (MRecv, o1) :: tr0), s2. split.
  { vm_compute in E0. injection E0 as <- <-. vm_compute in E1. injection E1 as <- <-. vm_compute in E2. injection E2 as <- <-. vm_compute. reflexivity. }
  assert (L1 : on_list s2 1 (B "bob[")).
  { vm_compute in E0. injection E0 as <- <-. vm_compute in E1. injection E1 as <- <-. vm_compute in E2. injection E2 as <- <-.
    eexists (MClient 1 (B "x") _), (B "Bob["). split; [left; reflexivity|]. split; [reflexivity|]. split; [right; left; reflexivity|reflexivity]. }
  split; [|split; [exact L1|]].
  - apply (KKept _ _ _ _ _ _ s1); [exact K1|apply saneb_sane; reflexivity|exact E2|exact I|discriminate|discriminate|]. split; [discriminate|]. exists 1%N. exact L1.
  - vm_compute in E0. injection E0 as <- <-. vm_compute in E1. injection E1 as <- <-. vm_compute in E2. injection E2 as <- <-.
    split; [|split; reflexivity].
    eexists (MClient 2 (B "y") _), (B "Bob{"). split; [right; left; reflexivity|]. split; [reflexivity|]. split; [left; reflexivity|reflexivity].
Qed.

(** The nickname the user wants is monitored for the sake of getting it, but only
    every other time the lists change: here the nickname is taken, the server said
    so, everything was delivered, and the server no longer monitors it. *)
Theorem C50_want_refuted :
  exists tr s, mruns orderly CmRFC1459 (B "me") tr s /\ mo_on s = true /\ mo_link s = true /\ mo_has s = false /\ mo_nick s <> mo_want s /\
    mo_c2s s = [] /\ mo_s2c s = [] /\ ~ server_has s (mo_want s).
Proof.
  destruct (mrun orderlyb [MOpen 1 (B "x"); MUp (B "me_") false; MIsupport true; MServe [(true, [B "me!a@h"])]; MRecv; MCommand 1 [B "+"; B "ann"]; MServe []; MServe [(false, [B "ann"])]; MRecv] [] new) as [[tr s]|] eqn:E; [|vm_compute in E; discriminate].
  pose proof (mrun_runs orderly orderlyb _ _ _ _ _ _ _ orderlyb_orderly (new_runs orderly (orderlyb_orderly new eq_refl)) E) as H.
  exists tr, s. split; [exact H|]. vm_compute in E. injection E as <- <-. split; [reflexivity|]. split; [reflexivity|]. split; [reflexivity|]. split; [discriminate|]. split; [reflexivity|]. split; [reflexivity|].
  intros [Hx|[]]. discriminate Hx.
Qed.
Print Assumptions C50_want_refuted.

(** A client that asks to be notified, changes its mind before the answer comes, and
    asks again: it gets the answer, but the server is no longer asked, and never
    will notify it. *)
Theorem C50_race_refuted :
  exists tr s k, mruns anything CmRFC1459 (B "me") tr s /\ mo_on s = true /\ wanted s k /\ mo_c2s s = [] /\ mo_s2c s = [] /\ ~ server_has s k.
Proof.
  destruct (mrun (fun _ => true) [MOpen 1 (B "x"); MUp (B "me") true; MIsupport true; MCommand 1 [B "+"; B "ann"]; MServe [(true, [B "ann"])]; MRecv;
    MCommand 1 [B "+"; B "bob"]; MCommand 1 [B "C"]; MServe [(true, [B "bob"])]; MServe []; MRecv; MCommand 1 [B "+"; B "bob"]] [] new) as [[tr s]|] eqn:E; [|vm_compute in E; discriminate].
  pose proof (mrun_runs anything (fun _ => true) _ _ _ _ _ _ _ (fun _ _ => I) (new_runs anything I) E) as H.
  exists tr, s, (B "bob"). split; [exact H|]. vm_compute in E. injection E as <- <-. split; [reflexivity|]. split; [|split; [reflexivity|]; split; [reflexivity|intros []]].
  split; [discriminate|]. exists 1%N. eexists (MClient 1 (B "x") _), (B "bob"). split; [left; reflexivity|]. split; [reflexivity|]. split; [left; reflexivity|reflexivity].
Qed.
Print Assumptions C50_race_refuted.
