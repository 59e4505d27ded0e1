(** Property C81. *)
From Verif.Base Require Import Bytes.
From Verif.Model Require Import Message Push.
From Verif.Proof Require Push.
From Verif.Spec Require Import Push.
From Coq Require Import ZArith.
Open Scope Z_scope.

(** C81: a notification goes to an endpoint only if a client of this user, bound to
    this network, has registered the endpoint, and it is encrypted with the keys that
    were given last: so it was at some moment after the event that it is about. *)
Theorem C81_recipients :
  forall serial vapid parse_tags cm time_text l s t1 ev o t2 k u n e a p m,
    wrun serial vapid parse_tags cm time_text l new_wst = (s, t1 ++ (ev, o) :: t2) ->
    In (ORequest k u n e a p m) o ->
    exists ta q tb tc, t1 = ta ++ q :: tb ++ tc /\ start k u n m q /\ registered parse_tags (ta ++ q :: tb) u n e = Some (a, p).
Proof. exact Proof.Push.recipients. Qed.
Print Assumptions C81_recipients.

(** C81: users are notified only of texts of others that are for them or mention
    them, of invitations, and of what another client has read; never about a channel
    whose texts are not relayed. *)
Theorem C81_worth :
  forall serial vapid parse_tags cm time_text l s t ev o k u n m,
    wrun serial vapid parse_tags cm time_text l new_wst = (s, t) -> In (ev, o) t -> In (OStart k u n m) o -> worth ev u n m.
Proof. exact Proof.Push.worth_it. Qed.
Print Assumptions C81_worth.

(** C81: a notification is sent to every endpoint at most once, and to 26 at most. *)
Theorem C81_each_once :
  forall serial vapid parse_tags cm time_text l s t k,
    wrun serial vapid parse_tags cm time_text l new_wst = (s, t) ->
    NoDup (map endpoint (requests k t)) /\ (length (requests k t) <= 26)%nat.
Proof. exact Proof.Push.each_once. Qed.
Print Assumptions C81_each_once.

(** C81: with PostgreSQL, a notification that is sent to the end reaches every
    endpoint that was registered and working when the list was made, with its keys:
    whatever other clients, users, networks and endpoints do. Not with SQLite, see
    C81_reached_refuted. *)
Theorem C81_reached_partial :
  forall serial vapid parse_tags cm time_text l s t1 ev o t2 k u n m q e a p tr,
    serial = true ->
    wrun serial vapid parse_tags cm time_text l new_wst = (s, t1 ++ (ev, o) :: t2) ->
    In q t1 -> start k u n m q -> listing k u n (ev, o) -> ended k t2 ->
    working parse_tags t1 u n e = Some (a, p, tr) ->
    In (ORequest k u n e a p m) (requests k t2).
Proof. exact Proof.Push.reached. Qed.
Print Assumptions C81_reached_partial.

(** C81: a client may register an endpoint that passes the test, or give it new keys,
    as long as there are not more than 25 of this network. *)
Theorem C81_accepted_partial :
  forall serial vapid parse_tags cm time_text l s t u n e text r a p now,
    wrun serial vapid parse_tags cm time_text l new_wst = (s, t) ->
    keys_of parse_tags text = Some (a, p) ->
    (forall ends, NoDup ends -> (forall x, In x ends -> registered parse_tags t u n x <> None) -> (length ends <= 25)%nat) ->
    granted (snd (wstep serial vapid parse_tags cm time_text s (WCommand u n true (B "REGISTER" :: e :: text :: r) now true WOk))) = true.
Proof. exact Proof.Push.accepted. Qed.
Print Assumptions C81_accepted_partial.

(** C81: an endpoint is accepted only if its address passed the check and it answered
    a test request, or it had been registered with the same keys. *)
Theorem C81_tested :
  forall serial vapid parse_tags cm time_text l s t u n cap e text r a p now check test,
    wrun serial vapid parse_tags cm time_text l new_wst = (s, t) ->
    keys_of parse_tags text = Some (a, p) ->
    granted (snd (wstep serial vapid parse_tags cm time_text s (WCommand u n cap (B "REGISTER" :: e :: text :: r) now check test))) = true ->
    (check = true /\ test = WOk /\
     In (OTest e a p) (snd (wstep serial vapid parse_tags cm time_text s (WCommand u n cap (B "REGISTER" :: e :: text :: r) now check test)))) \/
    registered parse_tags t u n e = Some (a, p).
Proof. exact Proof.Push.tested. Qed.
Print Assumptions C81_tested.

(** C81: the notification about a text is taken back when another client has read as
    far: a notification about the mark follows. If the texts of this buffer come in
    order, and the network is not changed. *)
Theorem C81_dismissed_partial :
  forall serial vapid parse_tags cm time_text l s t1 u n m self direct highlight channel b z o t2 b' ts now o' t3 k,
    wrun serial vapid parse_tags cm time_text l new_wst =
      (s, t1 ++ (WText u n m self direct highlight channel b (Some z), o) :: t2 ++ (WMark u n b' ts now, o') :: t3) ->
    In (OStart k u n m) o -> Forall (quiet cm u n b z) t2 -> Forall (behind cm u n b (Z.min ts now)) (t1 ++ t2) -> 0 < Z.min ts now ->
    cm u n b' = cm u n b ->
    exists k', o' = [OStart k' u n (msg (B "MARKREAD") [b'; time_text (Z.min ts now)])].
Proof. exact Proof.Push.dismissed. Qed.
Print Assumptions C81_dismissed_partial.

(** C81: nothing is ever sent to the endpoints of clients that are bound to no
    network (number 0), although they may register them. *)
Theorem C81_unbound :
  forall serial vapid parse_tags cm time_text l s t n,
    wrun serial vapid parse_tags cm time_text l new_wst = (s, t) ->
    (forall ev, In ev l -> match ev with WText _ n' _ _ _ _ _ _ _ | WInvite _ n' _ _ _ _ | WMark _ n' _ _ _ => n' <> n | _ => True end) ->
    forall k u e a p m q, In q t -> ~ In (ORequest k u n e a p m) (snd q).
Proof.
  intros serial vapid parse_tags cm time_text l s t n R H. apply (Proof.Push.unbound serial vapid parse_tags cm time_text l s t n R).
  intros ev I. specialize (H ev I). destruct ev; cbn [Proof.Push.on_net]; tauto.
Qed.
Print Assumptions C81_unbound.

(** ** Examples *)
Definition demo_tags (text : bytes) : list (bytes * bytes) := [(B "auth", B "secret"); (B "p256dh", text)].
Definition demo_cm (u n : N) (b : bytes) : bytes := to_lower b.
Definition demo_time (z : Z) : bytes := B "a time".
Definition demo serial := wrun serial (B "vapid") demo_tags demo_cm demo_time.
Definition day : Z := 24 * 3600 * 1000000000.
Definition register u n e k now := WCommand u n true [B "REGISTER"; e; k] now true WOk.
Definition unregister u n e := WCommand u n true [B "UNREGISTER"; e] 0 true WOk.
Definition hello : message := msg (B "PRIVMSG") [B "me"; B "hello"].
Definition direct u n z := WText u n hello false true false None (B "Bob") (Some z).

(** Two endpoints of a network and one of another; the first request fails, the
    endpoint is not forgotten; the second endpoint answers that it has expired. *)
Definition demo_l : list wev :=
  [register 1 1 (B "https://one") (B "k1") 0; register 1 1 (B "https://two") (B "k2") day; register 2 1 (B "https://other") (B "k3") day;
   register 1 1 (B "https://one") (B "k4") (2 * day);
   direct 1 1 10; WList 0; WSend 0 (3 * day) WError; WSend 0 (3 * day) WExpired; WSend 0 (3 * day) WOk;
   WMark 1 1 (B "bob") 20 30; WList 1; WSend 1 (4 * day) WOk; WSend 1 (4 * day) WOk].
Definition demo_requests (k : N) : list wout := requests k (snd (demo true demo_l new_wst)).
Example C81_nonvacuous :
  demo_requests 0 = [ORequest 0 1 1 (B "https://one") (B "secret") (B "k4") hello; ORequest 0 1 1 (B "https://two") (B "secret") (B "k2") hello] /\
  demo_requests 1 = [ORequest 1 1 1 (B "https://one") (B "secret") (B "k4") (msg (B "MARKREAD") [B "bob"; B "a time"])] /\
  working demo_tags (snd (demo true (firstn 9 demo_l) new_wst)) 1 1 (B "https://one") = Some (B "secret", B "k4", 2 * day) /\
  working demo_tags (snd (demo true (firstn 9 demo_l) new_wst)) 1 1 (B "https://two") = None.
Proof. split; [|split; [|split]]; vm_compute; reflexivity. Qed.

(** The hypotheses of C81_reached_partial and of C81_dismissed_partial hold in it. *)
Example C81_reached_nonvacuous :
  exists s t1 o t2 q, demo true demo_l new_wst = (s, t1 ++ (WList 1, o) :: t2) /\
    In q t1 /\ start 1 1 1 (msg (B "MARKREAD") [B "bob"; B "a time"]) q /\ listing 1 1 1 (WList 1, o) /\ ended 1 t2 /\
    working demo_tags t1 1 1 (B "https://one") = Some (B "secret", B "k4", 2 * day).
Proof.
  exists (fst (demo true demo_l new_wst)), (snd (demo true (firstn 10 demo_l) new_wst)), [OList 1 1 1], (skipn 11 (snd (demo true demo_l new_wst))),
    (WMark 1 1 (B "bob") 20 30, [OStart 1 1 1 (msg (B "MARKREAD") [B "bob"; B "a time"])]).
  split; [vm_compute; reflexivity|]. split; [apply (nth_error_In _ 9); vm_compute; reflexivity|]. split; [left; reflexivity|]. split; [left; reflexivity|]. split; [|vm_compute; reflexivity].
  exists (4 * day), WOk. apply (nth_error_In _ 1). vm_compute. reflexivity.
Qed.
Example C81_dismissed_nonvacuous :
  exists s t1 o t2 o' t3, demo true demo_l new_wst = (s, t1 ++ (direct 1 1 10, o) :: t2 ++ (WMark 1 1 (B "bob") 20 30, o') :: t3) /\
    In (OStart 0 1 1 hello) o /\ Forall (quiet demo_cm 1 1 (B "Bob") 10) t2 /\ Forall (behind demo_cm 1 1 (B "Bob") (Z.min 20 30)) (t1 ++ t2) /\
    0 < Z.min 20 30 /\ demo_cm 1 1 (B "bob") = demo_cm 1 1 (B "Bob").
Proof.
  exists (fst (demo true demo_l new_wst)), (snd (demo true (firstn 4 demo_l) new_wst)), [OStart 0 1 1 hello], (firstn 4 (skipn 5 (snd (demo true demo_l new_wst)))),
    [OStart 1 1 1 (msg (B "MARKREAD") [B "bob"; B "a time"])], (skipn 10 (snd (demo true demo_l new_wst))).
  split; [vm_compute; reflexivity|]. split; [left; reflexivity|].
  split; [vm_compute; repeat constructor|]. split; [vm_compute; repeat constructor|]. split; vm_compute; reflexivity.
Qed.

(** ** Refutations *)

(** With SQLite the answer to a request removes the subscription of another user: the
    row that got the same ID meanwhile. *)
Definition reuse_l : list wev :=
  [register 1 1 (B "https://one") (B "k1") 0; direct 1 1 10; WList 0; unregister 1 1 (B "https://one");
   register 2 1 (B "https://other") (B "k2") 0; WSend 0 1 WExpired;
   direct 2 1 20; WList 1; WSend 1 2 WOk].
Theorem C81_reached_refuted :
  exists vapid parse_tags cm time_text l s t1 ev o t2 k u n m q e a p tr,
    wrun false vapid parse_tags cm time_text l new_wst = (s, t1 ++ (ev, o) :: t2) /\
    In q t1 /\ start k u n m q /\ listing k u n (ev, o) /\ ended k t2 /\
    working parse_tags t1 u n e = Some (a, p, tr) /\ requests k t2 = [].
Proof.
  exists (B "vapid"), demo_tags, demo_cm, demo_time, reuse_l, (fst (demo false reuse_l new_wst)), (snd (demo false (firstn 7 reuse_l) new_wst)), (WList 1), [OList 1 2 1],
    (skipn 8 (snd (demo false reuse_l new_wst))), 1%N, 2%N, 1%N, hello, (direct 2 1 20, [OStart 1 2 1 hello]), (B "https://other"), (B "secret"), (B "k2"), 0.
  split; [vm_compute; reflexivity|]. split; [apply (nth_error_In _ 6); vm_compute; reflexivity|]. split; [left; reflexivity|]. split; [left; reflexivity|].
  split; [exists 2, WOk; apply (nth_error_In _ 0); vm_compute; reflexivity|]. split; vm_compute; reflexivity.
Qed.
Print Assumptions C81_reached_refuted.

(** With 26 endpoints a client cannot replace the keys of any. *)
Definition many : list bytes := map (fun i => B "https://" ++ repeat "x"%char i) (seq 1 26).
Definition full_l : list wev := map (fun e => register 1 1 e (B "k1") 0) many.
Theorem C81_accepted_refuted :
  exists vapid parse_tags cm time_text l s t u n e text now k,
    wrun true vapid parse_tags cm time_text l new_wst = (s, t) /\ keys_of parse_tags text = Some k /\ registered parse_tags t u n e <> None /\
    granted (snd (wstep true vapid parse_tags cm time_text s (WCommand u n true [B "REGISTER"; e; text] now true WOk))) = false.
Proof.
  exists (B "vapid"), demo_tags, demo_cm, demo_time, full_l, (fst (demo true full_l new_wst)), (snd (demo true full_l new_wst)), 1%N, 1%N, (B "https://x"), (B "k2"), 1, (B "secret", B "k2").
  split; [unfold demo; apply surjective_pairing|]. split; [vm_compute; reflexivity|]. split; [vm_compute; discriminate|]. vm_compute. reflexivity.
Qed.
Print Assumptions C81_accepted_refuted.

(** The subcommand is not case-insensitive (doc/ext/webpush.md). *)
Theorem C81_case_refuted :
  exists vapid parse_tags cm time_text sub e text now k,
    to_upper sub = B "REGISTER" /\ keys_of parse_tags text = Some k /\
    granted (snd (wstep true vapid parse_tags cm time_text new_wst (WCommand 1 1 true [sub; e; text] now true WOk))) = false.
Proof. exists (B "vapid"), demo_tags, demo_cm, demo_time, (B "register"), (B "https://x"), (B "k"), 0, (B "secret", B "k"). repeat split; vm_compute; reflexivity. Qed.
Print Assumptions C81_case_refuted.

(** A request is made after the client was told that the endpoint is unregistered. *)
Definition late_l : list wev := [register 1 1 (B "https://one") (B "k1") 0; direct 1 1 10; WList 0; unregister 1 1 (B "https://one"); WSend 0 1 WOk].
Theorem C81_unregistered_refuted :
  exists vapid parse_tags cm time_text l s t1 ev o t2 k u n e a p m,
    wrun true vapid parse_tags cm time_text l new_wst = (s, t1 ++ (ev, o) :: t2) /\
    In (ORequest k u n e a p m) o /\ registered parse_tags t1 u n e = None.
Proof.
  exists (B "vapid"), demo_tags, demo_cm, demo_time, late_l, (fst (demo true late_l new_wst)), (snd (demo true (firstn 4 late_l) new_wst)), (WSend 0 1 WOk),
    [ORequest 0 1 1 (B "https://one") (B "secret") (B "k1") hello], [], 0%N, 1%N, 1%N, (B "https://one"), (B "secret"), (B "k1"), hello.
  split; [vm_compute; reflexivity|]. split; [left; reflexivity|vm_compute; reflexivity].
Qed.
Print Assumptions C81_unregistered_refuted.

(** After a change of the network, and if texts come out of order, a notification is
    never taken back. *)
Definition lost (between : list wev) : Prop :=
  exists vapid parse_tags cm time_text s t1 o t2 ts now t3 m,
    wrun true vapid parse_tags cm time_text (direct 1 1 10 :: between ++ [WMark 1 1 (B "bob") ts now]) new_wst =
      (s, t1 ++ (direct 1 1 10, o) :: t2 ++ (WMark 1 1 (B "bob") ts now, []) :: t3) /\
    In (OStart 0 1 1 m) o /\ Forall (behind cm 1 1 (B "bob") (Z.min ts now)) (t1 ++ t2) /\ 10 <= Z.min ts now /\ cm 1%N 1%N (B "bob") = cm 1%N 1%N (B "Bob").
Theorem C81_dismissed_refuted : lost [WReplace 1 1] /\ lost [direct 1 1 5; WMark 1 1 (B "bob") 7 100].
Proof.
  split.
  - set (l := direct 1 1 10 :: [WReplace 1 1] ++ [WMark 1 1 (B "bob") 20 30]).
    exists (B "vapid"), demo_tags, demo_cm, demo_time, (fst (demo true l new_wst)), [], [OStart 0 1 1 hello], (firstn 1 (skipn 1 (snd (demo true l new_wst)))), 20, 30, [], hello.
    split; [vm_compute; reflexivity|]. split; [left; reflexivity|]. split; [vm_compute; repeat constructor|]. split; [vm_compute; discriminate|vm_compute; reflexivity].
  - set (l := direct 1 1 10 :: [direct 1 1 5; WMark 1 1 (B "bob") 7 100] ++ [WMark 1 1 (B "bob") 20 30]).
    exists (B "vapid"), demo_tags, demo_cm, demo_time, (fst (demo true l new_wst)), [], [OStart 0 1 1 hello], (firstn 2 (skipn 1 (snd (demo true l new_wst)))), 20, 30, [], hello.
    split; [vm_compute; reflexivity|]. split; [left; reflexivity|]. split; [vm_compute; repeat constructor|]. split; [vm_compute; discriminate|vm_compute; reflexivity].
Qed.
Print Assumptions C81_dismissed_refuted.

(** Clients bound to no network register without error and get nothing. *)
Definition unbound_l : list wev := [register 1 0 (B "https://one") (B "k1") 0; direct 1 1 10; WList 0; WSend 0 1 WOk].
Theorem C81_unbound_refuted :
  exists vapid parse_tags cm time_text l s t u e k,
    wrun true vapid parse_tags cm time_text l new_wst = (s, t) /\ registered parse_tags t u 0 e = Some k /\
    (exists n m q, In q t /\ start 0 u n m q) /\ ended 0 t /\ forall k, requests k t = [].
Proof.
  exists (B "vapid"), demo_tags, demo_cm, demo_time, unbound_l, (fst (demo true unbound_l new_wst)), (snd (demo true unbound_l new_wst)), 1%N, (B "https://one"), (B "secret", B "k1").
  split; [unfold demo; apply surjective_pairing|]. split; [vm_compute; reflexivity|].
  split; [exists 1%N, hello, (direct 1 1 10, [OStart 0 1 1 hello]); split; [apply (nth_error_In _ 1); vm_compute; reflexivity|left; reflexivity]|].
  split; [exists 1, WOk; apply (nth_error_In _ 3); vm_compute; reflexivity|]. intros k. vm_compute. reflexivity.
Qed.
Print Assumptions C81_unbound_refuted.
