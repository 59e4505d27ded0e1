(** Properties C45 and C77. *)
From Verif.Base Require Import Bytes.
From Verif.Model Require Import Message CaseMap Modes Roster Nick.
From Verif.Spec Require Import Nick.
From Verif.Proof Require Nick.
Open Scope nat_scope.

(** C45: a server that refuses some nicknames as being in use lets the user in
    under the first free one of the wanted nickname and its continuations with
    underscores of less than 30 bytes; if all are taken, the bouncer gives up. In
    any case the conversation ends. *)
Theorem C45_fallback : forall cm taken w o, w <> [] ->
  converse taken (fst (new_nst cm w)) w o <->
  o = match find (fun x => negb (taken x)) (candidates w) with Some x => Registered x | None => GaveUp end.
Proof. exact Proof.Nick.fallback. Qed.
Print Assumptions C45_fallback.

(** C45: whatever the server sends before it lets the user in, the nicknames asked
    for are the first few of these, in order, each of them once. *)
Theorem C45_bounded : forall cm w l, Forall early l ->
  exists m, w :: asked (snd (nsteps l (fst (new_nst cm w)))) = firstn (S m) (candidates w).
Proof. exact Proof.Nick.bounded. Qed.
Print Assumptions C45_bounded.

(** Beside them: ann and ann_ are taken; all nicknames are taken. *)
Example C45_nonvacuous :
  converse (fun x => bmem x [B "ann"; B "ann_"]) (fst (new_nst CmRFC1459 (B "ann"))) (B "ann") (Registered (B "ann__")) /\
  converse (fun _ => true) (fst (new_nst CmRFC1459 (B "ann"))) (B "ann") GaveUp /\
  length (candidates (B "ann")) = 27 /\ length (candidates (B "a-nickname-which-is-longer-than-the-limit")) = 1 /\
  let l := repeat (NMsg (B "433") (B "srv") [B "*"; B "ann"; B "in use"]) 40 in
  Forall early l /\ length (asked (snd (nsteps l (fst (new_nst CmRFC1459 (B "ann")))))) = 26.
Proof.
  split; [apply C45_fallback; [discriminate|vm_compute; reflexivity]|]. split; [apply C45_fallback; [discriminate|vm_compute; reflexivity]|].
  split; [reflexivity|]. split; [reflexivity|]. split; [|vm_compute; reflexivity].
  apply Forall_forall. intros x Hx. apply repeat_spec in Hx as ->. cbn. split; [discriminate|split; discriminate].
Qed.

(** C77: no sequence of messages, timers and client requests makes the bouncer
    crash. *)
Theorem C77_no_crash : forall cm w l, ~ In OPanic (snd (nsteps l (fst (new_nst cm w)))).
Proof. exact Proof.Nick.calm. Qed.
Print Assumptions C77_no_crash.

(** C77: a user let in under another nickname than the wanted one, on a server
    without MONITOR, has the timer set. *)
Theorem C77_starts : forall cm w n k text, length w + k < 30 -> casemap cm n <> casemap cm w ->
  exists has, fst (nsteps (repeat (NMsg (B "433") (B "srv") [B "*"; w; text]) k ++ [NMsg (B "001") (B "srv") [n; text]; NMsg (B "376") (B "srv") [n; text]])
    (fst (new_nst cm w))) = begun cm w n has.
Proof. exact Proof.Nick.starts. Qed.
Print Assumptions C77_starts.

(** C77: from then on, whenever the timer fires, the wanted nickname is asked for
    unless a request for it is already under way. Partial: requests are accepted or
    refused as being in use. *)
Theorem C77_retries_partial : forall cm w, w <> [] -> forall n h l y, yruns w (NSys (begun cm w n h) []) l y ->
  n_timer (ny_s y) <> None -> n_want (ny_s y) = w -> casemap cm (n_nick (ny_s y)) <> casemap cm w ->
  (forall b x, In (b, x) (ny_asked y) -> casemap cm x <> casemap cm w) ->
  exists s', nstep (NTick w) (ny_s y) = (s', [OAsk w]).
Proof. exact Proof.Nick.retries. Qed.
Print Assumptions C77_retries_partial.

(** C77: the timer is stopped only when the user had the wanted nickname, or wants
    another one. *)
Theorem C77_goes_on : forall cm w, w <> [] -> forall n h l y, yruns w (NSys (begun cm w n h) []) l y -> n_timer (ny_s y) = None ->
  exists l1 l2 y1, l = l1 ++ l2 /\ yruns w (NSys (begun cm w n h) []) l1 y1 /\
    (casemap cm (n_nick (ny_s y1)) = casemap cm w \/ n_want (ny_s y1) <> w).
Proof. exact Proof.Nick.goes_on. Qed.
Print Assumptions C77_goes_on.

(** C77: clients see the refusals of their own requests, and no others; at most one
    request of the bouncer is under way. Partial: without MONITOR, and as long as no
    client asks for the wanted nickname itself. *)
Theorem C77_quiet_partial : forall cm w, w <> [] -> forall n h l s b x q text o y', Forall (fun e => apart cm w (fst e)) l ->
  yruns w (NSys (begun cm w n h) []) l (NSys s ((b, x) :: q)) -> ystep w (NSys s ((b, x) :: q)) (LRefuse text) o y' ->
  (b = true -> o = [] /\ forall x', ~ In (true, x') q) /\ (b = false -> o = [OForward (B "433") [n_nick s; x; text]]).
Proof. exact Proof.Nick.quiet. Qed.
Print Assumptions C77_quiet_partial.

(** Beside them: ann is let in as ann_; the first attempt is refused, the second
    one, made while the server changes the nickname, is accepted. *)
Definition n0 := begun CmRFC1459 (B "ann") (B "ann_") false.
Definition n1 := with_pend n0 (B "ann").
Definition n2 := with_name n1 (B "Guest").
Definition n3 := with_timer (with_has (with_name n0 (B "ann")) true) None.

Example C77_nonvacuous :
  (exists l, yruns (B "ann") (NSys n0 []) l (NSys n1 [(true, B "ann")]) /\ Forall (fun e => apart CmRFC1459 (B "ann") (fst e)) l /\
     ystep (B "ann") (NSys n1 [(true, B "ann")]) (LRefuse (B "in use")) [] (NSys n0 [])) /\
  (exists l, yruns (B "ann") (NSys n0 []) l (NSys n0 []) /\ l <> [] /\ n_timer n0 <> None) /\
  (exists l, yruns (B "ann") (NSys n0 []) l (NSys n3 []) /\ n_timer n3 = None).
Proof.
  assert (T : ystep (B "ann") (NSys n0 []) LTick [OAsk (B "ann")] (NSys n1 [(true, B "ann")])) by (apply (YTick _ n0 [] n1 [OAsk (B "ann")]); vm_compute; reflexivity).
  assert (R : ystep (B "ann") (NSys n1 [(true, B "ann")]) (LRefuse (B "in use")) [] (NSys n0 [])) by (apply (YRefuse _ n1 true (B "ann") [] (B "in use") n0 []); vm_compute; reflexivity).
  assert (F : ystep (B "ann") (NSys n1 [(true, B "ann")]) (LForce (B "Guest")) [] (NSys n2 [(true, B "ann")])) by (apply YForce; [discriminate|vm_compute; reflexivity]).
  assert (A : ystep (B "ann") (NSys n2 [(true, B "ann")]) LAccept [] (NSys n3 [])) by (apply YAccept; vm_compute; reflexivity).
  split; [|split].
  - exists [(LTick, [OAsk (B "ann")])]. split; [apply (YMore _ _ []) with (y1 := NSys n0 []); [apply YNil|exact T]|]. split; [|exact R].
    constructor; [exact I|constructor].
  - eexists. split; [eapply YMore; [eapply YMore; [apply YNil|exact T]|exact R]|]. split; discriminate.
  - eexists. split; [|reflexivity]. eapply YMore; [|exact A]. eapply YMore; [|exact F]. eapply YMore; [|exact T]. eapply YMore; [|exact R]. eapply YMore; [apply YNil|exact T].
Qed.

(** C77 does not hold of a server that refuses a request in another way: the
    nickname is never asked for again. *)
Theorem C77_stuck_refuted :
  exists w l s, fst (nsteps l (fst (new_nst CmRFC1459 w))) = s /\ n_timer s = Some w /\ casemap CmRFC1459 (n_nick s) <> casemap CmRFC1459 w /\
    last l (NTick w) = NMsg (B "437") (B "srv") [n_nick s; w; B "Nick/channel is temporarily unavailable"] /\
    forall k, asked (snd (nsteps (repeat (NTick w) k) s)) = [].
Proof.
  exists (B "ann"), [NMsg (B "433") (B "srv") [B "*"; B "ann"; B "in use"]; NMsg (B "001") (B "srv") [B "ann_"; B "hi"]; NMsg (B "376") (B "srv") [B "ann_"; B "end"];
    NTick (B "ann"); NMsg (B "437") (B "srv") [B "ann_"; B "ann"; B "Nick/channel is temporarily unavailable"]], n1.
  split; [vm_compute; reflexivity|]. split; [reflexivity|]. split; [vm_compute; discriminate|]. split; [reflexivity|].
  induction k as [|k IH]; [reflexivity|]. cbn [repeat nsteps]. change (nstep (NTick (B "ann")) n1) with (n1, @nil nout).
  cbv beta iota. destruct (nsteps (repeat (NTick (B "ann")) k) n1) as [s o]. exact IH.
Qed.
Print Assumptions C77_stuck_refuted.

(** Nor, with MONITOR, is the refusal of a request of the bouncer hidden. *)
Theorem C77_monitor_refuted :
  exists w l, nsteps l (fst (new_nst CmRFC1459 w)) =
    (Nst CmRFC1459 w true (w ++ B "_") false [] None true true, [OAsk (w ++ B "_"); OAsk w; OForward (B "433") [w ++ B "_"; w; B "in use"]]).
Proof.
  exists (B "ann"), [NMsg (B "433") (B "srv") [B "*"; B "ann"; B "in use"]; NMsg (B "001") (B "srv") [B "ann_"; B "hi"]; NIsupport true; NMsg (B "376") (B "srv") [B "ann_"; B "end"];
    NMsg (B "731") (B "srv") [B "ann_"; B "ann"]; NMsg (B "433") (B "srv") [B "ann_"; B "ann"; B "in use"]].
  vm_compute. reflexivity.
Qed.
Print Assumptions C77_monitor_refuted.
