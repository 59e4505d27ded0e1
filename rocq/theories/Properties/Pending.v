(** Properties C24, C25 and C26. *)
From Verif.Base Require Import Bytes.
From Verif.Model Require Import Pending.
From Verif.Spec Require Import Pending.
From Verif.Proof Require Pending.
From Coq Require Import ZArith.

(** C24: in every execution without timeouts, for each kind of query:
    - the queries sent are the answered ones followed by at most one outstanding
      query; so each reply goes to the client whose query was sent;
    - if any query is waiting, one is outstanding;
    - queries are sent in the order they were issued, each at most once;
    - all queries of a client that did not disconnect are answered, or still
      queued, in order: cancelling other clients does not disturb them. *)
Theorem C24_queries_serialised : forall (M : Type) k (es : list (pevent M)),
  no_timeouts es ->
  let qs := fst (prun no_queues es) in let os := snd (prun no_queues es) in
  sent k os = answered k os ++ firstn 1 (items (qs k)) /\
  subseq (sent k os ++ tl (items (qs k))) (issued k es) /\
  (forall c, ~ In (Cancel c) es -> of_client c (issued k es) = of_client c (answered k os ++ items (qs k))).
Proof.
  intros M k es H. destruct (Proof.Pending.run_pinv k es H) as [_ A B C].
  split; [exact A|]. split; [exact B|exact C].
Qed.
Print Assumptions C24_queries_serialised.

(** C24: on disconnection every query in a queue is answered exactly once, to the
    client that issued it if it is still connected. *)
Theorem C24_disconnect_answers_all : forall (M : Type) (es : list (pevent M)) ks live k,
  NoDup ks -> In k ks ->
  let qs := fst (prun no_queues es) in
  aborted k (snd (abort qs ks live)) = filter (fun x => live (fst x)) (items (qs k)) /\
  (forall k', fst (abort qs ks live) k' = []).
Proof.
  intros M es ks live k H1 H2 qs. split; [exact (Proof.Pending.abort_spec qs ks live k H1 H2)|reflexivity].
Qed.
Print Assumptions C24_disconnect_answers_all.

Definition ex_events : list (pevent N) :=
  [Enqueue WHO 1 10 0; Enqueue WHO 2 20 1; Enqueue LIST 2 21 2; Enqueue WHO 3 30 3; Enqueue WHO 2 22 4;
   Cancel 2; Reply WHO 100; Enqueue WHO 1 11 200]%N%Z.

Example C24_nonvacuous :
  no_timeouts ex_events /\
  let r := prun no_queues ex_events in
  sent WHO (snd r) = [(1, 10); (3, 30)]%N /\ answered WHO (snd r) = [(1, 10)]%N /\
  items (fst r WHO) = [(3, 30); (1, 11)]%N /\ sent LIST (snd r) = [(2, 21)]%N.
Proof.
  split; [|vm_compute; repeat split].
  intros es1 k c m now es2 E p q t Eq Et.
  do 9 (destruct es1 as [|e0 es1]; [try discriminate E; try (injection E as <- <- <- <- <-; vm_compute in Eq; try discriminate Eq;
           injection Eq as <- <-; vm_compute in Et; try discriminate Et; injection Et as <-; vm_compute; discriminate)
         |cbn [app] in E; try discriminate E; injection E as <- E]).
Qed.

(** C25 is false. When the outstanding query is older than 30 seconds, issuing
    another one sends nothing, duplicates the new query, and no query of this
    kind is sent any more, whatever clients do, unless the server sends a reply
    that nobody is waiting for. *)
Theorem C25_stale_blocks_queue : forall (M : Type) (qs : queues M) k p q t c m now es,
  qs k = p :: q -> Forall (fun x => p_sent x = None) q -> p_sent p = Some t -> (30 * 1000000000 < now - t)%Z ->
  (forall now', ~ In (Reply k now') es) ->
  sent k (snd (prun qs (Enqueue k c m now :: es))) = [] /\
  items (fst (prun qs [Enqueue k c m now]) k) = items q ++ [(c, m); (c, m)].
Proof.
  intros M qs k p q t c m now es H1 H2 H3 H4 H5.
  destruct (Proof.Pending.stale_enqueue_stuck qs k c m now p q t H1 H2 H3 H4) as (A & B & C).
  split; [|exact B]. cbn [prun snd pstep]. rewrite C. cbn [app].
  apply Proof.Pending.stuck_run; [exact A|exact H5].
Qed.
Print Assumptions C25_stale_blocks_queue.

(** Discarding the stale query would send the new one; it is never sent. *)
Theorem C25_stale_refuted : exists es : list (pevent N),
  issued WHO es = [(1, 10); (2, 20)]%N /\
  sent WHO (snd (prun no_queues es)) = [(1, 10)]%N /\
  items (fst (prun no_queues es) WHO) = [(2, 20); (2, 20)]%N.
Proof. exists [Enqueue WHO 1 10 0; Enqueue WHO 2 20 40000000000]%N%Z. vm_compute. repeat split. Qed.
Print Assumptions C25_stale_refuted.

Example C25_nonvacuous :
  let qs := fst (prun no_queues [Enqueue WHO 1 10 0; Enqueue WHO 3 30 5])%N%Z in
  exists p q, qs WHO = p :: q /\ Forall (fun x => p_sent x = None) q /\ p_sent p = Some 0%Z /\ q <> [].
Proof. eexists. eexists. split; [vm_compute; reflexivity|]. split; [repeat constructor|]. split; [reflexivity|discriminate]. Qed.

(** C26: a label determines the client and the command; the reply to a labelled
    command is routed to exactly the client that issued it (client IDs are not
    zero). Unlabelled messages go to all clients, and a label of another form is
    an error. *)
Theorem C26_labels : forall client counter clients,
  (0 < client < 2 ^ 64)%N -> (counter < 2 ^ 64)%N ->
  parse_label (label client counter) = Some client /\
  routed_to client clients = filter (fun c => N.eqb c client) clients /\
  (forall client' counter', label client counter = label client' counter' -> client = client' /\ counter = counter') /\
  parse_label [] = Some 0%N /\ routed_to 0 clients = clients /\
  (forall l, (forall r, l <> B "sd-" ++ r) -> l <> [] -> parse_label l = None).
Proof.
  intros client counter clients [H1 H2] H3.
  split; [exact (Proof.Pending.parse_label_label client counter H2 H3)|].
  split; [apply Proof.Pending.routed_one; intros ->; apply N.lt_irrefl in H1; exact H1|].
  split; [exact (Proof.Pending.label_inj client counter)|].
  split; [reflexivity|]. split; [apply Proof.Pending.routed_all|exact Proof.Pending.foreign_label].
Qed.
Print Assumptions C26_labels.

Example C26_nonvacuous :
  label 12 345 = B "sd-12-345" /\ parse_label (B "sd-12-345") = Some 12%N /\ routed_to 12 [3; 12; 5]%N = [12]%N /\
  parse_label (B "xy-12") = None.
Proof. vm_compute. repeat split. Qed.
