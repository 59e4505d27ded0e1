From Verif.Base Require Import Bytes.
From Verif.Model Require Import Delivery.
From Verif.Spec Require Import Delivery.
From Verif.Proof Require Delivery.

(** C28: whenever the client is connected, what it got for a target, in all its sessions and
    over restarts, is a contiguous final part of the chat messages logged for this target: from
    the first message it got, none is lost, repeated or reordered. Partial: the
    conditions of [careful] are needed (see the refutations), detached channels are
    left out, and the message store is an ideal one. *)
Theorem C28_exactly_once_partial : forall limit c es t,
  careful limit c dinit es ->
  let '(s, outs) := drun limit dinit es in
  connected s c -> suffix (got c t outs) (all_chat s t).
Proof.
  intros limit c es t C. pose proof (Proof.Delivery.inv_run limit c es _ _ (Proof.Delivery.inv_init c) C) as V.
  destruct (drun limit dinit es) as [s outs]. cbn [fst snd] in V. intros H.
  exact (Proof.Delivery.connected_current c s _ t V H).
Qed.
Print Assumptions C28_exactly_once_partial.

(** C28: a target whose first message comes after the client is known (it got a message
    of some target and left) is delivered from its first message. *)
Theorem C28_new_target_partial : forall limit c es0 es1 t0 t,
  careful limit c dinit (es0 ++ es1) ->
  let '(s0, outs0) := drun limit dinit es0 in
  let '(s, outs) := drun limit dinit (es0 ++ es1) in
  ~ connected s0 c -> got c t0 outs0 <> [] -> log_of s0 t = [] ->
  connected s c -> got c t outs = all_chat s t.
Proof.
  intros limit c es0 es1 t0 t C. apply Proof.Delivery.careful_app in C as [C0 C1].
  pose proof (Proof.Delivery.inv_run limit c es0 _ _ (Proof.Delivery.inv_init c) C0) as V0.
  assert (K0 : Proof.Delivery.linked (fst (drun limit dinit es0))).
  { apply (Proof.Delivery.linked_run limit c es0 dinit (fun _ => [])); [apply Proof.Delivery.inv_init|exact C0|].
    intros t'. split; [discriminate|intros dc []]. }
  rewrite Proof.Delivery.drun_app. destruct (drun limit dinit es0) as [s0 outs0]. cbn [fst snd] in *.
  pose proof (fun W => Proof.Delivery.fin_run limit c t es1 s0 _ V0 W C1) as F. cbv beta in F.
  destruct (drun limit s0 es1) as [s outs]. cbn [fst snd] in *. intros H1 H2 H3 H4.
  specialize (F (Proof.Delivery.away_fin c t t0 s0 _ V0 K0 H1 H2 H3)).
  rewrite Proof.Delivery.got_app. apply (Proof.Delivery.w_here c t s _ F).
  destruct H4 as (dc & A & B). intros Z.
  assert (X : In dc (Proof.Delivery.conns_of c s)) by (apply filter_In; split; [exact A|apply N.eqb_eq, B]). rewrite Z in X. destruct X.
Qed.
Print Assumptions C28_new_target_partial.

(** Refuted: all messages since the first connection of the client. The client saw
    no message of the target in its first session, another client did, and the client
    misses the message that comes when it is away. *)
Theorem C28_first_session_refuted : exists es0 es1 c t,
  careful 10 c dinit (es0 ++ es1) /\
  connected (fst (drun 10 dinit es0)) c /\
  connected (fst (drun 10 dinit (es0 ++ es1))) c /\
  log_of (fst (drun 10 dinit es0)) t = [Lmsg 100 true] /\
  all_chat (fst (drun 10 dinit (es0 ++ es1))) t = [100; 101]%N /\
  got c t (snd (drun 10 dinit (es0 ++ es1))) = [].
Proof.
  exists [EConnect 1 11 false; EMsg 7 (Lmsg 100 true) None; EPong 1; EConnect 2 10 false]%N,
         [EDisconnect 2; EMsg 7 (Lmsg 101 true) None; EConnect 3 10 false]%N, 10%N, 7%N.
  split; [apply Proof.Delivery.carefulb_ok; vm_compute; reflexivity|].
  split; [vm_compute; eexists; split; [right; left; reflexivity|reflexivity]|].
  split; [vm_compute; eexists; split; [right; left; reflexivity|reflexivity]|].
  vm_compute. repeat split; reflexivity.
Qed.
Print Assumptions C28_first_session_refuted.

(** Refuted: the same with updates of the network. The receipts of the clients
    that are away are lost with an update. *)
Theorem C28_update_network_refuted : exists es0 es1 c t,
  careful 10 c dinit es0 /\
  careful 10 c (fst (drun 10 dinit (es0 ++ [EUpdateNetwork]))) es1 /\
  connected (fst (drun 10 dinit (es0 ++ EUpdateNetwork :: es1))) c /\
  all_chat (fst (drun 10 dinit (es0 ++ EUpdateNetwork :: es1))) t = [100; 101; 102]%N /\
  got c t (snd (drun 10 dinit (es0 ++ EUpdateNetwork :: es1))) = [100; 102]%N.
Proof.
  exists [EConnect 1 10 false; EMsg 7 (Lmsg 100 true) None; EPong 1; EDisconnect 1]%N,
         [EMsg 7 (Lmsg 101 true) None; EConnect 2 10 false; EMsg 7 (Lmsg 102 true) None]%N, 10%N, 7%N.
  split; [apply Proof.Delivery.carefulb_ok; vm_compute; reflexivity|].
  split; [apply Proof.Delivery.carefulb_ok; vm_compute; reflexivity|].
  split; [vm_compute; eexists; split; [left; reflexivity|reflexivity]|].
  vm_compute. repeat split; reflexivity.
Qed.
Print Assumptions C28_update_network_refuted.

(** Two clients, one of which goes away and comes back after a restart. *)
Definition ex_run : list dev :=
  [EConnect 1 10 false; EMsg 7 (Lmsg 100 true) None; EPong 1; EMsg 7 (Lmsg 101 true) (Some 1%N); EPong 1;
   EConnect 2 11 false; EDisconnect 1; EMsg 7 (Lmsg 102 true) None; EMsg 7 (Lmsg 103 false) None; EMsg 8 (Lmsg 200 true) (Some 2%N);
   EPong 2; EPong 2; ERestart; EMsg 7 (Lmsg 104 true) None; EConnect 3 10 false; EMsg 8 (Lmsg 201 true) None]%N.

Example C28_nonvacuous :
  careful 10 10 dinit ex_run /\
  connected (fst (drun 10 dinit ex_run)) 10 /\
  got 10 7 (snd (drun 10 dinit ex_run)) = [100; 101; 102; 104]%N /\
  got 10 8 (snd (drun 10 dinit ex_run)) = [200; 201]%N /\
  got 11 7 (snd (drun 10 dinit ex_run)) = [102]%N /\
  all_chat (fst (drun 10 dinit ex_run)) 7 = [100; 101; 102; 104]%N /\
  (* the hypotheses of C28_new_target_partial, for the target 8 *)
  (let '(s0, outs0) := drun 10 dinit (firstn 7 ex_run) in
   s_conns s0 = [Dconn 2 11 false []] /\ got 10 7 outs0 = [100; 101]%N /\ log_of s0 8 = []).
Proof.
  split; [apply Proof.Delivery.carefulb_ok; vm_compute; reflexivity|].
  split; [vm_compute; eexists; split; [left; reflexivity|reflexivity]|].
  vm_compute. repeat split; reflexivity.
Qed.
