(** Property C90: channels are detached when they are quiet, and not before. *)
From Coq Require Import ZArith List Bool.
From Verif.Model Require Import AutoDetach.
From Verif.Proof Require AutoDetach.
From Verif.Spec Require Import AutoDetach.
Import ListNotations.
Local Open Scope Z_scope.

(** C90: when the bouncer detaches a channel by itself, the duration is set and has elapsed since the last activity.
    In executions where events of timers do not cross activity, the user is not kicked, the server sends JOIN once, and
    clients write to the whole channel. *)
Theorem C90_quiet_partial : forall t c os ch, valid c -> orderly (start t c) os ->
  s_chan (run (start t c) os) = Some ch -> c_detached ch = false -> is_detached (run (start t c) (os ++ [Handle])) ->
  0 < c_after ch /\ last (start t c) os t + c_after ch <= s_now (run (start t c) os).
Proof.
  intros t c os ch V O E D X. unfold run in X. rewrite fold_left_app in X.
  exact (Proof.AutoDetach.handled _ _ ch (Proof.AutoDetach.safe_run os _ _ (Proof.AutoDetach.safe_start t c V) O) E D X).
Qed.
Print Assumptions C90_quiet_partial.

(** C90: apart from that, only the user detaches: in all executions. *)
Theorem C90_who_detaches : forall s o, attached s -> is_detached (step s o) ->
  (o = Handle /\ s_pending s <> []) \/ (o = CPartDetach /\ s_conn s = true) \/ (exists a f g, o = SUpdate (Some true) a f g).
Proof. exact Proof.AutoDetach.detaches. Qed.
Print Assumptions C90_who_detaches.

(** C90: a channel that is attached and joined, and whose duration is set, is detached once the duration has
    elapsed since the last activity: its timer is there, and firing it detaches. When channels that are joined are not created
    with the service, and the database works. *)
Theorem C90_detached_partial : forall t c os ch u, valid c -> plain (start t c) os ->
  let s := run (start t c) os in
  s_chan s = Some ch -> c_detached ch = false -> 0 < c_after ch -> s_up s = Some u ->
  exists id, forall d, last (start t c) os t + c_after ch <= s_now s + Z.max 0 d ->
    is_detached (run s [Tick d; Fire id; Handle]).
Proof.
  intros t c os ch u V P s E D A U.
  apply (Proof.AutoDetach.due s (last (start t c) os t) ch u); try assumption.
  - exact (Proof.AutoDetach.live_run os _ _ (Proof.AutoDetach.live_start t c V) P).
  - apply Proof.AutoDetach.fresh_run. split; [intros i d []|constructor].
Qed.
Print Assumptions C90_detached_partial.

(** C90: a detached channel is attached again by a message that -reattach-on selects, and otherwise only by the user. *)
Theorem C90_reattached : forall s h c, s_conn s = true -> s_chan s = Some c -> c_detached c = true ->
  counts false (c_reattach c) h = true -> attached (step s (Msg h)).
Proof. exact Proof.AutoDetach.reattaches. Qed.
Print Assumptions C90_reattached.
Theorem C90_who_attaches : forall s o, is_detached s -> attached (step s o) ->
  (exists h c, o = Msg h /\ s_conn s = true /\ s_chan s = Some c /\ counts false (c_reattach c) h = true) \/
  (o = CJoin /\ s_conn s = true) \/ (exists a f g, o = SUpdate (Some false) a f g).
Proof. exact Proof.AutoDetach.attaches. Qed.
Print Assumptions C90_who_attaches.

(** A channel that is detached after 60 without highlight, and attached again by a message. *)
Definition ex_chan : option chan := Some (Chan false 60 FHighlight FHighlight).
Definition ex_os : list op := [Connect; UJoin; Tick 50; Msg true; Tick 30; Msg false; Tick 30; Fire 1].
Example C90_nonvacuous :
  orderly (start 0 ex_chan) ex_os /\ plain (start 0 ex_chan) ex_os /\
  last (start 0 ex_chan) ex_os 0 = 50 /\ s_now (run (start 0 ex_chan) ex_os) = 110 /\
  attached (run (start 0 ex_chan) ex_os) /\ s_up (run (start 0 ex_chan) ex_os) = Some (Some 1%nat) /\
  is_detached (run (start 0 ex_chan) (ex_os ++ [Handle])) /\
  is_detached (run (start 0 ex_chan) (ex_os ++ [Handle; Msg false])) /\
  attached (run (start 0 ex_chan) (ex_os ++ [Handle; Msg true])) /\
  s_timers (run (start 0 ex_chan) (ex_os ++ [Handle; Msg true])) = [(3%nat, 170)].
Proof.
  split; [cbn; unfold orderly_step; cbn; repeat split; congruence|]. split; [cbn; repeat split|].
  split; [vm_compute; reflexivity|]. split; [vm_compute; reflexivity|]. split; [eexists; split; vm_compute; reflexivity|].
  split; [vm_compute; reflexivity|]. split; [eexists; split; vm_compute; reflexivity|]. split; [eexists; split; vm_compute; reflexivity|].
  split; [eexists; split; vm_compute; reflexivity|]. vm_compute. reflexivity.
Qed.

(** An event of a timer that waits behind a message detaches a channel that has just been active. *)
Theorem C90_race_refuted : exists os, plain (start 0 ex_chan) os /\
  last (start 0 ex_chan) os 0 = s_now (run (start 0 ex_chan) os) /\ attached (run (start 0 ex_chan) os) /\
  is_detached (run (start 0 ex_chan) (os ++ [Handle])).
Proof.
  exists [Connect; UJoin; Tick 60; Fire 0; Msg true]. split; [cbn; repeat split|]. split; [vm_compute; reflexivity|].
  split; eexists; split; vm_compute; reflexivity.
Qed.
Print Assumptions C90_race_refuted.

(** The timer of a channel from which the user was kicked goes on, and detaches the channel when it is joined again. *)
Theorem C90_kick_refuted : exists os, plain (start 0 ex_chan) os /\
  last (start 0 ex_chan) os 0 + 60 > s_now (run (start 0 ex_chan) os) /\ attached (run (start 0 ex_chan) os) /\
  is_detached (run (start 0 ex_chan) (os ++ [Handle])).
Proof.
  exists [Connect; UJoin; Tick 50; UKick; UJoin; Tick 10; Fire 0]. split; [cbn; repeat split|]. split; [vm_compute; reflexivity|].
  split; eexists; split; vm_compute; reflexivity.
Qed.
Print Assumptions C90_kick_refuted.

(** So does the timer of a channel for which the server sends a second JOIN. *)
Theorem C90_join_refuted : exists os, plain (start 0 ex_chan) os /\
  last (start 0 ex_chan) os 0 + 60 > s_now (run (start 0 ex_chan) os) /\ attached (run (start 0 ex_chan) os) /\
  is_detached (run (start 0 ex_chan) (os ++ [Handle])).
Proof.
  exists [Connect; UJoin; Tick 50; UJoin; Tick 10; Fire 0]. split; [cbn; repeat split|]. split; [vm_compute; reflexivity|].
  split; eexists; split; vm_compute; reflexivity.
Qed.
Print Assumptions C90_join_refuted.

(** A message to the operators of the channel is sending, but does not reset the timer. *)
Theorem C90_sigil_refuted : exists os, plain (start 0 ex_chan) os /\
  last (start 0 ex_chan) os 0 + 60 > s_now (run (start 0 ex_chan) os) /\ attached (run (start 0 ex_chan) os) /\
  is_detached (run (start 0 ex_chan) (os ++ [Handle])).
Proof.
  exists [Connect; UJoin; Tick 50; Say true; Tick 10; Fire 0]. split; [cbn; repeat split|]. split; [vm_compute; reflexivity|].
  split; eexists; split; vm_compute; reflexivity.
Qed.
Print Assumptions C90_sigil_refuted.

(** A channel created with a duration while it is joined has no timer; nor has one that the database failed to delete. *)
Theorem C90_create_refuted : exists os,
  let s := run (start 0 None) os in
  attached s /\ s_up s = Some None /\ option_map c_after (s_chan s) = Some 60 /\ s_timers s = [] /\ s_pending s = [].
Proof.
  exists [Connect; UJoin; SCreate 60 FDefault FDefault]. split; [eexists; split; vm_compute; reflexivity|]. vm_compute. auto.
Qed.
Print Assumptions C90_create_refuted.
Theorem C90_delete_refuted : exists os,
  let s := run (start 0 ex_chan) os in
  attached s /\ s_up s = Some None /\ option_map c_after (s_chan s) = Some 60 /\ s_timers s = [] /\ s_pending s = [].
Proof.
  exists [Connect; UJoin; SDelete false]. split; [eexists; split; vm_compute; reflexivity|]. vm_compute. auto.
Qed.
Print Assumptions C90_delete_refuted.
