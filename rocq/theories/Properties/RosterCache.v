(** Property C76. *)
From Verif.Base Require Import Bytes.
From Verif.Model Require Import Message CaseMap Membership Modes Roster.
From Verif.Spec Require Import Membership Modes Roster.
From Verif.Proof Require RosterCache.
From Verif.Properties Require Import Roster.
Open Scope nat_scope.

(** C76: whenever the bouncer answers a WHO on its own, the answer is what the
    server would say: the named user, or members of the named channel, with the
    values of the requested fields; and all members once the list has been
    ended. Partial: for plain servers, without monitored users, and except for
    our own account and away state (see the refutations below). *)
Theorem C76_who_partial :
  forall t multi ext,
    NoDup (map mb_prefix (t_avail t)) -> ~ In " "%char (map mb_prefix (t_avail t)) ->
  forall s l s' nick, fresh t s nick -> runs t multi ext true s l s' ->
    exists r, on_events l (new_rst t nick) = Some (r, true) /\
      forall mask fields answer, cached_who r mask fields = Some answer ->
        who_right t s' mask (match fields with [] => B "cuhsnfdr" | _ => fields end) answer.
Proof. exact Proof.RosterCache.who_ok. Qed.
Print Assumptions C76_who_partial.

Definition w_ann := UUser (B "ann") (B "a") (B "ha") (B "srv") (B "H") (B "0") (B "Ann").
Definition w_bob := UUser (B "bob") (B "b") (B "hb") (B "srv") (B "H") (B "0") (B "Bob").
Definition w_rob := UUser (B "Rob") (B "b") (B "hb") (B "srv") (B "H") (B "0") (B "Bob").
Definition w_eve := UUser (B "eve") (B "e") (B "he") (B "srv") (B "G") (B "E") (B "Eve").

Lemma who_step plain s id u i : sv_users s id = Some u -> who_entry tab u i -> sstep tab true true plain s [RWho i] s.
Proof. intros. eapply SWho; eassumption. Qed.

Ltac entry := unfold who_entry; split; [reflexivity|]; repeat (split; [right; reflexivity|]); right; reflexivity.

(** Beside it: the run of C44, followed by a WHO on the channel, after which bob
    (now Rob) comes back and eve leaves the account. *)
Definition eve2 := su_with_account eve None.
Definition s7 := Spec.Roster.with_users s6 (upd (sv_users s6) 2 (Some eve2)).
Definition who_events : list revent := events ++ [RWho w_ann] ++ [RWho w_rob] ++ [RWho w_eve] ++ [from eve (B "ACCOUNT") [B "*"]].

Lemma who_runs : runs tab true true true start who_events s7.
Proof.
  unfold who_events. rewrite !app_assoc. eapply RunsStep.
  - eapply RunsStep; [|apply (who_step true s6 2 eve); [reflexivity|entry]].
    eapply RunsStep; [|apply (who_step true s6 1 (su_with_nick bob (B "Rob"))); [reflexivity|entry]].
    eapply RunsStep; [|apply (who_step true s6 0 ann); [reflexivity|entry]]. exact start_runs.
  - apply (SAccount tab true true true s6 2 eve None true).
    + reflexivity.
    + discriminate.
    + reflexivity.
    + intros _ _. right. exists (B "#c"). split; vm_compute; discriminate.
Qed.

Example C76_nonvacuous :
  fresh tab start (B "ann") /\ runs tab true true true start who_events s7 /\ sv_listed s7 (B "#c") = true /\
  exists r, on_events who_events (new_rst tab (B "ann")) = Some (r, true) /\
    cached_who r (B "#C") [] = Some [w_ann; w_rob; UUser (B "eve") (B "e") (B "he") (B "srv") (B "G") (B "*") (B "Eve")] /\
    cached_who r (B "Eve") (B "naf") = Some [UUser (B "eve") (B "e") (B "he") (B "srv") (B "G") (B "*") (B "Eve")].
Proof.
  split; [exact start_fresh|]. split; [exact who_runs|]. split; [reflexivity|]. eexists. split; [vm_compute; reflexivity|].
  split; vm_compute; reflexivity.
Qed.

(** C76 does not hold of a channel whose members have not been listed yet: the
    answer is an empty one, although bob is a member. *)
Theorem C76_unlisted_refuted :
  exists s l s' r, fresh tab s (B "ann") /\ runs tab true true true s l s' /\ on_events l (new_rst tab (B "ann")) = Some (r, true) /\
    cached_who r (B "#c") [] = Some [] /\ inside s' (B "#c") 1.
Proof.
  exists start, [RMsg (join_message true ann (B "#C")) (su_prefix ann)], s1. eexists. split; [exact start_fresh|].
  split; [apply (RunsStep _ _ _ _ _ []) with (s1 := start); [apply RunsNil|exact step1]|]. split; [vm_compute; reflexivity|].
  split; [vm_compute; reflexivity|vm_compute; discriminate].
Qed.
Print Assumptions C76_unlisted_refuted.

(** Nor of our own away state. *)
Theorem C76_own_away_refuted :
  exists s l s' r u i, fresh tab s (B "ann") /\ runs tab true true true s l s' /\ on_events l (new_rst tab (B "ann")) = Some (r, true) /\
    sv_users s' me = Some u /\ su_away u = true /\ cached_who r (B "ann") (B "nf") = Some [i] /\ uu_flags i = B "H".
Proof.
  exists start, ([RMsg (join_message true ann (B "#C")) (su_prefix ann)] ++ []),
    (Spec.Roster.with_users s1 (upd (sv_users s1) me (Some (su_with_away ann true)))). eexists _, _, _. split; [exact start_fresh|].
  split.
  - apply RunsStep with (s1 := s1); [apply (RunsStep _ _ _ _ _ []) with (s1 := start); [apply RunsNil|exact step1]|].
    apply (SAway tab true true true s1 me ann (Some (B "out")) false); [reflexivity|congruence|intros _ H; discriminate H].
  - split; [vm_compute; reflexivity|]. split; [reflexivity|]. split; [reflexivity|]. split; vm_compute; reflexivity.
Qed.
Print Assumptions C76_own_away_refuted.

(** Nor of the host of a user, which CHGHOST changes. *)
Lemma plainly s l s' : sstep tab true true true s l s' -> sstep tab true true false s l s'.
Proof.
  intros H. destruct H; [eapply SConnect|eapply SJoin|eapply SJoinMe|eapply SNames|eapply SNamesEnd|eapply SPart|eapply SKick|eapply SQuit|eapply SNick
    |eapply SMode|eapply SModeIs|eapply SSetname|eapply SAccount|eapply SAway|eapply SChghost|eapply SWho|eapply SMonitor|eapply SUnmonitor];
    try eassumption; try discriminate; try (intros H0; discriminate H0); reflexivity.
Qed.

Definition host_events : list revent :=
  [RMsg (join_message true ann (B "#C")) (su_prefix ann)] ++ [by_server p_srv (B "353") [B "ann"; B "="; B "#c"; B "ann @+bob"]] ++
  [by_server p_srv (B "366") [B "ann"; B "#c"; B "End"]] ++ [RWho w_bob] ++ [from bob (B "CHGHOST") [B "b"; B "cloak"]].

Theorem C76_host_refuted :
  exists s l s' r u i, fresh tab s (B "ann") /\ runs tab true true false s l s' /\ on_events l (new_rst tab (B "ann")) = Some (r, true) /\
    sharing s' 1 /\ sv_users s' 1 = Some u /\ su_nick u = B "bob" /\ su_host u = B "cloak" /\
    cached_who r (B "bob") (B "nh") = Some [i] /\ uu_host i = B "hb".
Proof.
  exists start, host_events, (Spec.Roster.with_users s3 (upd (sv_users s3) 1 (Some (su_with_host bob (B "b") (B "cloak"))))). eexists _, _, _.
  split; [exact start_fresh|]. split.
  - unfold host_events. rewrite !app_assoc. eapply RunsStep.
    + eapply RunsStep; [|apply (who_step false s3 1 bob); [reflexivity|entry]]. eapply RunsStep; [|exact (plainly _ _ _ step3)].
      eapply RunsStep; [|exact (plainly _ _ _ step2)]. eapply (RunsStep _ _ _ _ _ []); [apply RunsNil|exact (plainly _ _ _ step1)].
    + apply (SChghost tab true true false s3 1 bob (B "b") (B "cloak") true); reflexivity.
  - split; [vm_compute; reflexivity|]. split; [exists (B "#c"); split; vm_compute; discriminate|]. split; [reflexivity|]. split; [reflexivity|].
    split; [reflexivity|]. split; vm_compute; reflexivity.
Qed.
Print Assumptions C76_host_refuted.

(** Nor of monitored users: eve is still described after the server has said
    that eve is gone. *)
Definition monitor_events : list revent :=
  [by_server p_srv (B "730") [B "ann"; B "eve!e@he"]] ++ [RWho w_eve] ++ [] ++ [by_server p_srv (B "731") [B "ann"; B "eve"]].

Definition gone := Server (upd (sv_users start) 2 None) (fun k => upd (sv_in start k) 2 None) (sv_told start) (sv_listed start).

Theorem C76_monitor_refuted :
  exists s l s' r, fresh tab s (B "ann") /\ runs tab true true false s l s' /\ on_events l (new_rst tab (B "ann")) = Some (r, true) /\
    (forall id u, sv_users s' id = Some u -> su_nick u <> B "eve") /\ cached_who r (B "eve") [] = Some [w_eve].
Proof.
  exists start, monitor_events, gone. eexists. split; [exact start_fresh|]. split.
  - unfold monitor_events. rewrite !app_assoc. eapply RunsStep.
    + eapply RunsStep.
      * eapply RunsStep; [|apply (who_step false start 2 eve); [reflexivity|entry]].
        eapply (RunsStep _ _ _ _ _ []); [apply RunsNil|]. apply (SMonitor tab true true false start p_srv (B "ann") (B "eve!e@he") (B "730")); [reflexivity|left; reflexivity].
      * apply (SQuit tab true true false start 2 eve [] false); [discriminate|reflexivity|].
        intros (k & I & _). exfalso. apply I. cbn. destruct (beqb k _); reflexivity.
    + apply (SMonitor tab true true false gone p_srv (B "ann") (B "eve") (B "731")); [reflexivity|right; left; reflexivity].
  - split; [vm_compute; reflexivity|]. split; [|vm_compute; reflexivity].
    intros id u Hu. destruct id as [|[|[|id]]]; try discriminate Hu; injection Hu as <-; discriminate.
Qed.
Print Assumptions C76_monitor_refuted.
