(** Property C44. *)
From Verif.Base Require Import Bytes.
From Verif.Model Require Import Message CaseMap Membership Modes Roster.
From Verif.Spec Require Import Membership Modes Roster.
From Verif.Proof Require Roster.
Open Scope nat_scope.

(** C44: whatever happens on a server since we connected, no message is refused,
    the bouncer knows our nickname, it has exactly the channels we are in, every
    member it has is a member (with the right statuses, if the server lists
    all), and once the list of members has been ended it has all of them. *)
Theorem C44_mirror :
  forall t multi ext plain,
    NoDup (map mb_prefix (t_avail t)) -> ~ In " "%char (map mb_prefix (t_avail t)) ->
  forall s l s' nick, fresh t s nick -> runs t multi ext plain s l s' ->
    exists r, on_events l (new_rst t nick) = Some (r, true) /\
      (exists u, sv_users s' me = Some u /\ r_nick r = su_nick u) /\
      forall name, match cm_get (r_chans r) name with
      | None => ~ inside s' (casemap (t_cm t) name) me
      | Some c => inside s' (casemap (t_cm t) name) me /\ uh_complete c = sv_listed s' (casemap (t_cm t) name) /\
          NoDup (map fst (cm_entries (uh_members c))) /\
          (forall n ms, In (n, ms) (cm_entries (uh_members c)) -> member t multi s' name n ms) /\
          (uh_complete c = true -> forall n ms, member t multi s' name n ms ->
             exists ms', In (n, ms') (cm_entries (uh_members c)) /\ (multi = true -> ms' = ms))
      end.
Proof. exact Proof.Roster.mirror. Qed.
Print Assumptions C44_mirror.

(** Beside it: ann is connected, bob is the operator of #C and has a voice. Ann
    joins, bob changes the nickname, ann is made operator, bob loses the
    operator status, eve joins. *)
Definition op := Membership "o" "@".
Definition voice := Membership "v" "+".
Definition tab := Tables CmRFC1459 [op; voice] [] (B "#") None true true.
Definition ann := SUser (B "ann") (B "a") (B "ha") (B "srv") None (B "Ann") false false false.
Definition bob := SUser (B "bob") (B "b") (B "hb") (B "srv") None (B "Bob") false false false.
Definition eve := SUser (B "eve") (B "e") (B "he") (B "srv") (Some (B "E")) (B "Eve") true false false.
Definition start : server := Server
  (fun i => match i with 0 => Some ann | 1 => Some bob | 2 => Some eve | _ => None end)
  (fun k i => if beqb k (B "#c") then match i with 1 => Some (fun m => mb_eqb m op || mb_eqb m voice) | _ => None end else None)
  (fun _ _ => false) (fun _ => false).

Lemma start_fresh : fresh tab start (B "ann").
Proof.
  split.
  - exists ann. split; reflexivity.
  - intros k. cbn. destruct (beqb k _); reflexivity.
  - intros k i. unfold inside. cbn. destruct (beqb k _); [|congruence]. destruct i as [|[|i]]; cbn; congruence.
  - intros i j u v Hi Hj E. destruct i as [|[|[|i]]], j as [|[|[|j]]]; try reflexivity; try discriminate Hi; try discriminate Hj;
      injection Hi as <-; injection Hj as <-; vm_compute in E; discriminate.
  - intros i u Hi. destruct i as [|[|[|i]]]; try discriminate Hi; injection Hi as <-;
      (split; [discriminate|split; [vm_compute; intuition congruence|intros c r E; injection E as <- _; vm_compute; intuition congruence]]).
  - intros k i st m Hi. cbn in Hi. destruct (beqb k _); [|discriminate]. destruct i as [|[|i]]; try discriminate. injection Hi as <-.
    rewrite orb_true_iff. intros [H|H]; apply Proof.Membership.mb_eqb_eq in H as ->; cbn; auto.
Qed.

Definition p_srv := Prefix (B "srv") [] [].
Definition events : list revent :=
  [RMsg (join_message true ann (B "#C")) (su_prefix ann)] ++
  [by_server p_srv (B "353") [B "ann"; B "="; B "#c"; B "ann @+bob"]] ++
  [by_server p_srv (B "366") [B "ann"; B "#c"; B "End"]] ++
  [from bob (B "NICK") [B "Rob"]] ++
  [by_server p_srv (B "MODE") [B "#c"; B "+o-o"; B "ann"; B "rob"]] ++
  [RMsg (join_message true eve (B "#c")) (su_prefix eve); from eve (B "AWAY") [B "out"]].


(** The server after each of these. *)
Definition set_in (s : server) f := Server (sv_users s) f (sv_told s) (sv_listed s).
Definition s1 := Server (sv_users start) (updk (sv_in start) (B "#c") (upd (sv_in start (B "#c")) me (Some (fun _ => false))))
  (updk (sv_told start) (B "#c") (fun _ => false)) (updk (sv_listed start) (B "#c") false).
Definition s2 := Server (sv_users s1) (sv_in s1) (updk (sv_told s1) (B "#c") (fun i => existsb (Nat.eqb i) [0; 1] || sv_told s1 (B "#c") i)) (sv_listed s1).
Definition s3 := Server (sv_users s2) (sv_in s2) (sv_told s2) (updk (sv_listed s2) (B "#c") true).
Definition s4 := Spec.Roster.with_users s3 (upd (sv_users s3) 1 (Some (su_with_nick bob (B "Rob")))).
Definition s5 := set_in s4 (updk (sv_in s4) (B "#c") (fun id =>
  match sv_users s4 id, sv_in s4 (B "#c") id with
  | Some u, Some st => Some (after_ops (status_changes (t_avail tab) (t_modes tab) (B "+o-o") [B "ann"; B "rob"] None (t_cm tab) (su_nick u)) st)
  | _, x => x
  end)).
Definition s6 := Server (sv_users s5) (updk (sv_in s5) (B "#c") (upd (sv_in s5 (B "#c")) 2 (Some (fun _ => false))))
  (updk (sv_told s5) (B "#c") (upd (sv_told s5 (B "#c")) 2 true)) (sv_listed s5).

Lemma chan_c : valid_chan tab (B "#c").
Proof. split; [vm_compute; intuition congruence|exists "#"%char, (B "c"); split; [reflexivity|left; reflexivity]]. Qed.
Lemma key_c : casemap (t_cm tab) (B "#c") = B "#c". Proof. reflexivity. Qed.
Lemma key_C : casemap (t_cm tab) (B "#C") = B "#c". Proof. reflexivity. Qed.

Lemma step1 : sstep tab true true true start [RMsg (join_message true ann (B "#C")) (su_prefix ann)] s1.
Proof.
  pose proof (SJoinMe tab true true true start ann (B "#C") (fun _ => false)) as H. cbv beta zeta in H. rewrite key_C in H. apply H.
  - reflexivity.
  - split; [vm_compute; intuition congruence|exists "#"%char, (B "C"); split; [reflexivity|left; reflexivity]].
  - reflexivity.
  - discriminate.
Qed.

Lemma step2 : sstep tab true true true s1 [by_server p_srv (B "353") [B "ann"; B "="; B "#c"; B "ann @+bob"]] s2.
Proof.
  pose proof (SNames tab true true true s1 p_srv (B "ann") (B "=") (B "#c") [0; 1] [B "ann"; B "@+bob"]) as H. cbv beta zeta in H. rewrite key_c in H. apply H.
  - vm_compute; discriminate.
  - reflexivity.
  - left; reflexivity.
  - constructor; [|constructor; [|constructor]].
    + exists ann, (fun _ => false), []. split; [reflexivity|]. split; [reflexivity|]. split; [constructor|]. split; [|reflexivity].
      intros _ m. split; [intros []|discriminate].
    + exists bob, (fun m => mb_eqb m op || mb_eqb m voice), [op; voice]. split; [reflexivity|]. split; [reflexivity|].
      split; [apply IoTake; apply IoTake; constructor|]. split; [|reflexivity].
      intros _ m. rewrite orb_true_iff, !Proof.Membership.mb_eqb_eq. cbn. intuition congruence.
Qed.

Lemma in_c i : inside s3 (B "#c") i -> i = 0 \/ i = 1.
Proof. intros H. destruct i as [|[|i]]; auto. exfalso. apply H. reflexivity. Qed.

Lemma step3 : sstep tab true true true s2 [by_server p_srv (B "366") [B "ann"; B "#c"; B "End"]] s3.
Proof.
  pose proof (SNamesEnd tab true true true s2 p_srv (B "ann") (B "#c") (B "End")) as H. cbv beta zeta in H. rewrite key_c in H. apply H.
  - vm_compute; discriminate.
  - reflexivity.
  - intros i Hi. destruct (in_c i Hi) as [-> | ->]; reflexivity.
Qed.

Lemma step4 : sstep tab true true true s3 [from bob (B "NICK") [B "Rob"]] s4.
Proof.
  apply (SNick tab true true true s3 1 bob (B "Rob") true).
  - reflexivity.
  - split; [discriminate|split; [vm_compute; intuition congruence|intros c r E; injection E as <- _; vm_compute; intuition congruence]].
  - intros j u Hj Hu E. destruct j as [|[|[|j]]]; [injection Hu as <-|congruence|injection Hu as <-|discriminate Hu]; vm_compute in E; discriminate.
  - reflexivity.
  - reflexivity.
  - intros _ _. right. exists (B "#c"). split; vm_compute; discriminate.
Qed.

Lemma step5 : sstep tab true true true s4 [by_server p_srv (B "MODE") [B "#c"; B "+o-o"; B "ann"; B "rob"]] s5.
Proof.
  pose proof (SMode tab true true true s4 p_srv (B "#c") (B "+o-o") [B "ann"; B "rob"]) as H. cbv beta zeta in H. rewrite key_c in H.
  assert (E : exists st, sv_in s4 (B "#c") me = Some st) by (eexists; reflexivity). destruct E as [st E]. rewrite E in H. apply H.
  - exact chan_c.
  - split.
    + intros (i & c & Hi & Hc & Hs). destruct i as [|[|[|[|[|i]]]]]; cbn in Hi; try (destruct i; discriminate Hi); try discriminate Hs.
      injection Hi as <-. apply Hc. left. reflexivity.
    + intros i c mb Hi Hc Hf. destruct i as [|[|[|[|[|i]]]]]; cbn in Hi; try (destruct i; discriminate Hi); try (vm_compute; discriminate);
      injection Hi as <-; discriminate Hf.
Qed.

Lemma step6 : sstep tab true true true s5 [RMsg (join_message true eve (B "#c")) (su_prefix eve); from eve (B "AWAY") [B "out"]] s6.
Proof.
  pose proof (SJoin tab true true true s5 2 eve (B "#c") (Some (B "out"))) as H. cbv beta zeta in H. rewrite key_c in H.
  assert (E : exists st, sv_in s5 (B "#c") me = Some st) by (eexists; reflexivity). destruct E as [st E]. rewrite E in H. apply H.
  - discriminate.
  - reflexivity.
  - exact chan_c.
  - reflexivity.
  - reflexivity.
  - discriminate.
Qed.

Lemma start_runs : runs tab true true true start events s6.
Proof.
  unfold events. rewrite !app_assoc. eapply RunsStep; [|exact step6]. eapply RunsStep; [|exact step5]. eapply RunsStep; [|exact step4].
  eapply RunsStep; [|exact step3]. eapply RunsStep; [|exact step2]. eapply (RunsStep _ _ _ _ _ []); [apply RunsNil|exact step1].
Qed.

Example C44_nonvacuous :
  NoDup (map mb_prefix (t_avail tab)) /\ ~ In " "%char (map mb_prefix (t_avail tab)) /\ fresh tab start (B "ann") /\
  runs tab true true true start events s6 /\ sv_listed s6 (B "#c") = true /\
  exists r, on_events events (new_rst tab (B "ann")) = Some (r, true) /\
    option_map (fun c => cm_entries (uh_members c)) (cm_get (r_chans r) (B "#c")) =
      Some [(B "ann", [op]); (B "Rob", [voice]); (B "eve", [])].
Proof.
  split; [repeat constructor; cbn; intuition congruence|]. split; [cbn; intuition congruence|]. split; [exact start_fresh|].
  split; [exact start_runs|]. split; [reflexivity|]. eexists. split; [vm_compute; reflexivity|]. vm_compute. reflexivity.
Qed.
