(** C101: nobody waits for ever, while commands are about users who are not administrators. *)
From Coq Require Import Lia.
From Verif.Base Require Import Bytes.
From Verif.Model Require Import Wait.
From Verif.Proof Require Wait.
From Verif.Spec Require Import Wait.
Open Scope nat_scope.

Section C101.
  Variable users : list N.
  Variable administrator : N -> bool.
  Hypothesis users_once : NoDup users.
  Notation calm := (calm users administrator).
  Notation working := (working users administrator).

  (** However the goroutines are interleaved: without new messages only so many steps
      are possible, and while not everybody is at rest one is. *)
  Theorem C101_steps h s : all_along users calm start h -> run users start h = Some s ->
    exists n, forall l s', all_along users working s l -> run users s l = Some s' -> length l <= n /\
      (at_rest users s' \/ exists x s2, working s' x /\ step users s' x = Some s2).
  Proof. intros A R. exact (proj1 (Proof.Wait.calm_rest users administrator users_once h s A R)). Qed.

  Theorem C101_rest h s : all_along users calm start h -> run users start h = Some s ->
    exists l s', all_along users working s l /\ run users s l = Some s' /\ at_rest users s'.
  Proof. intros A R. exact (proj2 (Proof.Wait.calm_rest users administrator users_once h s A R)). Qed.
End C101.
Print Assumptions C101_steps.
Print Assumptions C101_rest.

Definition both (u : N) : bool := N.eqb u 1 || N.eqb u 2.
Lemma both_spec u : both u = true -> u = 1%N \/ u = 2%N.
Proof. unfold both. intro H. apply orb_true_iff in H. destruct H as [H|H]; apply N.eqb_eq in H; auto. Qed.
Lemma both_false u : both u = false -> N.eqb u 1 = false /\ N.eqb u 2 = false.
Proof. unfold both. apply orb_false_iff. Qed.
Definition after (l : list label) : sys := match run [1; 2]%N start l with Some s => s | None => start end.

Lemma after_JD l f : (forall u, both u = true -> s_pc (after l) u = f u) -> s_done (after l) = [] ->
  (forall x, N.eqb x 1 = false -> N.eqb x 2 = false -> s_pc (after l) x = Idle /\ s_q (after l) x = []) -> Proof.Wait.JD both f (after l).
Proof.
  intros P D O. split; [exact P|]. split; [rewrite D; intros t []|]. split; intros x t X; destruct (both_false x X) as [X1 X2]; destruct (O x X1 X2) as [Ep Eq]; rewrite ?Ep, ?Eq; intros [].
Qed.

(** Two administrators update each other. *)
Definition l_two : list label := [LPush 1 (CUpdate 2); LPush 2 (CUpdate 1); LGo 1; LGo 2; LGo 1; LGo 2; LGo 1; LGo 2]%N.
Theorem C101_each_other_refuted : exists l s, sent l = [(1, CUpdate 2); (2, CUpdate 1)]%N /\ ended l = [] /\ gave_up l = [] /\
  run [1; 2]%N start l = Some s /\ stuck [1; 2]%N s 1 /\ stuck [1; 2]%N s 2.
Proof.
  exists l_two, (after l_two). do 3 (split; [reflexivity|]). split; [vm_compute; reflexivity|].
  set (f := fun u : N => if N.eqb u 1 then Wait None 2 (WDone (1, 0)%N) else Wait None 1 (WDone (2, 0)%N)).
  assert (forall u, both u = true -> Proof.Wait.held both (f u)) as H.
  { intros u U. right. destruct (both_spec u U) as [-> | ->]; [exists None, 2%N, (1, 0)%N|exists None, 1%N, (2, 0)%N]; split; reflexivity. }
  assert (Proof.Wait.JD both f (after l_two)) as J.
  { apply after_JD.
    - intros u U. destruct (both_spec u U) as [-> | ->]; vm_compute; reflexivity.
    - vm_compute. reflexivity.
    - intros x X1 X2. cbn. unfold upd. rewrite ?X1, ?X2. auto. }
  split; apply (Proof.Wait.stuck_update _ both f (after l_two)); try assumption; try reflexivity; discriminate.
Qed.
Print Assumptions C101_each_other_refuted.

(** The goroutine of the updated user ends before it has answered. *)
Definition l_end : list label := [LPush 2 (CLocal 0); LGo 2; LPush 1 (CUpdate 2); LGo 1; LGo 1; LGo 1; LCrash 2]%N.
Theorem C101_ended_refuted : exists l s, sent l = [(2, CLocal 0); (1, CUpdate 2)]%N /\ ended l = [2%N] /\ gave_up l = [] /\
  run [1; 2]%N start l = Some s /\ stuck [1; 2]%N s 1.
Proof.
  exists l_end, (after l_end). do 3 (split; [reflexivity|]). split; [vm_compute; reflexivity|].
  set (f := fun u : N => if N.eqb u 1 then Wait None 2 (WDone (1, 0)%N) else Gone).
  apply (Proof.Wait.stuck_update _ both f (after l_end)); [| |reflexivity|discriminate].
  - intros u U. destruct (both_spec u U) as [-> | ->]; [right; exists None, 2%N, (1, 0)%N; split; reflexivity|left; reflexivity].
  - apply after_JD.
    + intros u U. destruct (both_spec u U) as [-> | ->]; vm_compute; reflexivity.
    + vm_compute. reflexivity.
    + intros x X1 X2. cbn. unfold upd. rewrite ?X1, ?X2. auto.
Qed.
Print Assumptions C101_ended_refuted.

(** A command run for somebody, of which the administrator does not await the result. *)
Definition l_run : list label := [LPush 1 (CRun 2 (CLocal 1)); LGo 1; LGo 1; LGo 1; LGiveUp 1; LGo 2; LGo 2; LGo 2]%N.
Theorem C101_unheard_refuted : exists l s, sent l = [(1, CRun 2 (CLocal 1))]%N /\ ended l = [] /\ gave_up l = [1%N] /\
  run [1; 2]%N start l = Some s /\ stuck [1; 2]%N s 2.
Proof.
  exists l_run, (after l_run). do 3 (split; [reflexivity|]). split; [vm_compute; reflexivity|].
  apply (Proof.Wait.stuck_put _ 2%N (1, 0)%N true Idle). split; [vm_compute; reflexivity|]. split; [vm_compute; auto|]. split; [|vm_compute; reflexivity].
  intros x. destruct (N.eq_dec x 1) as [->|X1]; [vm_compute; auto|]. destruct (N.eq_dec x 2) as [->|X2]; [vm_compute; auto|].
  apply N.eqb_neq in X1, X2. cbn. unfold upd. rewrite ?X1, ?X2. auto.
Qed.
Print Assumptions C101_unheard_refuted.

(** A message to everybody by somebody with 64 messages waiting: the lock of the server
    is never released either, and nobody can log in any more. *)
Definition l_cast : list label := [LPush 1 CCast; LGo 1]%N ++ repeat (LPush 1 (CLocal 0)) 64 ++ [LGo 1]%N.
Theorem C101_everybody_refuted : exists l s, sent l = (1%N, CCast) :: repeat (1%N, CLocal 0) 64 /\ ended l = [] /\ gave_up l = [] /\
  run [1; 2]%N start l = Some s /\ stuck [1; 2]%N s 1 /\ forall l' s', run [1; 2]%N s l' = Some s' -> s_lock s' = Some 1%N.
Proof.
  exists l_cast, (after l_cast). do 3 (split; [vm_compute; reflexivity|]). split; [vm_compute; reflexivity|].
  apply (Proof.Wait.stuck_cast _ 1%N [2%N]). split; [vm_compute; reflexivity|]. split; [vm_compute; lia|]. split; [vm_compute; reflexivity|].
  intros x X1. apply N.eqb_neq in X1. cbn. unfold upd. rewrite ?X1. reflexivity.
Qed.
Print Assumptions C101_everybody_refuted.

(** Deleting oneself. *)
Definition l_self : list label := [LPush 1 (CDelete 1); LGo 1; LGo 1; LGo 1]%N.
Theorem C101_oneself_refuted : exists l s, sent l = [(1, CDelete 1)]%N /\ ended l = [] /\ gave_up l = [] /\
  run [1; 2]%N start l = Some s /\ stuck [1; 2]%N s 1.
Proof.
  exists l_self, (after l_self). do 3 (split; [reflexivity|]). split; [vm_compute; reflexivity|].
  apply Proof.Wait.stuck_self. vm_compute. reflexivity.
Qed.
Print Assumptions C101_oneself_refuted.

(** An administrator runs a command for a user and updates them, both send messages,
    and another administrator sends a notice to everybody. *)
Definition l_calm : list label :=
  [LPush 1 (CRun 2 (CLocal 3)); LPush 1 (CUpdate 2); LPush 2 (CLocal 1); LPush 3 CNotice; LGo 1; LGo 3; LGo 3; LGo 3; LGo 2; LGo 2]%N.
Example C101_nonvacuous :
  all_along [1; 2; 3]%N (calm [1; 2; 3]%N (fun u => negb (N.eqb u 2))) start l_calm
  /\ (exists s, run [1; 2; 3]%N start l_calm = Some s /\ ~ at_rest [1; 2; 3]%N s /\ s_lock s = Some 3%N)
  /\ exists more s, all_along [1; 2; 3]%N (working [1; 2; 3]%N (fun u => negb (N.eqb u 2))) (match run [1; 2; 3]%N start l_calm with Some s => s | None => start end) more
       /\ run [1; 2; 3]%N start (l_calm ++ more) = Some s /\ at_rest [1; 2; 3]%N s.
Proof.
  split; [vm_compute; repeat split; auto; tauto|]. split.
  - eexists. split; [vm_compute; reflexivity|]. split; [|vm_compute; reflexivity]. intro H. destruct (H 1%N) as [H1 _]; [left; reflexivity|]. discriminate.
  - exists ([LGo 3; LGo 3; LGo 3] ++ repeat (LGo 1) 2 ++ [LGo 2; LGo 2; LGo 2] ++ concat (repeat [LGo 2; LGo 1] 4) ++ repeat (LGo 1) 3 ++ [LGo 2; LGo 1; LGo 1; LGo 3])%N.
    eexists. split; [vm_compute; repeat split; auto; tauto|]. split; [vm_compute; reflexivity|].
    intros u [<-|[<-|[<-|[]]]]; vm_compute; auto.
Qed.
