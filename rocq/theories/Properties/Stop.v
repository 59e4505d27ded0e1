(** C112: the server stops when it is told to. *)
From Verif.Base Require Import Bytes.
From Verif.Model Require Import Stop.
From Verif.Spec Require Import Stop.
From Verif.Proof Require Stop.
From Coq Require Import NArith Lia.

(** As long as nothing needed the lock of the server and no goroutine panicked: whatever
    users there are (in any order), whatever they had to do and however far the end has
    got, without further events every run is short and goes on until the database is closed. *)
Theorem C112_stops_partial users h s :
  NoDup users -> Forall plain h -> run (start users) h = Some s -> s_phase s <> Running -> stops s.
Proof. exact (Proof.Stop.stopping users h s). Qed.
Print Assumptions C112_stops_partial.

(** In every execution, also with the lock and with panics: once the database is closed no
    user's goroutine is left to use it. *)
Theorem C112_closed_last users h s : run (start users) h = Some s -> s_phase s = Closed -> all_gone s.
Proof. apply Proof.Stop.closed_last. discriminate. Qed.
Print Assumptions C112_closed_last.

(** Everything a user was given before the server was told to stop is dealt with, in this
    order, before their goroutine ends and the database is closed; commands that need the
    lock are allowed, panics and new users are not. *)
Theorem C112_handled_partial users h1 h2 s u :
  Forall same_users (h1 ++ h2) -> ~ In Shut h1 -> In u users -> run (start users) (h1 ++ h2) = Some s -> s_phase s = Closed ->
  exists rest, handled u (start users) (h1 ++ h2) = given u h1 ++ rest.
Proof. exact (Proof.Stop.all_handled users h1 h2 s u). Qed.
Print Assumptions C112_handled_partial.

(** With a command that looks up a user (the lock): if the channel of the user who gave
    it is full, the server never stops, whatever happens. *)
Theorem C112_lookup_refuted : exists h s,
  run (start [1; 2]%N) h = Some s /\ (forall u, ~ In (Crash u) h) /\ (forall u w, ~ In (Push u (ECreate w)) h) /\ hangs false s.
Proof.
  pose (h := Push 1%N ELock :: Go 1%N :: repeat (Push 1%N EWork) 64 ++ [Shut]). exists h.
  destruct (run (start [1; 2]%N) h) as [s|] eqn:E; [|vm_compute in E; discriminate E]. exists s. split; [reflexivity|].
  assert (D : forall x, In x h -> x = Push 1%N ELock \/ x = Go 1%N \/ x = Push 1%N EWork \/ x = Shut).
  { intros x [<-|[<-|H]]; auto. apply in_app_or in H. destruct H as [H|[<-|[]]]; auto. apply repeat_spec in H. auto. }
  split; [intros u H; destruct (D _ H) as [F|[F|[F|F]]]; discriminate F|].
  split; [intros u w H; destruct (D _ H) as [F|[F|[F|F]]]; discriminate F|].
  apply (Proof.Stop.jammed_hangs 1%N). vm_compute in E. injection E as <-. eexists. eexists. eexists.
  split; [reflexivity|]. split; [reflexivity|]. split; [discriminate|reflexivity].
Qed.
Print Assumptions C112_lookup_refuted.

(** Likewise when the goroutine of a user panics while the server is stopping, without
    any command that needs the lock. *)
Theorem C112_panic_refuted : exists h s,
  run (start [1; 2]%N) h = Some s /\ (forall u e, In (Push u e) h -> e = EWork) /\ hangs false s.
Proof.
  pose (h := repeat (Push 1%N EWork) 64 ++ [Shut; Crash 1%N; Push 1%N EWork]). exists h.
  destruct (run (start [1; 2]%N) h) as [s|] eqn:E; [|vm_compute in E; discriminate E]. exists s. split; [reflexivity|]. split.
  { intros u e H. apply in_app_or in H. destruct H as [H|[H|[H|[H|[]]]]]; [apply repeat_spec in H; congruence|discriminate H|discriminate H|congruence]. }
  apply (Proof.Stop.jammed_hangs 1%N). vm_compute in E. injection E as <-. eexists. eexists. eexists.
  split; [reflexivity|]. split; [reflexivity|]. split; [discriminate|reflexivity].
Qed.
Print Assumptions C112_panic_refuted.

(** With channels that are nowhere near full: a user who is created while the server is
    stopping is not told to stop, and the server waits for them for ever (unless their
    goroutine panics). *)
Theorem C112_create_refuted : exists h s,
  run (start [1; 2]%N) h = Some s /\ length h <= 8 /\ (forall u, ~ In (Crash u) h) /\ hangs true s.
Proof.
  exists [Push 1%N (ECreate 3%N); Shut; Go 1%N; Shut; Shut; Shut; Go 1%N]. eexists. split; [vm_compute; reflexivity|].
  split; [cbn; lia|]. split; [intros u H; repeat (destruct H as [H|H]; [discriminate H|]); destruct H|].
  apply (Proof.Stop.unaware_hangs 3%N). split; [reflexivity|]. eexists. eexists. split; [reflexivity|]. split; [discriminate|]. intros [].
Qed.
Print Assumptions C112_create_refuted.

(** Three users with work left, one of whose channels is full when the server is told. *)
Example C112_nonvacuous : exists h s s',
  Forall plain h /\ run (start [1; 2; 3]%N) h = Some s /\ s_phase s = Stopping [1; 2; 3]%N /\
  step s Shut = None /\ stops s /\
  run s (repeat (Go 1%N) 3 ++ repeat Shut 3 ++ [Go 2%N; Go 3%N; Go 3%N; Shut] ++ repeat (Go 1%N) 62 ++ [Go 3%N; Go 2%N; Go 1%N; Shut]) = Some s' /\
  s_phase s' = Closed.
Proof.
  pose (h := repeat (Push 1%N EWork) 64 ++ [Push 3%N EWork; Shut]). exists h.
  assert (P : Forall plain h). { apply Forall_app. split; [apply Forall_forall; intros x H; apply repeat_spec in H; subst x; reflexivity|repeat constructor]. }
  destruct (run (start [1; 2; 3]%N) h) as [s|] eqn:E; [|vm_compute in E; discriminate E].
  assert (S : stops s).
  { apply (C112_stops_partial [1; 2; 3]%N h s); [|exact P|exact E|].
    - repeat (constructor; [intros H; repeat (destruct H as [H|H]; [discriminate H|]); destruct H|]). constructor.
    - vm_compute in E. injection E as <-. discriminate. }
  exists s, (Sys [] Closed). split; [exact P|]. split; [reflexivity|]. revert S. vm_compute in E. injection E as <-. intros S. 
  split; [reflexivity|]. split; [reflexivity|]. split; [exact S|]. split; [vm_compute; reflexivity|reflexivity].
Qed.

(** A command that looks up a user, then work, and only then the end. *)
Example C112_handled_nonvacuous :
  let h1 := [Push 1%N ELock; Push 2%N EWork; Push 1%N EWork] in
  let h2 := [Shut; Go 1%N; Shut; Shut; Push 2%N EWork; Shut; Go 1%N; Go 1%N; Go 1%N; Go 2%N; Go 1%N; Go 2%N; Go 2%N; Shut] in
  Forall same_users (h1 ++ h2) /\ ~ In Shut h1 /\ run (start [1; 2]%N) (h1 ++ h2) = Some (Sys [] Closed) /\
  given 1%N h1 = [ELock; EWork] /\ handled 1%N (start [1; 2]%N) (h1 ++ h2) = [ELock; EWork; EStop] /\
  handled 2%N (start [1; 2]%N) (h1 ++ h2) = [EWork; EStop].
Proof.
  split; [repeat constructor|]. split; [intros H; repeat (destruct H as [H|H]; [discriminate H|]); destruct H|].
  repeat split.
Qed.
