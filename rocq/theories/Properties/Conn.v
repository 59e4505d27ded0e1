(** Property C36. *)
From Verif.Base Require Import Bytes.
From Verif.Model Require Import Conn.
From Verif.Spec Require Import Conn.
From Verif.Proof Require Conn.

(** C36: what is written to the network is, at all times and for all
    interleavings, the beginning of the sequence of accepted messages, in order
    of acceptance, each once; nothing accepted after a shutdown request is
    written. Each call of SendMessage or Shutdown is a goroutine of its own. *)
Theorem C36_written_in_order : forall (M : Type) es (c : conn M),
  NoDup (starts es) -> exec conn_new es = Some c ->
  (exists rest, somes (accepted es) = written c ++ rest) /\
  (exists rest, before_shutdown (accepted es) = written c ++ rest).
Proof. intros M es c H1 H2. split; [exact (Proof.Conn.somes_prefix es c H1 H2)|exact (Proof.Conn.written_prefix es c H1 H2)]. Qed.
Print Assumptions C36_written_in_order.

(** C36: when the connection was closed without a call of Close from outside and
    without a write error, a shutdown was requested, and every message accepted
    before it has been written. *)
Theorem C36_graceful_shutdown : forall (M : Type) es (c : conn M),
  NoDup (starts es) -> ~ In CloseStart es /\ ~ In WriterFails es -> exec conn_new es = Some c -> closed c = true ->
  exists q, accepted es = map Some (written c) ++ None :: q.
Proof. intros M. exact Proof.Conn.graceful_all. Qed.
Print Assumptions C36_graceful_shutdown.

(** C36: a message sent after the connection was closed is never accepted. *)
Theorem C36_refused_after_close : forall (M : Type) es1 id m es2 (c1 c2 : conn M),
  NoDup (starts (es1 ++ SendStart id m :: es2)) ->
  exec conn_new es1 = Some c1 -> closed c1 = true ->
  exec c1 (SendStart id m :: es2) = Some c2 -> ~ In (SendAccept id) es2.
Proof. intros M. exact Proof.Conn.refused_after_close. Qed.
Print Assumptions C36_refused_after_close.

(** C36: nothing is written once the underlying connection is closed. *)
Theorem C36_no_write_after_close : forall (M : Type) (c : conn M) es c',
  exec c es = Some c' -> net_closed c = true -> written c' = written c.
Proof. intros M. exact Proof.Conn.no_write_after_close. Qed.
Print Assumptions C36_no_write_after_close.

(** C36: whoever closes, and however often, the underlying connection is closed
    at most once, and so is the channel (closing it twice would panic). *)
Theorem C36_closed_once : forall (M : Type) es (c : conn M),
  exec conn_new es = Some c ->
  length (filter (fun e => match e with CloseConn => true | _ => false end) es) <= 1 /\
  length (filter (fun e => match e with CloseChan => true | _ => false end) es) <= 1.
Proof. intros M. exact Proof.Conn.closed_once. Qed.
Print Assumptions C36_closed_once.

(** Two senders and a shutdown; both messages are written, then the connection
    closes; a third message comes too late. *)
Example C36_nonvacuous :
  let es := [SendStart 1 (Some 10); SendStart 2 (Some 20); SendAccept 2; WriterTake; SendAccept 1; SendStart 3 None;
             WriterWrites; SendAccept 3; WriterTake; WriterWrites; SendStart 4 (Some 30); SendAccept 4; WriterTake;
             WriterCloses; CloseConn; CloseChan; SendStart 5 (Some 40); CloseStart] in
  NoDup (starts es) /\ accepted es = [Some 20; Some 10; None; Some 30] /\
  (~ In CloseStart (removelast es) /\ ~ In WriterFails (removelast es)) /\
  exists c, exec conn_new es = Some c /\ closed c = true /\ net_closed c = true /\ written c = [20; 10].
Proof.
  split; [repeat constructor; cbn; intuition discriminate|]. split; [reflexivity|].
  split; [split; cbn; intuition discriminate|]. eexists. split; [vm_compute; reflexivity|]. repeat split.
Qed.
