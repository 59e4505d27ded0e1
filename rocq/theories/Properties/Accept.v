(** C115: soju keeps accepting connections until it is stopped. *)
From Verif.Base Require Import Bytes.
From Verif.Model Require Import Accept.
From Verif.Spec Require Import Accept.
From Verif.Proof Require Accept.
From Coq Require Import NArith Lia.

(** As long as there is no error that ends it, whatever the listener gives is answered, in
    order: connections are handled, each once; after temporary errors it waits, for 5 ms
    after the first in a row and twice as long after each further one, up to a second. *)
Theorem C115_served : forall l i o, nth_error l i = Some o -> (forall j o', j < i -> nth_error l j = Some o' -> goes_on o') ->
  nth_error (serve (S (length l)) 0 l) i = Some (answer (firstn i l) o).
Proof. intros l i o. exact (Proof.Accept.served l i o). Qed.
Print Assumptions C115_served.

(** After the listener is closed, or another error, nothing is done any more. *)
Theorem C115_ended : forall l i o, nth_error l i = Some o -> ~ goes_on o -> forall j, i < j -> nth_error (serve (S (length l)) 0 l) j = None.
Proof. intros l i o. exact (Proof.Accept.ended l i o). Qed.
Print Assumptions C115_ended.

(** A server that is stopped accepts no more clients and stops, if the listener was known by
    then. Missing: a listener that is not yet known (below). *)
Theorem C115_stops_partial : forall l1 s l2 s', run fresh l1 = Some s -> a_phase s = Running -> a_serve s <> Fresh -> run s (Shut :: l2) = Some s' ->
  length l2 <= 4 /\ a_got s' = a_got s /\ ((a_serve s' = Gone /\ a_phase s' = Done) \/ exists x s2, step s' x = Some s2).
Proof. intros l1 s l2 s'. exact (Proof.Accept.stops l1 s l2 s'). Qed.
Print Assumptions C115_stops_partial.

(** If the server is told to stop before Serve got to make the listener known, nobody closes
    it: any number of clients is accepted, and Shutdown waits as long as the process lives. *)
Theorem C115_late_refuted : exists l, forall cs, exists s, run fresh (l ++ map Client cs) = Some s /\
  a_phase s = Waiting /\ a_got s = cs /\ step s Shut = None /\ step s Go = None.
Proof.
  exists [Shut; Go; Go]. intros cs. exists (Sys Counted false Waiting cs). split; [|repeat split].
  exact (Proof.Accept.clients_run cs Waiting []).
Qed.
Print Assumptions C115_late_refuted.

(** Or the server has closed its database, and accepts clients after that. *)
Theorem C115_after_refuted : exists l s, run fresh l = Some s /\ a_phase s = Done /\ a_got s = [] /\ exists s', step s (Client 7) = Some s' /\ a_got s' = [7%N].
Proof.
  exists [Shut; Shut; Go; Go]. eexists. split; [vm_compute; reflexivity|]. split; [reflexivity|]. split; [reflexivity|]. eexists. split; vm_compute; reflexivity.
Qed.
Print Assumptions C115_after_refuted.

(** A client, three temporary errors, a client, an error, the end. *)
Example C115_nonvacuous :
  serve 9 0 [Conn 1; Temporary; Temporary; Temporary; Conn 2; Temporary; IsClosed; Conn 3]
    = [Handle 1; Sleep 5; Sleep 10; Sleep 20; Handle 2; Sleep 5; Return true] /\
  serve 11 0 (repeat Temporary 10) = map Sleep [5; 10; 20; 40; 80; 160; 320; 640; 1000; 1000]%N /\
  run fresh [Go; Go; Client 1; Client 2; Shut; Go; Go; Shut] = Some (Sys Gone true Done [1; 2]%N).
Proof. split; [|split]; vm_compute; reflexivity. Qed.
