(** Property C110: the key of push messages. *)
From Verif.Base Require Import Bytes.
From Verif.Model Require Import Vapid.
From Verif.Spec Require Import Vapid.
From Verif.Proof Require Vapid.
From Coq Require Import NArith.

(** C110: with one process at a time, however often and wherever it is killed, clients
    are shown one key for ever, and every push message is signed with it. *)
Theorem C110_one_key_partial : forall ops, one_at_a_time start ops -> one_key ops (snd (run start ops)).
Proof. exact Proof.Vapid.same_key. Qed.
Print Assumptions C110_one_key_partial.

(** After all that a start works: with the kept keys, or with the new ones if none were kept. *)
Theorem C110_start_partial : forall ops p k, one_at_a_time start ops -> let s := fst (run start ops) in v_procs s = [] ->
  exists k', get p (v_procs (fst (run s [Begin p true; Generate p (Some k); Store p true true]))) = Some (Up k') /\
  (v_table s = [] /\ k' = k \/ v_table s = [k']).
Proof. exact Proof.Vapid.start_works. Qed.
Print Assumptions C110_start_partial.

Definition k1 : pair := (B "pub1", B "priv1").
Definition k2 : pair := (B "pub2", B "priv2").

(** Started twice at once on an empty database, and both stopped: no process ever serves a
    client again. *)
Theorem C110_two_refuted : exists ops, v_procs (fst (run start ops)) = [] /\ snd (run start ops) <> [] /\
  forall later, snd (run (fst (run start ops)) later) = [].
Proof.
  exists [Begin 1 true; Begin 2 true; Generate 1 (Some k1); Generate 2 (Some k2); Store 1 true true; Store 2 true true; Connect 1; Connect 2; Kill 1; Kill 2].
  split; [vm_compute; reflexivity|]. split; [vm_compute; discriminate|]. intros later.
  apply (Proof.Vapid.dead_for_ever later _ k1 k2 []); vm_compute; reflexivity.
Qed.
Print Assumptions C110_two_refuted.

(** Killed before the keys are kept, killed before it hears that they are kept, and
    restarted with a subscription. *)
Definition lives : list op :=
  [Begin 1 true; Generate 1 (Some k2); Kill 1; Begin 2 true; Generate 2 (Some k1); Store 2 true false; Begin 3 false; Begin 3 true; Connect 3;
   Subscribe 3 7; Kill 3; Begin 4 true; Generate 4 (Some k2); Store 4 true true; Connect 4; Notify 4 7; Kill 4].
Example C110_nonvacuous : one_at_a_time start lives /\
  snd (run start lives) = [Shown 3 (B "pub1"); Signed 3 7 k1; Shown 4 (B "pub1"); Signed 4 7 k1] /\ v_procs (fst (run start lives)) = [].
Proof. vm_compute. repeat split. Qed.
