(** Properties C13, C14. *)
From Verif.Base Require Import Bytes.
From Verif.Model Require Import MsgID MemStore.
From Verif.Spec Require Import MemStore.
From Verif.Proof Require MemStore.

(** C13: let [e] be a logged message, appended after any history [h1] and
    followed by any history [h2]. Loading after the ID returned for [e] gives the
    last messages of the target logged in [h2]: as many as the limit and the
    capacity allow, oldest first, without gaps. *)
Theorem C13_load_after_message :
  forall A (cap : nat) valid (h1 h2 : list (event A)) e limit id,
    0 < cap -> e_loggable e = true ->
    i64 (e_net e) -> (N.of_nat (length (e_entity e)) < two64)%N -> valid (e_entity e) = true ->
    (N.of_nat (S (length h1)) < two64)%N ->
    snd (mem_append cap (mem_run cap h1) (e_net e) (e_entity e) (e_loggable e) (e_msg e)) = id ->
    mem_load_latest valid (mem_run cap (h1 ++ e :: h2)) id (e_net e) (e_entity e) false limit =
    Some (map Some (last_of (min limit cap) (target_log h2 (e_net e) (e_entity e)))).
Proof. exact Proof.MemStore.load_after_message. Qed.
Print Assumptions C13_load_after_message.

Example C13_nonvacuous :
  let ev n t m := Event n t true m in
  let a := B "#a" in let b := B "#b" in
  let h1 := [ev 1%Z a 10; ev 2%Z a 99] in
  let e := ev 1%Z a 11 in
  let h2 := [ev 1%Z b 98; ev 1%Z a 12; ev 1%Z a 13; ev 1%Z a 14; ev 1%Z a 15] in
  let st := mem_run 3 (h1 ++ e :: h2) in
  mem_load_latest (fun _ => true) st (snd (mem_append 3 (mem_run 3 h1) 1 a true 11)) 1 a false 100
    = Some [Some 13; Some 14; Some 15] /\
  mem_load_latest (fun _ => true) st (snd (mem_append 3 (mem_run 3 h1) 1 a true 11)) 1 a false 2
    = Some [Some 14; Some 15].
Proof. split; vm_compute; reflexivity. Qed.

(** C14 holds for a target that had no message when the position was taken. *)
Theorem C14_backlog_from_position_partial :
  forall A (cap : nat) valid (h1 h2 : list (event A)) net entity limit,
    0 < cap -> i64 net -> (N.of_nat (length entity) < two64)%N -> valid entity = true ->
    target_log h1 net entity = [] ->
    mem_load_latest valid (mem_run cap (h1 ++ h2)) (mem_last_msgid (mem_run cap h1) net entity) net entity false limit
    = Some (map Some (last_of (min limit cap) (target_log h2 net entity))).
Proof. exact Proof.MemStore.backlog_from_empty. Qed.
Print Assumptions C14_backlog_from_position_partial.

(** In general the first message after the position is lost. *)
Theorem C14_backlog_from_position_refuted :
  exists (h1 h2 : list (event nat)) net entity limit,
    target_log h2 net entity = [2] /\
    mem_load_latest (fun _ => true) (mem_run (N.to_nat message_ring_buffer_cap) (h1 ++ h2))
      (mem_last_msgid (mem_run (N.to_nat message_ring_buffer_cap) h1) net entity) net entity false limit = Some [].
Proof.
  exists [Event 1%Z (B "#a") true 1], [Event 1%Z (B "#a") true 2], 1%Z, (B "#a"), 100.
  split; vm_compute; reflexivity.
Qed.
Print Assumptions C14_backlog_from_position_refuted.

(** Exactly the first message is lost, whenever the target had a message
    before. *)
Theorem C14_exactly_first_message_lost :
  forall A (cap : nat) valid (h1 h2 : list (event A)) net entity limit m rest,
    0 < cap -> i64 net -> (N.of_nat (length entity) < two64)%N -> valid entity = true ->
    (N.of_nat (S (length h1)) < two64)%N ->
    target_log h1 net entity <> [] -> target_log h2 net entity = m :: rest ->
    mem_load_latest valid (mem_run cap (h1 ++ h2)) (mem_last_msgid (mem_run cap h1) net entity) net entity false limit
    = Some (map Some (last_of (min limit cap) rest)).
Proof. exact Proof.MemStore.first_message_lost. Qed.
Print Assumptions C14_exactly_first_message_lost.

Example C14_nonvacuous :
  let h1 := [Event 1%Z (B "#b") true 1] in
  target_log h1 1 (B "#a") = [] /\
  mem_load_latest (fun _ => true) (mem_run 3 (h1 ++ [Event 1%Z (B "#a") true 2]))
      (mem_last_msgid (mem_run 3 h1) 1 (B "#a")) 1 (B "#a") false 10 = Some [Some 2].
Proof. split; vm_compute; reflexivity. Qed.
