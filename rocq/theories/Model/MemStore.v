(** Model of the in-memory message store, msgstore/memory.go. [A] is the type of
    messages; [cap] is messageRingBufferCap. Sequence numbers (uint64) are
    natural numbers. *)
From Verif.Base Require Import Bytes.
From Verif.Model Require Import MsgID.

(** memory.go:14 *)
Definition message_ring_buffer_cap : N := 4096.

Section Ring.
  Context {A : Type}.

  (** memory.go:123-126 (messageRingBuffer). An unset slot is a nil pointer. *)
  Record ring := Ring { r_buf : list (option A); r_cur : nat }.

  (** memory.go:128-133 (newMessageRingBuffer). *)
  Definition ring_new (cap : nat) : ring := Ring (repeat None cap) 1.

  (** memory.go:139-145 (Append). *)
  Definition ring_append (r : ring) (m : A) : ring * nat :=
    let i := r_cur r mod length (r_buf r) in
    (Ring (updnth i (Some m) (r_buf r)) (S (r_cur r)), r_cur r).

  (** memory.go:147-171 (LoadLatestSeq). [None] is the error. *)
  Definition ring_load (r : ring) (after limit : nat) : option (list (option A)) :=
    let cur := r_cur r in
    let cap := length (r_buf r) in
    if Nat.ltb cur after then None
    else if Nat.eqb after cur then Some []
    else
      let diff0 := cur - after - 1 in
      let diff1 := if Nat.ltb cap diff0 then cap else diff0 in
      let diff := if Nat.ltb limit diff1 then limit else diff1 in
      Some (map (fun i => nth ((cur - diff + i) mod cap) (r_buf r) None) (seq 0 diff)).

  (** memory.go:38-41 and 48-50: buffers by network ID and entity. *)
  Definition mem_store : Type := list ((Z * bytes) * ring).

  Definition key_eqb (a b : Z * bytes) : bool := Z.eqb (fst a) (fst b) && beqb (snd a) (snd b).

  Fixpoint st_get (st : mem_store) (k : Z * bytes) : option ring :=
    match st with
    | [] => None
    | (k', r) :: st' => if key_eqb k k' then Some r else st_get st' k
    end.

  Fixpoint st_put (st : mem_store) (k : Z * bytes) (r : ring) : mem_store :=
    match st with
    | [] => [(k, r)]
    | (k', r') :: st' => if key_eqb k k' then (k', r) :: st' else (k', r') :: st_put st' k r
    end.

  (** memory.go:75-82 (LastMsgID). *)
  Definition mem_last_msgid (st : mem_store) (net : Z) (entity : bytes) : bytes :=
    let seq := match st_get st (net, entity) with Some r => r_cur r | None => 0 end in
    format_msgid net entity (BodyMemory (N.of_nat seq)).

  (** memory.go:84-102 (Append). [loggable] tells whether the command is PRIVMSG
      or NOTICE; the ID of other messages is empty. *)
  Definition mem_append (cap : nat) (st : mem_store) (net : Z) (entity : bytes) (loggable : bool) (m : A)
      : mem_store * bytes :=
    if loggable then
      let r := match st_get st (net, entity) with Some r => r | None => ring_new cap end in
      let (r', seq) := ring_append r m in
      (st_put st (net, entity) r', format_msgid net entity (BodyMemory (N.of_nat seq)))
    else (st, []).

  (** memory.go:104-121 (LoadLatestID) with options.Events = [events]. The
      network and entity of the ID are not used. *)
  Definition mem_load_latest (valid : bytes -> bool) (st : mem_store) (id : bytes)
      (net : Z) (entity : bytes) (events : bool) (limit : nat) : option (list (option A)) :=
    if events then None
    else match parse_msgid valid (Some TyMemory) id with
         | Some (_, _, Some (BodyMemory seq)) =>
             match st_get st (net, entity) with
             | None => Some []
             | Some r => ring_load r (N.to_nat seq) limit
             end
         | _ => None
         end.
End Ring.
Arguments ring : clear implicits.
Arguments mem_store : clear implicits.
