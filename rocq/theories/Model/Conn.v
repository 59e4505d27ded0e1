(** Model of the outgoing half of a connection, conn.go:124-245, as a transition
    system. Each event is one atomic step of one goroutine; an event that is not
    enabled gives None. The channel send and receive statements are modelled by
    the buffer of outgoingCh (a hand-over to a waiting receiver is a send followed
    by a receive). The rate limiter only delays: its error (a closed connection)
    is the event [WriterGivesUp]. *)
From Verif.Base Require Import Bytes.

Section Conn.
  Context {M : Type}.

  (** conn.go:141-172: the writer goroutine is waiting for a message, has received
      one, has left the loop, or has finished. *)
  Inductive writer := Idle | Holding (m : M) | Leaving | Finished.

  Inductive closing := Swapped | ConnClosed.

  Record conn := Conn {
    queue : list (option M);        (* buffer of outgoingCh; None is the nil of Shutdown *)
    senders : list (nat * option M);(* goroutines inside the select of SendMessage or Shutdown *)
    wr : writer;
    closed : bool;                  (* c.closed *)
    net_closed : bool;              (* the underlying connection *)
    closed_ch : bool;               (* c.closedCh *)
    closer : option closing;        (* the goroutine inside Close, at conn.go:187-188 *)
    written : list M                (* what was written to the network *)
  }.

  (** conn.go:124-135. *)
  Definition conn_new : conn := Conn [] [] Idle false false false None [].
  Definition chan_cap : nat := 64.

  Inductive event :=
  | SendStart (id : nat) (m : option M)   (* SendMessage (Some) or Shutdown (None) is called by goroutine [id] *)
  | SendAccept (id : nat)                 (* the channel send is chosen *)
  | SendCancel (id : nat)                 (* closedCh or the context is chosen *)
  | WriterTake | WriterSeesClosed | WriterGivesUp | WriterWrites | WriterFails
  | WriterCloses                          (* conn.go:167, after the loop *)
  | CloseStart                            (* any other goroutine calls Close *)
  | CloseConn | CloseChan.

  Fixpoint take_sender (id : nat) (l : list (nat * option M)) : option (option M * list (nat * option M)) :=
    match l with
    | [] => None
    | (i, m) :: l' =>
        if Nat.eqb i id then Some (m, l')
        else match take_sender id l' with Some (x, r) => Some (x, (i, m) :: r) | None => None end
    end.

  Definition set_queue c q s := Conn q s (wr c) (closed c) (net_closed c) (closed_ch c) (closer c) (written c).
  Definition set_wr c w q out := Conn q (senders c) w (closed c) (net_closed c) (closed_ch c) (closer c) out.

  (** conn.go:182-190 (Close): [false] is the error net.ErrClosed. *)
  Definition close_start (c : conn) : conn * bool :=
    if closed c then (c, false)
    else (Conn (queue c) (senders c) (wr c) true (net_closed c) (closed_ch c) (Some Swapped) (written c), true).

  Definition step (c : conn) (e : event) : option conn :=
    match e with
    | SendStart id m =>
        (* conn.go:214-216, 230-232 *)
        if closed c then Some c
        else Some (set_queue c (queue c) (senders c ++ [(id, m)]))
    | SendAccept id =>
        (* conn.go:218-220, 234-236 *)
        match take_sender id (senders c) with
        | None => None
        | Some (m, s) => if Nat.ltb (length (queue c)) chan_cap then Some (set_queue c (queue c ++ [m]) s) else None
        end
    | SendCancel id =>
        (* conn.go:221-224, 237-245; Shutdown then calls Close, a separate event *)
        match take_sender id (senders c) with
        | None => None
        | Some (_, s) => Some (set_queue c (queue c) s)
        end
    | WriterTake =>
        (* conn.go:148, 151-153 *)
        match wr c, queue c with
        | Idle, Some m :: q => Some (set_wr c (Holding m) q (written c))
        | Idle, None :: q => Some (set_wr c Leaving q (written c))
        | _, _ => None
        end
    | WriterSeesClosed =>
        (* conn.go:149 *)
        match wr c with
        | Idle => if closed_ch c then Some (set_wr c Leaving (queue c) (written c)) else None
        | _ => None
        end
    | WriterGivesUp =>
        (* conn.go:155-159 *)
        match wr c with
        | Holding _ => if closed_ch c then Some (set_wr c Leaving (queue c) (written c)) else None
        | _ => None
        end
    | WriterWrites =>
        (* conn.go:163 *)
        match wr c with
        | Holding m => if net_closed c then None else Some (set_wr c Idle (queue c) (written c ++ [m]))
        | _ => None
        end
    | WriterFails =>
        (* conn.go:163-166 *)
        match wr c with
        | Holding _ => Some (set_wr c Leaving (queue c) (written c))
        | _ => None
        end
    | WriterCloses =>
        match wr c with
        | Leaving => let c' := fst (close_start c) in Some (set_wr c' Finished (queue c') (written c'))
        | _ => None
        end
    | CloseStart => Some (fst (close_start c))
    | CloseConn =>
        match closer c with
        | Some Swapped => Some (Conn (queue c) (senders c) (wr c) (closed c) true (closed_ch c) (Some ConnClosed) (written c))
        | _ => None
        end
    | CloseChan =>
        match closer c with
        | Some ConnClosed => Some (Conn (queue c) (senders c) (wr c) (closed c) (net_closed c) true None (written c))
        | _ => None
        end
    end.

  (** Executions. *)
  Fixpoint exec (c : conn) (es : list event) : option conn :=
    match es with
    | [] => Some c
    | e :: es' => match step c e with Some c' => exec c' es' | None => None end
    end.
End Conn.
Arguments writer : clear implicits.
Arguments conn : clear implicits.
Arguments event : clear implicits.
