(** Specification of the delivery of messages to the clients of a network. *)
From Verif.Base Require Import Bytes.
From Verif.Model Require Import Delivery.

(** The chat messages that client [c] got for the target [t]. What the client wrote itself
    counts. *)
Definition got (c t : N) (outs : list dout) : list N :=
  flat_map (fun o => match o with
                     | Sent _ c' t' m | Own _ c' t' m => if N.eqb c' c && N.eqb t' t then [m] else []
                     end) outs.

(** All chat messages in the log of a target. *)
Definition all_chat (s : dstate) (t : N) : list N := map m_body (filter m_chat (log_of s t)).

Definition connected (s : dstate) (c : N) : Prop := exists dc, In dc (s_conns s) /\ d_client dc = c.

(** The conditions on an execution, for the client [c]:
    - connections have different IDs;
    - [c] has one connection at a time, does not use chathistory, answers all PINGs
      before it disconnects, and is not away for more messages than the backlog limit;
    - the network is not updated. *)
Definition careful_event (limit : nat) (c : N) (s : dstate) (e : dev) : Prop :=
  match e with
  | EConnect id c' hist =>
      ~ In id (map d_id (s_conns s)) /\
      (c' = c -> hist = false /\ ~ connected s c /\
                 forall t n, ds_load (s_del s) t c = Some n -> length (filter m_chat (skipn n (log_of s t))) <= limit)
  | EDisconnect id => forall dc, In dc (s_conns s) -> d_id dc = id -> d_client dc = c -> d_pings dc = []
  | ERestart => forall dc, In dc (s_conns s) -> d_client dc = c -> d_pings dc = []
  | EUpdateNetwork => False
  | _ => True
  end.
Fixpoint careful (limit : nat) (c : N) (s : dstate) (es : list dev) : Prop :=
  match es with
  | [] => True
  | e :: es' => careful_event limit c s e /\ careful limit c (fst (dstep limit s e)) es'
  end.

(** [l] is a suffix of [l']. *)
Definition suffix {A} (l l' : list A) : Prop := exists p, l' = p ++ l.
