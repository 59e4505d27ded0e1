(** What clients and server see of queued commands. *)
From Verif.Base Require Import Bytes.
From Verif.Model Require Import Pending.
From Coq Require Import ZArith.

Section Spec.
  Context {M : Type}.

  (** The queries of kind [k], in order: issued by clients; sent to the server;
      answered. *)
  Definition issued (k : kind) (es : list (pevent M)) : list (N * M) :=
    flat_map (fun e => match e with Enqueue k' c m _ => if kind_eqb k' k then [(c, m)] else [] | _ => [] end) es.
  Definition sent (k : kind) (os : list (out M)) : list (N * M) :=
    flat_map (fun o => match o with OSent k' c m => if kind_eqb k' k then [(c, m)] else [] | _ => [] end) os.
  Definition answered (k : kind) (os : list (out M)) : list (N * M) :=
    flat_map (fun o => match o with ODone k' c m => if kind_eqb k' k then [(c, m)] else [] | _ => [] end) os.
  Definition aborted (k : kind) (os : list (out M)) : list (N * M) :=
    flat_map (fun o => match o with OAbort k' c m => if kind_eqb k' k then [(c, m)] else [] | _ => [] end) os.

  Definition of_client (c : N) (l : list (N * M)) : list (N * M) := filter (fun x => N.eqb (fst x) c) l.

  (** The queries of a queue. *)
  Definition items (q : list (pcmd M)) : list (N * M) := map (fun p => (p_client p, p_msg p)) q.

  (** No query is issued while the outstanding one is older than 30 seconds. *)
  Definition no_timeouts (es : list (pevent M)) : Prop :=
    forall es1 k c m now es2, es = es1 ++ Enqueue k c m now :: es2 ->
      forall p q t, fst (prun no_queues es1) k = p :: q -> p_sent p = Some t -> (now - t <= 30 * 1000000000)%Z.

  (** Order-preserving selection. *)
  Inductive subseq {A} : list A -> list A -> Prop :=
  | sub_nil l : subseq [] l
  | sub_take x a b : subseq a b -> subseq (x :: a) (x :: b)
  | sub_skip x a b : subseq a b -> subseq a (x :: b).
End Spec.
