(** What is accepted by a connection, read off the execution only. *)
From Verif.Base Require Import Bytes.
From Verif.Model Require Import Conn.

Section Spec.
  Context {M : Type}.

  (** The message each goroutine wants to send, by its last start. *)
  Fixpoint wants (id : nat) (es : list (event M)) (cur : option (option M)) : option (option M) :=
    match es with
    | [] => cur
    | SendStart i m :: es' => wants id es' (if Nat.eqb i id then Some m else cur)
    | _ :: es' => wants id es' cur
    end.

  (** Every SendStart uses a fresh goroutine. *)
  Fixpoint starts (es : list (event M)) : list nat :=
    match es with
    | [] => []
    | SendStart i _ :: es' => i :: starts es'
    | _ :: es' => starts es'
    end.

  (** The messages accepted (the channel send succeeded), in order of acceptance;
      None is a shutdown request. *)
  Fixpoint accepted_from (all : list (event M)) (es : list (event M)) : list (option M) :=
    match es with
    | [] => []
    | SendAccept i :: es' => match wants i all None with Some m => m :: accepted_from all es' | None => accepted_from all es' end
    | _ :: es' => accepted_from all es'
    end.
  Definition accepted (es : list (event M)) : list (option M) := accepted_from es es.

  Definition somes (l : list (option M)) : list M := flat_map (fun x => match x with Some m => [m] | None => [] end) l.

  (** The messages before the first shutdown request. *)
  Fixpoint before_shutdown (l : list (option M)) : list M :=
    match l with Some m :: l' => m :: before_shutdown l' | _ => [] end.
End Spec.
