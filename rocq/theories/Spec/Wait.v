(** What C101 says: when nobody waits for ever. *)
From Verif.Base Require Import Bytes.
From Verif.Model Require Import Wait.

Section Spec.
  Variable users : list N.
  Variable administrator : N -> bool.

  (** Messages and commands that are not about other administrators. *)
  Definition modest (u : N) (c : cmd) : Prop :=
    match c with
    | CLocal _ => True
    | CUpdate w | CRun w (CLocal _) => administrator u = true /\ (w = u \/ administrator w = false)
    | CNotice => administrator u = true
    | _ => False
    end.

  (** Whether [u] is waiting for an answer. *)
  Definition awaiting (s : sys) (u : N) : Prop := exists ret w wt, s_pc s u = Wait ret w wt.

  (** What may happen: nobody gives up waiting for an answer, nobody's goroutine ends. *)
  Definition calm (s : sys) (l : label) : Prop :=
    match l with
    | LPush u c => In u users /\ modest u c
    | LGo _ => True
    | LGiveUp u => ~ awaiting s u
    | LCrash _ => False
    end.
  (** ... without further messages of clients. *)
  Definition working (s : sys) (l : label) : Prop := calm s l /\ match l with LPush _ _ => False | _ => True end.

  (** A run all of whose labels fulfil [P] when they come. *)
  Fixpoint all_along (P : sys -> label -> Prop) (s : sys) (l : list label) : Prop :=
    match l with
    | [] => True
    | x :: l' => P s x /\ match step users s x with Some s' => all_along P s' l' | None => True end
    end.

  (** Everybody has done everything and waits for clients. *)
  Definition at_rest (s : sys) : Prop := forall u, In u users -> s_pc s u = Idle /\ s_q s u = [].

  (** [u] never comes back to its events, whatever happens. *)
  Definition stuck (s : sys) (u : N) : Prop := s_pc s u <> Gone /\ forall l s', run users s l = Some s' -> s_pc s' u = s_pc s u /\ s_pc s' u <> Idle.
End Spec.

(** What clients have sent in a run. *)
Fixpoint sent (l : list label) : list (N * cmd) :=
  match l with
  | [] => []
  | LPush u c :: l => (u, c) :: sent l
  | _ :: l => sent l
  end.
Definition ended (l : list label) : list N := flat_map (fun x => match x with LCrash u => [u] | _ => [] end) l.
Definition gave_up (l : list label) : list N := flat_map (fun x => match x with LGiveUp u => [u] | _ => [] end) l.
