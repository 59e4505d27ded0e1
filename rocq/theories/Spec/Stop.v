(** What it is for the server to stop. *)
From Verif.Base Require Import Bytes.
From Verif.Model Require Import Stop.
From Coq Require Import NArith.

(** Nothing that needs the lock, and no panic. *)
Definition plain (x : label) : Prop := match x with Push _ e => e = EWork | Crash _ => False | _ => True end.
(** Nothing from clients and networks any more. *)
Definition silent (x : label) : Prop := match x with Push _ _ | Crash _ => False | _ => True end.

(** Every run without further events is short, and goes on until the database is closed. *)
Definition stops (s : sys) : Prop :=
  exists n, forall l s', Forall silent l -> run s l = Some s' ->
    length l <= n /\ (s_phase s' = Closed \/ exists x s2, silent x /\ step s' x = Some s2).

(** The database is never closed, whatever happens (and for [calm], without panics). *)
Definition hangs (calm : bool) (s : sys) : Prop :=
  forall l s', run s l = Some s' -> (calm = true -> forall u, ~ In (Crash u) l) -> s_phase s' <> Closed.

(** Nobody's goroutine is left. *)
Definition all_gone (s : sys) : Prop := s_users s = [].

(** What a user was given in a run, and what their goroutine took from its channel. *)
Fixpoint given (u : N) (h : list label) : list ev :=
  match h with
  | [] => []
  | Push v e :: h => if N.eqb v u then e :: given u h else given u h
  | _ :: h => given u h
  end.
Definition takes (u : N) (s : sys) (x : label) : list ev :=
  match x with
  | Go v => if N.eqb v u then match get u (s_users s) with Some (Idle, e :: _) => [e] | _ => [] end else []
  | _ => []
  end.
Fixpoint handled (u : N) (s : sys) (h : list label) : list ev :=
  match h with
  | [] => []
  | x :: h => takes u s x ++ match step s x with Some s' => handled u s' h | None => [] end
  end.
(** No panics and no new users. *)
Definition same_users (x : label) : Prop := match x with Push _ (ECreate _) | Crash _ => False | _ => True end.
