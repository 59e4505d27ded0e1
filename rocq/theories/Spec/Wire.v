(** How the receiver of an IRC line (RFC 1459, section 2.3.1) splits it into a
    command and parameters; lines without tags and prefix. *)
From Verif.Base Require Import Bytes.
From Verif.Model Require Import Message.

(** [cur] is the word being read, [None] between words. A word starting with a
    colon takes the rest of the line. *)
Fixpoint words (s : bytes) (cur : option bytes) : list bytes :=
  match s with
  | [] => match cur with None => [] | Some w => [w] end
  | c :: s' =>
      match cur with
      | None =>
          if aeqb c " " then words s' None
          else if aeqb c ":" then [s']
          else words s' (Some [c])
      | Some w => if aeqb c " " then w :: words s' None else words s' (Some (w ++ [c]))
      end
  end.

Definition parse_line (s : bytes) : option message :=
  match words s None with
  | [] => None
  | cmd :: ps => Some (msg cmd ps)
  end.

(** A parameter that can be sent without a colon. *)
Definition word (w : bytes) : Prop :=
  w <> [] /\ ~ In " "%char w /\ (forall r, w <> ":"%char :: r).
