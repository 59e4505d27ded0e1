(** What a server reads. *)
From Verif.Base Require Import Bytes.

(** The lines of a text, each without its end; [ends] are the bytes that end a line (LF,
    or for servers that are lenient, CR too). Empty lines are ignored (RFC 1459, 2.3.1). *)
Fixpoint server_reads (ends : ascii -> bool) (s cur : bytes) : list bytes :=
  match s with
  | [] => []
  | c :: s =>
    if ends c then match cur with [] => server_reads ends s [] | _ => cur :: server_reads ends s [] end
    else server_reads ends s (cur ++ [c])
  end.
Definition strict (c : ascii) : bool := aeqb c "010"%char.
Definition lenient (c : ascii) : bool := aeqb c "010"%char || aeqb c "013"%char.

(** Every CR of the text is followed by a LF. *)
Fixpoint proper (s : bytes) : Prop :=
  match s with
  | [] => True
  | c :: s => (c = "013"%char -> exists s', s = "010"%char :: s') /\ proper s
  end.
