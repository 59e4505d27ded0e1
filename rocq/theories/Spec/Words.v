(** Ways to write a word on a service command line. *)
From Verif.Base Require Import Bytes.

Definition blank (r : N) : Prop :=
  In r [9; 10; 11; 12; 13; 32; 133; 160; 5760; 8192; 8193; 8194; 8195; 8196; 8197; 8198; 8199; 8200; 8201; 8202; 8232; 8233; 8239; 8287; 12288]%N.

(** Characters with a meaning of their own: blanks, quotes, backslash. *)
Definition special (r : N) : Prop := blank r \/ r = 34%N \/ r = 39%N \/ r = 92%N.

(** Escaping of [q] and backslash inside quotes. *)
Definition escape_in (q : N) (w : list N) : list N :=
  flat_map (fun r => if N.eqb r q || N.eqb r 92 then [92%N; r] else [r]) w.

(** [segment w t]: the text [t] is one way to write the piece [w] of a word. *)
Inductive segment : list N -> list N -> Prop :=
| s_bare r : ~ special r -> segment [r] [r]
| s_double w : segment w ([34%N] ++ escape_in 34 w ++ [34%N])
| s_single w : segment w ([39%N] ++ escape_in 39 w ++ [39%N])
| s_backslash r : segment [r] [92%N; r].

(** Several pieces written one after the other. *)
Inductive pieces : list N -> list N -> Prop :=
| p_nil : pieces [] []
| p_cons w t w' t' : segment w t -> pieces w' t' -> pieces (w ++ w') (t ++ t').

(** A word is one or more pieces. The last one is not an escaped blank. *)
Definition escaped_blank (t : list N) : Prop := exists r, blank r /\ t = [92%N; r].

Inductive writes : list N -> list N -> Prop :=
| w_pieces w t w' t' : pieces w t -> segment w' t' -> ~ escaped_blank t' -> writes (w ++ w') (t ++ t').

Definition blanks (l : list N) : Prop := forall r, In r l -> blank r.

(** A command line: words separated by at least one blank. *)
Inductive line_of : list (list N) -> list N -> Prop :=
| line_nil sp : blanks sp -> line_of [] sp
| line_last w t sp sp' : blanks sp -> blanks sp' -> writes w t -> line_of [w] (sp ++ t ++ sp')
| line_cons w t ws rest sp b : blanks sp -> blank b -> writes w t -> line_of ws rest ->
    line_of (w :: ws) (sp ++ t ++ [b] ++ rest).
