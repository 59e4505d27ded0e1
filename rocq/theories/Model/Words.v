(** Model of splitWords, service.go. Go ranges over the code points of the
    string; here a text is the list of its code points. *)
From Verif.Base Require Import Bytes.

(** unicode.IsSpace. *)
Definition is_space (r : N) : bool :=
  existsb (N.eqb r) [9; 10; 11; 12; 13; 32; 133; 160; 5760; 8192; 8193; 8194; 8195; 8196; 8197; 8198; 8199; 8200; 8201; 8202; 8232; 8233; 8239; 8287; 12288]%N.

Definition r_space : N := 32.
Definition r_dquote : N := 34.
Definition r_squote : N := 39.
Definition r_backslash : N := 92.

(** The variables of splitWords, service.go:75-79. *)
Record split_state := SplitState {
  sp_words : list (list N);
  sp_last : list N;
  sp_escape : bool;
  sp_prev : N;
  sp_delim : N
}.

Definition split_init : split_state := SplitState [] [] false r_space r_space.

(** service.go:82-110: the loop body. *)
Definition split_step (st : split_state) (r : N) : split_state :=
  let '(SplitState words last escape prev delim) := st in
  if escape then SplitState words (last ++ [r]) false r delim
  else if N.eqb r r_backslash then SplitState words last true r delim
  else if N.eqb delim r_space && is_space r then
    if is_space prev then SplitState words last escape r delim
    else SplitState (words ++ [last]) [] escape r delim
  else if N.eqb r delim then SplitState words last escape r r_space
  else if N.eqb r r_dquote || N.eqb r r_squote then
    if N.eqb delim r_space then SplitState words last escape r r
    else SplitState words (last ++ [r]) escape r delim
  else SplitState words (last ++ [r]) escape r delim.

Inductive split_error := UnterminatedQuote | UnterminatedBackslash.

(** service.go:113-125. *)
Definition split_finish (st : split_state) : list (list N) + split_error :=
  let '(SplitState words last escape prev delim) := st in
  let words := if is_space prev then words else words ++ [last] in
  if negb (N.eqb delim r_space) then inr UnterminatedQuote
  else if escape then inr UnterminatedBackslash
  else inl words.

(** service.go:74-125 (splitWords). *)
Definition split_words (s : list N) : list (list N) + split_error :=
  split_finish (fold_left split_step s split_init).
