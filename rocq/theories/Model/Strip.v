(** Model of stripANSI, database/utils.go. *)
From Verif.Base Require Import Bytes.

Definition toggles : bytes := ["002"; "029"; "031"; "030"; "017"; "022"; "015"]%char.
Definition color_byte : ascii := "003"%char.
Definition hex_color_byte : ascii := "004"%char.

Definition digit_at (s : bytes) (i : nat) : bool :=
  match nth_error s i with Some c => is_digit c | None => false end.

Definition comma_at (s : bytes) (i : nat) : bool :=
  match nth_error s i with Some c => aeqb c "," | None => false end.

(** utils.go:33-45: the number of bytes of a colour code skipped after the byte
    0x03; [s] is the text after that byte. *)
Definition color_len (s : bytes) : nat :=
  if digit_at s 0 then
    let n := if digit_at s 1 then 2 else 1 in
    if comma_at s n && digit_at s (n + 1) then
      if digit_at s (n + 2) then n + 3 else n + 2
    else n
  else 0.

(** utils.go:10-16 (startsHexColor): the loop ranges over code points; a byte
    above 127 starts none of the accepted ones. *)
Definition is_hex (c : ascii) : bool :=
  (is_digit c || (N.leb 97 (code c) && N.leb (code c) 102) || (N.leb 65 (code c) && N.leb (code c) 70))%N.

(** utils.go:5-19 *)
Definition starts_hex (s : bytes) : bool :=
  if Nat.ltb (length s) 6 then false else forallb is_hex (firstn 6 s).

(** utils.go:47-53 *)
Definition hex_len (s : bytes) : nat :=
  if starts_hex s then
    if comma_at s 6 && starts_hex (skipn 7 s) then 13 else 6
  else 0.

(** utils.go:28-57: the loop; [skip] counts the bytes the index jumped over. *)
Fixpoint strip_loop (skip : nat) (s : bytes) : bytes :=
  match s with
  | [] => []
  | c :: s' =>
      match skip with
      | S k => strip_loop k s'
      | O =>
          if amem c toggles then strip_loop 0 s'
          else if aeqb c color_byte then strip_loop (color_len s') s'
          else if aeqb c hex_color_byte then strip_loop (hex_len s') s'
          else c :: strip_loop 0 s'
      end
  end.

(** utils.go:21-59 (stripANSI). *)
Definition strip_ansi (s : bytes) : bytes :=
  if existsb (fun c => amem c (toggles ++ [color_byte; hex_color_byte])) s then strip_loop 0 s else s.
