(** Model of what WebSocket clients are sent: conn.go:67-76 (websocketIRCConn.WriteMessage)
    with strings.ToValidUTF8 of Go's standard library. *)
From Verif.Base Require Import Bytes.
From Verif.Model Require Import Glob.
From Coq Require Import NArith.

(** string(unicode.ReplacementChar). *)
Definition replacement : bytes := ["239"; "191"; "189"]%char.

(** strings.ToValidUTF8, the second loop; [invalid]: the previous byte was replaced. The
    first loop finds where to begin, and does not change the result. [fuel] is at least
    the length of [s]. *)
Fixpoint mend (fuel : nat) (invalid : bool) (s : bytes) : bytes :=
  match fuel, s with
  | S fuel, c :: x =>
    if (code c <? 128)%N then c :: mend fuel false x
    else if bad_rune s then (if invalid then [] else replacement) ++ mend fuel true x
    else let t := snd (rune s) in firstn (length s - length t) s ++ mend fuel false t
  | _, _ => []
  end.
Definition to_valid_utf8 (s : bytes) : bytes := mend (length s) false s.

(** conn.go:67-76: the frame of a message; [line] is msg.String(), with prefix and tags. *)
Definition frame_of (line : bytes) : bytes := to_valid_utf8 line.
