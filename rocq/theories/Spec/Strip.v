(** Specification of IRC formatting codes, after
    https://modern.ircdocs.horse/formatting: formatting bytes, and colour codes
    with the longest possible argument. *)
From Verif.Base Require Import Bytes.

Definition toggle (c : ascii) : Prop :=
  In (nat_of_ascii c) [2; 29; 31; 30; 17; 22; 15].

Definition digit (c : ascii) : Prop := 48 <= nat_of_ascii c <= 57.
Definition hex_digit (c : ascii) : Prop :=
  digit c \/ 97 <= nat_of_ascii c <= 102 \/ 65 <= nat_of_ascii c <= 70.

Definition color_number (a : bytes) : Prop := (length a = 1 \/ length a = 2) /\ Forall digit a.
Definition hex_number (a : bytes) : Prop := length a = 6 /\ Forall hex_digit a.

(** Arguments of a colour code: nothing, a foreground, or a foreground and a
    background. *)
Definition color_args (number : bytes -> Prop) (a : bytes) : Prop :=
  a = [] \/ number a \/ exists f g, number f /\ number g /\ a = f ++ B "," ++ g.

Definition longest (P : bytes -> Prop) (a rest : bytes) : Prop :=
  P a /\ forall a' rest', a ++ rest = a' ++ rest' -> P a' -> length a' <= length a.

Inductive formatted : bytes -> bytes -> Prop :=
| fmt_nil : formatted [] []
| fmt_plain c s t : ~ toggle c -> nat_of_ascii c <> 3 -> nat_of_ascii c <> 4 ->
    formatted s t -> formatted (c :: s) (c :: t)
| fmt_toggle c s t : toggle c -> formatted s t -> formatted (c :: s) t
| fmt_color a s t : longest (color_args color_number) a s -> formatted s t ->
    formatted (ascii_of_nat 3 :: a ++ s) t
| fmt_hex a s t : longest (color_args hex_number) a s -> formatted s t ->
    formatted (ascii_of_nat 4 :: a ++ s) t.

(** Bytes with a formatting meaning. *)
Definition formatting (c : ascii) : Prop :=
  toggle c \/ nat_of_ascii c = 3 \/ nat_of_ascii c = 4.

Inductive subseq {A} : list A -> list A -> Prop :=
| sub_nil : subseq [] []
| sub_skip x l l' : subseq l l' -> subseq l (x :: l')
| sub_take x l l' : subseq l l' -> subseq (x :: l) (x :: l').
