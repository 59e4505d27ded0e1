(** What texts of addresses and ranges mean. All addresses are sixteen bytes here, those of IPv4 being ::ffff:a.b.c.d. *)
From Coq Require Import NArith.
From Verif.Base Require Import Bytes.
From Verif.Spec Require Import SourceAddr.
Open Scope N_scope.

Definition mapped : list N := [0; 0; 0; 0; 0; 0; 0; 0; 0; 0; 255; 255].

(** Four numbers below 256, in decimal without leading zeros, with dots in between. *)
Inductive text4 : bytes -> list N -> Prop :=
| Text4 a b c d : a < 256 -> b < 256 -> c < 256 -> d < 256 ->
    text4 (dec a ++ B "." ++ dec b ++ B "." ++ dec c ++ B "." ++ dec d) [a; b; c; d].

(** A digit in base sixteen; one to four of them. *)
Definition hexd (c : ascii) (n : N) : Prop :=
  n < 16 /\ (nth_error (B "0123456789abcdef") (N.to_nat n) = Some c \/ nth_error (B "0123456789ABCDEF") (N.to_nat n) = Some c).
Inductive group : bytes -> N -> Prop :=
| Group1 c n : hexd c n -> group [c] n
| GroupS d n c m : group d n -> (length d < 4)%nat -> hexd c m -> group (d ++ [c]) (16 * n + m).

(** Groups with colons in between, two bytes each. *)
Inductive groups : bytes -> list N -> Prop :=
| GOne d n : group d n -> groups d [n / 256; n mod 256]
| GCons d n s l : group d n -> groups s l -> groups (d ++ B ":" ++ s) (n / 256 :: n mod 256 :: l).
(** The same, the last four bytes possibly written as an IPv4 address. *)
Inductive tail6 : bytes -> list N -> Prop :=
| TGroups s l : groups s l -> tail6 s l
| TFour s l : text4 s l -> tail6 s l
| TBoth s l s4 l4 : groups s l -> text4 s4 l4 -> tail6 (s ++ B ":" ++ s4) (l ++ l4).

(** Texts of IPv6 addresses (RFC 4291, section 2.2): "::" stands for the zeros that are missing, at least two. *)
Inductive text6 : bytes -> list N -> Prop :=
| Text6Full s l : tail6 s l -> length l = 16%nat -> text6 s l
| Text6Mid s l z s' l' : groups s l -> tail6 s' l' -> length (l ++ repeat 0 (S (S z)) ++ l') = 16%nat ->
    text6 (s ++ B "::" ++ s') (l ++ repeat 0 (S (S z)) ++ l')
| Text6Front z s' l' : tail6 s' l' -> length (repeat 0 (S (S z)) ++ l') = 16%nat ->
    text6 (B "::" ++ s') (repeat 0 (S (S z)) ++ l')
| Text6Back s l z : groups s l -> length (l ++ repeat 0 (S (S z))) = 16%nat ->
    text6 (s ++ B "::") (l ++ repeat 0 (S (S z)))
| Text6Zero : text6 (B "::") (repeat 0 16).

Inductive denotes : bytes -> list N -> Prop :=
| Denotes4 s a : text4 s a -> denotes s (mapped ++ a)
| Denotes6 s a : text6 s a -> denotes s a.

(** A number in decimal. *)
Definition decd (c : ascii) (n : N) : Prop := nth_error (B "0123456789") (N.to_nat n) = Some c.
Inductive number : bytes -> N -> Prop :=
| Number1 c n : decd c n -> number [c] n
| NumberS s n c m : number s n -> decd c m -> number (s ++ [c]) (10 * n + m).

(** A range: its text, an address of it, and how many leading bits its addresses have in common. *)
Inductive range : bytes -> list N -> N -> Prop :=
| Range4 s a m n : text4 s a -> number m n -> n <= 32 -> range (s ++ B "/" ++ m) (mapped ++ a) (96 + n)
| Range6 s a m n : text6 s a -> number m n -> n <= 128 -> range (s ++ B "/" ++ m) a n.

(** The address has the leading bits of the range. A range as wide as to have all IPv4 addresses in it counts for IPv6
    addresses only. *)
Definition agree (k : N) (a b : list N) : Prop := addr_num a / 2 ^ (128 - k) = addr_num b / 2 ^ (128 - k).
Definition is_v4 (a : list N) : Prop := exists x, a = mapped ++ x.
Definition covers (base : list N) (k : N) (a : list N) : Prop := agree k base a /\ (k < 96 -> ~ is_v4 a).

(** One parameter of accept-proxy-ip covers an address. *)
Definition proxy_word (s : bytes) (a : list N) : Prop :=
  (s = B "localhost" /\ (covers (mapped ++ [127; 0; 0; 0]) 104 a \/ covers (repeat 0 15 ++ [1]) 128 a)) \/
  (s <> B "localhost" /\ exists base k, range s base k /\ covers base k a).
(** It is a parameter that may be written. *)
Definition proxy_valid (s : bytes) : Prop := s = B "localhost" \/ exists base k, range s base k.

Definition address (a : list N) : Prop := length a = 16%nat /\ Forall (fun b => b < 256) a.
