(** Shell patterns (glob(7)): what their texts are and what they match. *)
From Coq Require Import NArith.
From Verif.Base Require Import Bytes.
From Verif.Model Require Import Glob.
Open Scope N_scope.

(** Any text without a slash; one code point that is not a slash; one that is in some range, or in none; itself. *)
Inductive tok := TStar | TOne | TIn (neg : bool) (ranges : list (N * N)) | TLit (c : ascii).

(** [rune]: the first code point of a text, and what follows.
    Code points between brackets: "-", "]" and "\" are written with a backslash, and so may others. *)
Definition utf8 (x : bytes) : Prop := ~ (fst (rune x) = 65533 /\ length x = S (length (snd (rune x)))).
Inductive bound : bytes -> N -> bytes -> Prop :=
| Bare c x n y : ~ In c (B "-]\") -> rune (c :: x) = (n, y) -> utf8 (c :: x) -> bound (c :: x) n y
| Escaped c x n y : rune (c :: x) = (n, y) -> utf8 (c :: x) -> bound ("\"%char :: c :: x) n y.
Inductive item : bytes -> N * N -> bytes -> Prop :=
| Single x n c y : bound x n (c :: y) -> c <> "-"%char -> item x (n, n) (c :: y)
| Range x lo y hi z : bound x lo ("-"%char :: y) -> bound y hi z -> item x (lo, hi) z.
(** Ranges, one at least, up to the closing bracket. *)
Inductive items : bytes -> list (N * N) -> bytes -> Prop :=
| ILast x r y : item x r ("]"%char :: y) -> items x [r] y
| IMore x r c y rs z : item x r (c :: y) -> c <> "]"%char -> items (c :: y) rs z -> items x (r :: rs) z.

Inductive pat : bytes -> list tok -> Prop :=
| PNil : pat [] []
| PStar p l : pat p l -> pat ("*"%char :: p) (TStar :: l)
| POne p l : pat p l -> pat ("?"%char :: p) (TOne :: l)
| PLit c p l : ~ In c (B "*?[\") -> pat p l -> pat (c :: p) (TLit c :: l)
| PEsc c p l : pat p l -> pat ("\"%char :: c :: p) (TLit c :: l)
| PIn p rs q l : (forall t, p <> "^"%char :: t) -> items p rs q -> pat q l -> pat ("["%char :: p) (TIn false rs :: l)
| PNot p rs q l : items p rs q -> pat q l -> pat ("["%char :: "^"%char :: p) (TIn true rs :: l).

Definition in_ranges (n : N) (rs : list (N * N)) : Prop := exists lo hi, In (lo, hi) rs /\ lo <= n <= hi.
Inductive glob : list tok -> bytes -> Prop :=
| GNil : glob [] []
| GLit c l s : glob l s -> glob (TLit c :: l) (c :: s)
| GOne d x l : d <> "/"%char -> glob l (snd (rune (d :: x))) -> glob (TOne :: l) (d :: x)
| GIn neg rs d x l : (in_ranges (fst (rune (d :: x))) rs <-> neg = false) -> glob l (snd (rune (d :: x))) -> glob (TIn neg rs :: l) (d :: x)
| GStar u l s : ~ In "/"%char u -> glob l s -> glob (TStar :: l) (u ++ s).

(** Patterns with nothing special but stars. *)
Definition plain (l : list tok) : Prop := Forall (fun t => t = TStar \/ exists c, t = TLit c) l.
Definition ascii_text (s : bytes) : Prop := Forall (fun c => code c < 128) s.
(** No brackets that a slash is in. *)
Definition no_slash (t : tok) : Prop := match t with TIn neg rs => in_ranges (code "/") rs <-> neg = true | _ => True end.

(** UTF-8 (RFC 3629). *)
Definition scalar (n : N) : Prop := n < 55296 \/ 57344 <= n < 1114112.
Definition byte (n : N) : ascii := ascii_of_N n.
Definition encode (n : N) : bytes :=
  if n <? 128 then [byte n]
  else if n <? 2048 then [byte (192 + n / 64); byte (128 + n mod 64)]
  else if n <? 65536 then [byte (224 + n / 4096); byte (128 + n / 64 mod 64); byte (128 + n mod 64)]
  else [byte (240 + n / 262144); byte (128 + n / 4096 mod 64); byte (128 + n / 64 mod 64); byte (128 + n mod 64)].
