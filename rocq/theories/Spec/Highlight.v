(** What a mention of a nickname is. *)
From Verif.Base Require Import Bytes.
From Coq Require Import NArith.
Open Scope nat_scope.

Section Spec.
  (** Letters and digits, and blanks. *)
  Variable letter_or_number : N -> bool.
  Variable space : N -> bool.

  (** Code points that are part of words. *)
  Definition word_char (r : N) : bool := letter_or_number r || existsb (N.eqb r) [45; 95; 124]%N.

  (** The characters of a URI scheme. *)
  Definition scheme (r : N) : Prop :=
    r = 43%N \/ r = 45%N \/ r = 46%N \/ (48 <= r <= 57)%N \/ (97 <= r <= 122)%N \/ (65 <= r <= 90)%N.

  (** The end of this text is inside a URI: after the "://" of a scheme and without a blank since. *)
  Definition in_uri (l : list N) : Prop :=
    exists a c b, l = a ++ c :: [58; 47; 47]%N ++ b /\ scheme c /\ forall x, In x b -> space x = false.

  (** A mention between two texts: neither is a word that touches it, and it is not in a URI. *)
  Definition isolated (l r : list N) : Prop :=
    (forall a c, l = a ++ [c] -> word_char c = false) /\ (forall c b, r = c :: b -> word_char c = false) /\ ~ in_uri l.

  Definition mention (t nick : list N) : Prop := exists l r, t = l ++ nick ++ r /\ isolated l r.

  (** Where a text occurs in another one. *)
  Definition occurs_once (t p : list N) : Prop := forall a b a' b', t = a ++ p ++ b -> t = a' ++ p ++ b' -> a = a'.

  (** Two occurrences of the nickname only overlap where the second one touches a word. *)
  Definition no_overlap (nick : list N) : Prop :=
    forall x c y z, nick = (x ++ [c]) ++ y -> y <> [] -> nick = y ++ z -> word_char c = true.
End Spec.
