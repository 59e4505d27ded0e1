(** Texts in UTF-8, and what is valid in others. [scalar] and [encode] are those of RFC
    3629 (Spec/Glob.v). *)
From Verif.Base Require Import Bytes.
From Verif.Spec Require Import Glob.
From Coq Require Import NArith.

Definition text_of (l : list N) : bytes := concat (map encode l).
Definition valid_text (s : bytes) : Prop := exists l, Forall scalar l /\ s = text_of l.

(** A text read from the left: characters, and bytes that no character begins with where
    they are. *)
Inductive reads : bytes -> list (option N) -> Prop :=
| RNil : reads [] []
| RChar n s l : scalar n -> reads s l -> reads (encode n ++ s) (Some n :: l)
| RJunk c s l : (forall n y, scalar n -> c :: s <> encode n ++ y) -> reads s l -> reads (c :: s) (None :: l).

(** U+FFFD for each run of such bytes. *)
Fixpoint mended (junk : bool) (l : list (option N)) : list N :=
  match l with
  | [] => []
  | Some n :: l => n :: mended false l
  | None :: l => (if junk then [] else [65533%N]) ++ mended true l
  end.
