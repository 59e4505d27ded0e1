(** Property C19. *)
From Verif.Base Require Import Bytes.
From Verif.Model Require Import Strip.
From Verif.Spec Require Import Strip.
From Verif.Proof Require Strip.

(** C19: the searchable text is the message with exactly its formatting codes
    removed, colour codes being as long as possible; the specification has only
    one such text. *)
Theorem C19_strip_exact : forall s t, formatted s t <-> t = strip_ansi s.
Proof.
  intros s t. split.
  - intros H. exact (Proof.Strip.formatted_functional s t H _ (Proof.Strip.strip_formatted s)).
  - intros ->. exact (Proof.Strip.strip_formatted s).
Qed.
Print Assumptions C19_strip_exact.

Theorem C19_strip_laws :
  forall s,
    (forall c, In c (strip_ansi s) -> ~ formatting c) /\
    subseq (strip_ansi s) s /\
    ((forall c, In c s -> ~ formatting c) -> strip_ansi s = s) /\
    strip_ansi (strip_ansi s) = strip_ansi s.
Proof.
  intros s. pose proof (Proof.Strip.strip_formatted s) as H.
  pose proof (Proof.Strip.formatted_no_formatting _ _ H) as Hn.
  split; [exact Hn|]. split; [exact (Proof.Strip.formatted_subseq _ _ H)|].
  split; [exact (Proof.Strip.strip_plain s)|exact (Proof.Strip.strip_plain _ Hn)].
Qed.
Print Assumptions C19_strip_laws.

Example C19_nonvacuous :
  strip_ansi (B "a" ++ ["002"%char] ++ B "b" ++ ["003"%char] ++ B "04,123c" ++ ["003"; "003"]%char ++ B "1,x" ++
              ["004"%char] ++ B "ff0000,00ff0g" ++ ["004"%char] ++ B "00FF00,00ff00d" ++ ["015"; "003"]%char)
  = B "ab3c,x,00ff0gd".
Proof. vm_compute. reflexivity. Qed.
