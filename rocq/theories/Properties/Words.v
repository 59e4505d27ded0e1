(** Property C34. *)
From Verif.Base Require Import Bytes.
From Verif.Model Require Import Words.
From Verif.Spec Require Import Words.
From Verif.Proof Require Words.

(** C34: a command line made of words separated by blanks splits into exactly
    those words. A word is any mix of bare characters, single- and double-quoted
    pieces with backslash escapes, and characters behind a backslash; the only
    words left out are those ending with an escaped blank. *)
Theorem C34_split_words_partial : forall ws l, line_of ws l -> split_words l = inl ws.
Proof. exact Proof.Words.split_line. Qed.
Print Assumptions C34_split_words_partial.

(** A line that ends inside quotes or after a backslash is reported as such. *)
Theorem C34_unterminated_errors : forall ws l b w t, line_of ws l -> blank b -> pieces w t ->
  split_words (l ++ [b] ++ t ++ [92%N]) = inr UnterminatedBackslash /\
  (forall q x, q = 34%N \/ q = 39%N ->
    split_words (l ++ [b] ++ t ++ [q] ++ escape_in q x) = inr UnterminatedQuote).
Proof. exact Proof.Words.unterminated. Qed.
Print Assumptions C34_unterminated_errors.

(** The missing part is false: a word ending with an escaped blank is lost. *)
Theorem C34_backslash_blank_refuted :
  exists w t : list N, w <> [] /\ pieces w t /\ split_words t <> inl [w].
Proof.
  exists [97; 32]%N, [92; 97; 92; 32]%N. split; [discriminate|]. split; [|vm_compute; discriminate].
  apply (p_cons [97%N] [92; 97]%N [32%N] [92; 32]%N); [constructor|].
  apply (p_cons [32%N] [92; 32]%N [] []); constructor.
Qed.
Print Assumptions C34_backslash_blank_refuted.

Definition runes (s : string) : list N := map N_of_ascii (B s).

Example C34_nonvacuous :
  split_words (runes "  net create -addr ""irc://x y\""z"" 'a b' \'c """" ") =
    inl [runes "net"; runes "create"; runes "-addr"; runes "irc://x y""z"; runes "a b"; runes "'c"; []] /\
  line_of [runes "a"; runes "b c"] (runes " a 'b c' ").
Proof.
  split; [vm_compute; reflexivity|].
  apply (line_cons (runes "a") (runes "a") [runes "b c"] (runes "'b c' ") (runes " ") 32%N).
  - intros r [<-|[]]. unfold blank. simpl. auto 10.
  - unfold blank. simpl. auto 10.
  - apply (w_pieces [] [] (runes "a") (runes "a")); [constructor| |].
    + apply s_bare. intros [H|H]; [|intuition discriminate]. apply Proof.Words.is_space_iff in H. discriminate.
    + intros (r & _ & H). discriminate.
  - apply (line_last (runes "b c") (runes "'b c'") [] (runes " ")).
    + intros r [].
    + intros r [<-|[]]. unfold blank. simpl. auto 10.
    + apply (w_pieces [] [] (runes "b c") (runes "'b c'")); [constructor|apply (s_single (runes "b c"))|].
      intros (r & _ & H). discriminate.
Qed.
