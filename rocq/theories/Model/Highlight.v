(** Model of the detection of highlights, irc.go:232-282 and user.go:448-462.

    Texts are lists of code points: they are supposed to be valid UTF-8, where substrings and the
    first and last code points are the same on bytes. *)
From Verif.Base Require Import Bytes.
From Verif.Model Require Import Words.
From Coq Require Import NArith.
Open Scope nat_scope.

Definition text := list N.
(** utf8.RuneError, given for an empty string. *)
Definition rune_error : N := 65533.
Definition first_rune (s : text) : N := hd rune_error s.
Definition last_rune (s : text) : N := last s rune_error.

Fixpoint prefixb (s p : text) {struct p} : bool :=
  match p, s with
  | [], _ => true
  | x :: p', y :: s' => N.eqb x y && prefixb s' p'
  | _, [] => false
  end.

(** strings.Index. *)
Fixpoint index (s p : text) : option nat :=
  if prefixb s p then Some 0
  else match s with [] => None | _ :: s' => option_map S (index s' p) end.

Section Highlight.
  (** unicode.IsLetter or unicode.IsNumber. *)
  Variable letter_or_number : N -> bool.

  (** irc.go:234-241: '-', '_' and '|' are part of words. *)
  Definition boundary (r : N) : bool :=
    negb (N.eqb r 45 || N.eqb r 95 || N.eqb r 124) && negb (letter_or_number r).

  (** strings.LastIndexFunc(text, unicode.IsSpace), and text[i:]. *)
  Fixpoint from_last_space (s : text) : option text :=
    match s with
    | [] => None
    | c :: s' => match from_last_space s' with
                 | Some w => Some w
                 | None => if is_space c then Some s else None
                 end
    end.

  (** irc.go:253-259: '+', '-', '.', digits and letters. *)
  Definition scheme_char (r : N) : bool :=
    (N.eqb r 43 || N.eqb r 45 || N.eqb r 46 || (N.leb 48 r && N.leb r 57) || (N.leb 97 r && N.leb r 122) || (N.leb 65 r && N.leb r 90))%N.
  (** "://" *)
  Definition css : text := [58; 47; 47]%N.

  (** irc.go:243-261 (isURIPrefix). *)
  Definition is_uri_prefix (s : text) : bool :=
    let s := match from_last_space s with Some w => w | None => s end in
    match index s css with
    | None => false
    | Some i => scheme_char (last_rune (firstn i s))
    end.

  (** irc.go:263-282 (isHighlight); the nickname is not empty. *)
  Fixpoint highlight_loop (fuel : nat) (s nick : text) : bool :=
    match fuel with
    | O => false
    | S fuel' =>
        match index s nick with
        | None => false
        | Some i =>
            let rest := skipn (i + length nick) s in
            if boundary (last_rune (firstn i s)) && boundary (first_rune rest) && negb (is_uri_prefix (firstn i s)) then true
            else highlight_loop fuel' rest nick
        end
    end.
  Definition is_highlight (s nick : text) : bool := highlight_loop (S (length s)) s nick.
End Highlight.
