(** Model of the membership sets of xirc/xirc.go and of the prefix helpers of
    irc.go and upstream.go. *)
From Verif.Base Require Import Bytes.

(** xirc/xirc.go:93-96 (Membership). *)
Record membership := Membership { mb_mode : ascii; mb_prefix : ascii }.

(** Go's struct equality. *)
Definition mb_eqb (a b : membership) : bool :=
  aeqb (mb_mode a) (mb_mode b) && aeqb (mb_prefix a) (mb_prefix b).

(** xirc/xirc.go:103-119: the loop of MembershipSet.Add. Computes the
    insertion index, [None] standing for the early return at line 111. *)
Fixpoint add_index (avail : list membership) (l : list membership) (new : membership)
    (i : nat) : option nat :=
  match avail with
  | [] => Some i
  | a :: avail' =>
      match nth_error l i with
      | None => Some i (* i >= len(l): break *)
      | Some li =>
          if mb_eqb li a then
            if mb_eqb a new then None else add_index avail' l new (S i)
          else if mb_eqb a new then Some i
          else add_index avail' l new i
      end
  end.

(** xirc/xirc.go:101-125 (MembershipSet.Add). *)
Definition ms_add (avail : list membership) (l : list membership) (new : membership)
    : list membership :=
  match add_index avail l new 0 with
  | None => l
  | Some i => firstn i l ++ new :: skipn i l
  end.

(** xirc/xirc.go:127-135 (MembershipSet.Remove): only the first occurrence. *)
Fixpoint ms_remove (l : list membership) (m : membership) : list membership :=
  match l with
  | [] => []
  | x :: l' => if mb_eqb x m then l' else x :: ms_remove l' m
  end.

(** upstream.go:568-581 (parseMembershipPrefix). The recursion follows the
    loop over availableMemberships; [s] is [s[i:]]. *)
Fixpoint parse_membership_prefix (avail : list membership) (s : bytes)
    : list membership * bytes :=
  match avail with
  | [] => ([], s)
  | m :: avail' =>
      match s with
      | [] => ([], [])
      | c :: s' =>
          if aeqb c (mb_prefix m) then
            let (ms, nick) := parse_membership_prefix avail' s' in (m :: ms, nick)
          else parse_membership_prefix avail' s
      end
  end.

(** Go's string(byte): the UTF-8 encoding of the code point U+0000..U+00FF. *)
Definition utf8_of_byte (c : ascii) : bytes :=
  if N.ltb (code c) 128 then [c]
  else [ascii_of_N (192 + code c / 64); ascii_of_N (128 + code c mod 64)].

(** irc.go:183-195 (formatMemberPrefix); [multi] is
    dc.caps.IsEnabled("multi-prefix"). *)
Definition format_member_prefix (ms : list membership) (multi : bool) : bytes :=
  if negb multi then
    match ms with
    | [] => []
    | m :: _ => utf8_of_byte (mb_prefix m)
    end
  else map mb_prefix ms.

(** Operations on one member's set, as issued by MODE handling. *)
Inductive ms_op := MsAdd (m : membership) | MsRemove (m : membership).

Definition ms_step (avail : list membership) (l : list membership) (o : ms_op) : list membership :=
  match o with MsAdd m => ms_add avail l m | MsRemove m => ms_remove l m end.
