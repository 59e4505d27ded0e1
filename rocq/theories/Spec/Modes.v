(** Specification of mode changes. *)
From Verif.Base Require Import Bytes.
From Verif.Model Require Import CaseMap Membership Modes.

(** The sign in force before position [i] of a mode string. *)
Fixpoint sign_at (s : bytes) (cur : option bool) (i : nat) : option bool :=
  match i, s with
  | O, _ => cur
  | _, [] => cur
  | S i', c :: s' =>
      sign_at s' (if aeqb c "+" then Some true else if aeqb c "-" then Some false else cur) i'
  end.

Definition is_sign (c : ascii) : Prop := c = "+"%char \/ c = "-"%char.

(** A mode string is malformed when some letter comes before any sign. *)
Definition malformed (s : bytes) : Prop :=
  exists i c, nth_error s i = Some c /\ ~ is_sign c /\ sign_at s None i = None.

(** Mode [c] is set after applying well-formed [s] to modes where it was set
    iff [before]: the last occurrence of [c] decides. *)
Definition set_after (s : bytes) (c : ascii) (before : Prop) : Prop :=
  (exists i, nth_error s i = Some c /\ sign_at s None i = Some true /\
     forall j, i < j -> nth_error s j <> Some c) \/
  (before /\ ~ In c s).

(** A tracked mode map agrees with the network's mode tables. *)
Definition modes_consistent (avail : list membership) (table : list (ascii * mode_type))
    (m : list (ascii * bytes)) : Prop :=
  NoDup (map fst m) /\
  forall c v, In (c, v) m ->
    find (fun mb => aeqb (mb_mode mb) c) avail = None /\ ~ is_sign c /\
    (al_get table c = Some ModeB \/ al_get table c = Some ModeC \/
     (al_get table c = Some ModeD /\ v = [])).

(** Whether a letter of a mode string comes with an argument, under the tables of the network
    (RPL_ISUPPORT PREFIX and CHANMODES): statuses and the types A and B always, type C when set. *)
Definition takes_arg (avail : list membership) (table : list (ascii * mode_type)) (c : ascii) (cur : option bool) : bool :=
  match cur with
  | None => false
  | Some plus =>
      if aeqb c "+" || aeqb c "-" then false
      else if existsb (fun mb => aeqb (mb_mode mb) c) avail then true
      else match al_get table c with
           | Some ModeA | Some ModeB => true
           | Some ModeC => plus
           | _ => false
           end
  end.

(** The number of arguments that belong to the letters before position [i]. *)
Fixpoint arg_no avail table (s : bytes) (cur : option bool) (i : nat) : nat :=
  match i, s with
  | O, _ => 0
  | _, [] => 0
  | S i', c :: s' =>
      (if takes_arg avail table c cur then 1 else 0) +
      arg_no avail table s' (if aeqb c "+" then Some true else if aeqb c "-" then Some false else cur) i'
  end.

(** The argument of the letter at position [i]. *)
Definition arg_at avail table (s : bytes) (args : list bytes) (cur : option bool) (i : nat) : option bytes :=
  nth_error args (arg_no avail table s cur i).

(** A letter whose value is tracked: not a status, and of type B, C or D. *)
Definition tracked (avail : list membership) (table : list (ascii * mode_type)) (c : ascii) (t : mode_type) : Prop :=
  ~ is_sign c /\ (forall mb, In mb avail -> mb_mode mb <> c) /\ al_get table c = Some t /\ t <> ModeA.

(** The change of a status at position [i]: who, and which. *)
Definition status_at avail table (s : bytes) (args : list bytes) (cur : option bool) (i : nat) : option (bytes * ms_op) :=
  match nth_error s i with
  | Some c =>
      if aeqb c "+" || aeqb c "-" then None
      else match find (fun mb => aeqb (mb_mode mb) c) avail, arg_at avail table s args cur i, sign_at s cur i with
           | Some mb, Some who, Some true => Some (who, MsAdd mb)
           | Some mb, Some who, Some false => Some (who, MsRemove mb)
           | _, _, _ => None
           end
  | None => None
  end.

(** All changes to the statuses of one member, in order. *)
Definition status_changes avail table (s : bytes) (args : list bytes) (cur : option bool) (cm : casemapping) (who : bytes) : list ms_op :=
  flat_map (fun i => match status_at avail table s args cur i with
    | Some (w, op) => if beqb (casemap cm w) (casemap cm who) then [op] else []
    | None => []
    end) (seq 0 (length s)).
