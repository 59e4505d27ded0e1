(** How RPL_ISUPPORT tokens are to be read. *)
From Verif.Base Require Import Bytes.
From Verif.Model Require Import Message CaseMap Membership Modes Isupport.
From Verif.Spec Require Import GenMsg.

(** A parameter is unknown, set without value, or set to a value. *)
Definition view := bytes -> option (option bytes).

(** A token: the parameter and what becomes of it. Names are compared without
    regard to case, and values are as sent. *)
Inductive token : Type := Negated (name : bytes) | Plain (name : bytes) (value : option bytes).

Definition read_token (t : bytes) : token :=
  match t with
  | c :: rest => if aeqb c "-" then Negated (to_upper rest)
                 else let (name, value) := cut_on "=" t in Plain (to_upper name) value
  | [] => Plain [] None
  end.

(** What is known about parameter [k] after the tokens [l], oldest first, if it
    was [known] before. *)
Fixpoint learned (l : list bytes) (k : bytes) (known : option (option bytes)) : option (option bytes) :=
  match l with
  | [] => known
  | t :: l =>
    learned l k (match read_token t with
                 | Negated name => if beqb name k then None else known
                 | Plain name value => if beqb name k then Some value else known
                 end)
  end.

(** The tokens of a line, as sent. *)
Definition tokens_of (params : list bytes) : list bytes := removelast (tl params).

(** The tokens a server sent. *)
Definition sent (l : list event) : list bytes := flat_map (fun e => match e with Isupport params => tokens_of params | EndOfMotd => [] end) l.

(** The end of the message of the day came. *)
Definition ended (l : list event) : bool := existsb (fun e => match e with EndOfMotd => true | _ => false end) l.

(** Tokens that set a parameter. *)
Definition sets (t : bytes) : Prop := forall name, read_token t <> Negated name.

(** ** What the parameters mean *)

(** CHANMODES: four groups of letters; the last one counts. *)
Definition chanmodes_mean (v : bytes) (table : list (ascii * mode_type)) : Prop :=
  exists a b c d, (v = a ++ B "," ++ b ++ B "," ++ c ++ B "," ++ d \/ exists rest, v = a ++ B "," ++ b ++ B "," ++ c ++ B "," ++ d ++ B "," ++ rest) /\
    (forall x, In x [a; b; c; d] -> ~ In ","%char x) /\
    forall m, al_get table m = (if amem m d then Some ModeD else if amem m c then Some ModeC else if amem m b then Some ModeB
                                else if amem m a then Some ModeA else None).

(** PREFIX: letters and prefixes in the same order. *)
Definition prefix_mean (v : bytes) (l : list membership) : Prop :=
  (v = [] /\ l = []) \/
  (v = B "(" ++ map mb_mode l ++ B ")" ++ map mb_prefix l /\ ~ In ")"%char (map mb_mode l)).

Definition casemapping_mean (v : option (option bytes)) (cm : casemapping) : Prop :=
  match v with
  | Some (Some v) => if beqb v (B "ascii") then cm = CmASCII else if beqb v (B "rfc1459-strict") then cm = CmRFC1459Strict else cm = CmRFC1459
  | _ => cm = CmRFC1459
  end.

Definition value_of (v : option bytes) : bytes := match v with Some v => v | None => [] end.
