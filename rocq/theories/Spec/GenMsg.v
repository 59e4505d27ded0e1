(** What receivers make of generated messages. *)
From Verif.Base Require Import Bytes.
From Verif.Model Require Import Message.

(** What a correct sort leaves behind, for a "less" predicate. *)
Definition sort_result {A} (less : A -> A -> bool) (before after : list A) : Prop :=
  Permutation before after /\
  forall i j x y, i < j -> nth_error after i = Some x -> nth_error after j = Some y -> less y x = false.

(** An IRC server reading JOIN: the i-th key goes with the i-th channel. *)
Fixpoint pair_keys (chans keys : list bytes) : list (bytes * bytes) :=
  match chans, keys with
  | [], _ => []
  | c :: cs, [] => (c, []) :: pair_keys cs []
  | c :: cs, k :: ks => (c, k) :: pair_keys cs ks
  end.

Definition read_join (m : message) : list (bytes * bytes) :=
  match m_params m with
  | [chans] => pair_keys (split_on "," chans) []
  | [chans; keys] => pair_keys (split_on "," chans) (split_on "," keys)
  | _ => []
  end.

(** A name usable as a non-trailing parameter and list element. *)
Definition list_word (w : bytes) : Prop :=
  ~ In ","%char w /\ ~ In " "%char w /\ (forall r, w <> ":"%char :: r).

(** A server reading MONITOR. *)
Definition read_monitor (m : message) : list bytes :=
  match m_params m with
  | [_; targets] => split_on "," targets
  | _ => []
  end.

(** A client reading RPL_ISUPPORT, with the \xHH escapes of the ISUPPORT
    specification. *)
Definition hex_value (c : ascii) : option N :=
  if N.leb 48 (code c) && N.leb (code c) 57 then Some (code c - 48)%N
  else if N.leb 65 (code c) && N.leb (code c) 70 then Some (code c - 55)%N
  else if N.leb 97 (code c) && N.leb (code c) 102 then Some (code c - 87)%N
  else None.

Fixpoint isupport_decode (s : bytes) : bytes :=
  match s with
  | [] => []
  | c :: s' =>
      match s' with
      | x :: h :: l :: s3 =>
          if aeqb c "\" && aeqb x "x" then
            match hex_value h, hex_value l with
            | Some a, Some b => ascii_of_N (16 * a + b) :: isupport_decode s3
            | _, _ => c :: isupport_decode s'
            end
          else c :: isupport_decode s'
      | _ => c :: isupport_decode s'
      end
  end.

Definition read_isupport (m : message) : list bytes :=
  match m_params m with
  | _ :: ps => map isupport_decode (removelast ps)
  | [] => []
  end.

(** A client reading RPL_NAMREPLY. *)
Definition read_names (m : message) : list bytes :=
  match m_params m with
  | [_; _; _; names] => split_on " " names
  | _ => []
  end.

(** The SASL chunking rule: a receiver appends chunks ("+" standing for the
    empty chunk) until one is not 400 bytes long. [Some (whole, rest)]. *)
Fixpoint sasl_receive (chunks : list bytes) : option (bytes * list bytes) :=
  match chunks with
  | [] => None
  | c :: cs =>
      if Nat.eqb (length c) 400 then
        match sasl_receive cs with
        | Some (w, r) => Some (c ++ w, r)
        | None => None
        end
      else Some (if beqb c (B "+") then [] else c, cs)
  end.
