(** Model of the ident server, identd/identd.go. *)
From Verif.Base Require Import Bytes.
From Coq Require Import ZArith.

(** Last occurrence of a byte: what is before and after it. *)
Fixpoint cut_last (sep : ascii) (s : bytes) : option (bytes * bytes) :=
  match s with
  | [] => None
  | c :: s' => match cut_last sep s' with
               | Some (a, b) => Some (c :: a, b)
               | None => if aeqb c sep then Some ([], s') else None
               end
  end.

(** net.SplitHostPort (standard library). *)
Definition split_host_port (hp : bytes) : option (bytes * bytes) :=
  match cut_last ":" hp with
  | None => None
  | Some (before, port) =>
      match hp with
      | "["%char :: rest =>
          match cut_on "]" rest with
          | (_, None) => None
          | (host, Some tail) =>
              match tail with
              | ":"%char :: p =>
                  (* the colon after the bracket must be the last one *)
                  if beqb p port && negb (amem "[" rest) && negb (amem "]" tail) then Some (host, port) else None
              | _ => None
              end
          end
      | _ => if amem ":" before || amem "[" hp || amem "]" hp then None else Some (before, port)
      end
  end.

Definition digits_value (s : bytes) : Z := fold_left (fun acc c => acc * 10 + (Z.of_N (code c) - 48))%Z s 0%Z.

(** strconv.Atoi (64-bit int). *)
Definition atoi (s : bytes) : option Z :=
  let '(neg, ds) := match s with
                    | "-"%char :: t => (true, t)
                    | "+"%char :: t => (false, t)
                    | _ => (false, s)
                    end in
  match ds with
  | [] => None
  | _ => if forallb is_digit ds then
           let v := (if neg then - digits_value ds else digits_value ds)%Z in
           if ((- 2 ^ 63 <=? v) && (v <? 2 ^ 63))%Z then Some v else None
         else None
  end.

(** strings.TrimSpace, for ASCII white space only (non-ASCII white space around
    a port number is a rejected query here). *)
Definition is_ws (c : ascii) : bool := amem c (map ascii_of_N [9; 10; 11; 12; 13; 32]%N).
Fixpoint trim_left (s : bytes) : bytes :=
  match s with
  | c :: s' => if is_ws c then trim_left s' else s
  | [] => []
  end.
Definition trim_space (s : bytes) : bytes := rev (trim_left (rev (trim_left s))).

(** identd.go:18-22. *)
Record ident_key := IdentKey { ik_host : bytes; ik_rport : Z; ik_lport : Z }.
Definition key_eqb (a b : ident_key) : bool :=
  beqb (ik_host a) (ik_host b) && Z.eqb (ik_rport a) (ik_rport b) && Z.eqb (ik_lport a) (ik_lport b).

(** identd.go:40-47 (splitHostPort). *)
Definition split_addr (addr : bytes) : option (bytes * Z) :=
  match split_host_port addr with
  | None => None
  | Some (host, port) => match atoi port with Some p => Some (host, p) | None => None end
  end.

(** identd.go:24-38 (newIdentKey). *)
Definition new_ident_key (remote local : bytes) : option ident_key :=
  match split_addr remote with
  | None => None
  | Some (host, rp) =>
      match split_addr local with
      | None => None
      | Some (_, lp) => Some (IdentKey host rp lp)
      end
  end.

(** The map entries; a later pair for a key never coexists with an earlier one. *)
Definition entries := list (ident_key * bytes).

Definition remove_key (k : ident_key) (m : entries) : entries :=
  filter (fun e => negb (key_eqb k (fst e))) m.

(** A missing key reads as the empty string. *)
Definition lookup (k : ident_key) (m : entries) : bytes :=
  match find (fun e => key_eqb k (fst e)) m with Some e => snd e | None => [] end.

(** identd.go:59-67 (Store). *)
Definition ident_store (m : entries) (remote local ident : bytes) : entries :=
  match new_ident_key remote local with
  | None => m
  | Some k => (k, ident) :: remove_key k m
  end.

(** identd.go:69-77 (Delete). *)
Definition ident_delete (m : entries) (remote local : bytes) : entries :=
  match new_ident_key remote local with
  | None => m
  | Some k => remove_key k m
  end.

(** identd.go:136-155 (parseIdentQuery): local and remote port. *)
Definition parse_ident_query (l : bytes) : option (Z * Z) :=
  match cut_on "," l with
  | (_, None) => None
  | (a, Some b) =>
      match atoi (trim_space a) with
      | None => None
      | Some lp =>
          match atoi (trim_space b) with
          | None => None
          | Some rp => if ((lp <=? 0) || (rp <=? 0))%Z then None else Some (lp, rp)
          end
      end
  end.

Definition crlf : bytes := map ascii_of_N [13; 10]%N.

(** identd.go:108-134: the reply to one line read by the scanner from a client
    at [host], and whether the connection stays open. *)
Definition ident_line (m : entries) (host l : bytes) : bytes * bool :=
  match parse_ident_query l with
  | None => (l ++ B " : ERROR : INVALID-PORT" ++ crlf, false)
  | Some (lp, rp) =>
      let ident := lookup (IdentKey host rp lp) m in
      match ident with
      | [] => (l ++ B " : ERROR : NO-USER" ++ crlf, false)
      | _ => (l ++ B " : USERID : UNKNOWN : " ++ ident ++ crlf, true)
      end
  end.

(** Operations: registrations by soju, and lines from one ident client. *)
Inductive ident_op :=
| IStore (remote local ident : bytes)
| IDelete (remote local : bytes)
| ILine (l : bytes).

(** identd.go:91-134: what a client connected from [host] receives. The line
    scanner (512 byte limit) and the time-out are not modelled. *)
Fixpoint ident_run (host : bytes) (m : entries) (open : bool) (ops : list ident_op) : list bytes :=
  match ops with
  | [] => []
  | IStore r l i :: ops' => ident_run host (ident_store m r l i) open ops'
  | IDelete r l :: ops' => ident_run host (ident_delete m r l) open ops'
  | ILine l :: ops' =>
      if open then let '(reply, open') := ident_line m host l in reply :: ident_run host m open' ops'
      else ident_run host m open ops'
  end.
