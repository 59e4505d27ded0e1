(** What C104 says: each network has its own logs. *)
From Verif.Base Require Import Bytes.
From Verif.Model Require Import LogPath LogFiles.
Open Scope nat_scope.

(** The networks there are, and what was logged, by network, entity and day. *)
Definition logged := list (N * bytes * bytes * bytes).
Definition note (x : list N * logged) (o : op) : list N * logged :=
  let (nets, l) := x in
  match o with
  | Add id _ => (id :: nets, l)
  | Rename _ _ | Restart => (nets, l)
  | Delete id => (filter (fun y => negb (N.eqb y id)) nets, l)
  | Append id entity day line => if existsb (N.eqb id) nets then (nets, l ++ [(id, entity, day, line)]) else (nets, l)
  end.
Definition story (ops : list op) : list N * logged := fold_left note ops ([], []).
Definition networks (ops : list op) : list N := fst (story ops).
(** The lines logged for an entity of a network on a day. *)
Definition lines (ops : list op) (id : N) (entity day : bytes) : list bytes :=
  flat_map (fun '(i, e, d, line) => if N.eqb i id && beqb e entity && beqb d day then match line with [] => [] | _ => [line ++ [nl]] end else []) (snd (story ops)).

(** Names of a network never were names of another one, as directories; no id is
    used twice. *)
Definition named (o : op) (id : N) (name : bytes) : Prop := o = Add id name \/ o = Rename id name.
Definition adds (ops : list op) : list N := flat_map (fun o => match o with Add id _ => [id] | _ => [] end) ops.
Definition own_names (ops : list op) : Prop :=
  NoDup (adds ops) /\
  forall o1 o2 i1 i2 n1 n2, In o1 ops -> In o2 ops -> named o1 i1 n1 -> named o2 i2 n2 -> escape_filename n1 = escape_filename n2 -> i1 = i2.
(** No other entity has the directory of this one. *)
Definition own_entity (ops : list op) (entity : bytes) : Prop :=
  forall id e day line, In (Append id e day line) ops -> escape_filename e = escape_filename entity -> e = entity.
