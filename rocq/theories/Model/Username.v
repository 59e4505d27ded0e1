(** Model of unmarshalUsername, downstream.go. *)
From Verif.Base Require Import Bytes.

Definition is_sep (c : ascii) : bool := aeqb c "/" || aeqb c "@".

(** strings.IndexAny(s, "/@"); [None] is -1. *)
Fixpoint index_sep (s : bytes) : option nat :=
  match s with
  | [] => None
  | c :: s' => if is_sep c then Some 0 else option_map S (index_sep s')
  end.

(** strings.LastIndexAny(s, "/@"); [None] is -1. *)
Fixpoint last_index_sep (s : bytes) : option nat :=
  match s with
  | [] => None
  | c :: s' => match last_index_sep s' with
               | Some n => Some (S n)
               | None => if is_sep c then Some 0 else None
               end
  end.

Definition byte_at (s : bytes) (i : nat) : ascii := nth i s "000"%char.

(** Go's s[i:j]. *)
Definition slice (s : bytes) (i j : nat) : bytes := firstn (j - i) (skipn i s).

(** downstream.go:1264-1288; returns the user name, the client and the
    network. The indexes are always in range. *)
Definition unmarshal_username (raw : bytes) : bytes * bytes * bytes :=
  let i := index_sep raw in
  let j := last_index_sep raw in
  let username := match i with Some i => firstn i raw | None => raw end in
  let '(client, network) :=
    match j with
    | Some j => if aeqb (byte_at raw j) "@" then (skipn (S j) raw, []) else ([], skipn (S j) raw)
    | None => ([], [])
    end in
  let '(client, network) :=
    match i, j with
    | Some i, Some j =>
        if Nat.ltb i j then
          if aeqb (byte_at raw i) "@" then (slice raw (S i) j, network) else (client, slice raw (S i) j)
        else (client, network)
    | _, _ => (client, network)
    end in
  (username, client, network).
