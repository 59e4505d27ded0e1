(** Model of the key pair with which push messages are signed: it is made at the first
    start and kept in the database (server.go:221-230, 302-330, sqlite.go:926-969,
    postgres.go:693-731), shown to clients (downstream.go:1493-1496), kept with every
    subscription (downstream.go:3230-3236, 3301), and compared before sending
    (server.go:347-360).

    Simplifications: only this part of the start; the subscriptions are a table of
    their own with the key of each; a registration whose test message fails is left
    out. Processes of soju on one database, which may be killed at any time, run
    in steps: a call to the database or the making of the keys. *)
From Verif.Base Require Import Bytes.
From Coq Require Import NArith.

(** The public and the private key. *)
Definition pair := (bytes * bytes)%type.

(** Where a process is: it found no keys; it has made keys; it serves clients. *)
Inductive phase := Listed | Made (k : pair) | Up (k : pair).

(** The table WebPushConfig, the processes, and the key of each subscription. *)
Record st := St { v_table : list pair; v_procs : list (N * phase); v_subs : list (N * bytes) }.
Definition start : st := St [] [] [].

Inductive op :=
| Begin (p : N) (ok : bool)
| Generate (p : N) (k : option pair)
| Store (p : N) (written told : bool)
| Kill (p : N)
| Connect (p : N)
| Subscribe (p : N) (id : N)
| Notify (p : N) (id : N).

(** What clients and push services see: ISUPPORT with VAPID, a message signed with a
    pair of keys, and a message not sent for want of the key. *)
Inductive out := Shown (p : N) (key : bytes) | Signed (p : N) (id : N) (k : pair) | Unsent (p : N) (id : N).

Fixpoint get {V} (p : N) (l : list (N * V)) : option V :=
  match l with [] => None | (q, v) :: l => if N.eqb q p then Some v else get p l end.
Definition del {V} (p : N) (l : list (N * V)) : list (N * V) := filter (fun x => negb (N.eqb (fst x) p)) l.
Definition set_proc (p : N) (f : phase) (s : st) : st := St (v_table s) ((p, f) :: del p (v_procs s)) (v_subs s).
Definition stop (p : N) (s : st) : st := St (v_table s) (del p (v_procs s)) (v_subs s).

(** UNIQUE(vapid_key_public), sqlite.go:178. *)
Definition insert (k : pair) (l : list pair) : list pair := if existsb (fun x => beqb (fst x) (fst k)) l then l else l ++ [k].

Definition step (s : st) (o : op) : st * list out :=
  match o with
  | Begin p ok =>
    (* server.go:303-313; a process of this number is not running *)
    match get p (v_procs s) with
    | Some _ => (s, [])
    | None =>
      if negb ok then (s, [])
      else match v_table s with
           | [] => (set_proc p Listed s, [])
           | [k] => (set_proc p (Up k) s, [])
           | _ => (s, [])
           end
    end
  | Generate p k =>
    (* server.go:315-319 *)
    match get p (v_procs s), k with
    | Some Listed, Some k => (set_proc p (Made k) s, [])
    | Some Listed, None => (stop p s, [])
    | _, _ => (s, [])
    end
  | Store p written told =>
    (* server.go:321-329; [written] without [told]: the statement was carried out, but
       the process has not heard of it *)
    match get p (v_procs s) with
    | Some (Made k) =>
      if written then
        if existsb (fun x => beqb (fst x) (fst k)) (v_table s) then (stop p s, [])
        else let s := St (insert k (v_table s)) (v_procs s) (v_subs s) in
             if told then (set_proc p (Up k) s, []) else (stop p s, [])
      else (stop p s, [])
    | _ => (s, [])
    end
  | Kill p => (stop p s, [])
  | Connect p => match get p (v_procs s) with Some (Up k) => (s, [Shown p (fst k)]) | _ => (s, []) end
  | Subscribe p id =>
    match get p (v_procs s) with
    | Some (Up k) => (St (v_table s) (v_procs s) ((id, fst k) :: del id (v_subs s)), [Signed p id k])
    | _ => (s, [])
    end
  | Notify p id =>
    (* user.go:485-506, server.go:358-360 *)
    match get p (v_procs s), get id (v_subs s) with
    | Some (Up k), Some key => (s, [if beqb key (fst k) then Signed p id k else Unsent p id])
    | _, _ => (s, [])
    end
  end.

Fixpoint run (s : st) (ops : list op) : st * list out :=
  match ops with
  | [] => (s, [])
  | o :: ops => let '(s, a) := step s o in let '(s, b) := run s ops in (s, a ++ b)
  end.
