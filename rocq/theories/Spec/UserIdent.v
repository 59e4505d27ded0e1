(** What servers may learn about users. *)
From Verif.Base Require Import Bytes.
From Verif.Model Require Import Identd UserIdent.
From Verif.Spec Require Import Identd.
From Coq Require Import ZArith NArith.

(** A link is a TCP connection. *)
Definition link_of (l : link) (c : conn) : Prop :=
  is_conn c /\ l_remote l = remote_addr c /\ l_local l = local_addr c.

(** What can happen: numbers are used once at a time. *)
Definition proper (s : state) (x : op) : Prop :=
  match x with Start i l => ~ In i (map fst (s_live s)) /\ (exists c, link_of l c) | Stop _ => True end.
(** No two connections at a time to the same port of the same host from the same port number. *)
Definition apart (s : state) (x : op) : Prop :=
  match x with
  | Start _ l => forall c, link_of l c -> forall i l' c', In (i, l') (s_live s) -> link_of l' c' -> ~ concerns (c_rhost c) (c_rport c) (c_lport c) c'
  | Stop _ => True
  end.
Definition anything (s : state) (x : op) : Prop := True.

Inductive reach (sha : bytes -> bytes) (P : state -> op -> Prop) : state -> Prop :=
| r_init : reach sha P init
| r_step s x : reach sha P s -> proper s x -> P s x -> reach sha P (step sha s x).

Definition names (line ident : bytes) : bytes := line ++ B " : USERID : UNKNOWN : " ++ ident ++ eol.
Definition nobody (line : bytes) : bytes := line ++ B " : ERROR : NO-USER" ++ eol.
Definition lower_hex (c : ascii) : Prop := In c (B "0123456789abcdef").
