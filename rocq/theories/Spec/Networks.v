(** Specification of the networks of a user. *)
From Verif.Base Require Import Bytes.
From Verif.Model Require Import Networks.
From Coq Require Import ZArith Permutation.
Local Open Scope Z_scope.

(** The name shown to the user: the chosen name, or else the address. *)
Definition shown (r : netrec) (name : bytes) : Prop :=
  (n_name r <> [] /\ name = n_name r) \/ (n_name r = [] /\ name = n_addr r).

(** No two networks are shown under the same name. *)
Definition names_distinct (nets : list netrec) : Prop :=
  forall a n b m c x, nets = a ++ n :: b ++ m :: c -> shown n x -> shown m x -> False.

(** The number of enabled networks. *)
Fixpoint enabled_count (nets : list netrec) : Z :=
  match nets with
  | [] => 0
  | r :: nets' => (if n_enabled r then 1 else 0) + enabled_count nets'
  end.

(** What is kept of a network in the database: the user name and password only for SASL PLAIN. *)
Definition persistent (r : netrec) : netrec :=
  if beqb (n_mech r) (B "PLAIN") then r else set_sasl (n_mech r) [] [] (n_cert r) (n_key r) r.

(** After a restart the user has these networks. *)
Definition reloaded (u : ust) : list netrec := map rec_of (us_rows u).

(** Restarting does not change the networks. *)
Definition restart_safe (u : ust) : Prop := Permutation (reloaded u) (map persistent (us_nets u)).

(** Commands of the service are typed in IRC messages, which have no line feed. *)
Definition typed_flags (fs : flags) : Prop :=
  match f_cmds fs with None => True | Some l => forall c, In c l -> ~ In "010"%char c end.
Definition typed (o : op) : Prop :=
  match o with
  | SvcCreate _ fs _ _ | SvcUpdate _ _ _ fs _ => typed_flags fs
  | _ => True
  end.

(** Commands that a user who is not an admin can cause; [m] is their network limit. *)
Definition ordinary (m : Z) (o : op) : Prop :=
  match o with
  | SvcCreate admin _ _ _ | SvcUpdate admin _ _ _ _ => admin = false
  | UserUpdate _ _ admin _ max _ _ _ => admin = false /\ max = m
  | _ => True
  end.

(** The commands that change the network in use and the database separately. *)
Definition split_update (o : op) : Prop :=
  match o with
  | DcSetname _ _ cap _ => cap = true
  | SvcSaslSet _ _ _ _ io | SvcSaslReset _ _ io | SvcCertfp _ _ _ _ io | AutoSave _ _ _ io => io = false
  | _ => False
  end.

(** Lower-case hexadecimal digits. *)
Definition hexdigits : bytes := B "0123456789abcdef".
