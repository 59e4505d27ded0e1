(** What is expected of an account. *)
From Verif.Base Require Import Bytes.
From Verif.Model Require Import Activity.
From Coq Require Import ZArith.
Local Open Scope Z_scope.

(** A client of the user, not of an admin in their name, is connected. *)
Definition serving (s : st) : Prop := exists c, In c (s_conns s) /\ c_imp c = false /\ In (c_id c) (s_clients s).
(** A password lets in. *)
Definition accepts (verify : bytes -> bytes -> bool) (s : st) (pw : bytes) : Prop :=
  a_hash (s_db s) <> [] /\ verify (a_hash (s_db s)) pw = true.

(** Executions: the bouncer is not stopped; the database does not fail; the record is not written behind its back. *)
Definition running (o : op) : Prop := o <> Reboot.
Definition stored (o : op) : Prop := match o with Step io _ => io = true | Own _ _ io => io = true | _ => True end.
(** Authentication is not interrupted, and sojudb is not used. *)
Definition whole (o : op) : Prop := match o with AuthRead _ _ _ | AuthDone _ | Sojudb _ _ => False | _ => True end.
(** Changes of the password that take effect in this step. *)
Definition changes_password (s : st) (o : op) : Prop :=
  match o with
  | Own _ _ true | Sojudb _ _ => True
  | Step true _ => exists h a e q, s_queue s = EUpdate (Some h) a e :: q
  | _ => False
  end.

(** What should let in: the password now, if there is one, and the changes that are requested but not yet made. *)
Definition track := (option bytes * list (option bytes))%type.
Definition at_change (s : st) : bool := match s_queue s with EUpdate (Some _) _ _ :: _ => true | _ => false end.
Definition track_step (s : st) (o : op) (t : track) : track :=
  match o with
  | Update (Some pw) _ _ _ => (fst t, snd t ++ [Some pw])
  | NoPassword => (fst t, snd t ++ [None])
  | Own pw _ true => (pw, snd t)
  | Step io _ =>
      if at_change s then
        match snd t with p :: l => (if io then p else fst t, l) | [] => t end
      else t
  | Reboot => (fst t, [])
  | _ => t
  end.
Fixpoint tracked (next : st -> op -> st) (s : st) (os : list op) (t : track) : track :=
  match os with [] => t | o :: os => tracked next (next s o) os (track_step s o t) end.

(** Nobody asks for the account to be enabled. *)
Definition not_enabling (o : op) : Prop := match o with Update _ _ _ (Some true) => False | _ => True end.
(** The account is disabled, and nothing under way enables it. *)
Definition disabled (s : st) : Prop :=
  a_enabled (s_db s) = false /\ a_enabled (s_mem s) = false /\
  (forall h a, ~ In (EUpdate h a (Some true)) (s_queue s)) /\
  (forall c r, In c (s_conns s) -> c_stage c = Authing (Some r) -> a_enabled r = false).
