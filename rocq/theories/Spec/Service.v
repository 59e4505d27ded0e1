(** What a user relies on when commands are sent to the service: how a command is named, who may
    run it, and what it leaves unchanged. *)
From Verif.Base Require Import Bytes.
From Verif.Model Require Import Service.
From Coq Require Import ZArith.
Open Scope nat_scope.

(** A word names a command by its full name, or by a prefix that no other command shares. *)
Inductive selects (cmds : list (bytes * command)) (w : bytes) : command -> Prop :=
| sel_full : forall c, In (w, c) cmds -> selects cmds w c
| sel_short : forall k c t,
    (forall c', ~ In (w, c') cmds) ->
    In (k, c) cmds -> k = w ++ t ->
    (forall k' c' t', In (k', c') cmds -> k' = w ++ t' -> k' = k) ->
    selects cmds w c.

(** Words name a command in a tree; the words left over are its parameters. *)
Inductive resolves : list (bytes * command) -> list bytes -> command -> list bytes -> Prop :=
| res_here : forall cmds w c rest,
    selects cmds w c -> rest = [] \/ c_children c = [] ->
    resolves cmds (w :: rest) c rest
| res_below : forall cmds w c rest c' rest',
    selects cmds w c -> rest <> [] -> c_children c <> [] ->
    resolves (c_children c) rest c' rest' ->
    resolves cmds (w :: rest) c' rest'.

(** The names of a set are distinct, at each level. *)
Inductive distinct : list (bytes * command) -> Prop :=
| Distinct : forall cmds,
    NoDup (map fst cmds) ->
    (forall k c, In (k, c) cmds -> distinct (c_children c)) ->
    distinct cmds.

(** The same command up to the order of the sets. *)
Inductive same_command : command -> command -> Prop :=
| Same : forall a g h ch ch',
    (forall k c, In (k, c) ch -> exists c', In (k, c') ch' /\ same_command c c') ->
    (forall k c', In (k, c') ch' -> exists c, In (k, c) ch /\ same_command c c') ->
    same_command (Command a g h ch) (Command a g h ch').

Definition same_set (x y : list (bytes * command)) : Prop :=
  same_command (Command false false None x) (Command false false None y).

(** The handlers that need administrator rights: they show or change other users, or the
    server. *)
Definition privileged (h : handler) : Prop :=
  In h [HUserStatus; HUserCreate; HUserRun; HServerStatus; HServerNotice; HServerDebug].

Section WithData.

Variable D : Type.

(** A user without administrator rights. *)
Definition ordinary (s : server D) (name : bytes) : Prop :=
  forall u, In u (sv_users s) -> a_name (us_acc u) = name -> a_admin (us_acc u) = false.

Definition from_ordinary (s : server D) (ev : issuer * env * list bytes) : Prop :=
  exists name net e words, ev = (ByUser name net, e, words) /\ ordinary s name.

(** The rights of an account are the same. *)
Definition same_rights (a b : account) : Prop :=
  a_name a = a_name b /\ a_admin a = a_admin b /\ a_enabled a = a_enabled b /\ a_max a = a_max b.

Definition issued_by (name : bytes) (ev : issuer * env * list bytes) : Prop :=
  exists net, fst (fst ev) = ByUser name net.

(** What ordinary users cannot do with any commands: change the server, add an account,
    change the rights of an account, or touch anything of a user who sent no command. *)
Record confined (evs : list (issuer * env * list bytes)) (s s' : server D) : Prop := {
  cf_debug : sv_debug s' = sv_debug s;
  cf_notices : sv_notices s' = sv_notices s;
  cf_users : forall u', In u' (sv_users s') ->
    exists u, In u (sv_users s) /\ same_rights (us_acc u') (us_acc u);
  cf_rows : forall a', In a' (sv_db s') -> exists a, In a (sv_db s) /\ same_rights a' a;
  cf_others : forall name, (forall ev, In ev evs -> ~ issued_by name ev) ->
    (forall u, a_name (us_acc u) = name -> (In u (sv_users s') <-> In u (sv_users s))) /\
    (forall a, a_name a = name -> (In a (sv_db s') <-> In a (sv_db s)))
}.

(** The running users are the stored ones, and names are unique. *)
Record consistent (s : server D) : Prop := {
  cs_users : NoDup (map (fun u => a_name (us_acc u)) (sv_users s));
  cs_rows : NoDup (map a_name (sv_db s));
  cs_stored : forall u, In u (sv_users s) -> In (us_acc u) (sv_db s)
}.

(** How a command ended. *)
Definition result_of (o : outcome D * list call) : sresult := snd (fst o).

(** The commands about networks and channels end. *)
Definition local_ends (local : list bytes -> context -> account -> D -> list bytes -> D * list say * sresult) : Prop :=
  forall path cx a d params d' out r, local path cx a d params = (d', out, r) -> r <> RBlocked.

End WithData.

Arguments ordinary {D}. Arguments from_ordinary {D}. Arguments confined {D}. Arguments consistent {D}.

(** The path of a command without subcommands. *)
Inductive leaf_at : list (bytes * command) -> list bytes -> command -> Prop :=
| la_here : forall cmds k c, In (k, c) cmds -> c_children c = [] -> leaf_at cmds [k] c
| la_below : forall cmds k c p c', In (k, c) cmds -> leaf_at (c_children c) p c' -> leaf_at cmds (k :: p) c'.
