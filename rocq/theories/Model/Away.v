(** Model of the automatic away state (upstream.go:2205-2237 and its callers in
    user.go:640-649, 721-803 and downstream.go:2611-2623, 780-787). *)
From Verif.Base Require Import Bytes.
From Verif.Model Require Import Message.
From Coq Require Import NArith.
Open Scope N_scope.

(** A network: whether its connection is marked as away automatically
    (database/database.go:168), and the connection if there is one, with
    draft/pre-away offered by the server, and upstreamConn.away (upstream.go:218).
    The number stands for the network as an object: user.go:1087-1163
    (updateNetwork) makes a new object and patches the clients in the list, which
    comes to keeping the number for these; see [AUpdate]. *)
Record aconn := AConn { a_pre : bool; a_away : bool }.
Record anet := ANet { an_id : N; an_auto : bool; an_conn : option aconn }.
(** A client connection: whether it has registered, whether it is in the list
    downstreamConns of its user, its network and downstreamConn.away. *)
Record acl := ACl { ac_id : N; ac_reg : bool; ac_in : bool; ac_net : option N; ac_away : option bytes }.
Record ast := ASt { a_nets : list anet; a_cls : list acl; a_nextnet : N; a_nextcl : N }.

(** What comes out: an AWAY sent to the server of a network, and the answer
    RPL_NOWAWAY (true) or RPL_UNAWAY sent to a client (irc.go:315-326). *)
Inductive aout := ASend (net : N) (params : list bytes) | ATell (client : N) (away : bool).

Definition on_net (n : N) (c : acl) : bool := match ac_net c with Some m => N.eqb m n | None => false end.
(** user.go:188-195 (forEachDownstream) and upstream.go:2212-2217. *)
Definition all_away (n : N) (cls : list acl) : bool :=
  forallb (fun c => match ac_away c with Some _ => true | None => false end) (filter (fun c => ac_in c && on_net n c) cls).

(** upstream.go:2205-2237 (updateAway). *)
Definition update_away (cls : list acl) (net : anet) : anet * list aout :=
  match an_conn net with
  | None => (net, [])
  | Some c =>
      if negb (an_auto net) then (net, [])
      else let away := all_away (an_id net) cls in
        if Bool.eqb away (a_away c) then (net, [])
        else (ANet (an_id net) (an_auto net) (Some (AConn (a_pre c) away)),
          [ASend (an_id net) (if away then [if a_pre c then B "*" else B "Auto away"] else [])])
  end.

Fixpoint update_all (cls : list acl) (nets : list anet) : list anet * list aout :=
  match nets with
  | [] => ([], [])
  | n :: r => let '(n', o) := update_away cls n in let '(r', o') := update_all cls r in (n' :: r', o ++ o')
  end.
Fixpoint update_one (cls : list acl) (id : N) (nets : list anet) : list anet * list aout :=
  match nets with
  | [] => ([], [])
  | n :: r => if an_id n =? id then let '(n', o) := update_away cls n in (n' :: r, o) else let '(r', o) := update_one cls id r in (n :: r', o)
  end.
Definition set_conn (c : option aconn) (n : anet) : anet := ANet (an_id n) (an_auto n) c.
Definition at_net (id : N) (f : anet -> anet) (nets : list anet) : list anet := map (fun n => if an_id n =? id then f n else n) nets.
Definition at_cl (id : N) (f : acl -> acl) (cls : list acl) : list acl := map (fun c => if ac_id c =? id then f c else c) cls.

(** What may happen: a client connects, sends AWAY, completes its registration
    with a network or none and is let in or refused (user.go:721-763), or its
    disconnection is noticed; the connection to a server is made or lost; a
    network is added, changed or deleted. *)
Inductive aev := AOpen | AAway (client : N) (params : list bytes) | ARegister (client : N) (net : option N) (ok : bool) | AClose (client : N)
  | AUp (net : N) (pre : bool) | ADown (net : N) | AAdd (auto : bool) | AUpdate (net : N) (auto : bool) | ADelete (net : N).

Definition with_cls (s : ast) cls := ASt (a_nets s) cls (a_nextnet s) (a_nextcl s).
Definition with_nets (s : ast) nets := ASt nets (a_cls s) (a_nextnet s) (a_nextcl s).
Definition has_net (s : ast) (n : N) : bool := existsb (fun x => an_id x =? n) (a_nets s).

(** Events that cannot happen give [None]: the server gives connections and
    networks fresh identities, a client registers once, with a network that
    exists, and so on. *)
Definition astep (e : aev) (s : ast) : option (ast * list aout) :=
  match e with
  | AOpen => Some (ASt (a_nets s) (ACl (a_nextcl s) false false None None :: a_cls s) (a_nextnet s) (a_nextcl s + 1), [])
  | AAway id params =>
      match find (fun c => ac_id c =? id) (a_cls s) with
      | None => None
      | Some c =>
          let away := match params with [] => None | p :: _ => Some p end in
          let cls := at_cl id (fun c => ACl id (ac_reg c) (ac_in c) (ac_net c) away) (a_cls s) in
          let tell := ATell id (match away with Some _ => true | None => false end) in
          match ac_reg c, ac_net c with
          | true, Some n => let '(nets, o) := update_one cls n (a_nets s) in Some (with_nets (with_cls s cls) nets, tell :: o)
          | _, _ => Some (with_cls s cls, [tell])
          end
      end
  | ARegister id net ok =>
      match find (fun c => ac_id c =? id) (a_cls s) with
      | None => None
      | Some c =>
          if ac_reg c || match net with Some n => negb (has_net s n) | None => false end then None
          else let cls := at_cl id (fun c => ACl id true ok net (ac_away c)) (a_cls s) in
            if ok then let '(nets, o) := update_all cls (a_nets s) in Some (with_nets (with_cls s cls) nets, o)
            else Some (with_cls s cls, [])
      end
  | AClose id =>
      let cls := filter (fun c => negb (ac_id c =? id)) (a_cls s) in
      let '(nets, o) := update_all cls (a_nets s) in Some (with_nets (with_cls s cls) nets, o)
  | AUp n pre =>
      if has_net s n then
        let '(nets, o) := update_one (a_cls s) n (at_net n (set_conn (Some (AConn pre false))) (a_nets s)) in Some (with_nets s nets, o)
      else None
  | ADown n => Some (with_nets s (at_net n (set_conn None) (a_nets s)), [])
  | AAdd auto => Some (ASt (a_nets s ++ [ANet (a_nextnet s) auto None]) (a_cls s) (a_nextnet s + 1) (a_nextcl s), [])
  | AUpdate n auto =>
      if has_net s n then
        (* Clients that were refused go on pointing at the old network. *)
        Some (ASt (filter (fun x => negb (an_id x =? n)) (a_nets s) ++ [ANet n auto None])
          (map (fun c => if on_net n c && negb (ac_in c) then ACl (ac_id c) (ac_reg c) (ac_in c) None (ac_away c) else c) (a_cls s)) (a_nextnet s) (a_nextcl s), [])
      else None
  | ADelete n => Some (with_nets s (filter (fun x => negb (an_id x =? n)) (a_nets s)), [])
  end.

Definition new_ast : ast := ASt [] [] 0 0.
