(** Model of the use of one account: authentication with the internal driver (auth/internal.go,
    database/database.go:110-142), the events of user.run about clients and updates (user.go:722-845),
    updateUser (user.go:1192-1265) and disableInactiveUsers (server.go:715-805). The record of the account is the one
    in the database and the one in memory. *)
From Verif.Base Require Import Bytes.
From Coq Require Import ZArith.
Local Open Scope Z_scope.

(** database/database.go:91-101, without the fields that are not used here. *)
Record acc := Acc { a_hash : bytes; a_admin : bool; a_enabled : bool; a_seen : option Z }.
Definition set_hash h r := Acc h (a_admin r) (a_enabled r) (a_seen r).
Definition set_admin b r := Acc (a_hash r) b (a_enabled r) (a_seen r).
Definition set_enabled b r := Acc (a_hash r) (a_admin r) b (a_seen r).
Definition set_seen t r := Acc (a_hash r) (a_admin r) (a_enabled r) t.
Definition upd {A} (o : option A) (f : A -> acc -> acc) (r : acc) : acc := match o with Some x => f x r | None => r end.

(** Connections of clients: the goroutine of Server.Handle. A connection is authenticating (with the record
    to store, if the hash is upgraded), authenticated, known to the user's goroutine, or gone. *)
Inductive stage := Authing (store : option acc) | Authed | Arrived | Gone.
Record conn := Conn { c_id : Z; c_imp : bool; c_pw : bytes; c_stage : stage; c_closed : bool }.

(** Events for the user's goroutine. *)
Inductive event :=
| EConn (id : Z)
| EDisc (id : Z)
| EUpdate (hash : option bytes) (admin enabled : option bool).

(** disableInactiveUsers: the account is not considered, listed by the database, or about to be disabled. *)
Inductive sweep := SNone | SListed | SSelected.

Record st := St {
  s_now : Z; s_db : acc; s_created : Z; s_mem : acc;
  s_conns : list conn; s_clients : list Z; s_queue : list event; s_sweep : sweep }.

Definition set_conns l s := St (s_now s) (s_db s) (s_created s) (s_mem s) l (s_clients s) (s_queue s) (s_sweep s).
Definition set_clients l s := St (s_now s) (s_db s) (s_created s) (s_mem s) (s_conns s) l (s_queue s) (s_sweep s).
Definition set_queue l s := St (s_now s) (s_db s) (s_created s) (s_mem s) (s_conns s) (s_clients s) l (s_sweep s).
Definition set_sweep w s := St (s_now s) (s_db s) (s_created s) (s_mem s) (s_conns s) (s_clients s) (s_queue s) w.
Definition set_db d s := St (s_now s) d (s_created s) (s_mem s) (s_conns s) (s_clients s) (s_queue s) (s_sweep s).
Definition set_both r s := St (s_now s) r (s_created s) r (s_conns s) (s_clients s) (s_queue s) (s_sweep s).
Definition send (e : event) (s : st) : st := set_queue (s_queue s ++ [e]) s.

Definition find_conn (id : Z) (s : st) : option conn := find (fun c => c_id c =? id) (s_conns s).
Definition map_conn (f : conn -> conn) (id : Z) (s : st) : st :=
  set_conns (map (fun c => if c_id c =? id then f c else c) (s_conns s)) s.
Definition set_stage (g : stage) (c : conn) : conn := Conn (c_id c) (c_imp c) (c_pw c) g (c_closed c).
Definition close (c : conn) : conn := Conn (c_id c) (c_imp c) (c_pw c) (c_stage c) true.
Definition zmem (x : Z) (l : list Z) : bool := existsb (Z.eqb x) l.
(** downstreamConn.Close for every client of the user. *)
Definition close_all (s : st) : st :=
  set_conns (map (fun c => if zmem (c_id c) (s_clients s) then close c else c) (s_conns s)) s.
(** user.go:783-789. *)
Fixpoint remove_one (x : Z) (l : list Z) : list Z :=
  match l with [] => [] | y :: l => if x =? y then l else y :: remove_one x l end.

Inductive op :=
| Tick (d : Z)
| AuthRead (id : Z) (pw salt : bytes)
| AuthDone (id : Z)
| Auth (id : Z) (pw salt : bytes)
| Impersonate (id : Z)
| Arrive (id : Z)
| Leave (id : Z)
| Update (pw : option bytes) (salt : bytes) (admin enabled : option bool)
| NoPassword
| Own (pw : option bytes) (salt : bytes) (io : bool)
| Step (io ok : bool)
| SweepList | SweepFilter | SweepSend
| Sojudb (pw salt : bytes)
| Reboot.

Section Activity.
  (** bcrypt: a hash of a cost, with a salt; comparing; the cost of a hash. *)
  Variables (hash : N -> bytes -> bytes -> bytes) (verify : bytes -> bytes -> bool) (cost : bytes -> N).
  (** The configuration: disable-inactive-user, 0 for never, and enable-user-on-auth. *)
  Variables (delay : Z) (on_auth : bool).

  (** bcrypt.DefaultCost. *)
  Definition default_cost : N := 10.

  (** database/database.go:111-142 (CheckPassword): None is a refusal, Some the record to store if it is upgraded. *)
  Definition check_password (r : acc) (pw salt : bytes) : option (option acc) :=
    if beqb (a_hash r) [] then None
    else if verify (a_hash r) pw then
      if (cost (a_hash r) <? default_cost)%N then Some (Some (set_hash (hash default_cost salt pw) r)) else Some None
    else None.

  (** user.go:1192-1265 (updateUser); networks and nicknames are in Model/Networks.v and Model/Self.v. *)
  Definition update_user (f : acc -> acc) (io : bool) (s : st) : st :=
    if negb io then s
    else let s := set_both (f (s_mem s)) s in
         if a_enabled (s_mem s) then s else close_all s.

  (** user.go:1334-1342 (bumpDownstreamInteractionTime). *)
  Definition bump (io : bool) (s : st) : st := update_user (set_seen (Some (s_now s))) io s.

  (** user.go:722-781 (eventDownstreamConnected); [ok] is the result of welcome. *)
  Definition connected (id : Z) (io ok : bool) (s : st) : st :=
    match find_conn id s with
    | None => s
    | Some c =>
        let s := if negb (a_enabled (s_mem s)) && on_auth then update_user (set_enabled true) io s else s in
        if negb (a_enabled (s_mem s)) then s
        else if negb ok then s
        else let s := set_clients (s_clients s ++ [id]) s in
             if c_imp c then s else bump io s
    end.

  (** user.go:782-804 (eventDownstreamDisconnected). *)
  Definition disconnected (id : Z) (io : bool) (s : st) : st :=
    match find_conn id s with
    | None => s
    | Some c => let s := set_clients (remove_one id (s_clients s)) s in
                if c_imp c then s else bump io s
    end.

  (** user.go:824-847 (eventUserUpdate). *)
  Definition updated (h : option bytes) (a e : option bool) (io : bool) (s : st) : st :=
    let s := update_user (fun r => upd e set_enabled (upd a set_admin (upd h set_hash r))) io s in
    match h with Some _ => close_all s | None => s end.

  Definition handle (e : event) (io ok : bool) (s : st) : st :=
    match e with
    | EConn id => connected id io ok s
    | EDisc id => disconnected id io s
    | EUpdate h a e => updated h a e io s
    end.

  (** auth/internal.go:20-38 before and after the record is stored. *)
  Definition auth_read (id : Z) (pw salt : bytes) (s : st) : st :=
    match find_conn id s, check_password (s_db s) pw salt with
    | None, Some store => set_conns (Conn id false pw (Authing store) false :: s_conns s) s
    | _, _ => s
    end.
  Definition auth_done (id : Z) (s : st) : st :=
    match find_conn id s with
    | Some (Conn _ _ _ (Authing store) _) =>
        map_conn (set_stage Authed) id (match store with Some r => set_db r s | None => s end)
    | _ => s
    end.

  (** database/sqlite.go:402-427 (ListInactiveUsernames). *)
  Definition last_seen (s : st) : Z := match a_seen (s_db s) with Some t => t | None => s_created s end.
  Definition inactive (s : st) : bool := last_seen s <? s_now s - delay.

  Definition step (s : st) (o : op) : st :=
    match o with
    | Tick d => St (s_now s + Z.max 0 d) (s_db s) (s_created s) (s_mem s) (s_conns s) (s_clients s) (s_queue s) (s_sweep s)
    | AuthRead id pw salt => auth_read id pw salt s
    | AuthDone id => auth_done id s
    | Auth id pw salt => match find_conn id s with None => auth_done id (auth_read id pw salt s) | Some _ => s end
    (* Admins that log in as the user: downstream.go:1271-1330. *)
    | Impersonate id => match find_conn id s with None => set_conns (Conn id true [] Authed false :: s_conns s) s | Some _ => s end
    (* server.go:508-513. *)
    | Arrive id => match find_conn id s with Some (Conn _ _ _ Authed _) => send (EConn id) (map_conn (set_stage Arrived) id s) | _ => s end
    | Leave id => match find_conn id s with Some (Conn _ _ _ Arrived _) => send (EDisc id) (map_conn (set_stage Gone) id s) | _ => s end
    (* service.go:1086-1132: by an admin. *)
    | Update pw salt a e => send (EUpdate (option_map (hash default_cost salt) pw) a e) s
    | NoPassword => send (EUpdate (Some []) None None) s
    (* service.go:1145-1153: by the user, who may also have no password. *)
    | Own pw salt io => update_user (set_hash (match pw with Some pw => hash default_cost salt pw | None => [] end)) io s
    | Step io ok => match s_queue s with [] => s | e :: q => handle e io ok (set_queue q s) end
    (* server.go:733-805, one account. *)
    | SweepList => if delay =? 0 then s else set_sweep (if inactive s then SListed else SNone) s
    | SweepFilter => match s_sweep s, s_clients s with SListed, [] => set_sweep SSelected s | _, _ => set_sweep SNone s end
    | SweepSend => match s_sweep s with SSelected => send (EUpdate None None (Some false)) (set_sweep SNone s) | _ => s end
    (* cmd/sojudb/main.go:83-104: another program. *)
    | Sojudb pw salt => set_db (set_hash (hash default_cost salt pw) (s_db s)) s
    (* Shutdown and start: user.go:881-893, server.go:147-168. *)
    | Reboot => St (s_now s) (s_db s) (s_created s) (s_db s) [] [] [] SNone
    end.
  Definition run (s : st) (os : list op) : st := fold_left step os s.

  (** A new account. *)
  Definition start (t : Z) (h : bytes) (admin : bool) : st :=
    let r := Acc h admin true None in St t r t r [] [] [] SNone.
End Activity.
