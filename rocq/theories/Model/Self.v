(** Model of what clients are told about their own user: nickname, user name, host name, realname and
    account. downstream.go:370-409, 487-520, 1137-1239, 1442-1551, 1800-1913; upstream.go:829-877,
    923-930, 1084-1169, 2020-2023; user.go:221-263, 641-662, 895-910, 1087-1165, 1192-1254;
    database/database.go:207-232. One network; its server is part of the model, with the lines on
    the way from it. Regaining a nickname is in Model/Nick.v, stored records are in
    Model/Networks.v. *)
From Verif.Base Require Import Bytes.
From Verif.Model Require Import Message.

(** What is known of the user on a connection to the server (upstreamConn), and what the server holds
    itself: what it has last said. *)
Record conn := Conn { n_nick : bytes; n_user : bytes; n_host : bytes; n_real : bytes; n_acct : bytes; n_setname : bool }.
(** Capabilities of a client: chghost, setname, sasl. *)
Record caps := Caps { c_chg : bool; c_set : bool; c_sasl : bool }.
(** A client (downstreamConn); bound to the network or to none. *)
Record client := Client {
  d_id : N; d_bound : bool; d_caps : caps;
  d_nick : bytes; d_user : bytes; d_host : bytes; d_real : bytes; d_acct : bytes
}.

(** Lines of the server; prefixes have been parsed. A line without a sender below is for the user. *)
Inductive sline :=
| LNick (from new : bytes) | LSetname (from real : bytes) | LHost (from user host : bytes)
| LLogin (user host acct : bytes) | LLogout (user host : bytes) | LVisible (raw : bytes)
| LClose.

Record st := St {
  u_name : bytes; u_nick : bytes; u_real : bytes;      (* record of the user *)
  w_nick : bytes; w_user : bytes; w_real : bytes;      (* record of the network *)
  s_next : N; s_clients : list client;
  s_conn : option conn;                                (* network.conn *)
  s_pend : option (conn * bool);                       (* a connection on which registration is under way, or complete *)
  s_down : list sline;
  v_conn : option conn                                 (* what the server holds *)
}.

Inductive ev :=
| Join (bound : bool) (c : caps) (host : bytes)
| Leave (id : N)
| DCaps (id : N) (c : caps)
| DNick (id : N) (n : bytes)
| DSetname (id : N) (r : bytes)
| UserUpdate (n r : bytes)                             (* by the service *)
| NetUpdate (n u r : bytes)                            (* by the service or BOUNCER *)
| Dial
| Registered (n : bytes) (login : option (bytes * bytes * bytes)) (setname : bool)
| Failed
| Connected
| Hear
| VNick (n : bytes) | VReal (r : bytes) | VHost (u h : bytes) | VLogin (u h a : bytes) | VLogout (u h : bytes)
| VVisible (u : option bytes) (h : bytes) | VOther (l : sline) | VClose.

(** What can be observed: a client connects as a user from a host; messages to clients; commands to the
    server; errors. *)
Inductive out := OHello (id : N) (user host : bytes) | OMsg (id : N) (m : message) | OUp (command arg : bytes) | OErr (id : N).

Definition with_clients s x := St (u_name s) (u_nick s) (u_real s) (w_nick s) (w_user s) (w_real s) (s_next s) x (s_conn s) (s_pend s) (s_down s) (v_conn s).
Definition with_next s x := St (u_name s) (u_nick s) (u_real s) (w_nick s) (w_user s) (w_real s) x (s_clients s) (s_conn s) (s_pend s) (s_down s) (v_conn s).
Definition with_urec s n r := St (u_name s) n r (w_nick s) (w_user s) (w_real s) (s_next s) (s_clients s) (s_conn s) (s_pend s) (s_down s) (v_conn s).
Definition with_wrec s n u r := St (u_name s) (u_nick s) (u_real s) n u r (s_next s) (s_clients s) (s_conn s) (s_pend s) (s_down s) (v_conn s).
Definition with_link s c p d v := St (u_name s) (u_nick s) (u_real s) (w_nick s) (w_user s) (w_real s) (s_next s) (s_clients s) c p d v.

Definition nil (b : bytes) : bool := match b with [] => true | _ => false end.

(** database/database.go:207-232. *)
Definition get_nick (s : st) (net : bool) : bytes :=
  if net && negb (nil (w_nick s)) then w_nick s else if negb (nil (u_nick s)) then u_nick s else u_name s.
Definition get_user (s : st) : bytes := if nil (w_user s) then get_nick s true else w_user s.
Definition get_real (s : st) (net : bool) : bytes :=
  if net && negb (nil (w_real s)) then w_real s else if negb (nil (u_real s)) then u_real s else get_nick s net.

(** downstream.go:403-409. *)
Definition self (d : client) : option prefix := Some (Prefix (d_nick d) (d_user d) (d_host d)).
(** downstream.go:431-436. *)
Definition up (s : st) (d : client) : option conn := if d_bound d then s_conn s else None.

(** downstream.go:512-521, what concerns the lines here. *)
Definition allowed (d : client) (m : message) : bool :=
  if beqb (m_command m) (B "SETNAME") then c_set (d_caps d) else if beqb (m_command m) (B "CHGHOST") then c_chg (d_caps d) else true.
Definition send (d : client) (m : message) : list message := if allowed d m then [m] else [].

(** downstream.go:1137-1158. *)
Definition update_nick (s : st) (d : client) : client * list message :=
  let nick := match up s d with Some c => n_nick c | None => get_nick s (d_bound d) end in
  if beqb nick (d_nick d) then (d, [])
  else (Client (d_id d) (d_bound d) (d_caps d) nick (d_user d) (d_host d) (d_real d) (d_acct d), send d (Message [] (self d) (B "NICK") [nick])).
(** downstream.go:1160-1186. *)
Definition update_host (s : st) (d : client) : client * list message :=
  match up s d with
  | None => (d, [])
  | Some c =>
      if nil (n_host c) then (d, [])
      else if beqb (n_host c) (d_host d) && beqb (n_user c) (d_user d) then (d, [])
      else (Client (d_id d) (d_bound d) (d_caps d) (d_nick d) (n_user c) (n_host c) (d_real d) (d_acct d),
            if c_chg (d_caps d) then send d (Message [] (self d) (B "CHGHOST") [n_user c; n_host c])
            else if negb (beqb (n_host c) (d_host d)) then send d (Message [] (self d) (B "396") [d_nick d; n_host c; B "is now your visible host"])
            else [])
  end.
(** downstream.go:1188-1210. *)
Definition update_real (s : st) (d : client) : client * list message :=
  if negb (c_set (d_caps d)) then (d, [])
  else
    let real := match up s d with Some c => n_real c | None => get_real s (d_bound d) end in
    if beqb real (d_real d) then (d, [])
    else (Client (d_id d) (d_bound d) (d_caps d) (d_nick d) (d_user d) (d_host d) real (d_acct d), send d (Message [] (self d) (B "SETNAME") [real])).
(** downstream.go:1212-1239. *)
Definition update_acct (s : st) (d : client) : client * list message :=
  match (if d_bound d then option_map n_acct (s_conn s) else Some (u_name s)) with
  | None => (d, [])
  | Some a =>
      if beqb (d_acct d) a || negb (c_sasl (d_caps d)) then (d, [])
      else
        (Client (d_id d) (d_bound d) (d_caps d) (d_nick d) (d_user d) (d_host d) (d_real d) a,
         let mask := format_prefix (Prefix (d_nick d) (d_user d) (d_host d)) in
         if negb (nil a) then send d (msg (B "900") [d_nick d; mask; a; B "You are logged in as " ++ a])
         else send d (msg (B "901") [d_nick d; mask; B "You are logged out"]))
  end.

(** One after another. *)
Definition then_ (f g : st -> client -> client * list message) (s : st) (d : client) : client * list message :=
  let '(d1, m1) := f s d in let '(d2, m2) := g s d1 in (d2, m1 ++ m2).
(** For each client that meets a condition. *)
Fixpoint each (f : client -> client * list message) (p : client -> bool) (l : list client) : list client * list out :=
  match l with
  | [] => ([], [])
  | d :: l' =>
      let '(d1, ms) := if p d then f d else (d, []) in
      let '(l1, o) := each f p l' in (d1 :: l1, map (OMsg (d_id d)) ms ++ o)
  end.
Definition tell (s : st) (f : st -> client -> client * list message) (p : client -> bool) : st * list out :=
  let '(l, o) := each (f s) p (s_clients s) in (with_clients s l, o).
Definition unbound (d : client) : bool := negb (d_bound d).

(** user.go:1087-1165 (updateNetwork), which succeeds; handleUpstreamDisconnected tells clients nothing
    of this kind. The new network starts without a connection, and lines of the old one reach nobody. *)
Definition net_update (s : st) (n u r : bytes) : st :=
  let n := if beqb n (u_nick s) then [] else n in
  let r := if beqb r (u_real s) then [] else r in
  with_link (with_wrec s n u r) None None [] None.
(** user.go:1192-1254 (updateUser), for nickname and realname. *)
Definition user_update (s : st) (n r : bytes) : st * list out :=
  let s1 := with_urec s n r in
  let o1 := if negb (beqb n (u_nick s)) && nil (w_nick s) then
              match s_conn s with Some _ => [OUp (B "NICK") (get_nick s1 true)] | None => [] end
            else [] in
  if negb (beqb r (u_real s)) && nil (w_real s) then
    match s_conn s with
    | Some c => if n_setname c then (s1, o1 ++ [OUp (B "SETNAME") (get_real s1 true)]) else (net_update s1 (w_nick s) (w_user s) (w_real s), o1)
    | None => (net_update s1 (w_nick s) (w_user s) (w_real s), o1)
    end
  else (s1, o1).

Section Self.
  Variable cm : bytes -> bytes.

  (** downstream.go:214. *)
  Definition bad_nick (d : client) (n : bytes) : bool :=
    nil n || existsb (fun c => amem c (B " :@!*?$,.")) n || beqb (if d_bound d then cm n else to_lower n) (B "bouncerserv").

  (** downstream.go:1800-1853. *)
  Definition on_nick (s : st) (d : client) (n : bytes) : st * list out :=
    if bad_nick d n then (s, [OErr (d_id d)])
    else if d_bound d then
      let s := with_wrec s n (w_user s) (w_real s) in
      match s_conn s with
      | Some _ => (s, [OUp (B "NICK") n])
      | None => tell s update_nick (fun x => N.eqb (d_id x) (d_id d))
      end
    else
      let '(s, o) := user_update s n (u_real s) in
      let '(s, o') := tell s update_nick unbound in (s, o ++ o').
  (** downstream.go:1857-1913. *)
  Definition on_setname (s : st) (d : client) (r : bytes) : st * list out :=
    if beqb (d_real d) r then (s, map (OMsg (d_id d)) (send d (Message [] (self d) (B "SETNAME") [r])))
    else if d_bound d then
      match s_conn s with
      | Some c => if n_setname c then (s, [OUp (B "SETNAME") r])
                  else (net_update s (w_nick s) (w_user s) (if beqb r (u_real s) then [] else r), [])
      | None => (net_update s (w_nick s) (w_user s) (if beqb r (u_real s) then [] else r), [])
      end
    else
      let '(s, o) := user_update s (u_nick s) r in
      let '(s, o') := tell s update_real unbound in (s, o ++ o').

  (** downstream.go:370-409, 1365, 1442-1551. *)
  Definition welcome (s : st) (id : N) (bound : bool) (c : caps) (host : bytes) : client * list message :=
    let nick := if bound then match s_conn s with Some c => n_nick c | None => get_nick s true end else u_name s in
    let d := Client id bound c nick (u_name s) host [] [] in
    let '(d, ms) := then_ update_host (then_ update_real update_acct) s d in
    (d, msg (B "001") [nick; B "Welcome to soju, " ++ nick] :: ms).

  (** upstream.go:440-444. *)
  Definition forward (s : st) (m : message) : list out :=
    flat_map (fun d => if d_bound d then map (OMsg (d_id d)) (send d m) else []) (s_clients s).
  Definition put (s : st) (c : conn) : st := with_link s (Some c) (s_pend s) (s_down s) (v_conn s).

  (** upstream.go:829-877, 1084-1169. *)
  Definition on_line (s : st) (c : conn) (l : sline) : st * list out :=
    match l with
    | LNick from n =>
        if beqb (cm (n_nick c)) (cm from) then
          tell (put s (Conn n (n_user c) (n_host c) (n_real c) (n_acct c) (n_setname c))) update_nick d_bound
        else (s, forward s (Message [] (Some (Prefix from [] [])) (B "NICK") [n]))
    | LSetname from r =>
        if beqb (cm (n_nick c)) (cm from) then
          tell (put s (Conn (n_nick c) (n_user c) (n_host c) r (n_acct c) (n_setname c))) update_real d_bound
        else (s, forward s (Message [] (Some (Prefix from [] [])) (B "SETNAME") [r]))
    | LHost from u h =>
        if beqb (cm (n_nick c)) (cm from) then
          tell (put s (Conn (n_nick c) u h (n_real c) (n_acct c) (n_setname c))) update_host d_bound
        else (s, forward s (Message [] (Some (Prefix from [] [])) (B "CHGHOST") [u; h]))
    | LLogin u h a => tell (put s (Conn (n_nick c) u h (n_real c) a (n_setname c))) (then_ update_acct update_host) d_bound
    | LLogout u h => tell (put s (Conn (n_nick c) u h (n_real c) [] (n_setname c))) (then_ update_acct update_host) d_bound
    | LVisible raw =>
        let '(u, h) := match cut_on "@" raw with (u, Some h) => (u, h) | (h, None) => (n_user c, h) end in
        tell (put s (Conn (n_nick c) u h (n_real c) (n_acct c) (n_setname c))) update_host d_bound
    | LClose => (with_link s None (s_pend s) (s_down s) (v_conn s), [])
    end.

  Definition the_client (s : st) (id : N) : option client := find (fun d => N.eqb (d_id d) id) (s_clients s).
  (** The server says something to the user. *)
  Definition says (s : st) (f : conn -> conn) (l : conn -> sline) : st :=
    match v_conn s with
    | Some w => with_link s (s_conn s) (s_pend s) (s_down s ++ [l w]) (Some (f w))
    | None => s
    end.

  Definition step (s : st) (e : ev) : st * list out :=
    match e with
    | Join bound c host =>
        let id := (s_next s + 1)%N in
        let '(d, ms) := welcome s id bound c host in
        (with_next (with_clients s (s_clients s ++ [d])) id, OHello id (u_name s) host :: map (OMsg id) ms)
    | Leave id => (with_clients s (filter (fun d => negb (N.eqb (d_id d) id)) (s_clients s)), [])
    | DCaps id c =>
        (with_clients s (map (fun d => if N.eqb (d_id d) id then Client (d_id d) (d_bound d) c (d_nick d) (d_user d) (d_host d) (d_real d) (d_acct d) else d) (s_clients s)), [])
    | DNick id n => match the_client s id with Some d => on_nick s d n | None => (s, []) end
    | DSetname id r => match the_client s id with Some d => on_setname s d r | None => (s, []) end
    | UserUpdate n r => user_update s n r
    | NetUpdate n u r => (net_update s n u r, [])
    (* upstream.go:2020-2045, on another goroutine; of USER the realname is shown *)
    | Dial =>
        match s_conn s, s_pend s, s_down s with
        | None, None, [] => (with_link s None (Some (Conn (get_nick s true) (get_user s) [] (get_real s true) [] false, false)) [] None, [OUp (B "NICK") (get_nick s true); OUp (B "USER") (get_real s true)])
        | _, _, _ => (s, [])
        end
    (* 900 and 001 on that connection; no client is told before [Connected]. *)
    | Registered n login setname =>
        match s_pend s with
        | Some (c, false) =>
            let c := match login with
                     | Some (u, h, a) => Conn n u h (n_real c) a setname
                     | None => Conn n (n_user c) (n_host c) (n_real c) (n_acct c) setname
                     end in
            (with_link s (s_conn s) (Some (c, true)) (s_down s) (Some c), [])
        | _ => (s, [])
        end
    | Failed => match s_pend s with Some (_, false) => (with_link s (s_conn s) None (s_down s) (v_conn s), []) | _ => (s, []) end
    (* user.go:641-662 *)
    | Connected =>
        match s_pend s with
        | Some (c, true) =>
            tell (with_link s (Some c) None (s_down s) (v_conn s)) (then_ update_nick (then_ update_host (then_ update_real update_acct))) d_bound
        | _ => (s, [])
        end
    | Hear =>
        match s_conn s, s_down s with
        | Some c, l :: rest => on_line (with_link s (Some c) (s_pend s) rest (v_conn s)) c l
        | _, _ => (s, [])
        end
    (* the server; no part of the bouncer *)
    | VNick n => (says s (fun w => Conn n (n_user w) (n_host w) (n_real w) (n_acct w) (n_setname w)) (fun w => LNick (n_nick w) n), [])
    | VReal r => (says s (fun w => Conn (n_nick w) (n_user w) (n_host w) r (n_acct w) (n_setname w)) (fun w => LSetname (n_nick w) r), [])
    | VHost u h => (says s (fun w => Conn (n_nick w) u h (n_real w) (n_acct w) (n_setname w)) (fun w => LHost (n_nick w) u h), [])
    | VLogin u h a => (says s (fun w => Conn (n_nick w) u h (n_real w) a (n_setname w)) (fun _ => LLogin u h a), [])
    | VLogout u h => (says s (fun w => Conn (n_nick w) u h (n_real w) [] (n_setname w)) (fun _ => LLogout u h), [])
    | VVisible ou h =>
        match ou with
        | Some u => if amem "@" u then (s, [])
                    else (says s (fun w => Conn (n_nick w) u h (n_real w) (n_acct w) (n_setname w)) (fun _ => LVisible (u ++ B "@" ++ h)), [])
        | None => if amem "@" h then (s, [])
                  else (says s (fun w => Conn (n_nick w) (n_user w) h (n_real w) (n_acct w) (n_setname w)) (fun _ => LVisible h), [])
        end
    (* about somebody else, who has another nickname *)
    | VOther l =>
        match v_conn s, l with
        | Some w, LNick from _ | Some w, LSetname from _ | Some w, LHost from _ _ =>
            if beqb (cm from) (cm (n_nick w)) then (s, []) else (says s (fun w => w) (fun _ => l), [])
        | _, _ => (s, [])
        end
    | VClose => match v_conn s with Some _ => (with_link s (s_conn s) (s_pend s) (s_down s ++ [LClose]) None, []) | None => (s, []) end
    end.

  Fixpoint run (s : st) (l : list ev) : st * list out :=
    match l with
    | [] => (s, [])
    | e :: l' => let '(s1, o1) := step s e in let '(s2, o2) := run s1 l' in (s2, o1 ++ o2)
    end.
End Self.
