(** Model of what clients are told about the networks of their user: the messages
    BOUNCER NETWORK (downstream.go:91-139, 1569-1582, 3085-3095, user.go:635-705,
    895-954, 1058-1190, 1192-1267).

    Simplifications: the checks of new records and the database are in
    Model/Networks.v; here any record may come out of them. The confirmations of
    commands, which are no BOUNCER NETWORK messages, are left out. *)
From Verif.Base Require Import Bytes.
From Verif.Model Require Import Message Networks.
From Coq Require Import ZArith NArith.
Local Open Scope Z_scope.

(** ** Attributes as text: irc.Tags of the external gopkg.in/irc.v4 library. The
    values are supposed to be valid UTF-8. *)
Definition tag_escape (c : ascii) : bytes :=
  if aeqb c ";" then B "\:" else if aeqb c " " then B "\s" else if aeqb c "\" then B "\\"
  else if aeqb c "013" then B "\r" else if aeqb c "010" then B "\n" else [c].
Definition tag_encode (v : bytes) : bytes := flat_map tag_escape v.
Definition tag_unescape (c : ascii) : ascii :=
  if aeqb c ":" then ";"%char else if aeqb c "s" then " "%char else if aeqb c "r" then "013"%char
  else if aeqb c "n" then "010"%char else c.
Fixpoint tag_decode (s : bytes) : bytes :=
  match s with
  | [] => []
  | c :: s' =>
      if aeqb c "\" then match s' with [] => [] | d :: s'' => tag_unescape d :: tag_decode s'' end
      else c :: tag_decode s'
  end.
Definition format_attr (a : bytes * bytes) : bytes :=
  match snd a with [] => fst a | v => fst a ++ "="%char :: tag_encode v end.
Definition format_attrs (l : list (bytes * bytes)) : bytes := join (B ";") (map format_attr l).
Definition parse_attr (s : bytes) : bytes * bytes :=
  match cut_on "=" s with (k, Some v) => (k, tag_decode v) | (k, None) => (k, []) end.
Definition parse_attrs (s : bytes) : list (bytes * bytes) := map parse_attr (split_on ";" s).

(** ** The networks *)

(** user.go:103-121 (network): an object in memory, of which there may be several
    with the same record after updateNetwork; the number tells them apart. The
    connection, if there is one: whether it has the capability setname. *)
Record vobj := VObj { v_obj : N; v_rec : netrec; v_conn : option bool; v_error : option bytes }.
(** A client connection in u.downstreamConns: whether it has enabled
    soju.im/bouncer-networks-notify. *)
Record vcl := VCl { vc_id : N; vc_notify : bool }.
(** The user: [vs_nets] is u.networks; [vs_old] are the objects that were
    removed, whose goroutines may still send events. *)
Record vst := VSt { vs_username : bytes; vs_nick : bytes; vs_realname : bytes; vs_enabled : bool;
  vs_nets : list vobj; vs_old : list vobj; vs_cls : list vcl; vs_next : N }.
Definition with_objs (s : vst) nets old next := VSt (vs_username s) (vs_nick s) (vs_realname s) (vs_enabled s) nets old (vs_cls s) next.
Definition with_cls (s : vst) l := VSt (vs_username s) (vs_nick s) (vs_realname s) (vs_enabled s) (vs_nets s) (vs_old s) l (vs_next s).

(** A BOUNCER NETWORK message to a client, or the messages of a batch
    soju.im/bouncer-networks. *)
Inductive vout := VMsg (c : N) (m : message) | VBatch (c : N) (l : list message).

Section NetView.
  (** url.Parse and net.SplitHostPort as in Model/Networks.v, and the order in
      which Go visits a map. *)
  Variable parse_url : bytes -> option url.
  Variable split_host_port : bytes -> option (bytes * bytes).
  Variable shuffle : list (bytes * bytes) -> list (bytes * bytes).

  (** database/database.go:207-232 (GetNick, GetRealname). *)
  Definition get_nick (s : vst) (r : netrec) : bytes :=
    match n_nick r with [] => match vs_nick s with [] => vs_username s | n => n end | n => n end.
  Definition get_realname (s : vst) (r : netrec) : bytes :=
    match n_realname r with [] => match vs_realname s with [] => get_nick s r | n => n end | n => n end.

  (** downstream.go:115-139 (getNetworkAttrs). *)
  Definition opt_attr (k : bytes) (o : option bytes) : list (bytes * bytes) := match o with Some v => [(k, v)] | None => [] end.
  Definition net_attrs (s : vst) (o : vobj) : list (bytes * bytes) :=
    let r := v_rec o in
    let '(host, port, tls) := addr_attrs parse_url split_host_port r in
    [(B "name", get_name r); (B "state", match v_conn o with Some _ => B "connected" | None => B "disconnected" end);
     (B "nickname", get_nick s r)] ++
    opt_attr (B "username") (null (n_username r)) ++ opt_attr (B "realname") (null (get_realname s r)) ++
    opt_attr (B "error") (v_error o) ++ opt_attr (B "tls") tls ++ opt_attr (B "host") host ++ opt_attr (B "port") port.

  Definition net_id (id : Z) : bytes := dec (Z.to_N id).
  Definition network_msg (id : Z) (attrs : list (bytes * bytes)) : message :=
    msg (B "BOUNCER") [B "NETWORK"; net_id id; format_attrs (shuffle attrs)].
  Definition notifying (s : vst) : list vcl := filter vc_notify (vs_cls s).

  (** user.go:932-954 (notifyBouncerNetworkState). *)
  Definition notify (s : vst) (id : Z) (attrs : list (bytes * bytes)) : list vout :=
    if existsb (fun o => n_id (v_rec o) =? id) (vs_nets s)
    then map (fun c => VMsg (vc_id c) (network_msg id attrs)) (notifying s) else [].

  (** downstream.go:1569-1582, 3085-3095. *)
  Definition listing (s : vst) : list message := map (fun o => network_msg (n_id (v_rec o)) (net_attrs s o)) (vs_nets s).

  Definition set_conn (c : option bool) (o : vobj) : vobj := VObj (v_obj o) (v_rec o) c (v_error o).
  Definition set_error (e : option bytes) (o : vobj) : vobj := VObj (v_obj o) (v_rec o) (v_conn o) e.
  Definition set_rec (r : netrec) (o : vobj) : vobj := VObj (v_obj o) r (v_conn o) (v_error o).
  Definition at_obj (n : N) (f : vobj -> vobj) (l : list vobj) : list vobj := map (fun o => if N.eqb (v_obj o) n then f o else o) l.
  Definition on_obj (n : N) (f : vobj -> vobj) (s : vst) : vst := with_objs s (at_obj n f (vs_nets s)) (at_obj n f (vs_old s)) (vs_next s).
  Definition find_obj (n : N) (l : list vobj) : option vobj := find (fun o => N.eqb (v_obj o) n) l.

  (** user.go:895-930 (handleUpstreamDisconnected). *)
  Definition disconnected (s : vst) (n : N) : vst * list vout :=
    let s1 := on_obj n (set_conn None) s in
    match find_obj n (vs_nets s) with
    | Some o => (s1, notify s1 (n_id (v_rec o)) [(B "state", B "disconnected")])
    | None => (s1, [])
    end.

  (** user.go:956-964 (addNetwork), 966-983 (removeNetwork). *)
  Fixpoint insert (o : vobj) (l : list vobj) : list vobj :=
    match l with
    | [] => [o]
    | x :: l' => if n_id (v_rec o) <? n_id (v_rec x) then o :: x :: l' else x :: insert o l'
    end.
  Definition without (n : N) (l : list vobj) : list vobj := filter (fun o => negb (N.eqb (v_obj o) n)) l.
  Definition by_id (id : Z) (l : list vobj) : option vobj := find (fun o => n_id (v_rec o) =? id) l.

  (** user.go:1058-1085 (createNetwork), with a new ID. *)
  Definition create (s : vst) (r : netrec) : vst * list vout :=
    let o := VObj (vs_next s) r None None in
    let s1 := with_objs s (insert o (vs_nets s)) (vs_old s) (vs_next s + 1)%N in
    (s1, notify s1 (n_id r) (net_attrs s1 o)).

  (** user.go:1087-1165 (updateNetwork) of [o]. *)
  Definition update (s : vst) (o : vobj) (r : netrec) : vst * list vout :=
    let r := if beqb (n_nick r) (vs_nick s) then set_nick [] r else r in
    let r := if beqb (n_realname r) (vs_realname s) then set_realname [] r else r in
    let '(s1, out1) := match v_conn o with Some _ => disconnected s (v_obj o) | None => (s, []) end in
    let o' := VObj (vs_next s1) r None None in
    let s2 := with_objs s1 (insert o' (without (v_obj o) (vs_nets s1))) (set_conn None o :: vs_old s1) (vs_next s1 + 1)%N in
    (s2, out1 ++ notify s2 (n_id r) (net_attrs s2 o')).

  (** user.go:1167-1190 (deleteNetwork). *)
  Definition delete (s : vst) (o : vobj) : vst * list vout :=
    let s1 := with_objs s (without (v_obj o) (vs_nets s)) (o :: vs_old s) (vs_next s) in
    (s1, map (fun c => VMsg (vc_id c) (msg (B "BOUNCER") [B "NETWORK"; net_id (n_id (v_rec o)); B "*"])) (notifying s1)).

  (** user.go:1192-1267 (updateUser). [ok] tells for a network ID whether
      updateNetwork accepts. *)
  Fixpoint updates (ok : Z -> bool) (rs : list netrec) (s : vst) : vst * list vout :=
    match rs with
    | [] => (s, [])
    | r :: rs =>
        let '(s1, o1) := match by_id (n_id r) (vs_nets s) with
                         | Some o => if ok (n_id r) then update s o r else (s, [])
                         | None => (s, []) end in
        let '(s2, o2) := updates ok rs s1 in (s2, o1 ++ o2)
    end.
  Definition update_user (s : vst) (nick realname : bytes) (enabled : bool) (ok : Z -> bool) : vst * list vout :=
    let s1 := VSt (vs_username s) nick realname enabled (vs_nets s) (vs_old s) (vs_cls s) (vs_next s) in
    let realname_updated := negb (beqb (vs_realname s) realname) in
    let enabled_updated := negb (Bool.eqb (vs_enabled s) enabled) in
    if realname_updated || enabled_updated then
      updates ok (map v_rec (filter (fun o => negb (realname_updated && negb enabled_updated &&
        (negb (beqb (n_realname (v_rec o)) []) || match v_conn o with Some b => b | None => false end))) (vs_nets s))) s1
    else (s1, []).

  Inductive vev :=
  | VOpen (c : N) (on : bool)         (* a client has registered, downstream.go:1442-1610, user.go:763-770 *)
  | VClose (c : N)                    (* user.go:771-803 *)
  | VCap (c : N) (on : bool)          (* CAP REQ of soju.im/bouncer-networks-notify, downstream.go:860-928 *)
  | VList (c : N)                     (* BOUNCER LISTNETWORKS *)
  | VCreate (r : netrec)              (* any command that adds a network; [n_id r] is its new ID *)
  | VUpdate (r : netrec)              (* any command that calls updateNetwork *)
  | VDelete (id : Z)                  (* any command that deletes a network *)
  | VNick (id : Z) (nick : bytes)     (* NICK by a client of the network, downstream.go:1801-1838 *)
  | VUser (nick realname : bytes) (enabled : bool) (ok : Z -> bool)
  | VUp (n : N) (setname : bool)      (* user.go:637-669 (eventUpstreamConnected) *)
  | VDown (n : N)                     (* user.go:670-671 (eventUpstreamDisconnected) *)
  | VFail (n : N) (text : bytes).     (* user.go:672-690 (eventUpstreamConnectionError, made in user.go:294-310) *)
  (** SETNAME calls updateNetwork, or changes no record in memory (downstream.go:1862-1888).
      eventUpstreamError is sent by nobody. *)

  Definition any_obj (n : N) (s : vst) : option vobj := find_obj n (vs_nets s ++ vs_old s).

  (** Events that cannot happen give [None]. *)
  Definition vstep (e : vev) (s : vst) : option (vst * list vout) :=
    match e with
    | VOpen c on =>
        if existsb (fun x => N.eqb (vc_id x) c) (vs_cls s) then None
        else Some (with_cls s (vs_cls s ++ [VCl c on]), if on then [VBatch c (listing s)] else [])
    | VClose c => Some (with_cls s (filter (fun x => negb (N.eqb (vc_id x) c)) (vs_cls s)), [])
    | VCap c on => Some (with_cls s (map (fun x => if N.eqb (vc_id x) c then VCl c on else x) (vs_cls s)), [])
    | VList c => Some (s, [VBatch c (listing s)])
    | VCreate r =>
        if (n_id r <=? 0) || beqb (get_name r) [] || match by_id (n_id r) (vs_nets s) with Some _ => true | None => false end then None
        else Some (create s r)
    | VUpdate r =>
        match by_id (n_id r) (vs_nets s) with
        | Some o => if beqb (get_name r) [] then None else Some (update s o r)
        | None => None
        end
    | VDelete id => match by_id id (vs_nets s) with Some o => Some (delete s o) | None => None end
    | VNick id nick =>
        match by_id id (vs_nets s) with
        | Some o => Some (on_obj (v_obj o) (set_rec (set_nick nick (v_rec o))) s, [])
        | None => None
        end
    | VUser nick realname enabled ok => Some (update_user s nick realname enabled ok)
    | VUp n setname =>
        match any_obj n s with
        | Some o =>
            let s1 := on_obj n (set_conn (Some setname)) s in
            Some (on_obj n (set_error None) s1, notify s1 (n_id (v_rec o)) [(B "state", B "connected"); (B "error", [])])
        | None => None
        end
    | VDown n => match any_obj n s with Some _ => Some (disconnected s n) | None => None end
    | VFail n text =>
        match any_obj n s with
        | Some o =>
            let e := B "connection error: " ++ text in
            let s1 := on_obj n (set_error (Some e)) s in
            Some (s1, notify s1 (n_id (v_rec o)) [(B "error", e)])
        | None => None
        end
    end.

  Fixpoint vsteps (l : list vev) (s : vst) : option (vst * list vout) :=
    match l with
    | [] => Some (s, [])
    | e :: l =>
        match vstep e s with
        | None => None
        | Some (s1, o1) => match vsteps l s1 with None => None | Some (s2, o2) => Some (s2, o1 ++ o2) end
        end
    end.
End NetView.

(** user.go:605-640: the networks are loaded, sorted by their IDs. *)
Fixpoint number (n : N) (l : list netrec) : list vobj :=
  match l with [] => [] | r :: l => VObj n r None None :: number (n + 1)%N l end.
Definition new_vst (username nick realname : bytes) (enabled : bool) (recs : list netrec) : vst :=
  VSt username nick realname enabled (number 0%N recs) [] [] (N.of_nat (length recs)).
