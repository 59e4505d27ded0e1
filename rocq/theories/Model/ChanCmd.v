(** Model of the channel commands of the service, service.go:1280-1566, and of what they do to the
    channels of a network in memory and in the database, user.go:320-406,
    database/sqlite.go:757-800. The messages that attaching and detaching send to the clients are
    the subject of Model/Detach.v and left out, and so are the timers. *)
From Verif.Base Require Import Bytes.
From Verif.Model Require Import CaseMap Service.
From Coq Require Import ZArith.
Open Scope nat_scope.

(** database/database.go:234-243 (MessageFilter). *)
Inductive filter := FDefault | FNone | FHighlight | FMessage.

(** database/database.go:244-256 (Channel). The identifier is None before the channel is stored;
    DetachAfter is in nanoseconds. DetachedInternalMsgID is left out. *)
Record channel := Chan {
  c_id : option N; c_name : bytes; c_key : bytes; c_detached : bool;
  c_relay : filter; c_reattach : filter; c_after : Z; c_on : filter
}.

(** user.go:149-166 (network): Name and Addr, the case mapping, the channels in memory and in the
    database, and the connection: the channel types of the server and the joined channels
    (upstream.go:80-140). The order of a Go map is arbitrary: the order of the lists is. *)
Record conn := Conn { k_types : bytes; k_joined : list bytes }.
Record network := Net {
  n_name : bytes; n_addr : bytes; n_cm : casemapping; n_conn : option conn;
  n_mem : list channel; n_db : list channel
}.

(** user.go:527-545 (user): the networks; the next identifier the database gives. *)
Record user := User { u_nets : list network; u_next : N }.

(** database/database.go:181-186 (GetName). *)
Definition get_name (n : network) : bytes := match n_name n with [] => n_addr n | x => x end.

(** user.go:574-584 (getNetwork). *)
Definition get_network (u : user) (name : bytes) : option network :=
  find (fun n => beqb (n_addr n) name || (negb (beqb (n_name n) []) && beqb (n_name n) name)) (u_nets u).

(** upstream.go:432-434 (isChannel), bytewise. *)
Definition is_channel (k : conn) (name : bytes) : bool :=
  match name with [] => false | c :: _ => amem c (k_types k) end.

(** xirc/casemapping.go:87-127: the maps of channels. *)
Definition same (cm : casemapping) (a b : bytes) : bool := beqb (casemap cm a) (casemap cm b).
Definition get_ch (n : network) (name : bytes) : option channel :=
  find (fun c => same (n_cm n) (c_name c) name) (n_mem n).
Definition joined (n : network) (k : conn) (name : bytes) : bool := existsb (fun x => same (n_cm n) x name) (k_joined k).

Definition with_mem (n : network) (l : list channel) : network := Net (n_name n) (n_addr n) (n_cm n) (n_conn n) l (n_db n).
Definition with_db (n : network) (l : list channel) : network := Net (n_name n) (n_addr n) (n_cm n) (n_conn n) (n_mem n) l.
(** A channel is a pointer: changing it changes the entry of the map. *)
Definition put_ch (n : network) (c : channel) : network :=
  with_mem n (map (fun x => if same (n_cm n) (c_name x) (c_name c) then c else x) (n_mem n)).

Definition with_id (c : channel) (i : option N) : channel :=
  Chan i (c_name c) (c_key c) (c_detached c) (c_relay c) (c_reattach c) (c_after c) (c_on c).
(** database/sqlite.go:769: whole seconds, rounded up (the rounding of float64 is left out). *)
Definition second : Z := 1000000000.
Definition whole (z : Z) : Z := (second * ((z + (second - 1)) / second))%Z.
Definition as_row (c : channel) : channel :=
  Chan (c_id c) (c_name c) (c_key c) (c_detached c) (c_relay c) (c_reattach c) (whole (c_after c)) (c_on c).

Definition eqid (a b : option N) : bool :=
  match a, b with Some x, Some y => N.eqb x y | None, None => true | _, _ => false end.

(** database/sqlite.go:757-792 (StoreChannel): an update of the row with the identifier, or a new
    row whose identifier is written into the channel. *)
Definition store_channel (n : network) (next : N) (c : channel) : network * N :=
  match c_id c with
  | Some i => (with_db n (map (fun r => if eqid (c_id r) (Some i) then as_row c else r) (n_db n)), next)
  | None =>
      let c' := with_id c (Some next) in
      (with_db (put_ch n c') (n_db n ++ [as_row c']), (next + 1)%N)
  end.
(** database/sqlite.go:794-800 (DeleteChannel). *)
Definition delete_row (n : network) (i : option N) : network :=
  with_db n (List.filter (fun r => negb (eqid (c_id r) i && is_some i)) (n_db n)).

Definition set_nth (l : list network) (i : nat) (n : network) : list network := firstn i l ++ n :: skipn (S i) l.
Definition put_net (u : user) (i : nat) (n : network) : user := User (set_nth (u_nets u) i n) (u_next u).

(** service.go:1359-1371 (parseFilter). *)
Definition parse_filter (s : bytes) : option filter :=
  if beqb s (B "default") then Some FDefault
  else if beqb s (B "none") then Some FNone
  else if beqb s (B "highlight") then Some FHighlight
  else if beqb s (B "message") then Some FMessage
  else None.

(** service.go:1373-1387 (newChannelFlagSet). *)
Definition channel_flags : list (bytes * fkind) :=
  [ (B "detached", KBoolPtr); (B "relay-detached", KStr); (B "reattach-on", KStr); (B "detach-after", KStr); (B "detach-on", KStr) ].

Definition set_relay (c : channel) (f : filter) := Chan (c_id c) (c_name c) (c_key c) (c_detached c) f (c_reattach c) (c_after c) (c_on c).
Definition set_reattach (c : channel) (f : filter) := Chan (c_id c) (c_name c) (c_key c) (c_detached c) (c_relay c) f (c_after c) (c_on c).
Definition set_after (c : channel) (z : Z) := Chan (c_id c) (c_name c) (c_key c) (c_detached c) (c_relay c) (c_reattach c) z (c_on c).
Definition set_on (c : channel) (f : filter) := Chan (c_id c) (c_name c) (c_key c) (c_detached c) (c_relay c) (c_reattach c) (c_after c) f.
Definition set_detached (c : channel) (b : bool) := Chan (c_id c) (c_name c) (c_key c) b (c_relay c) (c_reattach c) (c_after c) (c_on c).

Inductive say := SCreated (name : bytes) | SUpdated (name : bytes) | SDeleted (name : bytes) | SLine (text : bytes) | SNone.
Inductive msg := Join (name : bytes) | Part (name : bytes).
(** The new state, the answer, the messages to servers (with the position of the network), and
    whether the command succeeded. *)
Definition outcome : Type := user * list say * list (nat * msg) * bool.
Definition fail (u : user) : outcome := (u, [], [], false).

(** service.go:1421-1440 (stripNetworkSuffix): the name and the position of the network. *)
Fixpoint position (l : list network) (name : bytes) : option nat :=
  match l with
  | [] => None
  | n :: l => if beqb name (get_name n) then Some O else option_map S (position l name)
  end.
Definition strip (u : user) (bound : option nat) (name : bytes) : option (bytes * nat) :=
  match bound with
  | Some i => Some (name, i)
  | None =>
      match cut_on "/"%char name with
      | (_, None) => None
      | (ch, Some net) => option_map (fun i => (ch, i)) (position (u_nets u) net)
      end
  end.

(** downstream.go:216-219 (illegalChanChars). *)
Definition legal (name : bytes) : bool :=
  negb (beqb name []) && forallb (fun c => negb (amem c [" "%char; ","%char; ascii_of_N 7])) name.

Section Commands.
  (** time.ParseDuration. *)
  Variable duration : bytes -> option Z.

  (** service.go:1389-1419 (channelFlagSet.update): one option after the other; false with what has
      been changed by then when one is not understood. *)
  Definition apply_filter (fl : list (bytes * fval)) (name : bytes) (set : channel -> filter -> channel) (cb : channel * bool) : channel * bool :=
    match cb with
    | (c, false) => (c, false)
    | (c, true) =>
        match str_flag fl name with
        | None => (c, true)
        | Some s => match parse_filter s with None => (c, false) | Some f => (set c f, true) end
        end
    end.
  Definition apply_after (fl : list (bytes * fval)) (cb : channel * bool) : channel * bool :=
    match cb with
    | (c, false) => (c, false)
    | (c, true) =>
        match str_flag fl (B "detach-after") with
        | None => (c, true)
        | Some s =>
            match duration s with
            | None => (c, false)
            | Some z => if (z <? 0)%Z then (c, false) else (set_after c z, true)
            end
        end
    end.
  Definition update_ch (fl : list (bytes * fval)) (c : channel) : channel * bool :=
    apply_filter fl (B "detach-on") set_on (apply_after fl
      (apply_filter fl (B "reattach-on") set_reattach (apply_filter fl (B "relay-detached") set_relay (c, true)))).

  (** service.go:1442-1493 (handleServiceChannelCreate). [ok] says whether the database works. *)
  Definition create (bound : option nat) (ok : bool) (u : user) (params : list bytes) : outcome :=
    match params with
    | [] => fail u
    | p :: args =>
        match parse_all channel_flags args with
        | None => fail u
        | Some fl =>
            match strip u bound p with
            | None => fail u
            | Some (name, i) =>
                match nth_error (u_nets u) i with
                | None => fail u
                | Some n =>
                    if negb (legal name) then fail u
                    else if match n_conn n with Some k => negb (is_channel k name) | None => false end then fail u
                    else if is_some (get_ch n name) then fail u
                    else
                      match update_ch fl (Chan None name [] false FDefault FDefault 0 FDefault) with
                      | (_, false) => fail u
                      | (c, true) =>
                          let n1 := with_mem n (n_mem n ++ [c]) in
                          if negb ok then fail (put_net u i n1)
                          else
                            match store_channel n1 (u_next u) c with
                            | (n2, next) =>
                                (User (set_nth (u_nets u) i n2) next, [SCreated name],
                                 match n_conn n with Some _ => [(i, Join name)] | None => [] end, true)
                            end
                      end
                end
            end
        end
    end.

  (** service.go:1495-1542 (handleServiceChannelUpdate) with user.go:320-377 (detach, attach) as far
      as they change the channel. *)
  Definition update (bound : option nat) (ok : bool) (u : user) (params : list bytes) : outcome :=
    match params with
    | [] => fail u
    | p :: args =>
        match parse_all channel_flags args with
        | None => fail u
        | Some fl =>
            match strip u bound p with
            | None => fail u
            | Some (name, i) =>
                match nth_error (u_nets u) i with
                | None => fail u
                | Some n =>
                    match get_ch n name with
                    | None => fail u
                    | Some c0 =>
                        match update_ch fl c0 with
                        | (c1, false) => fail (put_net u i (put_ch n c1))
                        | (c1, true) =>
                            let c2 := set_detached c1 (from_opt (c_detached c1) (bool_flag fl (B "detached"))) in
                            let n1 := put_ch n c2 in
                            if negb ok then fail (put_net u i n1)
                            else
                              match store_channel n1 (u_next u) c2 with
                              | (n2, next) => (User (set_nth (u_nets u) i n2) next, [SUpdated name], [], true)
                              end
                        end
                    end
                end
            end
        end
    end.

  (** service.go:1544-1566 (handleServiceChannelDelete) and user.go:389-406 (deleteChannel). *)
  Definition delete (bound : option nat) (ok : bool) (u : user) (params : list bytes) : outcome :=
    match params with
    | [p] =>
        match strip u bound p with
        | None => fail u
        | Some (name, i) =>
            match nth_error (u_nets u) i with
            | None => fail u
            | Some n =>
                match get_ch n name with
                | None => fail u
                | Some c =>
                    if negb ok then fail u
                    else
                      let n1 := delete_row n (c_id c) in
                      let n2 := with_mem n1 (List.filter (fun x => negb (same (n_cm n) (c_name x) name)) (n_mem n)) in
                      (put_net u i n2, [SDeleted name],
                       match n_conn n with Some k => if joined n k name then [(i, Part name)] else [] | None => [] end, true)
                end
            end
        end
    | _ => fail u
    end.

  (** service.go:1295-1338 (sendNetwork). The order of sort.Slice among channels with the same key
      is arbitrary, like the order of the list. *)
  Definition sort_key (c : channel) : bytes := List.filter (fun x => negb (aeqb x "#")) (c_name c).
  Definition status_line (full : bool) (n : network) (c : channel) : bytes :=
    let name := if full then c_name c ++ B "/" ++ get_name n else c_name c in
    let st := match n_conn n with
              | Some k => if joined n k (c_name c) then B "joined" else B "parted"
              | None => B "disconnected"
              end in
    name ++ B " [" ++ (if c_detached c then st ++ B ", detached" else st) ++ B "]".
  Definition send_network (full : bool) (n : network) : list say :=
    map (fun c => SLine (status_line full n c)) (sort_by (fun a b => ble (sort_key a) (sort_key b)) (n_mem n)).

  (** service.go:1280-1294, 1339-1357 (handleServiceChannelStatus). *)
  Definition status (bound : option nat) (u : user) (params : list bytes) : outcome :=
    let default := match bound with Some i => match nth_error (u_nets u) i with Some n => get_name n | None => [] end | None => [] end in
    match parse_all [(B "network", KStr)] params with
    | None => fail u
    | Some fl =>
        let name := from_opt default (str_flag fl (B "network")) in
        let finish l := (u, match l with [] => [SNone] | _ => l end, [], true) in
        match name with
        | [] => finish (concat (map (send_network true) (u_nets u)))
        | _ => match get_network u name with None => fail u | Some n => finish (send_network false n) end
        end
    end.

  Inductive command := Create (params : list bytes) | Update (params : list bytes) | Delete (params : list bytes) | Status (params : list bytes).
  (** service.go:317-342: one command, from a client that is bound to a network or to none. *)
  Definition step (bound : option nat) (ok : bool) (u : user) (c : command) : outcome :=
    match c with
    | Create ps => create bound ok u ps
    | Update ps => update bound ok u ps
    | Delete ps => delete bound ok u ps
    | Status ps => status bound u ps
    end.
  (** Commands one after the other. *)
  Definition state (o : outcome) : user := fst (fst (fst o)).
  Definition run (u : user) (l : list (option nat * bool * command)) : user :=
    fold_left (fun u x => match x with (b, ok, c) => state (step b ok u c) end) l u.
End Commands.
