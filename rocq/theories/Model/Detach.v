(** Model of detached channels: user.go:320-406 (detach, attach, deleteChannel), 464-467, 711-720;
    upstream.go:635-704, 1196-1229, 1231-1262, 1264-1289, 1308-1374, 1389-1459, 1500-1524, 1857-1869,
    2183-2204; downstream.go:1583-1610, 1694-1710, 1915-2028, 2486-2516; service.go:1440-1560.
    One network; its nickname and the case mapping stay the same. *)
From Verif.Base Require Import Bytes.
From Verif.Model Require Import Message.
Open Scope nat_scope.

(** database/database.go:234-242. *)
Inductive mfilter := FDefault | FNone | FHighlight | FMessage.

(** database.Channel: the fields that matter. *)
Record chrec := Chrec { c_name : bytes; c_detached : bool; c_relay : mfilter; c_reattach : mfilter }.
Definition set_detached (c : chrec) (b : bool) : chrec := Chrec (c_name c) b (c_relay c) (c_reattach c).

(** The saved channels by case-mapped name; the channels of the upstream connection, if there is one,
    by case-mapped name, with upstreamChannel.complete; the clients of the network, with the
    capability echo-message; whether the goroutine has panicked. *)
Record nstate := Nstate {
  n_chans : bytes -> option chrec;
  n_up : option (list (bytes * (bytes * bool)));
  n_clients : list (N * bool);
  n_panic : bool
}.

Inductive dout :=
| OFwd (id : N) (m : message)          (* a message of the server or of another client *)
| OReply (id : N) (m : message)        (* forwardMsgByID *)
| OJoin (id : N) (name : bytes)        (* JOIN made up by the bouncer *)
| OPart (id : N) (name : bytes)        (* PART made up by the bouncer *)
| OChannel (id : N) (name : bytes)     (* topic and members, forwardChannel *)
| OBacklog (id : N) (name : bytes)     (* sendTargetBacklog *)
| ORelay (id : N) (m : message).       (* relayDetachedMessage: a notice of the service *)

Definition up_get (up : list (bytes * (bytes * bool))) (k : bytes) : option (bytes * bool) :=
  option_map snd (find (fun p => beqb (fst p) k) up).
Definition up_del (up : list (bytes * (bytes * bool))) (k : bytes) : list (bytes * (bytes * bool)) :=
  filter (fun p => negb (beqb (fst p) k)) up.
Definition up_set (up : list (bytes * (bytes * bool))) (k : bytes) (v : bytes * bool) : list (bytes * (bytes * bool)) :=
  (k, v) :: up_del up k.

(** What is not tracked here: whether the sender of a message is in the channel of its
    +draft/channel-context tag, whether the modes of a MODE message are valid, and whether a reply is
    the first of its kind for the channel. *)
Record flags := Flags { f_member : bool; f_valid : bool; f_first : bool }.

Inductive nev :=
| UConnected
| UDown
| UMsg (m : message) (origin : N) (f : flags)
| CConnect (id : N) (echo : bool)
| CDisconnect (id : N)
| CJoin (name : bytes)
| CPart (name : bytes) (dbok : bool)
| CPartDetach (name : bytes)
| CSay (id : N) (name : bytes) (m : message)
| ETimer (name : bytes)
| SCreate (name : bytes) (relay reattach : mfilter)
| SUpdate (name : bytes) (detached : option bool) (relay reattach : option mfilter)
| SDelete (name : bytes) (dbok : bool).

Section Detach.
  Variable cm : bytes -> bytes.
  Variable me : bytes.                    (* the nickname *)
  Variable server : bytes.                (* the name of the server *)
  Variable service : bytes.               (* the nickname of the service *)
  Variable chantypes statusmsg : bytes.   (* ISUPPORT *)
  Variable highlight : message -> bool.   (* network.isHighlight *)

  Definition same (a b : bytes) : bool := beqb (cm a) (cm b).
  Definition is_channel (s : bytes) : bool := match s with c :: _ => amem c chantypes | [] => false end.
  (** strings.TrimLeft. *)
  Fixpoint trim_left (s cut : bytes) : bytes :=
    match s with c :: s' => if amem c cut then trim_left s' cut else s | [] => [] end.

  Definition with_chan (s : nstate) (name : bytes) (c : option chrec) : nstate :=
    Nstate (fun k => if beqb k (cm name) then c else n_chans s k) (n_up s) (n_clients s) (n_panic s).
  Definition with_up (s : nstate) u : nstate := Nstate (n_chans s) u (n_clients s) (n_panic s).
  Definition with_clients (s : nstate) l : nstate := Nstate (n_chans s) (n_up s) l (n_panic s).
  Definition get_chan (s : nstate) (name : bytes) : option chrec := n_chans s (cm name).
  Definition get_up (s : nstate) (name : bytes) : option (bytes * bool) :=
    match n_up s with Some up => up_get up (cm name) | None => None end.
  Definition is_detached (s : nstate) (name : bytes) : bool :=
    match get_chan s name with Some c => c_detached c | None => false end.
  Definition ids (s : nstate) : list N := map fst (n_clients s).

  (** user.go:320-352. *)
  Definition detach (s : nstate) (c : chrec) : nstate * list dout :=
    if c_detached c then (s, [])
    else (with_chan s (c_name c) (Some (set_detached c true)), map (fun id => OPart id (c_name c)) (ids s)).

  (** user.go:354-387. forwardChannel panics for a channel without its members. *)
  Definition attach (s : nstate) (c : chrec) : nstate * list dout :=
    if negb (c_detached c) then (s, [])
    else
      let s1 := with_chan s (c_name c) (Some (set_detached c false)) in
      match get_up s (c_name c) with
      | Some (_, false) =>
          match ids s with
          | [] => (s1, [])
          | id :: _ => (Nstate (n_chans s1) (n_up s1) (n_clients s1) true, [OJoin id (c_name c)])
          end
      | u => (s1, flat_map (fun id => OJoin id (c_name c) :: match u with Some _ => [OChannel id (c_name c)] | None => [] end
                                     ++ [OBacklog id (c_name c)]) (ids s))
      end.

  (** user.go:464-467; upstream.go:1863. *)
  Definition needs_relay (c : chrec) (m : message) : bool :=
    match c_relay c with FMessage => true | FHighlight | FDefault => highlight m | FNone => false end.
  Definition needs_reattach (c : chrec) (m : message) : bool :=
    match c_reattach c with FMessage => true | FHighlight => highlight m | _ => false end.

  (** downstream.go:1698-1703. *)
  Definition is_text (m : message) : bool := beqb (m_command m) (B "PRIVMSG") || beqb (m_command m) (B "NOTICE").

  (** upstream.go:1857-1869. *)
  Definition handle_detached (s : nstate) (c : chrec) (m : message) : nstate * list dout :=
    let relays := if needs_relay c m && is_text m then map (fun id => ORelay id m) (ids s) else [] in
    if needs_reattach c m then
      let r := attach s c in (fst r, relays ++ snd r)
    else (s, relays).

  (** upstream.go:2183-2204. *)
  Definition from_us (m : message) : bool := match m_prefix m with Some p => same (p_name p) me | None => false end.
  Definition produce (s : nstate) (target : bytes) (m : message) (origin : N) : list dout :=
    if is_detached s target then []
    else flat_map (fun c : N * bool => let '(id, echo) := c in
           if negb (N.eqb id origin && from_us m) || echo then [OFwd id m] else []) (n_clients s).
  Definition forward (s : nstate) (m : message) : list dout := map (fun id => OFwd id m) (ids s).
  Definition forward_by_id (s : nstate) (origin : N) (m : message) : list dout :=
    flat_map (fun id => if N.eqb origin 0 || N.eqb origin id then [OReply id m] else []) (ids s).

  Definition param (m : message) (i : nat) : option bytes := nth_error (m_params m) i.
  Definition with_param0 (m : message) (p : bytes) : message :=
    Message (m_tags m) (m_prefix m) (m_command m) (p :: tl (m_params m)).
  Definition prefix_name (m : message) : bytes := match m_prefix m with Some p => p_name p | None => server end.
  (** handleMessage fills in the prefix of the server, upstream.go:610-612. *)
  Definition fill_prefix (m : message) : message :=
    match m_prefix m with
    | Some _ => m
    | None => Message (m_tags m) (Some (Prefix server [] [])) (m_command m) (m_params m)
    end.

  (** upstream.go:635-704. *)
  Definition context_of (s : nstate) (m : message) (f : flags) : option bytes :=
    match find (fun t => beqb (fst t) (B "+draft/channel-context")) (m_tags m) with
    | Some (_, t) => match get_up s t with
                     | Some (name, _) => if f_member f then Some name else None
                     | None => None
                     end
    | None => None
    end.
  Definition on_text (s : nstate) (m : message) (origin : N) (f : flags) : nstate * list dout :=
    match param m 0 with
    | None => (s, [])
    | Some target0 =>
        if negb (beqb (m_command m) (B "TAGMSG")) && (length (m_params m) <? 2) then (s, [])
        else
          let target := trim_left target0 statusmsg in
          if same (prefix_name m) service || same target service then (s, [])
          else if same (prefix_name m) server || beqb target (B "*") || has_prefix target (B "$") then (s, produce s [] m 0)
          else
            let buffer := if same me target then prefix_name m else target in
            let buffer := match context_of s m f with Some n => n | None => buffer end in
            let r := match get_chan s buffer with
                     | Some c => if negb (beqb (m_command m) (B "TAGMSG")) && negb (same (prefix_name m) me) && c_detached c
                                 then handle_detached s c m else (s, [])
                     | None => (s, [])
                     end in
            (fst r, snd r ++ if n_panic (fst r) then [] else produce (fst r) buffer m origin)
    end.

  (** upstream.go:1196-1229, for one channel of the list. *)
  Definition on_join1 (x : nstate * list dout * bool) (m : message) (ch : bytes) : nstate * list dout * bool :=
    let '(s, outs, ok) := x in
    if negb ok then x
    else match n_up s with
    | None => (s, outs, false)
    | Some up =>
        if same (prefix_name m) me then
          let s := with_up s (Some (up_set up (cm ch) (ch, false))) in
          (s, outs ++ produce s ch (with_param0 m ch) 0, true)
        else match up_get up (cm ch) with
        | None => (s, outs, false)
        | Some _ => (s, outs ++ produce s ch (with_param0 m ch) 0, true)
        end
    end.
  (** upstream.go:1231-1262. *)
  Definition on_part1 (x : nstate * list dout * bool) (m : message) (ch : bytes) : nstate * list dout * bool :=
    let '(s, outs, ok) := x in
    if negb ok then x
    else match n_up s with
    | None => (s, outs, false)
    | Some up =>
        if same (prefix_name m) me then
          let s := with_up s (Some (up_del up (cm ch))) in
          (s, outs ++ produce s ch (with_param0 m ch) 0, true)
        else match up_get up (cm ch) with
        | None => (s, outs, false)
        | Some _ => (s, outs ++ produce s ch (with_param0 m ch) 0, true)
        end
    end.

  (** upstream.go:1264-1289. *)
  Definition on_kick (s : nstate) (m : message) : nstate * list dout :=
    match n_up s, m_params m with
    | Some up, ch :: nick :: _ =>
        if same nick me then
          let s := with_up s (Some (up_del up (cm ch))) in (s, produce s ch m 0)
        else match up_get up (cm ch) with
        | None => (s, [])
        | Some _ => (s, produce s ch m 0)
        end
    | _, _ => (s, [])
    end.

  (** upstream.go:1340-1374 (MODE), for valid modes. *)
  Definition on_mode (s : nstate) (m : message) (f : flags) : nstate * list dout :=
    match m_params m with
    | name :: _ :: _ =>
        if negb (is_channel name) then (s, if beqb name me && f_valid f then forward s m else [])
        else match get_up s name with
        | None => (s, [])
        | Some _ => (s, if f_valid f && negb (is_detached s name) then forward s m else [])
        end
    | _ => (s, [])
    end.

  (** upstream.go:1389-1459: RPL_CHANNELMODEIS, RPL_CREATIONTIME, RPL_TOPICWHOTIME. *)
  Definition on_channel_reply (s : nstate) (m : message) (origin : N) (f : flags) : nstate * list dout :=
    match param m 1 with
    | None => (s, [])
    | Some name =>
        match get_up s name with
        | None => (s, forward_by_id s origin m)
        | Some _ => (s, if f_valid f && f_first f && negb (is_detached s name) then forward s m else [])
        end
    end.

  (** upstream.go:1500-1524 (RPL_ENDOFNAMES). *)
  Definition on_end_of_names (s : nstate) (m : message) (origin : N) : nstate * list dout :=
    match n_up s, param m 1 with
    | Some up, Some name =>
        match up_get up (cm name) with
        | None => (s, forward_by_id s origin m)
        | Some (_, true) => (s, [])
        | Some (n, false) =>
            let s := with_up s (Some (map (fun p => if beqb (fst p) (cm name) then (fst p, (n, true)) else p) up)) in
            (s, if is_detached s name then [] else map (fun id => OChannel id n) (ids s))
        end
    | _, _ => (s, [])
    end.

  Definition on_message (s : nstate) (m : message) (origin : N) (f : flags) : nstate * list dout :=
    let c := m_command m in
    if beqb c (B "PRIVMSG") || beqb c (B "NOTICE") || beqb c (B "TAGMSG") then on_text s m origin f
    else if beqb c (B "JOIN") then
      match param m 0 with
      | Some chans => fst (fold_left (fun x ch => on_join1 x m ch) (split_on "," chans) (s, [], true))
      | None => (s, [])
      end
    else if beqb c (B "PART") then
      match param m 0 with
      | Some chans => fst (fold_left (fun x ch => on_part1 x m ch) (split_on "," chans) (s, [], true))
      | None => (s, [])
      end
    else if beqb c (B "KICK") then on_kick s m
    else if beqb c (B "TOPIC") then
      match param m 0 with
      | Some name => match get_up s name with
                     | Some (n, _) => (s, produce s n m 0)
                     | None => (s, [])
                     end
      | None => (s, [])
      end
    else if beqb c (B "MODE") then on_mode s m f
    else if beqb c (B "324") || beqb c (B "329") || beqb c (B "333") then on_channel_reply s m origin f
    else if beqb c (B "366") then on_end_of_names s m origin
    else (s, []).

  (** downstream.go:2493-2512. *)
  Definition echo_msg (m : message) (name : bytes) : message :=
    Message (m_tags m) (Some (Prefix me [] [])) (m_command m) (name :: tl (m_params m)).

  (** user.go:389-406. *)
  Definition delete_channel (s : nstate) (name : bytes) (dbok : bool) : nstate :=
    match get_chan s name with
    | Some _ => if dbok then with_chan s name None else s
    | None => s
    end.

  Definition from_opt {A} (d : A) (o : option A) : A := match o with Some x => x | None => d end.

  Definition nstep (s : nstate) (e : nev) : nstate * list dout :=
    if n_panic s then (s, [])
    else match e with
    | UConnected => (with_up s (Some []), [])
    | UDown => (with_up s None, [])
    | UMsg m origin f => match n_up s with Some _ => on_message s (fill_prefix m) origin f | None => (s, []) end
    (* downstream.go:1583-1610 *)
    | CConnect id echo =>
        (with_clients s (n_clients s ++ [(id, echo)]),
         match n_up s with
         | Some up => flat_map (fun p : bytes * (bytes * bool) => let '(_, (n, complete)) := p in
                        if complete && negb (is_detached s n) then [OJoin id n; OChannel id n] else []) up
         | None => []
         end)
    | CDisconnect id => (with_clients s (filter (fun c => negb (N.eqb (fst c) id)) (n_clients s)), [])
    (* downstream.go:1915-1985, for one valid name *)
    | CJoin name =>
        match n_up s with
        | None => (s, [])
        | Some _ =>
            if negb (is_channel name) then (s, [])
            else match get_chan s name with
            | Some c => attach s c
            | None => (with_chan s name (Some (Chrec name false FDefault FDefault)), [])
            end
        end
    (* downstream.go:1986-2028, for one name *)
    | CPart name dbok => match n_up s with Some _ => (delete_channel s name dbok, []) | None => (s, []) end
    | CPartDetach name =>
        match n_up s with
        | None => (s, [])
        | Some _ =>
            match get_chan s name with
            | Some c => detach s c
            | None => (with_chan s name (Some (Chrec name true FDefault FDefault)), [])
            end
        end
    (* downstream.go:2486-2516, when the server does not have echo-message *)
    | CSay id name m =>
        if beqb (m_command m) (B "PRIVMSG") || beqb (m_command m) (B "NOTICE") || beqb (m_command m) (B "TAGMSG") then
          match n_up s with Some _ => (s, produce s name (echo_msg m name) id) | None => (s, []) end
        else (s, [])
    (* user.go:711-720 *)
    | ETimer name => match get_chan s name with Some c => detach s c | None => (s, []) end
    (* service.go:1440-1494: the flag -detached is not used *)
    | SCreate name relay reattach =>
        match get_chan s name with
        | Some _ => (s, [])
        | None => if match n_up s with Some _ => negb (is_channel name) | None => false end then (s, [])
                  else (with_chan s name (Some (Chrec name false relay reattach)), [])
        end
    (* service.go:1496-1542 *)
    | SUpdate name detached relay reattach =>
        match get_chan s name with
        | None => (s, [])
        | Some c =>
            let c := Chrec (c_name c) (c_detached c) (from_opt (c_relay c) relay) (from_opt (c_reattach c) reattach) in
            let s := with_chan s (c_name c) (Some c) in
            match detached with
            | Some true => detach s c
            | Some false => attach s c
            | None => (s, [])
            end
        end
    | SDelete name dbok => (delete_channel s name dbok, [])
    end.

  Fixpoint nrun (s : nstate) (es : list nev) : nstate * list dout :=
    match es with
    | [] => (s, [])
    | e :: es' => let r := nstep s e in let r' := nrun (fst r) es' in (fst r', snd r ++ snd r')
    end.

  (** The saved channels are loaded. *)
  Definition nloaded (l : list chrec) : nstate :=
    Nstate (fun k => find (fun c => beqb (cm (c_name c)) k) l) None [] false.
End Detach.
