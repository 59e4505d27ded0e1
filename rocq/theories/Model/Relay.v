(** Model of how texts (PRIVMSG, NOTICE, TAGMSG) of the user go to the server and to the other clients,
    and how texts of the server go to the clients and into the history: downstream.go:480-500,
    560-590, 2387-2521; upstream.go:578-625, 634-707, 737-783, 1912-1950, 2004-2016, 2100-2203;
    irc.go:222-230. One network with one registered connection; its server is part of the model, with
    what is on the way in both directions. Delivery receipts are in Model/Delivery.v, detached
    channels in Model/Detach.v, push notifications in Model/Push.v, the service in Model/Service.v. User
    and host names in the prefix of the user are left out, and so are NickServ's commands. *)
From Verif.Base Require Import Bytes.
From Verif.Model Require Import Message.
Open Scope nat_scope.

(** irc.Tags, a map; a list here, with one entry for each key. *)
Definition tag_del (l : list (bytes * bytes)) (k : bytes) : list (bytes * bytes) := filter (fun p => negb (beqb (fst p) k)) l.
Definition tag_set (l : list (bytes * bytes)) (k v : bytes) : list (bytes * bytes) := tag_del l k ++ [(k, v)].
Definition tag_get (l : list (bytes * bytes)) (k : bytes) : option bytes := option_map snd (find (fun p => beqb (fst p) k) l).

(** irc.go:222-230. *)
Definition copy_client_tags (l : list (bytes * bytes)) : list (bytes * bytes) := filter (fun p => has_prefix (fst p) (B "+")) l.

(** strings.TrimLeft. *)
Fixpoint trim_left (s cut : bytes) : bytes :=
  match s with c :: s' => if amem c cut then trim_left s' cut else s | [] => [] end.

(** A client of the network, with the capabilities that matter here. *)
Record client := Client { c_id : N; c_echo : bool; c_tags : bool; c_time : bool; c_account : bool }.

(** What is on the way to the server: a text, with the client that sent it (for the specification
    only) and the ID in its label, or a request to change the capabilities labeled-response and
    echo-message. The number that follows the ID in a label (Model/Pending.v) is left out: nothing
    reads it. All texts of one line share a map of tags, so that the label of one may be sent with
    another; they have the same ID. *)
Inductive uline := UMsg (origin : N) (label : option N) (m : message) | UCap (label echo : option bool).
(** What is on the way from the server. [DAck] has the capabilities that are switched on or off. *)
Inductive dline :=
| DMsg (origin : option N) (label : option N) (m : message)
| DNick (n : bytes) | DNew (label : bool) | DDel (label echo : bool) | DAck (label echo : option bool).

Record st := St {
  t_next : N;                          (* lastDownstreamID *)
  t_conns : list client;
  t_nick : bytes; t_account : bytes;   (* uc.nick, uc.account *)
  t_avail : bool;                      (* labeled-response is available *)
  t_label : bool; t_echo : bool;       (* labeled-response, echo-message are enabled *)
  t_seq : N;                           (* uc.nextLabelID *)
  t_log : list (bytes * message);      (* messages appended to the history, with their target *)
  t_up : list uline; t_down : list dline;
  v_nick : bytes; v_label : bool; v_echo : bool   (* what the server holds *)
}.

Inductive ev :=
| Join (c : client)                    (* a client connects; its ID is given by the bouncer *)
| Leave (id : N)
| Caps (c : client)                    (* a client changes its capabilities *)
| Line (id : N) (m : message) (now : bytes)
| Hear (now : bytes)                   (* the next line of the server is handled *)
| VAccept (m : message)                (* the server takes a text and lets it pass in this form *)
| VRefuse
| VCap (ok : bool)                     (* the server answers a request for capabilities *)
| VSay (m : message)                   (* the server sends a text of somebody *)
| VNick (n : bytes) | VNew (label : bool) | VDel (label echo : bool).

(** What can be observed: a message to a client, an error, a command for the service, a message to all
    users; a text put on the way to the server, taken and let pass by the server; a text put on the way
    to the bouncer and read by it, with the nickname of the user at that end. *)
Inductive out :=
| OTo (id : N) (m : message)
| OEcho (id : N) (m : message)         (* to a client, of its own text for the service *)
| OErr (id : N) | OService (id : N) (text : bytes) | OBroadcast (m : message)
| OSent (id : N) (nick : bytes) (m : message)
| OTaken (id : N) (m : message)
| OSaid (nick : bytes) (origin : option N) (m : message)
| OHeard (nick : bytes) (origin : option N) (m : message).

Definition with_conns s x := St (t_next s) x (t_nick s) (t_account s) (t_avail s) (t_label s) (t_echo s) (t_seq s) (t_log s) (t_up s) (t_down s) (v_nick s) (v_label s) (v_echo s).
Definition with_next s x := St x (t_conns s) (t_nick s) (t_account s) (t_avail s) (t_label s) (t_echo s) (t_seq s) (t_log s) (t_up s) (t_down s) (v_nick s) (v_label s) (v_echo s).
Definition with_nick s x := St (t_next s) (t_conns s) x (t_account s) (t_avail s) (t_label s) (t_echo s) (t_seq s) (t_log s) (t_up s) (t_down s) (v_nick s) (v_label s) (v_echo s).
Definition with_caps s a l e := St (t_next s) (t_conns s) (t_nick s) (t_account s) a l e (t_seq s) (t_log s) (t_up s) (t_down s) (v_nick s) (v_label s) (v_echo s).
Definition with_seq s x := St (t_next s) (t_conns s) (t_nick s) (t_account s) (t_avail s) (t_label s) (t_echo s) x (t_log s) (t_up s) (t_down s) (v_nick s) (v_label s) (v_echo s).
Definition with_log s x := St (t_next s) (t_conns s) (t_nick s) (t_account s) (t_avail s) (t_label s) (t_echo s) (t_seq s) x (t_up s) (t_down s) (v_nick s) (v_label s) (v_echo s).
Definition with_up s x := St (t_next s) (t_conns s) (t_nick s) (t_account s) (t_avail s) (t_label s) (t_echo s) (t_seq s) (t_log s) x (t_down s) (v_nick s) (v_label s) (v_echo s).
Definition with_down s x := St (t_next s) (t_conns s) (t_nick s) (t_account s) (t_avail s) (t_label s) (t_echo s) (t_seq s) (t_log s) (t_up s) x (v_nick s) (v_label s) (v_echo s).
Definition with_server s n l e := St (t_next s) (t_conns s) (t_nick s) (t_account s) (t_avail s) (t_label s) (t_echo s) (t_seq s) (t_log s) (t_up s) (t_down s) n l e.

Section Relay.
  Variable cm : bytes -> bytes.                        (* case mapping of the network *)
  Variable host server : bytes.                        (* names of the bouncer and of the server *)
  Variable statusmsg : bytes.
  Variable admin : bool.
  Variable utags : bool.                               (* the server has message-tags *)
  Variable detached : bytes -> bool.                   (* by case-mapped name *)
  Variable context : bytes -> bytes -> option bytes.   (* the name of a channel, if this nickname is a member *)

  Definition name_of (m : message) : bytes := match m_prefix m with Some p => p_name p | None => [] end.
  Definition is_tagmsg (m : message) : bool := beqb (m_command m) (B "TAGMSG").

  (** downstream.go:482-509 (SendMessage), what concerns texts. *)
  Definition shown (c : client) (m : message) : list message :=
    if c_tags c then [m]
    else if is_tagmsg m then []
    else [Message (filter (fun p => if beqb (fst p) (B "time") then c_time c
                                    else if beqb (fst p) (B "account") then c_account c else false) (m_tags m))
            (m_prefix m) (m_command m) (m_params m)].

  (** upstream.go:2125-2175 (appendLog); the store does not fail. *)
  Definition append_log (s : st) (entity : bytes) (m : message) : st :=
    if is_tagmsg m && negb (existsb (fun p => bmem (fst p) [B "+draft/react"; B "+react"]) (m_tags m)) then s
    else if has_prefix entity (B "$") then s
    else if beqb (cm entity) (B "nickserv") then s
    else with_log s (t_log s ++ [(cm entity, m)]).

  (** upstream.go:2184-2203 (produce). The ID 0 is no client; no channel has an empty name. *)
  Definition produce (s : st) (target : bytes) (m : message) (origin : N) : st * list out :=
    (match target with [] => s | _ => append_log s target m end,
     flat_map (fun c =>
       let echo := N.eqb (c_id c) origin && beqb (cm (t_nick s)) (cm (name_of m)) in
       if negb (match target with [] => false | _ => detached (cm target) end) && (negb echo || c_echo c) then map (OTo (c_id c)) (shown c m) else []) (t_conns s)).

  (** upstream.go:2100-2108. *)
  Definition wire (m : message) : message := if utags then m else Message [] (m_prefix m) (m_command m) (m_params m).

  (** downstream.go:2400-2520: the targets one after another. A target that is refused ends the loop.
      [tags] is the map all texts share; SendMessageLabeled puts the label into it. *)
  Fixpoint relay (s : st) (c : client) (command text : bytes) (tags : list (bytes * bytes)) (now : bytes) (names : list bytes) : st * list out :=
    match names with
    | [] => (s, [])
    | name :: names' =>
        let params := if beqb command (B "TAGMSG") then [name] else [name; text] in
        if beqb name (B "$" ++ host) then
          if admin then
            let '(s', outs) := relay s c command text tags now names' in
            (s', OBroadcast (Message (tag_set tags (B "time") now) None command params) :: outs)
          else (s, [OErr (c_id c)])
        else if beqb (cm name) (B "bouncerserv") then
          let echo := if c_echo c then map (OEcho (c_id c)) (shown c (Message (tag_set tags (B "time") now) (Some (Prefix (t_nick s) [] [])) command params)) else [] in
          let service := if beqb command (B "PRIVMSG") then [OService (c_id c) text] else [] in
          let '(s', outs) := relay s c command text tags now names' in
          (s', echo ++ service ++ outs)
        else
          let m := Message (tag_del tags (B "label")) None command params in
          let label := if t_label s && utags then Some (c_id c) else None in
          let s1 := with_up s (t_up s ++ [UMsg (c_id c) label (wire m)]) in
          let sent := OSent (c_id c) (t_nick s) m in
          let tags1 := if t_label s then tag_set tags (B "label") (B "sd-" ++ dec (c_id c) ++ B "-" ++ dec (t_seq s)) else tags in
          let s2 := if t_label s then with_seq s1 (t_seq s + 1) else s1 in
          let '(s3, echoes) :=
            if t_echo s then (s2, [])
            else
              let etags := tag_set tags1 (B "time") now in
              let etags := match t_account s with [] => etags | a => tag_set etags (B "account") a end in
              produce s2 name (Message etags (Some (Prefix (t_nick s) [] [])) command params) (c_id c) in
          let '(s4, outs) := relay s3 c command text tags1 now names' in
          (s4, sent :: echoes ++ outs)
    end.

  (** downstream.go:2387-2399. *)
  Definition on_line (s : st) (c : client) (m : message) (now : bytes) : st * list out :=
    match is_tagmsg m, m_params m with
    | false, targets :: text :: _ => relay s c (m_command m) text (copy_client_tags (m_tags m)) now (split_on "," targets)
    | true, targets :: _ => relay s c (m_command m) [] (copy_client_tags (m_tags m)) now (split_on "," targets)
    | _, _ => (s, [OErr (c_id c)])
    end.

  Definition our_nick (s : st) (n : bytes) : bool := beqb (cm (t_nick s)) (cm n).

  (** upstream.go:578-625, 634-707. A line without a source comes from the server. The tags label and
      batch have been taken off. *)
  Definition on_text (s : st) (label : option N) (m : message) (now : bytes) : st * list out :=
    let m := Message (tag_set (m_tags m) (B "time") now)
               (Some (match m_prefix m with Some p => p | None => Prefix server [] [] end)) (m_command m) (m_params m) in
    match (if is_tagmsg m then m_params m else match m_params m with _ :: _ :: _ => m_params m | _ => [] end) with
    | [] => (s, [])
    | target0 :: _ =>
        let target := trim_left target0 statusmsg in
        let from := name_of m in
        let service := cm (B "BouncerServ") in
        if beqb (cm from) service || beqb (cm target) service then (s, [])
        else if beqb (cm from) (cm server) || beqb target (B "*") || has_prefix target (B "$") then produce s [] m 0
        else
          let buffer := if our_nick s target then from else target in
          let buffer := match tag_get (m_tags m) (B "+draft/channel-context") with
                        | Some t => match context t from with Some name => name | None => buffer end
                        | None => buffer
                        end in
          produce s buffer m (match label with Some id => id | None => 0%N end)
    end.

  (** upstream.go:1924-1949 (updateCaps), for the two capabilities. *)
  Definition update_caps (s : st) : st :=
    let label := if t_avail s && negb (t_label s) then Some true else None in
    let echo := if negb (t_echo s) && t_avail s then Some true
                else if t_echo s && negb (t_avail s) then Some false else None in
    match label, echo with
    | None, None => s
    | _, _ => with_up s (t_up s ++ [UCap label echo])
    end.
  Definition put (o : option bool) (b : bool) : bool := match o with Some x => x | None => b end.

  (** upstream.go:737-783, and the lines above. *)
  Definition on_dline (s : st) (d : dline) (now : bytes) : st * list out :=
    match d with
    | DMsg origin label m =>
        let '(s', outs) := on_text s label m now in (s', OHeard (t_nick s) origin m :: outs)
    | DNick n => (with_nick s n, [])
    | DNew label => (update_caps (with_caps s (t_avail s || label) (t_label s) (t_echo s)), [])
    | DDel label echo => (with_caps s (t_avail s && negb label) (t_label s && negb label) (t_echo s && negb echo), [])
    | DAck label echo => (with_caps s (t_avail s) (put label (t_label s)) (put echo (t_echo s)), [])
    end.

  Definition the_client (s : st) (id : N) : option client := find (fun c => N.eqb (c_id c) id) (t_conns s).
  Definition with_id (c : client) (id : N) : client := Client id (c_echo c) (c_tags c) (c_time c) (c_account c).

  Definition step (s : st) (e : ev) : st * list out :=
    match e with
    | Join c => let id := (t_next s + 1)%N in (with_next (with_conns s (t_conns s ++ [with_id c id])) id, [])
    | Leave id => (with_conns s (filter (fun c => negb (N.eqb (c_id c) id)) (t_conns s)), [])
    | Caps c => (with_conns s (map (fun d => if N.eqb (c_id d) (c_id c) then c else d) (t_conns s)), [])
    | Line id m now => match the_client s id with Some c => on_line s c m now | None => (s, []) end
    | Hear now => match t_down s with d :: l => on_dline (with_down s l) d now | [] => (s, []) end
    (* the server; these are no parts of the bouncer *)
    | VAccept m' =>
        match t_up s with
        | UMsg id label m :: l =>
            let s := with_up s l in
            let said := Message (m_tags m') (Some (Prefix (v_nick s) [] [])) (m_command m) (m_params m') in
            if v_echo s then (with_down s (t_down s ++ [DMsg (Some id) (if v_label s then label else None) said]),
                              [OTaken id m; OSaid (v_nick s) (Some id) said])
            else (s, [OTaken id m])
        | _ => (s, [])
        end
    | VRefuse => match t_up s with UMsg id label m :: l => (with_up s l, [OTaken id m]) | _ => (s, []) end
    | VCap ok =>
        match t_up s with
        | UCap label echo :: l =>
            let s := with_up s l in
            if ok then (with_down (with_server s (v_nick s) (put label (v_label s)) (put echo (v_echo s))) (t_down s ++ [DAck label echo]), [])
            else (with_down s (t_down s ++ [DAck (option_map (fun _ => false) label) (option_map (fun _ => false) echo)]), [])
        | _ => (s, [])
        end
    | VSay m => (with_down s (t_down s ++ [DMsg None None m]), [OSaid (v_nick s) None m])
    | VNick n => (with_down (with_server s n (v_label s) (v_echo s)) (t_down s ++ [DNick n]), [])
    | VNew label => (with_down s (t_down s ++ [DNew label]), [])
    | VDel label echo =>
        (with_down (with_server s (v_nick s) (v_label s && negb label) (v_echo s && negb echo)) (t_down s ++ [DDel label echo]), [])
    end.

  Fixpoint run (s : st) (l : list ev) : st * list out :=
    match l with
    | [] => (s, [])
    | e :: l' => let '(s1, o1) := step s e in let '(s2, o2) := run s1 l' in (s2, o1 ++ o2)
    end.
End Relay.
