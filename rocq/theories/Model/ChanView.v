(** Model of what clients are told about the topic and the modes of channels: upstream.go:578-615,
    1172-1287, 1307-1373, 1389-1459, 1500-1524, 2184-2203; downstream.go:1583-1610, 1915-1985,
    2040-2145, 3426-3434, 3465-3484; user.go:320-388. One network with one connection at a time; its
    nickname, its case mapping and its mode tables stay the same. The members of channels are in
    Model/Roster.v, detaching in full in Model/Detach.v. *)
From Verif.Base Require Import Bytes.
From Verif.Model Require Import CaseMap Membership Message Modes.
Open Scope nat_scope.

(** upstream.go:57-71 (upstreamChannel): the fields this is about. [x_modes = None] is the nil map. *)
Record vchan := VChan {
  x_name : bytes;
  x_topic : bytes;
  x_who : option prefix;
  x_time : N;
  x_modes : option (list (ascii * bytes));
  x_created : bytes;
  x_complete : bool
}.

(** The channels of the connection and the saved ones (with their flag Detached), by case-mapped
    name; the clients of the network; whether the goroutine has panicked. *)
Record vst := VSt {
  x_chans : list (bytes * vchan);
  x_saved : bytes -> option bool;
  x_clients : list N;
  x_panic : bool
}.

Fixpoint ch_get (l : list (bytes * vchan)) (k : bytes) : option vchan :=
  match l with [] => None | (k', v) :: l' => if beqb k' k then Some v else ch_get l' k end.
Definition ch_del (l : list (bytes * vchan)) (k : bytes) : list (bytes * vchan) :=
  filter (fun p => negb (beqb (fst p) k)) l.
Definition ch_set (l : list (bytes * vchan)) (k : bytes) (v : vchan) : list (bytes * vchan) := (k, v) :: ch_del l k.

(** irc.ParsePrefix of the external library. *)
Definition parse_prefix (s : bytes) : prefix :=
  let or_empty (o : option bytes) := match o with Some x => x | None => [] end in
  let n := fst (cut_on "@" s) in
  Prefix (fst (cut_on "!" n)) (or_empty (snd (cut_on "!" n))) (or_empty (snd (cut_on "@" s))).

(** irc.go:85-155 on the modes of a channel alone: the members do not matter for them. *)
Definition mapply (avail : list membership) (table : list (ascii * mode_type))
    (m : option (list (ascii * bytes))) (s : bytes) (args : list bytes) : option (list (ascii * bytes)) * bool :=
  let r := apply_channel_modes avail table (Chan m (cm_new CmRFC1459)) s args in (ch_modes (fst r), snd r).

(** What the clients and the server are sent. *)
Definition vres : Type := vst * list (N * message) * list message.

Section ChanView.
  Variable cm : bytes -> bytes.
  Variable me server : bytes.
  Variable chantypes : bytes.
  Variable avail : list membership.
  Variable table : list (ascii * mode_type).
  Variable order : list (ascii * bytes) -> list (ascii * bytes).   (* the iteration order of a map *)

  Definition with_chans (s : vst) c : vst := VSt c (x_saved s) (x_clients s) (x_panic s).
  Definition with_chan (s : vst) (name : bytes) (c : vchan) : vst := with_chans s (ch_set (x_chans s) (cm name) c).
  Definition with_saved (s : vst) (name : bytes) (b : option bool) : vst :=
    VSt (x_chans s) (fun k => if beqb k (cm name) then b else x_saved s k) (x_clients s) (x_panic s).
  Definition get (s : vst) (name : bytes) : option vchan := ch_get (x_chans s) (cm name).
  Definition detached (s : vst) (name : bytes) : bool := match x_saved s (cm name) with Some b => b | None => false end.

  Definition to_all (s : vst) (m : message) : list (N * message) := map (fun id => (id, m)) (x_clients s).
  Definition to_id (s : vst) (origin : N) (m : message) : list (N * message) :=
    flat_map (fun id => if N.eqb origin 0 || N.eqb origin id then [(id, m)] else []) (x_clients s).
  (** upstream.go:2184-2203 without an origin. *)
  Definition produce (s : vst) (target : bytes) (m : message) : list (N * message) :=
    if detached s target then [] else to_all s m.

  (** downstream.go:3465-3484. SendMessage fills in the prefix of the bouncer. *)
  Definition reply (command : bytes) (params : list bytes) : message :=
    Message [] (Some (Prefix server [] [])) command params.
  Definition send_topic (c : vchan) : list message :=
    match x_topic c with
    | [] => [reply (B "331") [me; x_name c; B "No topic is set"]]
    | t => reply (B "332") [me; x_name c; t]
           :: match x_who c with
              | Some w => [reply (B "333") [me; x_name c; format_prefix w; dec (x_time c)]]
              | None => []
              end
    end.
  (** downstream.go:3426-3434, the topic. *)
  Definition forward_channel (c : vchan) : list message :=
    match x_topic c with [] => [] | _ => send_topic c end.

  Definition is_me (p : option prefix) : bool :=
    match p with Some p => beqb (cm (p_name p)) (cm me) | None => false end.
  Definition with_param0 (m : message) (p : bytes) : message :=
    Message (m_tags m) (m_prefix m) (m_command m) (p :: tl (m_params m)).
  (** upstream.go:610-612. *)
  Definition fill_prefix (m : message) : message :=
    match m_prefix m with
    | Some _ => m
    | None => Message (m_tags m) (Some (Prefix server [] [])) (m_command m) (m_params m)
    end.

  (** upstream.go:1196-1229, for one channel of the list; false is a returned error. *)
  Definition on_join1 (x : vres * bool) (m : message) (ch : bytes) : vres * bool :=
    let '((s, outs, ups), ok) := x in
    if negb ok then x
    else if is_me (m_prefix m) then
      let s := with_chan s ch (VChan ch [] None 0 None [] false) in
      ((s, outs ++ produce s ch (with_param0 m ch), ups ++ [msg (B "MODE") [ch]]), true)
    else match get s ch with
    | None => ((s, outs, ups), false)
    | Some _ => ((s, outs ++ produce s ch (with_param0 m ch), ups), true)
    end.
  (** upstream.go:1234-1258. *)
  Definition on_part1 (x : vres * bool) (m : message) (ch : bytes) : vres * bool :=
    let '((s, outs, ups), ok) := x in
    if negb ok then x
    else if is_me (m_prefix m) then
      let s := with_chans s (ch_del (x_chans s) (cm ch)) in
      ((s, outs ++ produce s ch (with_param0 m ch), ups), true)
    else match get s ch with
    | None => ((s, outs, ups), false)
    | Some _ => ((s, outs ++ produce s ch (with_param0 m ch), ups), true)
    end.

  (** upstream.go:1259-1287. *)
  Definition on_kick (s : vst) (m : message) : vres :=
    match m_params m with
    | ch :: nick :: _ =>
        if beqb (cm nick) (cm me) then
          let s := with_chans s (ch_del (x_chans s) (cm ch)) in (s, produce s ch m, [])
        else match get s ch with
        | None => (s, [], [])
        | Some _ => (s, produce s ch m, [])
        end
    | _ => (s, [], [])
    end.

  Definition set_topic (c : vchan) (t : bytes) : vchan :=
    VChan (x_name c) t (x_who c) (x_time c) (x_modes c) (x_created c) (x_complete c).
  Definition set_setter (c : vchan) (w : option prefix) (t : N) : vchan :=
    VChan (x_name c) (x_topic c) w t (x_modes c) (x_created c) (x_complete c).
  Definition set_modes (c : vchan) (m : option (list (ascii * bytes))) : vchan :=
    VChan (x_name c) (x_topic c) (x_who c) (x_time c) m (x_created c) (x_complete c).
  Definition set_created (c : vchan) (t : bytes) : vchan :=
    VChan (x_name c) (x_topic c) (x_who c) (x_time c) (x_modes c) t (x_complete c).
  Definition set_complete (c : vchan) : vchan :=
    VChan (x_name c) (x_topic c) (x_who c) (x_time c) (x_modes c) (x_created c) true.

  (** upstream.go:1307-1321 (RPL_TOPIC, RPL_NOTOPIC). *)
  Definition on_topic_reply (s : vst) (origin : N) (m : message) : vres :=
    match m_params m with
    | _ :: name :: topic :: _ =>
        match get s name with
        | None => (s, to_id s origin m, [])
        | Some c => (with_chan s name (set_topic c (if beqb (m_command m) (B "332") then topic else [])), [], [])
        end
    | _ => (s, [], [])
    end.

  (** upstream.go:1322-1338 (TOPIC); [now] is the clock. *)
  Definition on_topic (s : vst) (now : N) (m : message) : vres :=
    match m_params m with
    | name :: rest =>
        match get s name with
        | None => (s, [], [])
        | Some c =>
            let c := match rest with
                     | t :: _ => set_setter (set_topic c t) (m_prefix m) now
                     | [] => set_topic c []
                     end in
            (with_chan s name c, produce s (x_name c) m, [])
        end
    | [] => (s, [], [])
    end.

  (** upstream.go:1339-1373 (MODE), for a channel: user modes are in Model/Modes.v and Model/Away.v.
      On an error the modes before it are applied. *)
  Definition is_channel (s : bytes) : bool := match s with c :: _ => amem c chantypes | [] => false end.
  Definition on_mode (s : vst) (m : message) : vres :=
    match m_params m with
    | name :: str :: args =>
        if negb (is_channel name) then (s, [], [])
        else match get s name with
        | None => (s, [], [])
        | Some c =>
            let r := mapply avail table (x_modes c) str args in
            let s := with_chan s name (set_modes c (fst r)) in
            (s, if snd r && negb (detached s name) then to_all s m else [], [])
        end
    | _ => (s, [], [])
    end.

  (** upstream.go:1389-1417 (RPL_CHANNELMODEIS). *)
  Definition on_modes_reply (s : vst) (origin : N) (m : message) : vres :=
    match m_params m with
    | _ :: name :: rest =>
        match get s name with
        | None => (s, to_id s origin m, [])
        | Some c =>
            let r := mapply avail table (Some []) (hd [] rest) (tl rest) in
            let first := match x_modes c with None => true | Some _ => false end in
            let s := with_chan s name (set_modes c (fst r)) in
            (s, if snd r && first && negb (detached s name) then to_all s m else [], [])
        end
    | _ => (s, [], [])
    end.

  (** upstream.go:1418-1434 (RPL_CREATIONTIME). *)
  Definition on_created (s : vst) (origin : N) (m : message) : vres :=
    match m_params m with
    | _ :: name :: t :: _ =>
        match get s name with
        | None => (s, to_id s origin m, [])
        | Some c =>
            let first := match x_created c with [] => true | _ => false end in
            let s := with_chan s name (set_created c t) in
            (s, if first && negb (detached s name) then to_all s m else [], [])
        end
    | _ => (s, [], [])
    end.

  (** upstream.go:1435-1459 (RPL_TOPICWHOTIME). strconv.ParseInt also takes signs. *)
  Definition on_setter (s : vst) (origin : N) (m : message) : vres :=
    match m_params m with
    | _ :: name :: who :: t :: _ =>
        match get s name with
        | None => (s, to_id s origin m, [])
        | Some c =>
            let first := match x_who c with None => true | Some _ => false end in
            match undec t with
            | None => (with_chan s name (set_setter c (Some (parse_prefix who)) (x_time c)), [], [])
            | Some n =>
                let s := with_chan s name (set_setter c (Some (parse_prefix who)) n) in
                (s, if first && negb (detached s name) then to_all s m else [], [])
            end
        end
    | _ => (s, [], [])
    end.

  (** upstream.go:1500-1524 (RPL_ENDOFNAMES). *)
  Definition on_end_of_names (s : vst) (origin : N) (m : message) : vres :=
    match m_params m with
    | _ :: name :: _ =>
        match get s name with
        | None => (s, to_id s origin m, [])
        | Some c =>
            if x_complete c then (s, [], [])
            else
              let s := with_chan s name (set_complete c) in
              (s, if detached s name then [] else flat_map (fun id => map (fun m => (id, m)) (forward_channel c)) (x_clients s), [])
        end
    | _ => (s, [], [])
    end.

  (** upstream.go:578-635 and the cases of the switch. RPL_NAMREPLY changes the members only; other
      commands are no matter of topics and modes. *)
  Definition on_message (s : vst) (origin now : N) (m0 : message) : vres :=
    let m := fill_prefix m0 in
    let c := m_command m in
    if beqb c (B "JOIN") then
      match m_params m with
      | chans :: _ => fst (fold_left (fun x ch => on_join1 x m ch) (split_on "," chans) ((s, [], []), true))
      | [] => (s, [], [])
      end
    else if beqb c (B "PART") then
      match m_params m with
      | chans :: _ => fst (fold_left (fun x ch => on_part1 x m ch) (split_on "," chans) ((s, [], []), true))
      | [] => (s, [], [])
      end
    else if beqb c (B "KICK") then on_kick s m
    else if beqb c (B "332") || beqb c (B "331") then on_topic_reply s origin m
    else if beqb c (B "TOPIC") then on_topic s now m
    else if beqb c (B "MODE") then on_mode s m
    else if beqb c (B "324") then on_modes_reply s origin m
    else if beqb c (B "329") then on_created s origin m
    else if beqb c (B "333") then on_setter s origin m
    else if beqb c (B "366") then on_end_of_names s origin m
    else (s, [], []).

  (** What clients do. *)
  Inductive vev :=
  | VConnect (id : N)
  | VDisconnect (id : N)
  | VJoin (name : bytes)
  | VDetach (name : bytes)          (* PART with the reason "detach", the timer, the service *)
  | VAttach (name : bytes)          (* the service, a message that reattaches *)
  | VForget (name : bytes)          (* PART, channel delete *)
  | VTopic (id : N) (name : bytes)
  | VMode (id : N) (name : bytes).

  Definition my_prefix : prefix := Prefix me [] [].
  Definition join_msg (name : bytes) : message := Message [] (Some my_prefix) (B "JOIN") [name].

  (** user.go:354-388. The name of the saved channel is that of the connection up to the case
      mapping; here it is the one given. *)
  Definition attach (s : vst) (name : bytes) : vres :=
    if negb (detached s name) then (s, [], [])
    else
      let s1 := with_saved s name (Some false) in
      match get s name with
      | None => (s1, to_all s (join_msg name), [])
      | Some c =>
          match x_complete c, x_clients s with
          | false, id :: _ => (VSt (x_chans s1) (x_saved s1) (x_clients s1) true, [(id, join_msg name)], [])
          | _, _ => (s1, flat_map (fun id => (id, join_msg name) :: map (fun m => (id, m)) (forward_channel c)) (x_clients s), [])
          end
      end.

  (** user.go:320-352; downstream.go:2003-2016. A channel that is not saved is saved as detached, and
      nothing is sent. *)
  Definition detach (s : vst) (name : bytes) : vres :=
    match x_saved s (cm name) with
    | Some true => (s, [], [])
    | Some false =>
        (with_saved s name (Some true), to_all s (Message [] (Some my_prefix) (B "PART") [name; B "Detach"]), [])
    | None => (with_saved s name (Some true), [], [])
    end.

  Definition on_client (s : vst) (e : vev) : vres :=
    match e with
    (* downstream.go:1583-1610 *)
    | VConnect id =>
        (VSt (x_chans s) (x_saved s) (x_clients s ++ [id]) (x_panic s),
         flat_map (fun p : bytes * vchan =>
           if x_complete (snd p) && negb (detached s (x_name (snd p)))
           then (id, join_msg (x_name (snd p))) :: map (fun m => (id, m)) (forward_channel (snd p)) else []) (x_chans s),
         [])
    | VDisconnect id =>
        (VSt (x_chans s) (x_saved s) (filter (fun i => negb (N.eqb i id)) (x_clients s)) (x_panic s), [], [])
    (* downstream.go:1915-1985, for one name without a key *)
    | VJoin name =>
        let up := match get s name with None => [msg (B "JOIN") [name]] | Some _ => [] end in
        match x_saved s (cm name) with
        | None => (with_saved s name (Some false), [], up)
        | Some _ => let '(s, outs, _) := attach s name in (s, outs, up)
        end
    | VDetach name => detach s name
    | VAttach name => attach s name
    | VForget name => (with_saved s name None, [], [])
    (* downstream.go:2120-2145, without a topic *)
    | VTopic id name =>
        match get s name with
        | None => (s, [], [msg (B "TOPIC") [name]])
        | Some c => (s, map (fun m => (id, m)) (send_topic c), [])
        end
    (* downstream.go:2070-2118, for a channel and without modes *)
    | VMode id name =>
        match get s name with
        | None => (s, [], [msg (B "MODE") [name]])
        | Some c =>
            match x_modes c with
            | None => (s, [], [])
            | Some m =>
                let '(str, params) := format_modes (order m) in
                (s, (id, reply (B "324") (me :: name :: str :: params))
                    :: match x_created c with [] => [] | t => [(id, reply (B "329") [me; name; t])] end, [])
            end
        end
    end.

  Definition on_ev (s : vst) (e : vev) : vres := if x_panic s then (s, [], []) else on_client s e.
  Definition on_srv (s : vst) (origin now : N) (m : message) : vres :=
    if x_panic s then (s, [], []) else on_message s origin now m.

  (** The connection is lost and made again. *)
  Definition reconnect (s : vst) : vst := with_chans s [].
End ChanView.
