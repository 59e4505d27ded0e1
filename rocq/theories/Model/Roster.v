(** Model of what the bouncer knows about channels and their members, and about
    users it can see: upstream.go:85-94, 121-186, 424-438, 568-581, 1083-1306,
    1339-1374, 1389-1417, 1477-1524, 1525-1585, 1653-1665, 1716-1740, 2306-2318,
    2383-2466 and downstream.go:2267-2303. The tables announced by the server
    (case mapping, memberships, channel modes and types) are fixed parts of the
    state. Topics, statuses and the messages sent to clients are left out. *)
From Verif.Base Require Import Bytes.
From Verif.Model Require Import Message CaseMap Membership Modes.
Open Scope nat_scope.

(** upstream.go:124-132 (upstreamUser). *)
Record uuser := UUser { uu_nick : bytes; uu_user : bytes; uu_host : bytes; uu_server : bytes;
  uu_flags : bytes; uu_account : bytes; uu_real : bytes }.

(** upstream.go:85-97 (upstreamChannel): the mode map, the members and whether
    the list of members is complete. *)
Record uchan := UChan { uh_chan : chan; uh_complete : bool }.
Definition uh_members (u : uchan) : cmmap (list membership) := ch_members (uh_chan u).
Definition with_members (u : uchan) (m : cmmap (list membership)) : uchan :=
  UChan (Chan (ch_modes (uh_chan u)) m) (uh_complete u).

(** What a server has announced: RPL_ISUPPORT and capabilities. *)
Record tables := Tables { t_cm : casemapping; t_avail : list membership; t_modes : list (ascii * mode_type);
  t_types : bytes; t_bot : option bytes; t_away_notify : bool; t_account_notify : bool }.

(** The parts of upstreamConn in use here: nick, channels, users, monitored. *)
Record rst := Rst { r_tab : tables; r_nick : bytes; r_chans : cmmap uchan; r_users : cmmap uuser; r_mon : cmmap bool }.
Definition r_cm (s : rst) : casemapping := t_cm (r_tab s).
Definition with_nick (s : rst) (n : bytes) : rst := Rst (r_tab s) n (r_chans s) (r_users s) (r_mon s).
Definition with_chans (s : rst) (c : cmmap uchan) : rst := Rst (r_tab s) (r_nick s) c (r_users s) (r_mon s).
Definition with_users (s : rst) (u : cmmap uuser) : rst := Rst (r_tab s) (r_nick s) (r_chans s) u (r_mon s).
Definition with_mon (s : rst) (m : cmmap bool) : rst := Rst (r_tab s) (r_nick s) (r_chans s) (r_users s) m.

(** upstream.go:350-380: a new connection, registered with a nickname. *)
Definition new_rst (t : tables) (nick : bytes) : rst :=
  Rst t nick (cm_new (t_cm t)) (cm_new (t_cm t)) (cm_new (t_cm t)).

(** upstream.go:436-438 (isOurNick). *)
Definition is_our_nick (s : rst) (n : bytes) : bool := beqb (casemap (r_cm s) (r_nick s)) (casemap (r_cm s) n).

(** upstream.go:432-434 (isChannel), for ASCII channel types. *)
Definition is_channel (s : rst) (n : bytes) : bool := match n with c :: _ => amem c (t_types (r_tab s)) | [] => false end.

(** upstream.go:158-180 (updateFrom). *)
Definition pick (old new : bytes) : bytes := match new with [] => old | _ => new end.
Definition update_from (u i : uuser) : uuser :=
  UUser (pick (uu_nick u) (uu_nick i)) (pick (uu_user u) (uu_user i)) (pick (uu_host u) (uu_host i))
    (pick (uu_server u) (uu_server i)) (pick (uu_flags u) (uu_flags i)) (pick (uu_account u) (uu_account i)) (pick (uu_real u) (uu_real i)).

(** upstream.go:2430-2450 (cacheUserInfo). [None] is the panic. The record
    found is changed in place. *)
Definition cache_user (nick : bytes) (info : uuser) (s : rst) : option rst :=
  match nick with
  | [] => None
  | _ =>
      Some (with_users s
        match cm_get (r_users s) nick with
        | None =>
            let info := match uu_nick info with
              | [] => UUser nick (uu_user info) (uu_host info) (uu_server info) (uu_flags info) (uu_account info) (uu_real info)
              | _ => info end in
            cm_set (r_users s) (uu_nick info) info
        | Some uu =>
            let uu := update_from uu info in
            if nonempty (uu_nick info) && negb (beqb nick (uu_nick info))
            then cm_set (cm_del (r_users s) nick) (uu_nick uu) uu
            else cm_set (r_users s) nick uu
        end)
  end.

(** upstream.go:2452-2466 (shouldCacheUserInfo). *)
Definition should_cache (s : rst) (nick : bytes) : bool :=
  is_our_nick s nick || cm_has (r_mon s) nick ||
  existsb (fun e => cm_has (uh_members (snd e)) nick) (cm_entries (r_chans s)).

(** [if !uc.shouldCacheUserInfo(nick) { uc.users.Del(nick) }]. *)
Definition forget (s : rst) (nick : bytes) : rst :=
  if should_cache s nick then s else with_users s (cm_del (r_users s) nick).

(** A statement of ForEach that replaces the value of each entry. *)
Definition cm_update {V} (f : V -> V) (t : cmmap V) : cmmap V :=
  CMMap (map (fun ke => (fst ke, Entry (original_key (snd ke)) (f (entry_value (snd ke))))) (cm_m t)) (cm_fold t).

(** upstream.go:1105-1112. *)
Definition rename_member (old new : bytes) (u : uchan) : uchan :=
  match cm_get (uh_members u) old with
  | None => u
  | Some ms => with_members u (cm_set (cm_del (uh_members u) old) new ms)
  end.

(** upstream.go:1295-1300. *)
Definition quit_member (nick : bytes) (u : uchan) : uchan :=
  if cm_has (uh_members u) nick then with_members u (cm_del (uh_members u) nick) else u.

(** upstream.go:1237-1248 and 1268-1279: leaving a channel. *)
Definition leave (s : rst) (ch : bytes) : rst :=
  match cm_get (r_chans s) ch with
  | None => s
  | Some u =>
      let s' := with_chans s (cm_del (r_chans s) ch) in
      fold_left forget (map fst (cm_entries (uh_members u))) s'
  end.

(** upstream.go:1249-1256 and 1280-1287: somebody else leaves a channel. The
    boolean is false when an error is returned. *)
Definition drop_member (s : rst) (ch nick : bytes) : rst * bool :=
  match cm_get (r_chans s) ch with
  | None => (s, false)
  | Some u => (forget (with_chans s (cm_set (r_chans s) ch (with_members u (cm_del (uh_members u) nick)))) nick, true)
  end.

(** upstream.go:1202-1228, one channel of a JOIN. *)
Definition join_one (s : rst) (nick ch : bytes) : rst * bool :=
  if is_our_nick s nick then
    (with_chans s (cm_set (r_chans s) ch (UChan (Chan None (cm_new (r_cm s))) false)), true)
  else match cm_get (r_chans s) ch with
    | None => (s, false)
    | Some u => (with_chans s (cm_set (r_chans s) ch (with_members u (cm_set (uh_members u) nick []))), true)
    end.

(** upstream.go:1234-1260, one channel of a PART. *)
Definition part_one (s : rst) (nick ch : bytes) : rst * bool :=
  if is_our_nick s nick then (leave s ch, true) else drop_member s ch nick.

(** A loop left at the first error. *)
Fixpoint until_error {A} (f : rst -> A -> rst * bool) (l : list A) (s : rst) : rst * bool :=
  match l with
  | [] => (s, true)
  | x :: l' => let (s', ok) := f s x in if ok then until_error f l' s' else (s', false)
  end.

(** upstream.go:2014-2018 (splitSpace): the non-empty fields. *)
Definition split_space (s : bytes) : list bytes := filter nonempty (split_on " " s).

(** irc.ParsePrefix, the name. *)
Definition prefix_name (s : bytes) : bytes := fst (cut_on "!" (fst (cut_on "@" s))).

(** strings.ReplaceAll on one-letter strings. *)
Definition replace_byte (a b : ascii) (s : bytes) : bytes := map (fun c => if aeqb c a then b else c) s.

Definition no_user : uuser := UUser [] [] [] [] [] [] [].

(** upstream.go:1178-1199: what a JOIN tells about the user. *)
Definition join_info (s : rst) (m : message) (p : prefix) : uuser :=
  let flags := if t_away_notify (r_tab s) then
      B "H" ++ (if existsb (fun kv => beqb (fst kv) (B "bot")) (m_tags m) then match t_bot (r_tab s) with Some b => b | None => [] end else [])
    else [] in
  match m_params m with
  | _ :: acc :: rn :: _ => UUser [] (p_user p) (p_host p) [] flags acc rn
  | _ => UUser [] (p_user p) (p_host p) [] flags [] []
  end.

(** handleMessage, upstream.go:583-1869: the commands that matter here. [None]
    is a panic, false an error. [p] is the prefix, the server's if there was
    none (615-617). *)
Definition handle (m : message) (p : prefix) (s : rst) : option (rst * bool) :=
  let c := m_command m in
  if beqb c (B "NICK") then
    match m_params m with
    | new :: _ =>
        let s1 := if is_our_nick s (p_name p) then with_nick s new else s in
        let s2 := with_chans s1 (cm_update (rename_member (p_name p) new) (r_chans s1)) in
        option_map (fun s => (s, true)) (cache_user (p_name p) (UUser new [] [] [] [] [] []) s2)
    | _ => Some (s, false)
    end
  else if beqb c (B "SETNAME") then
    match m_params m with
    | rn :: _ => option_map (fun s => (s, true)) (cache_user (p_name p) (UUser [] [] [] [] [] [] rn) s)
    | _ => Some (s, false)
    end
  else if beqb c (B "CHGHOST") then (* 1150-1171: only the own host is recorded *)
    match m_params m with _ :: _ :: _ => Some (s, true) | _ => Some (s, false) end
  else if beqb c (B "JOIN") then
    match m_params m with
    | chs :: _ =>
        option_map (until_error (fun s ch => join_one s (p_name p) ch) (split_on "," chs)) (cache_user (p_name p) (join_info s m p) s)
    | _ => Some (s, false)
    end
  else if beqb c (B "PART") then
    match m_params m with
    | chs :: _ => Some (until_error (fun s ch => part_one s (p_name p) ch) (split_on "," chs) s)
    | _ => Some (s, false)
    end
  else if beqb c (B "KICK") then
    match m_params m with
    | ch :: user :: _ => Some (if is_our_nick s user then (leave s ch, true) else drop_member s ch user)
    | _ => Some (s, false)
    end
  else if beqb c (B "QUIT") then
    let s1 := with_chans s (cm_update (quit_member (p_name p)) (r_chans s)) in
    Some (with_users s1 (cm_del (r_users s1) (p_name p)), true)
  else if beqb c (B "MODE") then
    match m_params m with
    | name :: modes :: args =>
        if is_channel s name then
          match cm_get (r_chans s) name with
          | None => Some (s, false)
          | Some u =>
              let (ch, ok) := apply_channel_modes (t_avail (r_tab s)) (t_modes (r_tab s)) (uh_chan u) modes args in
              Some (with_chans s (cm_set (r_chans s) name (UChan ch (uh_complete u))), ok)
          end
        else Some (s, true) (* user modes: 1345-1354, see Model.Modes *)
    | _ => Some (s, false)
    end
  else if beqb c (B "324") then (* RPL_CHANNELMODEIS *)
    match m_params m with
    | _ :: name :: rest =>
        match cm_get (r_chans s) name with
        | None => Some (s, true)
        | Some u =>
            let (ch, ok) := apply_channel_modes (t_avail (r_tab s)) (t_modes (r_tab s)) (Chan (Some []) (uh_members u))
                              (match rest with x :: _ => x | [] => [] end) (tl rest) in
            Some (with_chans s (cm_set (r_chans s) name (UChan ch (uh_complete u))), ok)
        end
    | _ => Some (s, false)
    end
  else if beqb c (B "353") then (* RPL_NAMREPLY *)
    match m_params m with
    | _ :: status :: name :: members :: _ =>
        match cm_get (r_chans s) name with
        | None => Some (s, true)
        | Some u =>
            match status with
            | [] => None (* xirc/xirc.go:84 indexes the string *)
            | [c] =>
                if amem c (B "=*@") then
                  let add t x := let (ms, nick) := parse_membership_prefix (t_avail (r_tab s)) x in cm_set t nick ms in
                  Some (with_chans s (cm_set (r_chans s) name (with_members u (fold_left add (split_space members) (uh_members u)))), true)
                else Some (s, false)
            | _ => Some (s, false)
            end
        end
    | _ => Some (s, false)
    end
  else if beqb c (B "366") then (* RPL_ENDOFNAMES *)
    match m_params m with
    | _ :: name :: _ =>
        match cm_get (r_chans s) name with
        | None => Some (s, true)
        | Some u =>
            if uh_complete u then Some (s, false)
            else Some (with_chans s (cm_set (r_chans s) name (UChan (uh_chan u) true)), true)
        end
    | _ => Some (s, false)
    end
  else if beqb c (B "730") || beqb c (B "731") then (* RPL_MONONLINE, RPL_MONOFFLINE *)
    match m_params m with
    | _ :: targets :: _ =>
        Some (with_mon s (fold_left (fun t x => cm_set t (prefix_name x) (beqb c (B "730"))) (split_on "," targets) (r_mon s)), true)
    | _ => Some (s, false)
    end
  else if beqb c (B "AWAY") then
    match cm_get (r_users s) (p_name p) with
    | Some uu =>
        if nonempty (uu_flags uu) then
          let flags := match m_params m with _ :: _ => replace_byte "H" "G" (uu_flags uu) | [] => replace_byte "G" "H" (uu_flags uu) end in
          option_map (fun s => (s, true)) (cache_user (p_name p) (UUser [] [] [] [] flags [] []) s)
        else Some (s, true)
    | None => Some (s, true)
    end
  else if beqb c (B "ACCOUNT") then
    match m_params m with
    | acc :: _ => option_map (fun s => (s, true)) (cache_user (p_name p) (UUser [] [] [] [] [] acc []) s)
    | _ => Some (s, false)
    end
  else Some (s, true).

(** Inputs: a message; an entry of a reply to WHO, as read by upstream.go:
    1525-1550 or 1555-1585 (status prefixes removed from the flags); names removed
    from the monitored ones by updateMonitor (2312-2317). *)
Inductive revent := RMsg (m : message) (p : prefix) | RWho (info : uuser) | RUnmonitor (removes : list bytes).

Definition on_event (e : revent) (s : rst) : option (rst * bool) :=
  match e with
  | RMsg m p => handle m p s
  | RWho info => if should_cache s (uu_nick info) then option_map (fun s => (s, true)) (cache_user (uu_nick info) info s) else Some (s, true)
  | RUnmonitor removes => Some (fold_left (fun s x => forget (with_mon s (cm_del (r_mon s) x)) x) removes s, true)
  end.

(** Errors are logged, a panic ends the user's goroutine. *)
Fixpoint on_events (l : list revent) (s : rst) : option (rst * bool) :=
  match l with
  | [] => Some (s, true)
  | e :: l' =>
      match on_event e s with
      | None => None
      | Some (s', ok) => option_map (fun r => (fst r, ok && snd r)) (on_events l' s')
      end
  end.

(** upstream.go:134-156 (hasWHOXFields). *)
Definition has_field (u : uuser) (k : ascii) : bool :=
  if aeqb k "n" then nonempty (uu_nick u)
  else if aeqb k "u" then nonempty (uu_user u)
  else if aeqb k "h" then nonempty (uu_host u)
  else if aeqb k "s" then nonempty (uu_server u)
  else if aeqb k "f" then nonempty (uu_flags u)
  else if aeqb k "a" then nonempty (uu_account u)
  else if aeqb k "r" then nonempty (uu_real u)
  else amem k (B "tcidlo").

(** upstream.go:2383-2428 (getCachedWHO). *)
Definition cached_who (s : rst) (mask fields : bytes) : option (list uuser) :=
  let fields := match fields with [] => B "cuhsnfdr" | _ => fields end in
  if (amem "a" fields && negb (t_account_notify (r_tab s))) || (amem "f" fields && negb (t_away_notify (r_tab s))) then None
  else match cm_get (r_users s) mask with
    | Some u => if forallb (has_field u) fields then Some [u] else None
    | None =>
        match cm_get (r_chans s) mask with
        | None => None
        | Some ch =>
            let l := map (fun e => cm_get (r_users s) (fst e)) (cm_entries (uh_members ch)) in
            if forallb (fun o => match o with Some u => forallb (has_field u) fields | None => false end) l
            then Some (flat_map (fun o => match o with Some u => [u] | None => [] end) l)
            else None
        end
    end.
