(** Model of how a connection to a server ends the program: upstream.go:440-581,
    583-1855 (handleMessage), 1857-1910, 2047-2100, 2319-2354, 2430-2466,
    user.go:194-201, 226-275, 354-387, 408-467, 602-700, irc.go:254-283,
    server.go:437-460 and the reading of lines by gopkg.in/irc.v4. Every index,
    dereference and explicit panic of these functions is a value [Panic] here.
    What is sent to clients and servers and what is stored is left out, and so
    is the message store. *)
From Verif.Base Require Import Bytes.
From Verif.Model Require Import Message CaseMap Membership Modes Whox Roster.
From Verif.Model Require Pending ChanView Isupport Detach Caps.
Open Scope nat_scope.

(** ** Lines *)

(** strings.TrimRight(line, "\r\n"). *)
Definition trim_eol (s : bytes) : bytes := rev (Detach.trim_left (rev s) crlf).

(** strings.SplitN(line, " :", 2). *)
Fixpoint cut_trailing (s : bytes) : bytes * option bytes :=
  match s with
  | a :: ((b :: r) as s') =>
      if aeqb a " " && aeqb b ":" then ([], Some r)
      else let (x, y) := cut_trailing s' in (a :: x, y)
  | _ => (s, None)
  end.

(** irc.ParseMessage of the external library, from where tags and prefix have
    been read. ToUpper is restricted to ASCII letters. *)
Definition parse_body (tags : list (bytes * bytes)) (p : option prefix) (line : bytes) : option message :=
  let (mid, trailing) := cut_trailing line in
  match split_space mid with
  | [] => None
  | cmd :: params => Some (Message tags p (to_upper cmd) (params ++ match trailing with Some t => [t] | None => [] end))
  end.

Definition parse_source (tags : list (bytes * bytes)) (line : bytes) : option message :=
  match line with
  | c :: r =>
      if aeqb c ":" then
        match cut_on " " r with
        | (src, Some rest) => parse_body tags (Some (ChanView.parse_prefix src)) (Detach.trim_left rest (B " "))
        | (_, None) => None
        end
      else parse_body tags None line
  | [] => None
  end.

(** irc.ParseMessage; [tags_of] is irc.ParseTags. *)
Definition parse_line (tags_of : bytes -> list (bytes * bytes)) (line : bytes) : option message :=
  match trim_eol line with
  | [] => None
  | c :: r =>
      if aeqb c "@" then
        match cut_on " " r with
        | (t, Some rest) => parse_source (tags_of t) (Detach.trim_left rest (B " "))
        | (_, None) => None
        end
      else parse_source [] (c :: r)
  end.

(** ** State *)

Inductive mfilter := FDefault | FNone | FHighlight | FMessage.

(** database/database.go (Channel): what matters here. *)
Record saved := Saved { sv_name : bytes; sv_detached : bool; sv_relay : mfilter; sv_reattach : mfilter; sv_detach : mfilter }.

(** A client: its identifier and its SASL exchange, if one is under way, with
    whether a name and a password have been read (downstream.go:318-324). *)
Record pclient := PClient { pc_id : N; pc_sasl : option bool }.

(** upstream.go:99-103 (pendingUpstreamCommand). *)
Record pcmd := PCmd { pd_client : N; pd_params : list bytes }.

(** upstream.go:188-236 and the parts of network and user in use. *)
Record pst := Pst {
  st_ro : rst;                           (* nick, channels, users, monitored, tables *)
  st_reg : bool;                         (* registered *)
  st_server : prefix;                    (* serverPrefix *)
  st_status : bytes;                     (* availableStatusMsg *)
  st_isup : list (bytes * option bytes); (* isupport *)
  st_motd : bool;                        (* gotMotd *)
  st_timer : bool;                       (* regainNickTimer, regainNickBackoff are set *)
  st_batches : list (bytes * bytes);     (* the label of each batch *)
  st_pend : bytes -> list pcmd;          (* pendingCmds *)
  st_saved : cmmap saved;                (* network.channels *)
  st_clients : list pclient;             (* the clients of the network *)
  st_closed : bool
}.

Definition with_ro s v := Pst v (st_reg s) (st_server s) (st_status s) (st_isup s) (st_motd s) (st_timer s) (st_batches s) (st_pend s) (st_saved s) (st_clients s) (st_closed s).
Definition with_welcome s p := Pst (st_ro s) true p (st_status s) (st_isup s) (st_motd s) (st_timer s) (st_batches s) (st_pend s) (st_saved s) (st_clients s) (st_closed s).
Definition with_status s v := Pst (st_ro s) (st_reg s) (st_server s) v (st_isup s) (st_motd s) (st_timer s) (st_batches s) (st_pend s) (st_saved s) (st_clients s) (st_closed s).
Definition with_isup s v := Pst (st_ro s) (st_reg s) (st_server s) (st_status s) v (st_motd s) (st_timer s) (st_batches s) (st_pend s) (st_saved s) (st_clients s) (st_closed s).
Definition with_motd s v := Pst (st_ro s) (st_reg s) (st_server s) (st_status s) (st_isup s) v (st_timer s) (st_batches s) (st_pend s) (st_saved s) (st_clients s) (st_closed s).
Definition with_timer s v := Pst (st_ro s) (st_reg s) (st_server s) (st_status s) (st_isup s) (st_motd s) v (st_batches s) (st_pend s) (st_saved s) (st_clients s) (st_closed s).
Definition with_batches s v := Pst (st_ro s) (st_reg s) (st_server s) (st_status s) (st_isup s) (st_motd s) (st_timer s) v (st_pend s) (st_saved s) (st_clients s) (st_closed s).
Definition with_pend s v := Pst (st_ro s) (st_reg s) (st_server s) (st_status s) (st_isup s) (st_motd s) (st_timer s) (st_batches s) v (st_saved s) (st_clients s) (st_closed s).
Definition with_saved s v := Pst (st_ro s) (st_reg s) (st_server s) (st_status s) (st_isup s) (st_motd s) (st_timer s) (st_batches s) (st_pend s) v (st_clients s) (st_closed s).
Definition with_clients s v := Pst (st_ro s) (st_reg s) (st_server s) (st_status s) (st_isup s) (st_motd s) (st_timer s) (st_batches s) (st_pend s) (st_saved s) v (st_closed s).
Definition closed s := Pst (st_ro s) (st_reg s) (st_server s) (st_status s) (st_isup s) (st_motd s) (st_timer s) (st_batches s) (st_pend s) (st_saved s) (st_clients s) true.

(** upstream.go:350-380, before and after register (2020-2045) has set the nickname. *)
Definition std_tables : tables :=
  Tables CmRFC1459 Isupport.std_memberships Isupport.std_channel_modes Isupport.std_channel_types None false false.
Definition new_pst (nick : bytes) (sv : cmmap saved) (clients : list pclient) : pst :=
  Pst (new_rst std_tables nick) false (Prefix (B "*") [] []) [] [] false false [] (fun _ => []) sv clients false.

(** What handling a message leads to: an error or not, or a panic. *)
Inductive out := Done (s : pst) (ok : bool) | Panic.

(** Params[i]. *)
Definition at_ (l : list bytes) (i : nat) (k : bytes -> out) : out :=
  match nth_error l i with Some v => k v | None => Panic end.
(** Params[i:]. *)
Definition from_ (l : list bytes) (i : nat) (k : list bytes -> out) : out :=
  if i <=? length l then k (skipn i l) else Panic.
(** irc.go:254-265 (parseMessageParams), with [n] destinations. *)
Definition need (n : nat) (m : message) (s : pst) (k : out) : out :=
  if n <=? length (m_params m) then k else Done s false.

Section Robust.
  Variable tags_of : bytes -> list (bytes * bytes).    (* irc.ParseTags *)
  Variable highlights : bytes -> bytes -> bool.         (* irc.go:262-283, for a nickname that is not empty *)
  Variable fails : pst -> message -> bool.              (* whether a handler without further effects here returns an error *)
  Variable want : bytes.                                (* the nickname the user wants *)

  (** service.go:23-36. *)
  Definition service : bytes := B "BouncerServ".

  (** user.go:200-202 (equalCasemap). *)
  Definition same (s : pst) (a b : bytes) : bool := beqb (casemap (r_cm (st_ro s)) a) (casemap (r_cm (st_ro s)) b).

  (** xirc/casemapping.go:129-136 on the maps of a connection. The order is that
      of the model's lists. *)
  Definition rekey {V} (cm : casemapping) (t : cmmap V) : cmmap V := cm_set_casemapping (map snd (cm_m t)) cm.

  (** user.go:408-424 (updateCasemapping): until the connection is registered
      it is not the network's connection and its maps are left alone. *)
  Definition with_cm (t : tables) (cm : casemapping) : tables :=
    Tables cm (t_avail t) (t_modes t) (t_types t) (t_bot t) (t_away_notify t) (t_account_notify t).
  Definition update_casemapping (cm : casemapping) (s : pst) : pst :=
    let s := with_saved s (rekey cm (st_saved s)) in
    let r := st_ro s in
    with_ro s
      (if st_reg s then
         Rst (with_cm (r_tab r) cm) (r_nick r)
           (cm_update (fun u => with_members u (rekey cm (uh_members u))) (rekey cm (r_chans r)))
           (rekey cm (r_users r)) (rekey cm (r_mon r))
       else Rst (with_cm (r_tab r) cm) (r_nick r) (r_chans r) (r_users r) (r_mon r)).

  (** upstream.go:534-554 (currentPendingCommand, dequeueCommand). *)
  Definition by_id (s : pst) (id : N) : option pclient := find (fun c => N.eqb (pc_id c) id) (st_clients s).
  Definition current (s : pst) (cmd : bytes) : option pcmd := match st_pend s cmd with p :: _ => Some p | [] => None end.
  Definition dequeue (s : pst) (cmd : bytes) : pst :=
    with_pend s (fun c => if beqb c cmd then tl (st_pend s c) else st_pend s c).
  Definition set_client (s : pst) (id : N) (v : option bool) : pst :=
    with_clients s (map (fun c => if N.eqb (pc_id c) id then PClient id v else c) (st_clients s)).

  (** user.go:447-463 (network.isHighlight) and irc.go:262-266: [None] is the panic. *)
  Definition is_highlight (s : pst) (m : message) (p : prefix) : option bool :=
    if negb (beqb (m_command m) (B "PRIVMSG") || beqb (m_command m) (B "NOTICE")) then Some false
    else match nth_error (m_params m) 1 with
         | None => None
         | Some text =>
             if beqb (p_name p) (r_nick (st_ro s)) then Some false
             else match r_nick (st_ro s) with [] => None | n => Some (highlights text n) end
         end.

  (** user.go:354-387 (attach): [None] is the panic of forwardChannel,
      downstream.go:3426-3429. *)
  Definition attach (s : pst) (c : saved) : option pst :=
    if negb (sv_detached c) then Some s
    else
      let s' := with_saved s (cm_set (st_saved s) (sv_name c)
                  (Saved (sv_name c) false (sv_relay c) (sv_reattach c) (sv_detach c))) in
      match st_clients s with
      | [] => Some s'
      | _ =>
          match cm_get (r_chans (st_ro s)) (sv_name c) with
          | Some u => if uh_complete u then Some s' else None
          | None => Some s'
          end
      end.

  (** upstream.go:1857-1869 (handleDetachedMessage) and user.go:464-467. *)
  Definition detached_message (s : pst) (c : saved) (m : message) (p : prefix) : option pst :=
    match is_highlight s m p with
    | None => None
    | Some h =>
        match sv_reattach c with
        | FMessage => attach s c
        | FHighlight => if h then attach s c else Some s
        | _ => Some s
        end
    end.

  Definition tag (m : message) (k : bytes) : option bytes :=
    option_map snd (find (fun kv => beqb (fst kv) k) (m_tags m)).

  (** upstream.go:627-704 (NOTICE, PRIVMSG, TAGMSG). *)
  Definition on_text (s : pst) (m : message) (p : prefix) : out :=
    let tagmsg := beqb (m_command m) (B "TAGMSG") in
    need (if tagmsg then 1 else 2) m s
      (at_ (m_params m) 0 (fun target0 =>
        let target := Detach.trim_left target0 (st_status s) in
        if same s (p_name p) service || same s target service then Done s true
        else if negb (st_reg s) || same s (p_name p) (p_name (st_server s)) || beqb target (B "*") || has_prefix target (B "$")
        then Done s true
        else
          let buffer := if is_our_nick (st_ro s) target then p_name p else target in
          let buffer :=
            match tag m (B "+draft/channel-context") with
            | Some t =>
                match cm_get (r_chans (st_ro s)) t with
                | Some u => if cm_has (uh_members u) (p_name p) then t else buffer
                | None => buffer
                end
            | None => buffer
            end in
          match cm_get (st_saved s) buffer with
          | Some c =>
              if negb tagmsg && negb (is_our_nick (st_ro s) (p_name p)) then
                match (if sv_detached c then detached_message s c m p else Some s) with
                | None => Panic
                | Some s' => match is_highlight s' m p with None => Panic | Some _ => Done s' true end
                end
              else Done s true
          | None => Done s true
          end)).

  (** upstream.go:706-783 (CAP), as far as the flags of the tables go. [more]
      indexes the parameters as written. *)
  Definition cap_known (caps : list bytes) (on : bool) (t : tables) : tables :=
    fold_left (fun t name =>
      let '(name, on) := match name with c :: r => if aeqb c "-" then (r, false) else (name, on) | [] => (name, on) end in
      let name := to_lower name in
      Tables (t_cm t) (t_avail t) (t_modes t) (t_types t) (t_bot t)
        (if beqb name (B "away-notify") then on else t_away_notify t)
        (if beqb name (B "account-notify") then on else t_account_notify t)) caps t.
  Definition with_tab (s : pst) (t : tables) : pst :=
    let r := st_ro s in with_ro s (Rst t (r_nick r) (r_chans r) (r_users r) (r_mon r)).
  Definition on_cap (s : pst) (m : message) : out :=
    need 2 m s
      (at_ (m_params m) 1 (fun sub =>
        from_ (m_params m) 2 (fun subs =>
          let sub := to_upper sub in
          if beqb sub (B "LS") then
            if length subs <? 1 then Done s false
            else at_ subs (length subs - 1) (fun _ =>
              if 2 <=? length subs then at_ (m_params m) (length subs - 2) (fun _ => Done s (negb (fails s m)))
              else Done s (negb (fails s m)))
          else if beqb sub (B "ACK") || beqb sub (B "NAK") then
            if length subs <? 1 then Done s false
            else at_ subs 0 (fun text =>
              Done (with_tab s (cap_known (Caps.fields text) (beqb sub (B "ACK")) (r_tab (st_ro s)))) (negb (fails s m)))
          else if beqb sub (B "NEW") then
            if length subs <? 1 then Done s false else at_ subs 0 (fun _ => Done s true)
          else if beqb sub (B "DEL") then
            if length subs <? 1 then Done s false
            else at_ subs 0 (fun text => Done (with_tab s (cap_known (Caps.fields text) false (r_tab (st_ro s)))) true)
          else Done s true))).

  (** upstream.go:856-888: the end of an authentication; dc.sasl.plain is
      dereferenced. *)
  Definition on_sasl_end (s : pst) (m : message) : out :=
    need 2 m s
      (let s' := dequeue s (B "AUTHENTICATE") in
       match current s (B "AUTHENTICATE") with
       | None => Done s' true
       | Some pd =>
           match by_id s (pd_client pd) with
           | None => Done s' true
           | Some dc =>
               match pc_sasl dc with
               | None => Done s' true
               | Some plain =>
                   if beqb (m_command m) (B "903") && negb plain then Panic
                   else Done (set_client s' (pc_id dc) None) true
               end
           end
       end).

  (** upstream.go:889-905 (REGISTER, VERIFY). *)
  Definition on_register (s : pst) (m : message) : out :=
    let s' := dequeue s (m_command m) in
    match current s (m_command m) with
    | None => Done s' true
    | Some pd =>
        match by_id s (pd_client pd) with
        | None => Done s' true
        | Some _ =>
            if beqb (m_command m) (B "REGISTER") then
              need 2 m s' (if length (pd_params pd) <? 3 then Done s' false else Done s' true)
            else Done s' true
        end
    end.

  (** upstream.go:906-929 (RPL_WELCOME): keys[i] is in range, both lists grow
      together. *)
  Definition on_welcome (s : pst) (m : message) (p : prefix) : out :=
    need 1 m s (at_ (m_params m) 0 (fun nick => Done (with_welcome (with_ro s (with_nick (st_ro s) nick)) p) true)).

  (** upstream.go:1887-1909 (handleMemberships): [None] is an index out of range,
      [Some None] an error. *)
  Fixpoint member_pairs (s : bytes) (sep : nat) (is : list nat) : option (list membership) :=
    match is with
    | [] => Some []
    | i :: is' =>
        match nth_error s (i + 1), nth_error s (sep + i + 1) with
        | Some a, Some b => option_map (cons (Membership a b)) (member_pairs s sep is')
        | _, _ => None
        end
    end.
  Definition memberships (s : bytes) : option (option (list membership)) :=
    match s with
    | [] => Some (Some [])
    | c :: _ =>
        if negb (aeqb c "(") then Some None
        else match Isupport.index_byte ")" s with
             | None => Some None
             | Some sep =>
                 if negb (Nat.eqb (length s) (sep * 2)) then Some None
                 else option_map Some (member_pairs s sep (seq 0 (length s / 2 - 1)))
             end
    end.

  (** upstream.go:953-1017: one token of RPL_ISUPPORT. *)
  Definition on_token (s : pst) (token : bytes) : out :=
    let '(parameter, negate, value, _) := Isupport.split_token token in
    let m := st_isup s in
    let s := with_isup s (match value with
             | Some v => Isupport.im_set m parameter (Some v)
             | None => if negate then Isupport.im_del m parameter else Isupport.im_set m parameter None
             end) in
    let t := r_tab (st_ro s) in
    let v := match value with Some v => v | None => [] end in
    if beqb parameter (B "CASEMAPPING") then
      Done (update_casemapping (match parse_case_mapping v with Some cm => cm | None => CmRFC1459 end) s) true
    else if beqb parameter (B "CHANMODES") then
      match (if negate then Some Isupport.std_channel_modes else Isupport.handle_chan_modes v) with
      | None => Done s false
      | Some ms => Done (with_tab s (Tables (t_cm t) (t_avail t) ms (t_types t) (t_bot t) (t_away_notify t) (t_account_notify t))) true
      end
    else if beqb parameter (B "CHANTYPES") then
      Done (with_tab s (Tables (t_cm t) (t_avail t) (t_modes t) (if negate then Isupport.std_channel_types else v) (t_bot t) (t_away_notify t) (t_account_notify t))) true
    else if beqb parameter (B "STATUSMSG") then Done (with_status s (if negate then [] else v)) true
    else if beqb parameter (B "PREFIX") then
      match (if negate then Some (Some Isupport.std_memberships) else memberships v) with
      | None => Panic
      | Some None => Done s false
      | Some (Some l) => Done (with_tab s (Tables (t_cm t) l (t_modes t) (t_types t) (t_bot t) (t_away_notify t) (t_account_notify t))) true
      end
    else if beqb parameter (B "BOT") then
      Done (with_tab s (Tables (t_cm t) (t_avail t) (t_modes t) (t_types t) value (t_away_notify t) (t_account_notify t))) true
    else Done s true.
  Fixpoint on_tokens (l : list bytes) (s : pst) : out :=
    match l with
    | [] => Done s true
    | t :: l' => match on_token s t with Done s' true => on_tokens l' s' | o => o end
    end.
  (** Params[1 : len(Params)-1]. *)
  Definition on_isupport (s : pst) (m : message) : out :=
    need 2 m s (from_ (m_params m) 1 (fun l => match l with [] => Panic | _ => on_tokens (removelast l) s end)).

  (** upstream.go:1022-1045 and 2329-2336 (startRegainNickTimer). *)
  Definition on_motd (s : pst) (m : message) : out :=
    if st_motd s then Done s true
    else
      let s := with_motd s true in
      let s := match Isupport.im_get (st_isup s) (B "CASEMAPPING") with
               | Some (Some _) => s
               | _ => update_casemapping CmRFC1459 s
               end in
      match Isupport.im_get (st_isup s) (B "MONITOR") with
      | Some _ => Done s true
      | None => if st_timer s then Panic
                else if is_our_nick (st_ro s) want then Done s true
                else Done (with_timer s true) true
      end.

  (** upstream.go:1046-1082 (BATCH). *)
  Fixpoint batch_get (l : list (bytes * bytes)) (k : bytes) : option bytes :=
    match l with [] => None | (k', v) :: l' => if beqb k' k then Some v else batch_get l' k end.
  Definition on_batch (s : pst) (m : message) (label : bytes) : out :=
    need 1 m s (at_ (m_params m) 0 (fun t =>
      match t with
      | c :: t' =>
          if aeqb c "+" then
            match batch_get (st_batches s) t' with
            | Some _ => Done s false
            | None => need 2 m s (from_ (m_params m) 2 (fun _ => Done (with_batches s ((t', label) :: st_batches s)) true))
            end
          else if aeqb c "-" then
            match batch_get (st_batches s) t' with
            | None => Done s false
            | Some _ => Done (with_batches s (filter (fun kv => negb (beqb (fst kv) t')) (st_batches s))) true
            end
          else Done s false
      | [] => Done s false
      end)).

  (** upstream.go:1525-1551 (RPL_WHOREPLY). *)
  Definition cached (s : pst) (nick : bytes) (info : uuser) : out :=
    if should_cache (st_ro s) nick then
      match cache_user nick info (st_ro s) with Some r => Done (with_ro s r) true | None => Panic end
    else Done s true.
  (** irc.go:226-240 (stripMemberPrefixes) is left out: the flags stay as they are. *)
  Definition on_who (s : pst) (m : message) : out :=
    need 8 m s
      (match current s (B "WHO") with
       | None => Done s false
       | Some pd =>
           match by_id s (pd_client pd) with
           | None => Done s true
           | Some _ =>
               match m_params m with
               | _ :: _ :: user :: host :: server :: nick :: flags :: trailing :: _ =>
                   match cut_on " " trailing with
                   | (_, Some real) => cached s nick (UUser nick user host server flags [] real)
                   | (_, None) => Done s false
                   end
               | _ => Panic
               end
           end
       end).
  (** upstream.go:1552-1585 (RPL_WHOSPCRPL). *)
  Definition on_whox (s : pst) (m : message) : out :=
    match current s (B "WHO") with
    | None => Done s false
    | Some pd =>
        match by_id s (pd_client pd) with
        | None => Done s true
        | Some _ =>
            if 1 <? length (pd_params pd) then
              at_ (pd_params pd) 1 (fun options =>
                let fields := fst (parse_whox_options options) in
                if negb (amem "n" fields) then Done s true
                else match parse_whox_reply m fields with
                     | None => Done s false
                     | Some i => cached s (w_nickname i) (UUser (w_nickname i) (w_username i) (w_hostname i) (w_server i) (w_flags i) (w_account i) (w_realname i))
                     end)
            else Done s true
        end
    end.

  (** upstream.go:1466-1476, 1586-1604, 1617-1628: the first of the pending commands
      is read, or taken off. *)
  Definition on_reply (s : pst) (cmd : bytes) : out := Done s (match current s cmd with Some _ => true | None => false end).
  Definition on_reply_end (s : pst) (cmd : bytes) (strict : bool) : out :=
    Done (dequeue s cmd) (match current s cmd with Some _ => true | None => negb strict end).

  (** upstream.go:1743-1763 (ERR_NOSUCHNICK, ERR_NOSUCHSERVER): the last
      parameter of the pending WHOIS. *)
  Definition on_no_such (s : pst) (m : message) : out :=
    need 3 m s (at_ (m_params m) 1 (fun nick =>
      match current s (B "WHOIS") with
      | None => Done s true
      | Some pd =>
          match pd_params pd with
          | [] => Panic
          | l => if same s (last l []) nick then Done (dequeue s (B "WHOIS")) true else Done s true
          end
      end)).

  (** upstream.go:1764-1799: an error for a command. *)
  Definition on_failed (s : pst) (m : message) (i : nat) : out :=
    need (i + 2) m s (at_ (m_params m) i (fun cmd => Done (dequeue s cmd) true)).

  (** upstream.go:1826-1850 (ERR_NICKNAMEINUSE). *)
  Definition on_nick_in_use (s : pst) (m : message) : out :=
    if negb (st_reg s) && (length (r_nick (st_ro s)) + 1 <? 30) then
      Done (with_ro s (with_nick (st_ro s) (r_nick (st_ro s) ++ B "_"))) true
    else need 2 m s (if fails s m then Done s true else Done s (st_reg s)).

  Definition is_one_of (c : bytes) (l : list string) : bool := bmem c (map B l).

  (** The commands handled by Model.Roster. *)
  Definition roster_commands : list string :=
    ["NICK"; "SETNAME"; "CHGHOST"; "JOIN"; "PART"; "KICK"; "QUIT"; "MODE"; "324"; "353"; "366"; "730"; "731"; "AWAY"; "ACCOUNT"]%string.

  (** upstream.go:622-1855: the cases. Those that only check the number of
      parameters, record texts or forward the message are together at the end. *)
  Definition cases (s : pst) (m : message) (p : prefix) (label : bytes) : out :=
    let c := m_command m in
    if is_one_of c ["NOTICE"; "PRIVMSG"; "TAGMSG"]%string then on_text s m p
    else if beqb c (B "CAP") then on_cap s m
    else if is_one_of c ["902"; "903"; "904"; "905"; "906"]%string then on_sasl_end s m
    else if is_one_of c ["REGISTER"; "VERIFY"]%string then on_register s m
    else if beqb c (B "001") then on_welcome s m p
    else if beqb c (B "005") then on_isupport s m
    else if is_one_of c ["376"; "422"]%string then on_motd s m
    else if beqb c (B "BATCH") then on_batch s m label
    else if is_one_of c roster_commands then
      match handle m p (st_ro s) with None => Panic | Some (r, ok) => Done (with_ro s r) ok end
    else if beqb c (B "352") then on_who s m
    else if beqb c (B "354") then on_whox s m
    else if beqb c (B "315") then on_reply_end s (B "WHO") false
    else if is_one_of c ["321"; "322"]%string then on_reply s (B "LIST")
    else if beqb c (B "323") then on_reply_end s (B "LIST") true
    else if is_one_of c ["276"; "307"; "311"; "312"; "319"; "313"; "317"; "320"; "330"; "338"; "378"; "379"; "671"]%string then on_reply s (B "WHOIS")
    else if beqb c (B "318") then on_reply_end s (B "WHOIS") true
    else if is_one_of c ["401"; "402"]%string then on_no_such s m
    else if is_one_of c ["400"; "421"; "461"; "263"]%string then on_failed s m 1
    else if beqb c (B "FAIL") then on_failed s m 0
    else if beqb c (B "433") then on_nick_in_use s m
    else Done s (negb (fails s m)).

  (** upstream.go:583-622: labels, batches and the source. *)
  Definition source (s : pst) (m : message) : prefix := match m_prefix m with Some p => p | None => st_server s end.
  Definition handle_message (s : pst) (m : message) : out :=
    let label := match tag m (B "label") with Some l => l | None => [] end in
    match (match tag m (B "batch") with
           | None => Some label
           | Some b =>
               match batch_get (st_batches s) b with
               | None => None
               | Some l => Some (match label with [] => l | _ => label end)
               end
           end) with
    | None => Done s false
    | Some label =>
        match Pending.parse_label label with
        | None => Done s false
        | Some _ => cases s m (source s m) label
        end
    end.

  (** downstream.go:2309-2318, 2381-2386: WHOIS is passed on to the server as it came. *)
  Definition whois_params (params : list bytes) : option (list bytes) :=
    match params with [] => None | _ => Some params end.
  (** upstream.go:510-532 (enqueueCommand): [late] when the first command has
      waited for too long; copy leaves the last one where it was. *)
  Definition enqueue (s : pst) (cmd : bytes) (id : N) (params : list bytes) (late : bool) : pst :=
    with_pend s (fun c =>
      if beqb c cmd then
        let q := st_pend s c ++ [PCmd id params] in
        if late then tl q ++ [PCmd id params] else q
      else st_pend s c).

  (** Clients reach the connection only once it is registered
      (user.go:641-644). *)
  Definition asked (s : pst) (cmd : bytes) (id : N) (params : list bytes) (late : bool) : pst :=
    if st_reg s then enqueue s cmd id params late else s.

  (** What happens to a connection: a line from the server; WHOIS from a client;
      another command of a client that waits for an answer; clients come, go and
      authenticate; saved channels change; names are no longer monitored; the timer
      is stopped (upstream.go:1099-1102, user.go:891-893). *)
  Inductive pevent :=
  | ELine (line : bytes)
  | EWhois (id : N) (params : list bytes) (late : bool)
  | EQuery (cmd : bytes) (id : N) (params : list bytes) (late : bool)
  | EClients (l : list pclient)
  | ESaved (t : cmmap saved)
  | EUnmonitor (l : list bytes)
  | EStopTimer.

  (** How the program is after an event. *)
  Inductive life := Alive (s : pst) | UserStopped | ProcessDown.

  (** user.go:253-275 (runConn) and 2056-2071: until registration the message is
      handled by a goroutine nobody recovers from a panic, and an error ends the
      connection; afterwards by the user's goroutine, whose panics are caught at
      server.go:443-447 and whose errors are logged (user.go:690-699). *)
  Definition on_line (s : pst) (line : bytes) : life :=
    if st_closed s then Alive s
    else match parse_line tags_of line with
         | None => Alive (closed s)
         | Some m =>
             match handle_message s m with
             | Panic => if st_reg s then UserStopped else ProcessDown
             | Done s' ok => Alive (if ok || st_reg s then s' else closed s')
             end
         end.

  Definition step (s : pst) (e : pevent) : life :=
    match e with
    | ELine line => on_line s line
    | EWhois id params late =>
        Alive (match whois_params params with Some l => asked s (B "WHOIS") id l late | None => s end)
    | EQuery cmd id params late =>
        Alive (if is_one_of cmd ["LIST"; "WHO"; "AUTHENTICATE"; "REGISTER"; "VERIFY"]%string then asked s cmd id params late else s)
    | EClients l => Alive (with_clients s l)
    | ESaved t => Alive (with_saved s t)
    | EUnmonitor l => Alive (with_ro s (fold_left (fun s x => forget (with_mon s (cm_del (r_mon s) x)) x) l (st_ro s)))
    | EStopTimer => Alive (with_timer s false)
    end.

  Fixpoint run (s : pst) (l : list pevent) : life :=
    match l with
    | [] => Alive s
    | e :: l' => match step s e with Alive s' => run s' l' | o => o end
    end.
End Robust.
