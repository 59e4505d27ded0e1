(** RPL_ISUPPORT: what the server announces, and what clients are told
    (upstream.go:947-1026, 1027-1046, 1871-1910; downstream.go:258-297,
    1475-1535). *)
From Verif.Base Require Import Bytes.
From Verif.Model Require Import Message CaseMap Membership Modes GenMsg.
From Coq Require Import NArith.

(** Go's map[string]*string: a nil value is a parameter without value. *)
Definition imap := list (bytes * option bytes).

Fixpoint im_get (m : imap) (k : bytes) : option (option bytes) :=
  match m with [] => None | (k', v) :: m => if beqb k k' then Some v else im_get m k end.

Fixpoint im_del (m : imap) (k : bytes) : imap :=
  match m with [] => [] | (k', v) :: m => if beqb k k' then im_del m k else (k', v) :: im_del m k end.

Definition im_set (m : imap) (k : bytes) (v : option bytes) : imap := (k, v) :: im_del m k.

(** irc.go:70-81. *)
Definition std_channel_modes : list (ascii * mode_type) :=
  [("b"%char, ModeA); ("e"%char, ModeA); ("I"%char, ModeA); ("k"%char, ModeB); ("l"%char, ModeC);
   ("i"%char, ModeD); ("m"%char, ModeD); ("n"%char, ModeD); ("s"%char, ModeD); ("t"%char, ModeD)].

(** irc.go:173. *)
Definition std_channel_types : bytes := B "#&+!".

(** irc.go:175-181. *)
Definition std_memberships : list membership :=
  [Membership "q" "~"; Membership "a" "&"; Membership "o" "@"; Membership "h" "%"; Membership "v" "+"].

(** The fields of upstreamConn and network concerned (upstream.go:200-230,
    user.go:160): [u_rate] is conn.rateLimit. *)
Record ust := Ust {
  u_isupport : imap; u_cm : casemapping; u_modes : list (ascii * mode_type); u_types : bytes; u_status : bytes;
  u_members : list membership; u_rate : bool; u_motd : bool }.

(** upstream.go:354-373, conn.go:137: a new connection. The case mapping belongs
    to the network and is the one of the last connection. *)
Definition new_ust (cm : casemapping) : ust :=
  Ust [] cm std_channel_modes std_channel_types [] std_memberships true false.

(** upstream.go:1871-1886 (handleChanModes); None is the error. SplitN with 5
    leaves the first four parts as Split does. *)
Definition add_modes (t : mode_type) (l : bytes) (m : list (ascii * mode_type)) : list (ascii * mode_type) :=
  fold_left (fun m c => al_set m c t) l m.

Definition handle_chan_modes (s : bytes) : option (list (ascii * mode_type)) :=
  match split_on "," s with
  | a :: b :: c :: d :: _ => Some (add_modes ModeD d (add_modes ModeC c (add_modes ModeB b (add_modes ModeA a []))))
  | _ => None
  end.

(** strings.IndexByte. *)
Fixpoint index_byte (c : ascii) (s : bytes) : option nat :=
  match s with [] => None | x :: s => if aeqb x c then Some 0 else option_map S (index_byte c s) end.

(** upstream.go:1888-1910 (handleMemberships); None is the error. *)
Definition handle_memberships (s : bytes) : option (list membership) :=
  match s with
  | [] => Some []
  | c :: _ =>
    if negb (aeqb c "(") then None
    else match index_byte ")" s with
         | None => None
         | Some sep =>
           if negb (Nat.eqb (length s) (sep * 2)) then None
           else Some (map (fun i => Membership (nth (i + 1) s "000"%char) (nth (sep + i + 1) s "000"%char)) (seq 0 (length s / 2 - 1)))
         end
  end.

(** downstream.go:264-297. *)
Definition passthrough : list bytes :=
  map B ["ACCOUNTEXTBAN"; "AWAYLEN"; "BOT"; "CASEMAPPING"; "CHANLIMIT"; "CHANMODES"; "CHANNELLEN"; "CHANTYPES"; "CLIENTTAGDENY";
         "ELIST"; "EXCEPTS"; "EXTBAN"; "HOSTLEN"; "INVEX"; "KICKLEN"; "LINELEN"; "MAXLIST"; "MAXTARGETS"; "MODES"; "MONITOR";
         "NAMELEN"; "NETWORK"; "NICKLEN"; "PREFIX"; "SAFELIST"; "STATUSMSG"; "TARGMAX"; "TOPICLEN"; "USERLEN"; "UTF8ONLY"; "WHOX"]%string.

Definition with_isupport v s := Ust v (u_cm s) (u_modes s) (u_types s) (u_status s) (u_members s) (u_rate s) (u_motd s).
Definition with_cm v s := Ust (u_isupport s) v (u_modes s) (u_types s) (u_status s) (u_members s) (u_rate s) (u_motd s).
Definition with_modes v s := Ust (u_isupport s) (u_cm s) v (u_types s) (u_status s) (u_members s) (u_rate s) (u_motd s).
Definition with_types v s := Ust (u_isupport s) (u_cm s) (u_modes s) v (u_status s) (u_members s) (u_rate s) (u_motd s).
Definition with_status v s := Ust (u_isupport s) (u_cm s) (u_modes s) (u_types s) v (u_members s) (u_rate s) (u_motd s).
Definition with_members v s := Ust (u_isupport s) (u_cm s) (u_modes s) (u_types s) (u_status s) v (u_rate s) (u_motd s).
Definition with_rate v s := Ust (u_isupport s) (u_cm s) (u_modes s) (u_types s) (u_status s) (u_members s) v (u_motd s).
Definition with_motd v s := Ust (u_isupport s) (u_cm s) (u_modes s) (u_types s) (u_status s) (u_members s) (u_rate s) v.

(** upstream.go:954-965: the parameter, whether it is negated, its value, and
    the token that is left. Note that the parameter keeps the "-". ToUpper is
    restricted to ASCII letters. *)
Definition split_token (token : bytes) : bytes * bool * option bytes * bytes :=
  match token with
  | c :: rest =>
    if aeqb c "-" then (to_upper token, true, None, rest)
    else match cut_on "=" token with
         | (name, Some value) => (to_upper name, false, Some value, token)
         | (name, None) => (to_upper name, false, None, token)
         end
  | [] => ([], false, None, [])
  end.

(** upstream.go:976-1012. *)
Definition apply_param (parameter : bytes) (negate : bool) (value : bytes) (s : ust) : option ust :=
  if beqb parameter (B "CASEMAPPING") then
    Some (with_cm (match parse_case_mapping value with Some cm => cm | None => CmRFC1459 end) s)
  else if beqb parameter (B "CHANMODES") then
    if negate then Some (with_modes std_channel_modes s)
    else match handle_chan_modes value with None => None | Some m => Some (with_modes m s) end
  else if beqb parameter (B "CHANTYPES") then Some (with_types (if negate then std_channel_types else value) s)
  else if beqb parameter (B "STATUSMSG") then Some (with_status (if negate then [] else value) s)
  else if beqb parameter (B "PREFIX") then
    if negate then Some (with_members std_memberships s)
    else match handle_memberships value with None => None | Some m => Some (with_members m s) end
  else if beqb parameter (B "SOJU.IM/SAFERATE") then Some (with_rate negate s)
  else Some s.

(** upstream.go:953-1017: one token; the tokens passed on to clients. *)
Definition on_token (token : bytes) (s : ust) : option (ust * list bytes) :=
  let '(parameter, negate, value, passed) := split_token token in
  let m := u_isupport s in
  let m := match value with
           | Some v => im_set m parameter (Some v)
           | None => if negate then im_del m parameter else im_set m parameter None
           end in
  match apply_param parameter negate (match value with Some v => v | None => [] end) (with_isupport m s) with
  | None => None
  | Some s' => Some (s', if bmem parameter passthrough then [passed] else [])
  end.

Fixpoint on_tokens (l : list bytes) (s : ust) : option (ust * list bytes) :=
  match l with
  | [] => Some (s, [])
  | t :: l =>
    match on_token t s with
    | None => None
    | Some (s, out) => match on_tokens l s with None => None | Some (s, out') => Some (s, out ++ out') end
    end
  end.

(** msg.Params[1 : len(msg.Params)-1]. *)
Definition middle (params : list bytes) : list bytes := removelast (tl params).

Inductive event := Isupport (params : list bytes) | EndOfMotd.

(** upstream.go:947-1026 and 1027-1046: the new state and what every client of
    the network is sent; None is an error, which closes the connection. The
    effect of updateMonitor is not modelled here. *)
Definition on_event (e : event) (s : ust) : option (ust * list message) :=
  match e with
  | Isupport params =>
    if Nat.ltb (length params) 2 then None
    else match on_tokens (middle params) s with
         | None => None
         | Some (s', out) => Some (s', generate_isupport out)
         end
  | EndOfMotd =>
    if u_motd s then Some (s, [])
    else let s := with_motd true s in
         Some (match im_get (u_isupport s) (B "CASEMAPPING") with
               | Some (Some _) => s
               | _ => with_cm CmRFC1459 s
               end, [])
  end.

Fixpoint on_events (l : list event) (s : ust) : option (ust * list message) :=
  match l with
  | [] => Some (s, [])
  | e :: l =>
    match on_event e s with
    | None => None
    | Some (s, out) => match on_events l s with None => None | Some (s, out') => Some (s, out ++ out') end
    end
  end.

(** ** The welcome of a client *)

(** What else the tokens depend on: the network's id if the client has one, the
    server's title, whether history is available, the VAPID key if push is
    enabled, the file host if uploads are. *)
Record welcome_conf := WelcomeConf {
  w_netid : option N; w_title : bytes; w_history : bool; w_vapid : option bytes; w_filehost : option bytes }.

(** downstream.go:1475-1499. *)
Definition own_tokens (c : welcome_conf) : list bytes :=
  let bound := match w_netid c with Some _ => true | None => false end in
  [B "soju.im/SAFERATE"]
  ++ match w_netid c with Some id => [B "BOUNCER_NETID=" ++ dec id] | None => [B "BOT=B"; B "CASEMAPPING=ascii"] end
  ++ (if negb bound && negb (beqb (w_title c) []) then [B "NETWORK=" ++ w_title c] else [])
  ++ (if bound then [] else [B "WHOX"; B "CHANTYPES="; B "LINELEN=4096"])
  ++ (if w_history c && bound then [B "CHATHISTORY=1000"; B "MSGREFTYPES=timestamp"] else [])
  ++ match w_vapid c with Some k => [B "VAPID=" ++ k] | None => [] end
  ++ match w_filehost c with Some h => [B "soju.im/FILEHOST=" ++ h] | None => [] end.

(** downstream.go:1501-1518. [order] is the order in which Go ranges over
    passthroughIsupport; [tags]: message-tags is enabled. *)
Definition passed_tokens (order : list bytes) (tags : bool) (s : ust) : list bytes :=
  (match im_get (u_isupport s) (B "CLIENTTAGDENY") with None => if tags then [] else [B "CLIENTTAGDENY=*"] | Some _ => [] end)
  ++ flat_map (fun k => match im_get (u_isupport s) k with
                        | None => []
                        | Some (Some v) => [k ++ B "=" ++ v]
                        | Some None => [k]
                        end) order.

(** downstream.go:1475-1535: the RPL_ISUPPORT lines of the welcome; [up] is the
    state of the server's connection, if any. *)
Definition welcome_isupport (c : welcome_conf) (order : list bytes) (up : option (ust * bool)) : list message :=
  generate_isupport (own_tokens c ++ match up with Some (s, tags) => passed_tokens order tags s | None => [] end).
