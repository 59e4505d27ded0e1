(** Model of what concerns the nickname of the bouncer service: where texts go, both
    ways, and how the user gets nicknames.

    Simplifications: what the service does with a command is not part of it, except
    for changes of nicknames, which are events; detached channels, logs and
    notifications are in Model/Detach.v; the database works; which capabilities
    clients have is left out, except for echo-message, as are the tags bouncer and
    server add; a network is never deleted. *)
From Verif.Base Require Import Bytes.
From Verif.Model Require Import Message CaseMap ReadMarker Username.
From Coq Require Import NArith.
Open Scope nat_scope.

(** A network: the nickname of the record, and of the connection there are uc.nick,
    the name of the server, ISUPPORT STATUSMSG and whether echo-message is enabled. *)
Record slink := SLink { sl_nick : bytes; sl_server : bytes; sl_status : bytes; sl_echo : bool }.
Record snet := SNet { sn_cm : casemapping; sn_nick : bytes; sn_link : option slink }.
(** A connection of a client: the number of its network, dc.nick and whether
    echo-message is enabled. dc.casemap is that of the network or ASCII
    (downstream.go:1241-1250). *)
Record scl := SCl { sc_id : N; sc_net : option nat; sc_nick : bytes; sc_echo : bool }.
(** The user, and the name of the bouncer. *)
Record sst := SSt { ss_name : bytes; ss_nick : bytes; ss_admin : bool; ss_host : bytes; ss_nets : list snet; ss_clients : list scl }.

Inductive sout :=
| SServer (n : nat) (m : message) (* to the server of a network *)
| SClient (c : N) (m : message)   (* to a client *)
| SRun (c : N) (text : bytes)     (* a command for the service *)
| SBroadcast (m : message).       (* to all clients of all users *)

Definition with_nets (s : sst) l := SSt (ss_name s) (ss_nick s) (ss_admin s) (ss_host s) l (ss_clients s).
Definition with_clients (s : sst) l := SSt (ss_name s) (ss_nick s) (ss_admin s) (ss_host s) (ss_nets s) l.
Fixpoint put_net (n : nat) (x : snet) (l : list snet) : list snet :=
  match l, n with
  | _ :: l, 0 => x :: l
  | y :: l, S n => y :: put_net n x l
  | [], _ => []
  end.
Definition set_net (s : sst) (n : nat) (x : snet) : sst := with_nets s (put_net n x (ss_nets s)).
Definition link_of (s : sst) (n : nat) : option slink := match nth_error (ss_nets s) n with Some x => sn_link x | None => None end.

(** database/database.go:207-215. *)
Definition get_nick (s : sst) (net : option snet) : bytes :=
  let own := match ss_nick s with [] => ss_name s | n => n end in
  match net with
  | Some x => match sn_nick x with [] => own | n => n end
  | None => own
  end.
Definition net_of (s : sst) (x : scl) : option snet := match sc_net x with Some n => nth_error (ss_nets s) n | None => None end.
Definition link_for (s : sst) (x : scl) : option slink := match net_of s x with Some n => sn_link n | None => None end.

(** downstream.go:1241-1250. *)
Definition cl_cm (s : sst) (x : scl) : casemapping := match net_of s x with Some n => sn_cm n | None => CmASCII end.

(** downstream.go:1137-1159. *)
Definition new_nick (s : sst) (x : scl) : bytes :=
  match link_for s x with
  | Some l => sl_nick l
  | None => get_nick s (net_of s x)
  end.
Definition user_prefix (nick : bytes) : prefix := Prefix nick [] [].
Definition update_nick (s : sst) (x : scl) : scl * list sout :=
  let nick := new_nick s x in
  if beqb nick (sc_nick x) then (x, [])
  else (SCl (sc_id x) (sc_net x) nick (sc_echo x), [SClient (sc_id x) (Message [] (Some (user_prefix (sc_nick x))) (B "NICK") [nick])]).
(** ... for the clients chosen. *)
Definition update_nicks (s : sst) (f : scl -> bool) : sst * list sout :=
  (with_clients s (map (fun x => if f x then fst (update_nick s x) else x) (ss_clients s)),
   flat_map (fun x => if f x then snd (update_nick s x) else []) (ss_clients s)).
Definition on_net (n : nat) (x : scl) : bool := match sc_net x with Some k => Nat.eqb k n | None => false end.
Definition unbound (x : scl) : bool := match sc_net x with Some _ => false | None => true end.

(** downstream.go:214: illegalNickChars. *)
Definition bad_nick (nick : bytes) : bool := beqb nick [] || existsb (fun c => amem c nick) (B " :@!*?$,.").

Definition reply (x : scl) (command : bytes) (params : list bytes) : sout := SClient (sc_id x) (msg command (sc_nick x :: params)).

(** downstream.go:1801-1855. *)
Definition cmd_nick (s : sst) (x : scl) (params : list bytes) : sst * list sout :=
  match params with
  | [] => (s, [reply x (B "461") [B "NICK"; B "Not enough parameters"]])
  | nick :: _ =>
      if bad_nick nick then (s, [reply x (B "432") [nick; B "Nickname contains illegal characters"]])
      else if beqb (casemap (cl_cm s x) nick) service_cm then (s, [reply x (B "433") [nick; B "Nickname reserved for bouncer service"]])
      else match sc_net x with
      | Some n =>
          match nth_error (ss_nets s) n with
          | Some net =>
              let s1 := set_net s n (SNet (sn_cm net) nick (sn_link net)) in
              match sn_link net with
              | Some _ => (s1, [SServer n (msg (B "NICK") [nick])])
              | None => update_nicks s1 (fun y => N.eqb (sc_id y) (sc_id x))
              end
          | None => (s, [])
          end
      | None =>
          (* updateUser, user.go:1192-1223 *)
          let s1 := SSt (ss_name s) nick (ss_admin s) (ss_host s) (ss_nets s) (ss_clients s) in
          let asks := if beqb nick (ss_nick s) then [] else
            flat_map (fun n => match nth_error (ss_nets s) n with
                               | Some net => match sn_link net, sn_nick net with Some _, [] => [SServer n (msg (B "NICK") [get_nick s1 (Some net)])] | _, _ => [] end
                               | None => [] end) (seq 0 (length (ss_nets s))) in
          let '(s2, o) := update_nicks s1 unbound in (s2, asks ++ o)
      end
  end.

(** The service: [user update -nick], service.go:1058-1190, by updateUser; the
    nicknames of clients are not updated. *)
Definition user_nick (s : sst) (nick : bytes) : sst * list sout :=
  let s1 := SSt (ss_name s) nick (ss_admin s) (ss_host s) (ss_nets s) (ss_clients s) in
  (s1, if beqb nick (ss_nick s) then [] else
         flat_map (fun n => match nth_error (ss_nets s) n with
                            | Some net => match sn_link net, sn_nick net with Some _, [] => [SServer n (msg (B "NICK") [get_nick s1 (Some net)])] | _, _ => [] end
                            | None => [] end) (seq 0 (length (ss_nets s)))).
(** [network update -nick] (service.go:556-558, user.go:1087-1165), which connects
    anew, and [network create -nick]. *)
Definition network_nick (s : sst) (n : nat) (nick : bytes) : sst :=
  match nth_error (ss_nets s) n with
  | Some net => set_net s n (SNet CmRFC1459 (if beqb nick (ss_nick s) then [] else nick) None)
  | None => s
  end.

(** upstream.go:2183-2204, for a channel that is not detached. *)
Definition produce (s : sst) (n : nat) (link : slink) (cm : casemapping) (m : message) (origin : N) : list sout :=
  let own := match m_prefix m with Some p => beqb (casemap cm (sl_nick link)) (casemap cm (p_name p)) | None => false end in
  flat_map (fun y => if on_net n y && (negb (N.eqb (sc_id y) origin && own) || sc_echo y) then [SClient (sc_id y) m] else []) (ss_clients s).

(** downstream.go:2387-2520: PRIVMSG, NOTICE and TAGMSG. Each target, until there is
    an error; [text] is empty for TAGMSG, and otherwise has the text. *)
Definition service_prefix : prefix := Prefix (B "BouncerServ") (B "BouncerServ") (B "BouncerServ").
Fixpoint send_text (s : sst) (x : scl) (tags : list (bytes * bytes)) (cmd : bytes) (text : list bytes) (names : list bytes) : list sout :=
  match names with
  | [] => []
  | name :: r =>
      if beqb name ("$"%char :: ss_host s) || (beqb name (B "$*") && unbound x) then
        if ss_admin s then SBroadcast (Message tags (Some service_prefix) cmd (name :: text)) :: send_text s x tags cmd text r
        else [reply x (B "415") [name; B "Permission denied to broadcast message to all bouncer users"]]
      else if unbound x && beqb (casemap (cl_cm s x) name) (casemap (cl_cm s x) (sc_nick x)) then
        SClient (sc_id x) (Message tags (Some (user_prefix (sc_nick x))) cmd (name :: text)) :: send_text s x tags cmd text r
      else if beqb (casemap (cl_cm s x) name) service_cm then
        (if sc_echo x then [SClient (sc_id x) (Message tags (Some (user_prefix (sc_nick x))) cmd (name :: text))] else []) ++
        (if beqb cmd (B "PRIVMSG") then map (SRun (sc_id x)) text else []) ++ send_text s x tags cmd text r
      else match sc_net x, net_of s x with
      | Some n, Some net =>
          match sn_link net with
          | Some l =>
              SServer n (Message tags None cmd (name :: text)) ::
              (if sl_echo l then [] else produce s n l (sn_cm net) (Message tags (Some (user_prefix (sl_nick l))) cmd (name :: text)) (sc_id x)) ++
              send_text s x tags cmd text r
          | None => [reply x (B "400") [cmd; B "Disconnected from upstream network"]]
          end
      | _, _ => [reply x (B "400") [cmd; B "Cannot interact with channels and users on the bouncer connection. Did you mean to use a specific network?"]]
      end
  end.
Definition is_text (cmd : bytes) : bool := beqb cmd (B "PRIVMSG") || beqb cmd (B "NOTICE") || beqb cmd (B "TAGMSG").
Definition client_tags (m : message) : list (bytes * bytes) := filter (fun t => has_prefix (fst t) (B "+")) (m_tags m).
Definition cmd_text (s : sst) (x : scl) (m : message) : list sout :=
  match m_params m with
  | targets :: r =>
      if beqb (m_command m) (B "TAGMSG") then send_text s x (client_tags m) (m_command m) [] (split_on "," targets)
      else match r with
      | text :: _ => send_text s x (client_tags m) (m_command m) [text] (split_on "," targets)
      | [] => [reply x (B "461") [m_command m; B "Not enough parameters"]]
      end
  | [] => [reply x (B "461") [m_command m; B "Not enough parameters"]]
  end.

(** downstream.go:2180-2307 (WHO), without the answers from what is known of the
    members of channels (Model/Roster.v): [None] is the answer about the user or the
    service. *)
Definition cmd_who (s : sst) (x : scl) (params : list bytes) : list sout :=
  match params with
  | [] => [SClient (sc_id x) (msg (B "315") [B "*"; B "*"; B "End of /WHO list"])]
  | mask :: _ =>
      let done := SClient (sc_id x) (msg (B "315") [B "*"; mask; B "End of /WHO list"]) in
      if unbound x && beqb (casemap (cl_cm s x) mask) (casemap (cl_cm s x) (sc_nick x)) then [reply x (B "352") [sc_nick x]; done]
      else if beqb (casemap (cl_cm s x) mask) service_cm then [reply x (B "352") [B "BouncerServ"]; done]
      else match sc_net x, link_for s x with
      | None, _ => [done]
      | Some n, Some _ => [SServer n (msg (B "WHO") params)]
      | Some _, None => [reply x (B "400") [B "WHO"; B "Disconnected from upstream network"]]
      end
  end.
(** downstream.go:2308-2386 (WHOIS); the mask is the last of at most two
    parameters. *)
Definition whois_mask (params : list bytes) : option bytes := match params with [] => None | [m] => Some m | _ :: m :: _ => Some m end.
Definition cmd_whois (s : sst) (x : scl) (params : list bytes) : list sout :=
  match whois_mask params with
  | None => [reply x (B "431") [B "No nickname given"]]
  | Some mask0 =>
      let mask := fst (cut_on "," mask0) in
      if unbound x && beqb (casemap (cl_cm s x) mask) (casemap (cl_cm s x) (sc_nick x)) then [reply x (B "311") [sc_nick x]; reply x (B "318") [sc_nick x; B "End of /WHOIS list"]]
      else if beqb (casemap (cl_cm s x) mask) service_cm then [reply x (B "311") [B "BouncerServ"]; reply x (B "318") [B "BouncerServ"; B "End of /WHOIS list"]]
      else match sc_net x, link_for s x with
      | Some n, Some _ => [SServer n (msg (B "WHOIS") params)]
      | _, _ => [reply x (B "400") [B "WHOIS"; B "Disconnected from upstream network"]]
      end
  end.
(** downstream.go:2521-2527 (INVITE). *)
Definition cmd_invite (s : sst) (x : scl) (m : message) : list sout :=
  match sc_net x, link_for s x with
  | Some n, Some _ => [SServer n m]
  | _, _ => [reply x (B "400") [B "INVITE"; B "Disconnected from upstream network"]]
  end.

(** upstream.go:634-704: a text of the server; [origin] is from its label. *)
Fixpoint trim_left (s cut : bytes) : bytes :=
  match s with c :: s' => if amem c cut then trim_left s' cut else s | [] => [] end.
Definition server_text (s : sst) (n : nat) (net : snet) (l : slink) (m : message) (origin : N) : list sout :=
  match m_params m with
  | target0 :: r =>
      if negb (beqb (m_command m) (B "TAGMSG")) && (match r with [] => true | _ => false end) then []
      else
        let from := match m_prefix m with Some p => p_name p | None => sl_server l end in
        let m := Message (m_tags m) (Some (match m_prefix m with Some p => p | None => Prefix (sl_server l) [] [] end)) (m_command m) (m_params m) in
        let target := trim_left target0 (sl_status l) in
        let same a b := beqb (casemap (sn_cm net) a) (casemap (sn_cm net) b) in
        if same from (B "BouncerServ") then []
        else if same target (B "BouncerServ") then []
        else if same from (sl_server l) || beqb target (B "*") || has_prefix target (B "$") then produce s n l (sn_cm net) m 0
        else produce s n l (sn_cm net) m origin
  | [] => []
  end.
(** upstream.go:1083-1125: NICK. *)
Definition server_nick (s : sst) (n : nat) (net : snet) (l : slink) (m : message) : sst * list sout :=
  match m_params m with
  | nick :: _ =>
      let from := match m_prefix m with Some p => p_name p | None => sl_server l end in
      if beqb (casemap (sn_cm net) (sl_nick l)) (casemap (sn_cm net) from) then
        update_nicks (set_net s n (SNet (sn_cm net) (sn_nick net) (Some (SLink nick (sl_server l) (sl_status l) (sl_echo l))))) (on_net n)
      else (s, flat_map (fun y => if on_net n y then [SClient (sc_id y) m] else []) (ss_clients s))
  | [] => (s, [])
  end.

Inductive sev :=
| SOpen (c : N) (net : option nat) (echo : bool) (* downstream.go:1442-1473, the network exists *)
| SOpenNew (c : N) (nick : bytes) (echo : bool) (* downstream.go:1370-1440: it is saved now; [nick] is that of the registration *)
| SClose (c : N)
| SCommand (c : N) (m : message)
| SUserNick (nick : bytes)
| SNetNick (n : nat) (nick : bytes)
| SNetNew (nick : bytes)
| SRegister (n : nat) (* upstream.go:2020-2047: a connection to the server is made *)
| SUp (n : nat) (nick server status : bytes) (echo : bool) (* upstream.go:923-931, user.go:644-668: the server lets us in *)
| SDown (n : nat)
| SCasemap (n : nat) (cm : casemapping) (* user.go:408-424 *)
| SMsg (n : nat) (m : message) (origin : N).

Definition find_cl (c : N) (l : list scl) : option scl := find (fun x => N.eqb (sc_id x) c) l.
Definition new_client (s : sst) (c : N) (net : option nat) (echo : bool) : scl :=
  let x := SCl c net [] echo in
  SCl c net (match net with Some _ => new_nick s x | None => ss_name s end) echo.

Definition sstep (s : sst) (e : sev) : sst * list sout :=
  match e with
  | SOpen c net echo =>
      match find_cl c (ss_clients s) with
      | Some _ => (s, [])
      | None => (with_clients s (ss_clients s ++ [new_client s c (match net with Some n => if n <? length (ss_nets s) then Some n else None | None => None end) echo]), [])
      end
  | SOpenNew c reg echo =>
      match find_cl c (ss_clients s) with
      | Some _ => (s, [])
      | None =>
          let nick := fst (fst (unmarshal_username reg)) in
          let x := SCl c None reg echo in
          if bad_nick nick then (s, [reply x (B "432") [reg; B "Nickname contains illegal characters"]])
          else if beqb (casemap CmASCII nick) service_cm then (s, [reply x (B "433") [reg; B "Nickname reserved for bouncer service"]])
          else
            let s1 := with_nets s (ss_nets s ++ [SNet CmRFC1459 nick None]) in
            (with_clients s1 (ss_clients s1 ++ [new_client s1 c (Some (length (ss_nets s))) echo]), [])
      end
  | SClose c => (with_clients s (filter (fun x => negb (N.eqb (sc_id x) c)) (ss_clients s)), [])
  | SCommand c m =>
      match find_cl c (ss_clients s) with
      | None => (s, [])
      | Some x =>
          if is_text (m_command m) then (s, cmd_text s x m)
          else if beqb (m_command m) (B "NICK") then cmd_nick s x (m_params m)
          else if beqb (m_command m) (B "WHO") then (s, cmd_who s x (m_params m))
          else if beqb (m_command m) (B "WHOIS") then (s, cmd_whois s x (m_params m))
          else if beqb (m_command m) (B "INVITE") then (s, cmd_invite s x m)
          else (s, [])
      end
  | SUserNick nick => user_nick s nick
  | SNetNick n nick => (network_nick s n nick, [])
  | SNetNew nick => (with_nets s (ss_nets s ++ [SNet CmRFC1459 nick None]), [])
  | SRegister n => match nth_error (ss_nets s) n with Some net => (s, [SServer n (msg (B "NICK") [get_nick s (Some net)])]) | None => (s, []) end
  | SUp n nick server status echo =>
      match nth_error (ss_nets s) n with
      | Some net => update_nicks (set_net s n (SNet (sn_cm net) (sn_nick net) (Some (SLink nick server status echo)))) (on_net n)
      | None => (s, [])
      end
  | SDown n => match nth_error (ss_nets s) n with Some net => (set_net s n (SNet (sn_cm net) (sn_nick net) None), []) | None => (s, []) end
  | SCasemap n cm => match nth_error (ss_nets s) n with Some net => (set_net s n (SNet cm (sn_nick net) (sn_link net)), []) | None => (s, []) end
  | SMsg n m origin =>
      match nth_error (ss_nets s) n with
      | Some net =>
          match sn_link net with
          | Some l =>
              if is_text (m_command m) then (s, server_text s n net l m origin)
              else if beqb (m_command m) (B "NICK") then server_nick s n net l m
              else (s, [])
          | None => (s, [])
          end
      | None => (s, [])
      end
  end.

Definition new_sst (name nick : bytes) (admin : bool) (host : bytes) : sst := SSt name nick admin host [] [].
