(** Model of what the messages of clients can stop: handleMessageRegistered,
    downstream.go:1764-3369, the commands to the bouncer service that change
    networks and channels, service.go, and the networks of a user, user.go, with
    a [Panic] at each index, each dereference of a pointer that may be nil and
    each explicit panic. The texts sent, the database and the message stores are
    left out: what they decide is asked of [ask]. *)
From Verif.Base Require Import Bytes.
From Verif.Model Require Import Message CaseMap Roster.
From Verif.Model Require Service AutoSave Robust.
Open Scope nat_scope.

(** ** State *)

(** upstream.go:99-103 (pendingUpstreamCommand). *)
Record qc := Qc { q_cmd : bytes; q_client : N; q_params : list bytes }.

(** A connection to a server: what is known of channels and users (Model.Roster),
    pendingCmds, and whether an authentication is under way (saslClient). *)
Record conn := Conn { k_ro : rst; k_pend : list (bytes * list qc); k_sasl : bool }.

(** user.go:108-125 (network): the record's identifier and name, the saved
    channels, the connection. *)
Record nw := Nw { w_id : N; w_name : bytes; w_saved : cmmap Robust.saved; w_conn : option conn }.

(** downstream.go:318-324 (downstreamSASL) with the state of the mechanism of
    go-sasl: whether it is done, and whether the name and the password are known. *)
Inductive mech := Plain | OAuth | Anonymous.
Record sx := Sx { x_mech : mech; x_pend : bytes; x_done : bool; x_failed : bool; x_plain : bool }.

(** A client: whether it has been welcomed, which sets dc.user
    (downstream.go:1443-1450), and is in the list of the user's connections
    (user.go:759); dc.network; whether it is closed; dc.sasl. *)
Record cl := Cl { d_id : N; d_user : bool; d_listed : bool; d_net : option N; d_closed : bool; d_sasl : option sx }.

(** A user. A deleted network is still there for whoever points to it: [u_gone]. *)
Record ust := Ust { u_name : bytes; u_admin : bool; u_nets : list nw; u_gone : list nw; u_clients : list cl }.

Definition with_nets u l := Ust (u_name u) (u_admin u) l (u_gone u) (u_clients u).
Definition with_gone u l := Ust (u_name u) (u_admin u) (u_nets u) l (u_clients u).
Definition with_clients u l := Ust (u_name u) (u_admin u) (u_nets u) (u_gone u) l.
Definition set_conn (n : nw) k := Nw (w_id n) (w_name n) (w_saved n) k.
Definition set_saved (n : nw) t := Nw (w_id n) (w_name n) t (w_conn n).
Definition set_sasl (c : cl) x := Cl (d_id c) (d_user c) (d_listed c) (d_net c) (d_closed c) x.
Definition shut (c : cl) := Cl (d_id c) (d_user c) (d_listed c) (d_net c) true (d_sasl c).

(** user.go:566-573 (getNetworkByID), 557-564 (getNetwork). *)
Definition by_id (l : list nw) (id : N) : option nw := find (fun n => N.eqb (w_id n) id) l.
Definition by_name (l : list nw) (name : bytes) : option nw := find (fun n => beqb (w_name n) name) l.

(** What a pointer to a network leads to. *)
Definition deref (u : ust) (id : N) : option nw :=
  match by_id (u_nets u) id with Some n => Some n | None => by_id (u_gone u) id end.

Definition map_net (f : nw -> nw) (id : N) (l : list nw) : list nw := map (fun n => if N.eqb (w_id n) id then f n else n) l.
Definition on_net (f : nw -> nw) (id : N) (u : ust) : ust :=
  with_gone (with_nets u (map_net f id (u_nets u))) (map_net f id (u_gone u)).
Definition on_client (f : cl -> cl) (id : N) (u : ust) : ust :=
  with_clients u (map (fun c => if N.eqb (d_id c) id then f c else c) (u_clients u)).

(** upstream.go:415-422 (downstreamByID): in the list of the user's connections. *)
Definition listed (u : ust) (id : N) : option cl := find (fun c => N.eqb (d_id c) id && d_listed c) (u_clients u).

(** The clients of a network, user.go:294-300 (forEachDownstream). *)
Definition bound_to (id : N) (c : cl) : bool := match d_net c with Some i => N.eqb i id | None => false end.
Definition clients_of (u : ust) (id : N) : list cl := filter (fun c => d_listed c && bound_to id c) (u_clients u).

(** ** Networks *)

(** downstream.go:1037-1052 (endSASL). *)
Definition end_sasl (id : N) (u : ust) : ust := on_client (fun c => set_sasl c None) id u.

Definition is_one_of (c : bytes) (l : list string) : bool := bmem c (map B l).

(** upstream.go:452-499 (abortPendingCommands); [None] is a panic. *)
Definition abort_one (u : ust) (q : qc) : option ust :=
  match listed u (q_client q) with
  | None => Some u
  | Some c =>
      if is_one_of (q_cmd q) ["LIST"; "WHO"]%string then Some u
      else if beqb (q_cmd q) (B "WHOIS") then
        match nth_error (q_params q) (length (q_params q) - 1) with Some _ => Some u | None => None end
      else if beqb (q_cmd q) (B "AUTHENTICATE") then Some (end_sasl (d_id c) u)
      else if is_one_of (q_cmd q) ["REGISTER"; "VERIFY"]%string then
        match nth_error (q_params q) 0 with Some _ => Some u | None => None end
      else None
  end.
Fixpoint abort_list (u : ust) (l : list qc) : option ust :=
  match l with
  | [] => Some u
  | q :: l' => match abort_one u q with Some u' => abort_list u' l' | None => None end
  end.
Definition pending (k : conn) : list qc := flat_map snd (k_pend k).

(** user.go:892-930 (handleUpstreamDisconnected). *)
Definition disconnected (id : N) (k : conn) (u : ust) : option ust :=
  abort_list (on_net (fun n => set_conn n None) id u) (pending k).

(** user.go:958-984 (removeNetwork): its clients are closed. [None] if it is not there. *)
Definition remove_network (id : N) (u : ust) : option ust :=
  match by_id (u_nets u) id with
  | None => None
  | Some n =>
      let u := with_clients u (map (fun c => if d_listed c && bound_to id c then shut c else c) (u_clients u)) in
      Some (with_gone (with_nets u (filter (fun n => negb (N.eqb (w_id n) id)) (u_nets u))) (n :: u_gone u))
  end.

(** user.go:1058-1085 (createNetwork) for a record with identifier [rid]: [id] is
    that given by the database. The boolean tells whether it went well. *)
Definition create_network (refused : bool) (rid id : N) (name : bytes) (u : ust) : option (ust * bool) :=
  if negb (N.eqb rid 0) then None
  else if refused then Some (u, false)
  else Some (with_nets u (u_nets u ++ [Nw id name (cm_new CmASCII) None]), true).

(** user.go:160-175 (newNetwork). *)
Definition saved_of (l : list Robust.saved) : cmmap Robust.saved :=
  fold_left (fun t s => cm_set t (Robust.sv_name s) s) l (cm_new CmASCII).

(** user.go:1087-1167 (updateNetwork). [refused]: the limit, the check of the
    record; [dbfail]: the database does not take it. The new network takes the place
    of the old one for those who point to it. *)
Definition update_network (refused dbfail : bool) (id : N) (name : bytes) (u : ust) : option (ust * bool) :=
  if N.eqb id 0 then None
  else if refused then Some (u, false)
  else match by_id (u_nets u) id with
       | None => None
       | Some n =>
           if dbfail then Some (u, false)
           else
             match (match w_conn n with Some k => disconnected id k u | None => Some u end) with
             | None => None
             | Some u =>
                 let n' := Nw id name (saved_of (map snd (cm_entries (w_saved n)))) None in
                 Some (with_nets u (filter (fun n => negb (N.eqb (w_id n) id)) (u_nets u) ++ [n']), true)
             end
       end.

(** user.go:1169-1190 (deleteNetwork). *)
Definition delete_network (dbfail : bool) (id : N) (u : ust) : option (ust * bool) :=
  match by_id (u_nets u) id with
  | None => None
  | Some _ =>
      if dbfail then Some (u, false)
      else match remove_network id u with Some u' => Some (u', true) | None => None end
  end.

(** user.go:354-387 (attach) and downstream.go:3426-3429: a channel whose members
    are not all known yet must not be forwarded. *)
Definition attach (id : N) (c : Robust.saved) (u : ust) : option ust :=
  if negb (Robust.sv_detached c) then Some u
  else
    let c' := Robust.Saved (Robust.sv_name c) false (Robust.sv_relay c) (Robust.sv_reattach c) (Robust.sv_detach c) in
    let u' := on_net (fun n => set_saved n (cm_set (w_saved n) (Robust.sv_name c) c')) id u in
    match deref u id with
    | Some (Nw _ _ _ (Some k)) =>
        match clients_of u id, cm_get (r_chans (k_ro k)) (Robust.sv_name c) with
        | _ :: _, Some h => if uh_complete h then Some u' else None
        | _, _ => Some u'
        end
    | _ => Some u'
    end.
(** user.go:320-352 (detach). *)
Definition detach (id : N) (c : Robust.saved) (u : ust) : ust :=
  let c' := Robust.Saved (Robust.sv_name c) true (Robust.sv_relay c) (Robust.sv_reattach c) (Robust.sv_detach c) in
  on_net (fun n => set_saved n (cm_set (w_saved n) (Robust.sv_name c) c')) id u.
Definition new_saved (name : bytes) (detached : bool) : Robust.saved :=
  Robust.Saved name detached Robust.FDefault Robust.FDefault Robust.FDefault.
Definition add_saved (id : N) (name : bytes) (detached : bool) (u : ust) : ust :=
  on_net (fun n => set_saved n (cm_set (w_saved n) name (new_saved name detached))) id u.
Definition del_saved (id : N) (name : bytes) (u : ust) : ust :=
  on_net (fun n => set_saved n (cm_del (w_saved n) name)) id u.

(** upstream.go:510-532 (enqueueCommand): [late] when the first command has waited
    for too long. *)
Definition supported : list string := ["LIST"; "WHO"; "WHOIS"; "AUTHENTICATE"; "REGISTER"; "VERIFY"]%string.
Fixpoint pend_add (late : bool) (q : qc) (l : list (bytes * list qc)) : list (bytes * list qc) :=
  match l with
  | [] => [(q_cmd q, [q])]
  | (c, l') :: r =>
      if beqb c (q_cmd q) then (c, if late then tl (l' ++ [q]) ++ [q] else l' ++ [q]) :: r else (c, l') :: pend_add late q r
  end.
Definition enqueue (late : bool) (net id : N) (cmd : bytes) (params : list bytes) (u : ust) : option ust :=
  if is_one_of cmd supported then
    Some (on_net (fun n => set_conn n (match w_conn n with
                                        | Some k => Some (Conn (k_ro k) (pend_add late (Qc cmd id params) (k_pend k)) (k_sasl k))
                                        | None => None
                                        end)) net u)
  else None.
(** upstream.go:543-554 (dequeueCommand). *)
Definition pend_pop (cmd : bytes) (l : list (bytes * list qc)) : list (bytes * list qc) :=
  map (fun p => if beqb (fst p) cmd then (fst p, tl (snd p)) else p) l.
Definition pend_first (cmd : bytes) (l : list (bytes * list qc)) : option qc :=
  match find (fun p => beqb (fst p) cmd) l with Some (_, q :: _) => Some q | _ => None end.
(** upstream.go:556-567 (cancelPendingCommandsByDownstreamID). *)
Definition pend_cancel (id : N) (l : list (bytes * list qc)) : list (bytes * list qc) :=
  map (fun p => (fst p, match snd p with [] => [] | q :: r => q :: filter (fun q => negb (N.eqb (q_client q) id)) r end)) l.

Section Crash.
  Variable words_of : bytes -> option (list bytes).   (* service.go:73-125 (splitWords) *)
  Variable b64 : bytes -> option bytes.               (* base64.StdEncoding.DecodeString *)
  Variable plain_ok oauth_ok : bytes -> bool.          (* whether a response of the mechanism can be read *)
  Variable host : bytes.                               (* Config.Hostname *)

  (** What the rest of the program decides while a message is handled: the case
      mapping of the client, questions asked by name and number of the target, the
      identifier and the name of a network that is created or changed. *)
  Record env := Env { v_cm : casemapping; v_ask : nat -> string -> bool; v_id : N; v_name : bytes }.

  (** ** The bouncer service *)

  (** service.go:490-504 (getNetworkFromArg). *)
  Definition net_from_arg (u : ust) (net : option N) (params : list bytes) : option N :=
    match fst (Service.pop_arg params) with
    | [] => net
    | name => match by_name (u_nets u) name with Some n => Some (w_id n) | None => None end
    end.

  (** service.go:1396-1415 (stripNetworkSuffix). *)
  Definition strip_suffix (u : ust) (net : option N) (name : bytes) : option (option (bytes * N)) :=
    match net with
    | Some id => Some (Some (name, id))
    | None =>
        let l := match cut_on "/" name with (a, Some b) => [a; b] | (a, None) => [a] end in
        if negb (length l =? 2) then Some None
        else match nth_error l 0, nth_error l 1 with
             | Some a, Some b => Some (match by_name (u_nets u) b with Some n => Some (a, w_id n) | None => None end)
             | _, _ => None
             end
    end.

  (** service.go:584-1556: the commands about networks, channels, certificates and
      SASL. Those about certificates and SASL, and the listings, neither index nor
      change what is modelled. *)
  Definition local (v : env) (i : nat) (net : option N) (path params : list bytes) (u : ust) : option ust :=
    let ask := v_ask v i in
    let ok (r : option (ust * bool)) := match r with Some (u, _) => Some u | None => None end in
    match path with
    | [g; c] =>
        if beqb g (B "network") then
          if beqb c (B "create") then
            if ask "usage"%string then Some u else ok (create_network (ask "refused"%string) 0 (v_id v) (v_name v) u)
          else if beqb c (B "update") then
            match net_from_arg u net params with
            | None => Some u
            | Some id => if ask "usage"%string then Some u else ok (update_network (ask "refused"%string) (ask "db"%string) id (v_name v) u)
            end
          else if beqb c (B "delete") then
            if negb (length params =? 1) then Some u
            else match net_from_arg u net params with
                 | None => Some u
                 | Some id => ok (delete_network (ask "db"%string) id u)
                 end
          else if beqb c (B "quote") then
            if negb ((length params =? 1) || (length params =? 2)) then Some u
            else match nth_error params (length params - 1) with
                 | None => None
                 | Some _ => Some u
                 end
          else Some u
        else if beqb g (B "channel") then
          if beqb c (B "create") then
            match params with
            | [] => Some u
            | _ =>
                match nth_error params 0 with
                | None => None
                | Some name =>
                    if ask "usage"%string then Some u
                    else match strip_suffix u net name with
                         | None => None
                         | Some None => Some u
                         | Some (Some (name, id)) => if ask "refused"%string then Some u else Some (add_saved id name false u)
                         end
                end
            end
          else if beqb c (B "update") then
            match params with
            | [] => Some u
            | _ =>
                match nth_error params 0 with
                | None => None
                | Some name =>
                    if ask "usage"%string then Some u
                    else match strip_suffix u net name with
                         | None => None
                         | Some None => Some u
                         | Some (Some (name, id)) =>
                             match deref u id with
                             | None => None
                             | Some n =>
                                 match cm_get (w_saved n) name with
                                 | None => Some u
                                 | Some ch =>
                                     if ask "refused"%string then Some u
                                     else if ask "attach"%string then attach id ch u
                                     else if ask "detach"%string then Some (detach id ch u)
                                     else Some u
                                 end
                             end
                         end
                end
            end
          else if beqb c (B "delete") then
            if negb (length params =? 1) then Some u
            else match nth_error params 0 with
                 | None => None
                 | Some name =>
                     match strip_suffix u net name with
                     | None => None
                     | Some None => Some u
                     | Some (Some (name, id)) => if ask "db"%string then Some u else Some (del_saved id name u)
                     end
                 end
          else Some u
        else Some u
    | _ => Some u
    end.

  (** user.go:1192-1267 (updateUser): networks are connected again if the real name
      or whether the account is enabled has changed; the clients of a disabled account
      are closed. *)
  Fixpoint update_all (v : env) (l : list N) (u : ust) : option ust :=
    match l with
    | [] => Some u
    | id :: l' =>
        match by_id (u_nets u) id with
        | None => update_all v l' u
        | Some n =>
            match update_network (v_ask v (N.to_nat id) "refused"%string) (v_ask v (N.to_nat id) "db"%string) id (w_name n) u with
            | None => None
            | Some (u', _) => update_all v l' u'
            end
        end
    end.
  Definition ids (u : ust) : list N := map w_id (u_nets u).
  Definition update_user (v : env) (i : nat) (u : ust) : option ust :=
    if v_ask v i "db"%string then Some u
    else
      match (if v_ask v i "realname"%string then update_all v (ids u) u else Some u) with
      | None => None
      | Some u => Some (if v_ask v i "disabled"%string then with_clients u (map (fun c => if d_listed c then shut c else c) (u_clients u)) else u)
      end.

  (** service.go:127-197 (handleServicePRIVMSG, handleServiceCommand) and the
      handlers about users and the server, 944-1278, 1568-1639, for the user. What is
      done about other users is done by their goroutines. [fuel] bounds the nesting of
      "user run", which consumes words. *)
  Fixpoint service (fuel : nat) (v : env) (i : nat) (admin : bool) (net : option N) (words : list bytes) (u : ust) : option ust :=
    match fuel with
    | O => Some u
    | S fuel =>
        match Service.get Service.service_commands words with
        | inr _ => Some u
        | inl (c, params) =>
            if Service.c_admin c && negb admin then Some u
            else
              match Service.c_handle c with
              | None =>
                  match Service.c_children c with
                  | [] => match nth_error words 0 with Some _ => Some u | None => None end
                  | _ => Some u
                  end
              | Some (Service.HLocal path) => local v i net path params u
              | Some Service.HUserRun =>
                  if length params <? 2 then Some u
                  else match nth_error params 0 with
                       | None => None
                       | Some name => if beqb name (u_name u) then service fuel v i admin net (skipn 1 params) u else Some u
                       end
              | Some Service.HUserUpdate =>
                  if v_ask v i "usage"%string then Some u
                  else
                    let name := fst (Service.pop_arg params) in
                    if negb (beqb name []) && negb (beqb name (u_name u)) then Some u else update_user v i u
              | Some Service.HUserDelete =>
                  if negb ((length params =? 1) || (length params =? 2)) then Some u
                  else match nth_error params 0 with
                       | None => None
                       | Some _ =>
                           if length params <? 2 then Some u
                           else match nth_error params 1 with None => None | Some _ => Some u end
                       end
              | Some Service.HServerNotice | Some Service.HServerDebug =>
                  if negb (length params =? 1) then Some u
                  else match nth_error params 0 with None => None | Some _ => Some u end
              | Some Service.HUserStatus =>
                  if 1 <? length params then Some u
                  else match params with
                       | [] => Some u
                       | _ => match nth_error params 0 with None => None | Some _ => Some u end
                       end
              | Some _ => Some u
              end
        end
    end.
  Definition service_text (v : env) (i : nat) (admin : bool) (net : option N) (text : bytes) (u : ust) : option ust :=
    match words_of text with
    | None => Some u
    | Some words => service (S (length words)) v i admin net words u
    end.

  (** ** The messages of a client *)

  (** What handling a message leads to. [close]: an error that is not an IRC
      error, after which the client is closed (user.go:810-817). *)
  Inductive out := Done (u : ust) (close : bool) | Panic.

  Definition lift (r : option ust) : out := match r with Some u => Done u false | None => Panic end.
  (** Params[i], Params[i:]. *)
  Definition at_ (l : list bytes) (i : nat) (k : bytes -> out) : out := match nth_error l i with Some v => k v | None => Panic end.
  Definition from_ (l : list bytes) (i : nat) (k : list bytes -> out) : out := if i <=? length l then k (skipn i l) else Panic.
  (** irc.go:210-220 (parseMessageParams) with [n] destinations. *)
  Definition need (n : nat) (m : message) (u : ust) (k : out) : out := if n <=? length (m_params m) then k else Done u false.
  (** dc.user, when it is dereferenced. *)
  Definition usr (c : cl) (k : out) : out := if d_user c then k else Panic.

  Section Client.
    Variable v : env.
    Variable c : cl.

    (** downstream.go:431-446 (upstream, upstreamForCommand). *)
    Definition upstream (u : ust) (none : out) (k : N -> conn -> out) : out :=
      match d_net c with
      | None => none
      | Some id => match deref u id with Some n => match w_conn n with Some x => k id x | None => none end | None => Panic end
      end.
    Definition bound : bool := match d_net c with Some _ => true | None => false end.
    Definition ask (i : nat) (s : string) : bool := v_ask v i s.
    Definition is_service (name : bytes) : bool := beqb (casemap (v_cm v) name) (B "bouncerserv").

    (** downstream.go:795-930 (handleCap). *)
    Definition on_cap (m : message) (u : ust) : out :=
      need 1 m u (at_ (m_params m) 0 (fun cmd => from_ (m_params m) 1 (fun args =>
        if beqb (to_upper cmd) (B "LS") then
          if 0 <? length args then at_ args 0 (fun _ => Done u (ask 0 "version")) else Done u false
        else if beqb (to_upper cmd) (B "REQ") then
          if length args =? 0 then Done u false else at_ args 0 (fun _ => Done u false)
        else Done u false))).

    (** downstream.go:1778-1784, 596-620. *)
    Definition on_pong (m : message) (u : ust) : out :=
      if length (m_params m) =? 0 then Done u false
      else at_ (m_params m) (length (m_params m) - 1) (fun token =>
        if has_prefix token (B "soju-msgid-") && ask 0 "msgid" then usr c (Done u false) else Done u false).

    (** downstream.go:1854-1915. *)
    Definition on_setname (m : message) (u : ust) : out :=
      need 1 m u (at_ (m_params m) 0 (fun _ =>
        if ask 0 "same" then Done u false
        else match d_net c with
             | Some id =>
                 usr c (upstream u
                   (lift (match update_network (ask 0 "refused") (ask 0 "db") id (v_name v) u with Some (u, _) => Some u | None => None end))
                   (fun _ _ =>
                      if ask 0 "setname" then Done u false
                      else lift (match update_network (ask 0 "refused") (ask 0 "db") id (v_name v) u with Some (u, _) => Some u | None => None end)))
             | None => usr c (lift (update_user v 0 u))
             end)).

    (** downstream.go:1916-1981. *)
    Fixpoint join_loop (id : N) (keys : list bytes) (i : nat) (names : list bytes) (u : ust) : out :=
      match names with
      | [] => Done u false
      | name :: names' =>
          let k (_ : bytes) :=
            if ask i "bad" then join_loop id keys (S i) names' u
            else match deref u id with
                 | None => Panic
                 | Some n =>
                     match cm_get (w_saved n) name with
                     | Some ch => match attach id ch u with Some u' => join_loop id keys (S i) names' u' | None => Panic end
                     | None => join_loop id keys (S i) names' (add_saved id name false u)
                     end
                 end in
          if i <? length keys then at_ keys i k else k []
      end.
    Definition on_join (m : message) (u : ust) : out :=
      upstream u (Done u false) (fun id _ =>
        need 1 m u (at_ (m_params m) 0 (fun names =>
          if 1 <? length (m_params m) then at_ (m_params m) 1 (fun keys => join_loop id (split_on "," keys) 0 (split_on "," names) u)
          else join_loop id [] 0 (split_on "," names) u))).

    (** downstream.go:1982-2031. *)
    Fixpoint part_loop (id : N) (reason : bytes) (i : nat) (names : list bytes) (u : ust) : out :=
      match names with
      | [] => Done u false
      | name :: names' =>
          match deref u id with
          | None => Panic
          | Some n =>
              part_loop id reason (S i) names'
                (if beqb (to_lower reason) (B "detach") then
                   match cm_get (w_saved n) name with Some ch => detach id ch u | None => add_saved id name true u end
                 else if ask i "db" then u else del_saved id name u)
          end
      end.
    Definition on_part (m : message) (u : ust) : out :=
      upstream u (Done u false) (fun id _ =>
        need 1 m u (at_ (m_params m) 0 (fun names =>
          if 1 <? length (m_params m) then at_ (m_params m) 1 (fun reason => part_loop id reason 0 (split_on "," names) u)
          else part_loop id [] 0 (split_on "," names) u))).

    (** downstream.go:2039-2113: a mode of ours, of another user, of a channel. *)
    Definition on_mode (m : message) (u : ust) : out :=
      need 1 m u (at_ (m_params m) 0 (fun name =>
        let k (modes : bytes) :=
          if ask 0 "own" then
            match modes with [] => Done u false | _ => upstream u (Done u false) (fun _ _ => Done u false) end
          else upstream u (Done u false) (fun _ x =>
            if negb (is_channel (k_ro x) name) then Done u false
            else match modes with [] => Done u false | _ => from_ (m_params m) 2 (fun _ => Done u false) end) in
        if 1 <? length (m_params m) then at_ (m_params m) 1 k else k [])).

    (** downstream.go:2114-2141. *)
    Definition on_topic (m : message) (u : ust) : out :=
      need 1 m u (at_ (m_params m) 0 (fun _ => upstream u (Done u false) (fun _ _ =>
        if 1 <? length (m_params m) then at_ (m_params m) 1 (fun _ => Done u false) else Done u false))).

    Definition queue (m : message) (id : N) (u : ust) : out := lift (enqueue (ask 0 "late") id (d_id c) (m_command m) (m_params m) u).

    (** upstream.go:2383-2428 (getCachedWHO); [ask]: the fields are known and kept
        up to date. *)
    Definition cached_who (x : conn) (mask : bytes) : option (list uuser) :=
      let r := k_ro x in
      if negb (ask 0 "caps") then None
      else match cm_get (r_users r) mask with
           | Some uu => if ask 0 "fields" then Some [uu] else None
           | None =>
               match cm_get (r_chans r) mask with
               | None => None
               | Some h =>
                   fold_right (fun e acc =>
                     match cm_get (r_users r) (original_key (snd e)), acc with
                     | Some uu, Some l => if ask 0 "fields" then Some (uu :: l) else None
                     | _, _ => None
                     end) (Some []) (cm_m (uh_members h))
               end
           end.
    (** downstream.go:2266-2306: the reply lines. *)
    Fixpoint who_lines (x : conn) (mask : bytes) (l : list uuser) (u : ust) : out :=
      match l with
      | [] => Done u false
      | uu :: l' =>
          if is_channel (k_ro x) mask then
            match cm_get (r_chans (k_ro x)) mask with
            | None => Panic
            | Some h => match cm_get (uh_members h) (uu_nick uu) with None => Panic | Some _ => who_lines x mask l' u end
            end
          else who_lines x mask l' u
      end.
    (** downstream.go:2167-2308. *)
    Definition on_who (m : message) (u : ust) : out :=
      if length (m_params m) =? 0 then Done u false
      else at_ (m_params m) 0 (fun mask =>
        let k (_ : bytes) :=
          if negb bound && ask 0 "own" then usr c (Done u false)
          else if is_service mask then upstream u (Done u false) (fun _ _ => Done u false)
          else if negb bound then Done u false
          else upstream u (Done u false) (fun id x =>
            match cached_who x mask with
            | Some l => who_lines x mask l u
            | None => queue m id u
            end) in
        if 1 <? length (m_params m) then at_ (m_params m) 1 k else k []).

    (** downstream.go:2309-2386. *)
    Definition on_whois (m : message) (u : ust) : out :=
      if length (m_params m) =? 0 then Done u false
      else at_ (m_params m) (if length (m_params m) =? 1 then 0 else 1) (fun mask =>
        let mask := fst (cut_on "," mask) in
        if negb bound && ask 0 "own" then usr c (Done u false)
        else if is_service mask then Done u false
        else upstream u (Done u false) (fun id _ => queue m id u)).

    (** downstream.go:3387-3424 (parseNickServCredentials). *)
    Definition nickserv (text : bytes) (k : out) : out :=
      let fields := AutoSave.ufields text 0 [] in
      if length fields <? 2 then k
      else at_ fields 0 (fun cmd => from_ fields 1 (fun params =>
        if beqb (AutoSave.upper cmd) (B "REGISTER") then at_ params 0 (fun _ => k)
        else if beqb (AutoSave.upper cmd) (B "IDENTIFY") then
          if length params =? 1 then at_ params 0 (fun _ => k) else at_ params 0 (fun _ => at_ params 1 (fun _ => k))
        else if beqb (AutoSave.upper cmd) (B "SET") then
          if length params =? 2 then at_ params 0 (fun p => if beqb (AutoSave.upper p) (B "PASSWORD") then at_ params 1 (fun _ => k) else k) else k
        else k)).

    (** downstream.go:2387-2524. *)
    Fixpoint text_loop (cmd text : bytes) (i : nat) (names : list bytes) (u : ust) : out :=
      match names with
      | [] => Done u false
      | name :: names' =>
          if beqb name ("$"%char :: host) || (beqb name (B "$*") && negb bound) then
            usr c (if u_admin u then text_loop cmd text (S i) names' u else Done u false)
          else if negb bound && ask i "own" then text_loop cmd text (S i) names' u
          else if is_service name then
            if beqb cmd (B "PRIVMSG") then
              usr c (match service_text v i (u_admin u) (d_net c) text u with
                     | Some u' => text_loop cmd text (S i) names' u'
                     | None => Panic
                     end)
            else if ask i "echo" then usr c (text_loop cmd text (S i) names' u)
            else text_loop cmd text (S i) names' u
          else
            upstream u (Done u false) (fun _ _ =>
              let k := if ask i "upstream echo" then text_loop cmd text (S i) names' u else usr c (text_loop cmd text (S i) names' u) in
              if beqb cmd (B "PRIVMSG") && ask i "nickserv" then nickserv text k else k)
      end.
    Definition on_text (m : message) (u : ust) : out :=
      if beqb (m_command m) (B "TAGMSG") then
        need 1 m u (at_ (m_params m) 0 (fun names => text_loop (m_command m) [] 0 (split_on "," names) u))
      else need 2 m u (at_ (m_params m) 0 (fun names => at_ (m_params m) 1 (fun text =>
             text_loop (m_command m) text 0 (split_on "," names) u))).

    (** downstream.go:932-1035 (handleAuthenticate) with the servers of go-sasl: what
        becomes of dc.sasl, and: an IRC error, another error, nothing yet, or
        credentials. *)
    Inductive auth := AErr | AClose | AWait | ACreds.
    Definition next (x : sx) (resp : option bytes) : sx * auth :=
      match resp with
      | None => (x, AWait)
      | Some r =>
          if x_failed x then (x, AClose)
          else if x_done x then (x, AClose)
          else match x_mech x with
               | Plain => if plain_ok r then (Sx Plain (x_pend x) true false true, ACreds) else (Sx Plain (x_pend x) true false (x_plain x), AClose)
               | OAuth => if oauth_ok r then (Sx OAuth (x_pend x) true false (x_plain x), ACreds) else (Sx OAuth (x_pend x) true true (x_plain x), AWait)
               | Anonymous => (Sx Anonymous (x_pend x) true false (x_plain x), ACreds)
               end
      end.
    Definition handle_auth (cap : bool) (sasl : option sx) (params : list bytes) : option (option sx * auth) :=
      if negb cap then Some (None, AErr)
      else if length params =? 0 then Some (None, AErr)
      else match nth_error params 0 with
           | None => None
           | Some p =>
               if beqb p (B "*") then Some (None, AErr)
               else match sasl with
                    | None =>
                        match (if beqb (to_upper p) (B "PLAIN") then Some Plain
                               else if beqb (to_upper p) (B "OAUTHBEARER") then Some OAuth
                               else if beqb (to_upper p) (B "ANONYMOUS") then Some Anonymous else None) with
                        | None => Some (None, AErr)
                        | Some mc => Some (Some (Sx mc [] false false false), AWait)
                        end
                    | Some x =>
                        let chunk := if beqb p (B "+") then [] else p in
                        if (10240 <? N.of_nat (length (x_pend x) + length chunk))%N then Some (None, AErr)
                        else
                          let pend := x_pend x ++ chunk in
                          if (N.of_nat (length chunk) =? 400)%N then Some (Some (Sx (x_mech x) pend (x_done x) (x_failed x) (x_plain x)), AWait)
                          else match b64 pend with
                               | None => Some (None, AErr)
                               | Some r =>
                                   match next (Sx (x_mech x) [] (x_done x) (x_failed x) (x_plain x)) (Some r) with
                                   | (x', AClose) => Some (None, AClose)
                                   | (x', a) => Some (Some x', a)
                                   end
                               end
                    end
           end.

    (** downstream.go:2525-2600. *)
    Definition on_authenticate (m : message) (u : ust) : out :=
      upstream u (Done u false) (fun id x =>
        if negb (ask 0 "sasl") then Done u false
        else match handle_auth (ask 0 "cap") (d_sasl c) (m_params m) with
             | None => Panic
             | Some (s', a) =>
                 let u := on_client (fun c => set_sasl c s') (d_id c) u in
                 match a with
                 | AErr => Done u false
                 | AClose => Done u true
                 | AWait => Done u false
                 | ACreds =>
                     if k_sasl x then Done (end_sasl (d_id c) u) false
                     else match s' with
                          | Some y =>
                              match x_mech y with
                              | Plain =>
                                  if negb (x_plain y) then Panic
                                  else if ask 0 "identity" then Done u false
                                  else
                                    let u := on_net (fun n => set_conn n (match w_conn n with Some k => Some (Conn (k_ro k) (k_pend k) true) | None => None end)) id u in
                                    lift (enqueue (ask 0 "late") id (d_id c) (B "AUTHENTICATE") [B "PLAIN"] u)
                              | Anonymous =>
                                  if ask 0 "saved" then
                                    match update_network (ask 0 "refused") (ask 0 "db") id (v_name v) u with
                                    | None => Panic
                                    | Some (u, _) => Done (end_sasl (d_id c) u) false
                                    end
                                  else Done (end_sasl (d_id c) u) false
                              | OAuth => Done (end_sasl (d_id c) u) false
                              end
                          | None => Panic
                          end
                 end
             end).

    (** downstream.go:2601-2620. *)
    Definition on_register (m : message) (u : ust) : out :=
      if (beqb (m_command m) (B "REGISTER") && (length (m_params m) <? 3)) || (beqb (m_command m) (B "VERIFY") && (length (m_params m) <? 2))
      then Done u false
      else upstream u (Done u false) (fun id _ =>
        if negb (ask 0 "cap") then Done u false else at_ (m_params m) 0 (fun _ => queue m id u)).

    (** downstream.go:2661-2742. *)
    Definition on_monitor (m : message) (u : ust) : out :=
      upstream u (Done u false) (fun _ _ =>
        if negb (ask 0 "isupport") then Done u false
        else need 1 m u (at_ (m_params m) 0 (fun sub =>
          if is_one_of (to_upper sub) ["+"; "-"]%string then need 2 m u (at_ (m_params m) 1 (fun _ => Done u false))
          else Done u false))).

    (** downstream.go:2743-2880. *)
    Definition on_chathistory (m : message) (u : ust) : out :=
      need 1 m u (at_ (m_params m) 0 (fun sub =>
        let k (target : bytes) :=
          if is_service target then Done u false else usr c (Done u false) in
        if is_one_of sub ["AFTER"; "BEFORE"; "LATEST"]%string then need 4 m u (at_ (m_params m) 1 k)
        else if beqb sub (B "BETWEEN") then need 5 m u (at_ (m_params m) 1 k)
        else if beqb sub (B "TARGETS") then if bound then need 4 m u (k []) else Done u false
        else Done u false)).

    (** downstream.go:2881-2986. criteriaParts is the result of SplitN. *)
    Definition on_markread (m : message) (u : ust) : out :=
      need 1 m u (at_ (m_params m) 0 (fun target =>
        let k (criteria : bytes) :=
          if is_service target then Done u false
          else if negb bound then Done u false
          else match criteria with
               | [] => Done u false
               | _ =>
                   let parts := match cut_on "=" criteria with (a, Some b) => [a; b] | (a, None) => [a] end in
                   if negb (length parts =? 2) then Done u false
                   else at_ parts 0 (fun a => if negb (beqb a (B "timestamp")) then Done u false else at_ parts 1 (fun _ => Done u false))
               end in
        if 1 <? length (m_params m) then at_ (m_params m) 1 k else k [])).

    (** downstream.go:3070-3205. *)
    Definition on_bouncer (m : message) (u : ust) : out :=
      let fin (r : option (ust * bool)) (close : bool) := match r with Some (u, ok) => Done u (negb ok && close) | None => Panic end in
      need 1 m u (at_ (m_params m) 0 (fun sub =>
        let sub := to_upper sub in
        if beqb sub (B "LISTNETWORKS") then usr c (Done u false)
        else if beqb sub (B "ADDNETWORK") then
          need 2 m u (at_ (m_params m) 1 (fun _ =>
            if ask 0 "usage" then Done u false else usr c (fin (create_network (ask 0 "refused") 0 (v_id v) (v_name v) u) false)))
        else if beqb sub (B "CHANGENETWORK") then
          need 3 m u (at_ (m_params m) 1 (fun id_str => at_ (m_params m) 2 (fun _ =>
            match undec id_str with
            | None => Done u false
            | Some id =>
                usr c (match by_id (u_nets u) id with
                       | None => Done u false
                       | Some _ => if ask 0 "usage" then Done u false else fin (update_network (ask 0 "refused") (ask 0 "db") id (v_name v) u) false
                       end)
            end)))
        else if beqb sub (B "DELNETWORK") then
          need 2 m u (at_ (m_params m) 1 (fun id_str =>
            match undec id_str with
            | None => Done u false
            | Some id =>
                usr c (match by_id (u_nets u) id with
                       | None => Done u false
                       | Some n => fin (delete_network (ask 0 "db") (w_id n) u) true
                       end)
            end))
        else Done u false)).

    (** downstream.go:3206-3350. *)
    Definition on_webpush (m : message) (u : ust) : out :=
      if negb (ask 0 "cap") then Done u false
      else need 1 m u (at_ (m_params m) 0 (fun sub =>
        if beqb sub (B "REGISTER") then
          need 3 m u (at_ (m_params m) 1 (fun _ => at_ (m_params m) 2 (fun _ => if ask 0 "keys" then usr c (Done u false) else Done u false)))
        else if beqb sub (B "UNREGISTER") then need 2 m u (at_ (m_params m) 1 (fun _ => usr c (Done u false)))
        else Done u false)).

    (** downstream.go:628-645, 1764-3369. *)
    Definition handle (m : message) (u : ust) : out :=
      let cmd := m_command m in
      if beqb cmd (B "QUIT") then Done u true
      else if beqb cmd (B "CAP") then on_cap m u
      else if beqb cmd (B "PING") then
        need 1 m u (at_ (m_params m) 0 (fun _ => if 1 <? length (m_params m) then at_ (m_params m) 1 (fun _ => Done u false) else Done u false))
      else if beqb cmd (B "PONG") then on_pong m u
      else if beqb cmd (B "NICK") then
        need 1 m u (at_ (m_params m) 0 (fun _ => if ask 0 "bad" then Done u false else usr c (Done u false)))
      else if beqb cmd (B "SETNAME") then on_setname m u
      else if beqb cmd (B "JOIN") then on_join m u
      else if beqb cmd (B "PART") then on_part m u
      else if beqb cmd (B "MODE") then on_mode m u
      else if beqb cmd (B "TOPIC") then on_topic m u
      else if beqb cmd (B "LIST") then upstream u (Done u false) (fun id _ => queue m id u)
      else if beqb cmd (B "NAMES") then
        upstream u (Done u false) (fun _ _ => if length (m_params m) =? 0 then Done u false else at_ (m_params m) 0 (fun _ => Done u false))
      else if beqb cmd (B "WHO") then on_who m u
      else if beqb cmd (B "WHOIS") then on_whois m u
      else if is_one_of cmd ["PRIVMSG"; "NOTICE"; "TAGMSG"]%string then on_text m u
      else if beqb cmd (B "AUTHENTICATE") then on_authenticate m u
      else if is_one_of cmd ["REGISTER"; "VERIFY"]%string then on_register m u
      else if beqb cmd (B "AWAY") then
        if 0 <? length (m_params m) then at_ (m_params m) 0 (fun _ => upstream u (Done u false) (fun _ _ => Done u false))
        else upstream u (Done u false) (fun _ _ => Done u false)
      else if beqb cmd (B "MONITOR") then on_monitor m u
      else if beqb cmd (B "CHATHISTORY") then on_chathistory m u
      else if is_one_of cmd ["READ"; "MARKREAD"]%string then on_markread m u
      else if beqb cmd (B "SEARCH") then usr c (need 1 m u (at_ (m_params m) 0 (fun _ => Done u false)))
      else if beqb cmd (B "BOUNCER") then on_bouncer m u
      else if beqb cmd (B "WEBPUSH") then on_webpush m u
      else upstream u (Done u false) (fun _ _ => Done u false).
  End Client.

  (** ** The user's goroutine, user.go:640-890 *)

  (** A message of a client; a client that logged in is handed over: whether it is
      welcomed (the account is enabled) and its network is found; a client goes; a
      connection to a server is registered, with what it knows by then; it ends; the
      server changes what is known, and with it the saved channels, and answers the
      first of the pending commands [cmd] (the panics on the way are those of
      Model.Robust); it ends an authentication; an administrator changes the account or
      runs a command for the user. *)
  Inductive event :=
  | EMessage (id : N) (v : env) (m : message)
  | EHandover (id : N) (enabled : bool) (net : option (option N))
  | EGone (id : N)
  | EUp (net : N) (r : rst)
  | EDown (net : N)
  | EServer (net : N) (r : rst) (t : cmmap Robust.saved) (cmd : bytes)
  | ELogin (net : N) (success : bool)
  | EUpdate (v : env)
  | ERun (v : env) (words : list bytes).

  Inductive life := Alive (u : ust) | UserStopped.
  Definition live (r : option ust) : life := match r with Some u => Alive u | None => UserStopped end.

  Definition find_client (u : ust) (id : N) : option cl := find (fun c => N.eqb (d_id c) id) (u_clients u).

  (** user.go:720-760 and downstream.go:1443-1460 (the account may be enabled by
      an [EUpdate] before): without an enabled account dc.user stays nil; without the network the client is not listed. *)
  Definition handover (u : ust) (id : N) (enabled : bool) (net : option (option N)) : cl :=
    if negb enabled then Cl id false false None false None
    else match net with
         | None => Cl id true false None false None
         | Some None => Cl id true true None false None
         | Some (Some i) =>
             match by_id (u_nets u) i with
             | Some _ => Cl id true true (Some i) false None
             | None => Cl id true false None false None
             end
         end.

  Definition step (u : ust) (e : event) : life :=
    match e with
    | EMessage id v m =>
        match find_client u id with
        | None => Alive u
        | Some c =>
            if d_closed c then Alive u
            else match handle v c m u with
                 | Panic => UserStopped
                 | Done u' close => Alive (if close then on_client shut id u' else u')
                 end
        end
    | EHandover id enabled net =>
        match find_client u id with
        | Some _ => Alive u
        | None => Alive (with_clients u (u_clients u ++ [handover u id enabled net]))
        end
    | EGone id =>
        let f n := set_conn n (match w_conn n with Some k => Some (Conn (k_ro k) (pend_cancel id (k_pend k)) (k_sasl k)) | None => None end) in
        Alive (with_clients (with_nets u (map f (u_nets u))) (filter (fun c => negb (N.eqb (d_id c) id)) (u_clients u)))
    | EUp net r => Alive (on_net (fun n => set_conn n (Some (Conn r [] false))) net u)
    | EDown net =>
        match deref u net with
        | Some n => match w_conn n with Some k => live (disconnected net k u) | None => Alive u end
        | None => Alive u
        end
    | EServer net r t cmd =>
        Alive (on_net (fun n => set_conn (set_saved n t) (match w_conn n with Some k => Some (Conn r (pend_pop cmd (k_pend k)) (k_sasl k)) | None => None end)) net u)
    | ELogin net success =>
        match deref u net with
        | Some n =>
            match w_conn n with
            | Some k =>
                let u' := on_net (fun n => set_conn n (match w_conn n with Some k => Some (Conn (k_ro k) (pend_pop (B "AUTHENTICATE") (k_pend k)) false) | None => None end)) net u in
                match pend_first (B "AUTHENTICATE") (k_pend k) with
                | None => Alive u'
                | Some q =>
                    match listed u (q_client q) with
                    | None => Alive u'
                    | Some c =>
                        match d_sasl c with
                        | None => Alive u'
                        | Some x => if success && negb (x_plain x) then UserStopped else Alive (end_sasl (d_id c) u')
                        end
                    end
                end
            | None => Alive u
            end
        | None => Alive u
        end
    | EUpdate v => live (update_user v 0 u)
    | ERun v words => live (service (S (length words)) v 0 true None words u)
    end.

  Fixpoint run (u : ust) (l : list event) : life :=
    match l with
    | [] => Alive u
    | e :: l' => match step u e with Alive u' => run u' l' | UserStopped => UserStopped end
    end.

  (** user.go:575-640: the networks of an account that is loaded. *)
  Definition loaded (name : bytes) (admin : bool) (nets : list (N * bytes * list (bytes * bool))) : ust :=
    Ust name admin
      (map (fun p => match p with (id, n, l) =>
         Nw id n (saved_of (map (fun s => new_saved (fst s) (snd s)) l)) None end) nets) [] [].
End Crash.
