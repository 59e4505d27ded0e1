(** Model of the registration of clients: downstream.go:624-793, 930-1052, 1290-1366, 1712-1760
    (handleMessage, handleMessageUnregistered, handleAuthenticate, endSASL, register,
    runUntilRegistered) and of what follows, server.go:462-512 and user.go:720-780. *)
From Verif.Base Require Import Bytes Base64.
From Verif.Model Require Import Message GenMsg Username Caps.
From Coq Require Import ZArith.
Open Scope nat_scope.

(** What the outside answers while a message is handled: the authenticator of the configuration
    (auth/auth.go; for each kind, nil or a function), and db.GetUser with the admin flag. *)
Record env := Env {
  e_plain : option (bytes -> bytes -> bool);
  e_oauth : option (bytes -> option bytes);
  e_user : bytes -> option bool
}.

(** The servers of the go-sasl library: PLAIN, OAUTHBEARER (with a failure already reported) and
    ANONYMOUS; downstream.go:290-300 (downstreamSASL). *)
Inductive mech := MPlain | MOauth (failed : bool) | MAnonymous.
Record sasl := Sasl { sa_mech : mech; sa_pending : bytes }.

(** The credentials that the SASL server hands out. *)
Inductive creds :=
| CPlain (authzid username password : bytes)
| COauth (username token : bytes)
| CAnonymous.

(** The connection, downstream.go:302-365: [r_user] is the user it is registered as. The fields of
    the capabilities are those of Model/Caps.v, which contain registered and negotiatingCaps. *)
Record rstate := Rstate {
  r_caps : cstate;
  r_nick : bytes;
  r_username : bytes;
  r_pass : bytes;
  r_auth : bytes;
  r_client : bytes;
  r_netname : bytes;
  r_netid : Z;
  r_imp : bool;
  r_sasl : option sasl;
  r_user : option bytes;
  r_closed : bool
}.
Definition new_conn (plain oauth store : bool) : rstate :=
  Rstate (new_caps plain oauth store) [] [] [] [] [] [] 0 false None None false.

Definition set_caps s c := Rstate c (r_nick s) (r_username s) (r_pass s) (r_auth s) (r_client s) (r_netname s) (r_netid s) (r_imp s) (r_sasl s) (r_user s) (r_closed s).
Definition set_nick s n := Rstate (r_caps s) n (r_username s) (r_pass s) (r_auth s) (r_client s) (r_netname s) (r_netid s) (r_imp s) (r_sasl s) (r_user s) (r_closed s).
Definition set_username s n := Rstate (r_caps s) (r_nick s) n (r_pass s) (r_auth s) (r_client s) (r_netname s) (r_netid s) (r_imp s) (r_sasl s) (r_user s) (r_closed s).
Definition set_pass s n := Rstate (r_caps s) (r_nick s) (r_username s) n (r_auth s) (r_client s) (r_netname s) (r_netid s) (r_imp s) (r_sasl s) (r_user s) (r_closed s).
(** downstream.go:1290-1294 (setAuthUsername). *)
Definition set_auth s (x : bytes * bytes * bytes) := Rstate (r_caps s) (r_nick s) (r_username s) (r_pass s) (fst (fst x)) (snd (fst x)) (snd x) (r_netid s) (r_imp s) (r_sasl s) (r_user s) (r_closed s).
Definition set_names s c n := Rstate (r_caps s) (r_nick s) (r_username s) (r_pass s) (r_auth s) c n (r_netid s) (r_imp s) (r_sasl s) (r_user s) (r_closed s).
Definition set_netid s i := Rstate (r_caps s) (r_nick s) (r_username s) (r_pass s) (r_auth s) (r_client s) (r_netname s) i (r_imp s) (r_sasl s) (r_user s) (r_closed s).
Definition set_imp s b := Rstate (r_caps s) (r_nick s) (r_username s) (r_pass s) (r_auth s) (r_client s) (r_netname s) (r_netid s) b (r_sasl s) (r_user s) (r_closed s).
Definition set_sasl s x := Rstate (r_caps s) (r_nick s) (r_username s) (r_pass s) (r_auth s) (r_client s) (r_netname s) (r_netid s) (r_imp s) x (r_user s) (r_closed s).
Definition set_user s u := Rstate (r_caps s) (r_nick s) (r_username s) (r_pass s) (r_auth s) (r_client s) (r_netname s) (r_netid s) (r_imp s) (r_sasl s) u (r_closed s).
Definition set_closed s := Rstate (r_caps s) (r_nick s) (r_username s) (r_pass s) (r_auth s) (r_client s) (r_netname s) (r_netid s) (r_imp s) (r_sasl s) (r_user s) true.

(** What is sent: a reply to CAP, an error with its command, a SASL challenge, the end of a SASL
    exchange, a reply to AWAY. *)
Inductive rout :=
| RCap (c : cout)
| RError (cmd : bytes)
| RChallenge (param : bytes)
| RSuccess
| RAway.

(** The outcome of a handler: fine, an ircError, or another error or a panic, which ends the
    connection. *)
Inductive hres := HOk | HError (cmd : bytes) | HFatal.

Section Register.
  Variable atoi : bytes -> option Z.
  (** parseBouncerNetID, downstream.go:81-90. *)
  Variable parse_id : bytes -> option Z.
  (** The parser of OAUTHBEARER responses, and the challenge that reports a failure. *)
  Variable oauth_parse : bytes -> option (bytes * bytes).
  Variable oauth_failure : bytes.

  (** server.Next of go-sasl, for a response. *)
  Inductive next := NDone (c : creds) | NChallenge (m : mech) (challenge : bytes) | NError.
  Definition sasl_next (m : mech) (resp : bytes) : next :=
    match m with
    | MPlain => match split_on "000" resp with
                | [authzid; username; password] => NDone (CPlain authzid username password)
                | _ => NError
                end
    | MOauth false => match oauth_parse resp with
                      | Some (username, token) => NDone (COauth username token)
                      | None => NChallenge (MOauth true) oauth_failure
                      end
    | MOauth true => NError
    | MAnonymous => NDone CAnonymous
    end.

  (** downstream.go:956-977: the mechanism. *)
  Definition find_mech (name : bytes) : option mech :=
    if beqb name (B "PLAIN") then Some MPlain
    else if beqb name (B "OAUTHBEARER") then Some (MOauth false)
    else if beqb name (B "ANONYMOUS") then Some MAnonymous
    else None.

  (** downstream.go:930-1035 (handleAuthenticate). With a nil response all servers send an empty
      challenge. *)
  Definition handle_authenticate (s : rstate) (params : list bytes) : rstate * list rout * hres * option creds :=
    let fail := fun cmd => (set_sasl s None, [], HError cmd, None) in
    if negb (is_enabled (r_caps s) (B "sasl")) then fail (B "904")
    else match params with
    | [] => fail (B "904")
    | p :: _ =>
        if beqb p (B "*") then fail (B "906")
        else match r_sasl s with
        | None => match find_mech (to_upper p) with
                  | None => fail (B "904")
                  | Some m => (set_sasl s (Some (Sasl m [])), [RChallenge (B "+")], HOk, None)
                  end
        | Some x =>
            match recv_chunk (sa_pending x) p with
            | None => fail (B "904")
            | Some (pending, None) => (set_sasl s (Some (Sasl (sa_mech x) pending)), [], HOk, None)
            | Some (pending, Some resp) =>
                match sasl_next (sa_mech x) resp with
                | NError => (set_sasl s None, [], HFatal, None)
                | NDone c => (set_sasl s (Some (Sasl (sa_mech x) pending)), [], HOk, Some c)
                | NChallenge m challenge =>
                    (set_sasl s (Some (Sasl m pending)),
                     [RChallenge (if nonempty challenge then b64_encode B64Std challenge else B "+")], HOk, None)
                end
            end
        end
    end.

  (** downstream.go:672-732: the verification of the credentials: the names and whether it is an
      impersonation; [None] is a failure. *)
  Definition verify (e : env) (c : creds) : option (bytes * bytes * bytes * bool) :=
    match c with
    | CPlain authzid username password =>
        let names := unmarshal_username username in
        match e_plain e with
        | None => None
        | Some f =>
            if negb (f (fst (fst names)) password) then None
            else if beqb authzid [] || beqb authzid username then Some (names, false)
            else match e_user e (fst (fst names)) with
                 | None => None
                 | Some admin =>
                     if negb admin then None
                     else let names' := unmarshal_username authzid in
                          match e_user e (fst (fst names')) with
                          | None => None
                          | Some _ => Some (names', true)
                          end
                 end
        end
    | COauth username token =>
        match e_oauth e with
        | None => None
        | Some g => match g token with
                    | None => None
                    | Some u => if nonempty username && negb (beqb username u) then None else Some (u, [], [], false)
                    end
        end
    | CAnonymous => None
    end.

  (** downstream.go:660-750: AUTHENTICATE before the registration. An empty username is a panic. *)
  Definition handle_auth (s : rstate) (e : env) (params : list bytes) : rstate * list rout * hres :=
    match handle_authenticate s params with
    | (s1, outs, r, None) => (s1, outs, r)
    | (s1, outs, r, Some c) =>
        match verify e c with
        | None => (set_sasl s1 None, outs ++ [RError (B "904")], r)
        | Some (names, imp) =>
            if beqb (fst (fst names)) [] then (s1, outs, HFatal)
            else (set_sasl (set_imp (set_auth s1 names) imp) None, outs ++ [RSuccess], r)
        end
    end.

  (** downstream.go:648-793 (handleMessageUnregistered) and 624-646 (handleMessage; QUIT shuts the
      connection down). strings.ToUpper is modelled for ASCII letters. *)
  Definition handle_unregistered (s : rstate) (e : env) (ord : list (bytes * bytes) -> list (bytes * bytes)) (m : message) : rstate * list rout * hres :=
    let cmd := m_command m in
    if beqb cmd (B "QUIT") then (set_closed s, [], HOk)
    else if beqb cmd (B "NICK") then
      match m_params m with n :: _ => (set_nick s n, [], HOk) | _ => (s, [], HError (B "461")) end
    else if beqb cmd (B "USER") then
      match m_params m with u :: _ :: _ :: _ :: _ => (set_username s u, [], HOk) | _ => (s, [], HError (B "461")) end
    else if beqb cmd (B "PASS") then
      match m_params m with p :: _ => (set_pass s p, [], HOk) | _ => (s, [], HError (B "461")) end
    else if beqb cmd (B "CAP") then
      let r := handle_cap atoi (r_caps s) ord (m_params m) in
      (set_caps s (fst r), map RCap (snd r),
       if existsb (fun c => match c with CapClosed => true | _ => false end) (snd r) then HFatal else HOk)
    else if beqb cmd (B "AUTHENTICATE") then handle_auth s e (m_params m)
    else if beqb cmd (B "BOUNCER") then
      match m_params m with
      | [] => (s, [], HError (B "461"))
      | sub :: args =>
          if beqb (to_upper sub) (B "BIND") then
            match args with
            | [] => (s, [], HError (B "461"))
            | i :: _ => if beqb (r_auth s) [] then (s, [], HError (B "FAIL"))
                        else match parse_id i with Some n => (set_netid s n, [], HOk) | None => (s, [], HError (B "FAIL")) end
            end
          else (s, [], HError (B "FAIL"))
      end
    else if beqb cmd (B "AWAY") then (s, [RAway], HOk)
    else (s, [], HError (B "421")).

  (** downstream.go:1296-1366 (register). *)
  Definition merge (a b : bytes) : option bytes :=
    if beqb a [] then Some b else if nonempty b && negb (beqb a b) then None else Some a.
  Definition register (s : rstate) (e : env) : rstate * list rout * hres :=
    let '(s, outs) := match r_sasl s with Some _ => (set_sasl s None, [RError (B "906")]) | None => (s, []) end in
    let password := r_pass s in
    let s := set_pass s [] in
    let names := unmarshal_username (r_username s) in
    let '(s, err) :=
      if beqb (r_auth s) [] then
        if beqb password [] then (s, Some (if is_enabled (r_caps s) (B "sasl") then B "FAIL" else B "464"))
        else match e_plain e with
             | None => (s, Some (B "464"))
             | Some f => if f (fst (fst names)) password then (set_auth s names, None) else (s, Some (B "464"))
             end
      else (s, None) in
    match err with
    | Some c => (s, outs, HError c)
    | None =>
        match merge (r_client s) (snd (fst names)) with
        | None => (s, outs, HError (B "432"))
        | Some client =>
            match merge (r_netname s) (snd names) with
            | None => (set_names s client (r_netname s), outs, HError (B "432"))
            | Some netname =>
                let s := set_names s client netname in
                (set_user (set_caps s (Cstate (cs_avail (r_caps s)) (cs_enabled (r_caps s)) (cs_version (r_caps s)) true (cs_negotiating (r_caps s))))
                          (Some (r_auth s)), outs, HOk)
            end
        end
    end.

  (** downstream.go:1732-1757: an iteration of the loop of runUntilRegistered. *)
  Definition errs (r : hres) : list rout := match r with HError c => [RError c] | _ => [] end.
  Definition rstep (s : rstate) (e : env) (ord : list (bytes * bytes) -> list (bytes * bytes)) (m : message) : rstate * list rout :=
    if r_closed s then (s, [])
    else match r_user s with
    | Some _ => (s, [])
    | None =>
        let '(s1, outs, r) := handle_unregistered s e ord m in
        match r with
        | HFatal => (set_closed s1, outs)
        | _ =>
            if beqb (r_nick s1) [] || beqb (r_username s1) [] || cs_negotiating (r_caps s1) then (s1, outs ++ errs r)
            else let '(s2, outs2, r2) := register s1 e in
                 (match r2 with HOk => s2 | _ => set_closed s2 end, outs ++ errs r ++ outs2 ++ errs r2)
        end
    end.

  (** The messages of a connection, with the answers of the outside and the order of maps. *)
  Definition rev_ := (env * (list (bytes * bytes) -> list (bytes * bytes)) * message)%type.
  Fixpoint rrun (s : rstate) (es : list rev_) : rstate * list rout :=
    match es with
    | [] => (s, [])
    | (e, ord, m) :: es' => let r := rstep s e ord m in let r' := rrun (fst r) es' in (fst r', snd r ++ snd r')
    end.
End Register.

(** ** The user goroutine and its connections, user.go:720-815.

    [g_alive]: the goroutine runs; it ends if a handler panics (server.go:440-455). [g_conns]: the list
    downstreamConns. [g_welcomed]: the connections whose field user is set (downstream.go:1450). *)
Record group := Group' { g_alive : bool; g_enabled : bool; g_conns : list N; g_welcomed : list N }.

(** What can happen: a connection is registered ([auto]: the setting EnableUsersOnAuth and the
    database accepts the change; [ok]: loadNetwork succeeds); a message is handled by a handler that
    uses dc.user or not; a connection ends; the account is enabled or disabled. *)
Inductive gev :=
| GConnected (id : N) (auto ok : bool)
| GMessage (id : N) (uses_user : bool)
| GDisconnected (id : N)
| GUpdate (enabled : bool).

Definition nmem (x : N) (l : list N) : bool := existsb (N.eqb x) l.

(** user.go:720-780, 782-806, 807-815 and 1192-1267. A handler that reads a field of dc.user, such as
    the one of BOUNCER LISTNETWORKS (downstream.go:3085-3086), panics if it is nil. *)
Definition gstep (g : group) (e : gev) : group :=
  if negb (g_alive g) then g
  else match e with
  | GConnected id auto ok =>
      let enabled := g_enabled g || auto in
      if negb enabled then g
      else Group' true enabled (if ok then g_conns g ++ [id] else g_conns g) (g_welcomed g ++ [id])
  | GMessage id uses_user =>
      if uses_user && negb (nmem id (g_welcomed g)) then Group' false (g_enabled g) (g_conns g) (g_welcomed g) else g
  | GDisconnected id => Group' true (g_enabled g) (filter (fun x => negb (N.eqb x id)) (g_conns g)) (g_welcomed g)
  | GUpdate b => Group' true b (g_conns g) (g_welcomed g)
  end.
Definition grun (g : group) (es : list gev) : group := fold_left gstep es g.
