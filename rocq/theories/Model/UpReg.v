(** Model of the registration of the bouncer with a server: capability
    negotiation and SASL as a client (upstream.go:29-48, 634-700, 705-826, 863-912,
    928-951, 1764-1779, 1788-1797, 1812-1851, 1911-2083).

    Simplifications: the nickname after ERR_NICKNAMEINUSE is in Model/Nick.v, and
    the requests of clients that wait for an answer in Model/Pending.v and
    Model/AutoSave.v. Messages that have no effect on the registration change
    nothing. The credentials of the network do not change during a connection.
    [strings.Fields] and [strings.ToLower] are those of ASCII. *)
From Verif.Base Require Import Bytes Base64.
From Verif.Model Require Import Message GenMsg Caps.
Open Scope nat_scope.

(** upstream.go:29-48 (permanentUpstreamCaps). *)
Definition wanted_caps : list bytes :=
  [B "account-notify"; B "account-tag"; B "away-notify"; B "batch"; B "chghost"; B "extended-join"; B "extended-monitor";
   B "invite-notify"; B "labeled-response"; B "message-tags"; B "multi-prefix"; B "sasl"; B "server-time"; B "setname";
   B "draft/account-registration"; B "draft/extended-monitor"].

(** What is needed of the user's and the network's record: database.GetNick,
    GetUsername and GetRealname have been applied. *)
Record gcfg := GCfg { g_pass : bytes; g_nick : bytes; g_username : bytes; g_realname : bytes;
  g_mech : bytes; g_user : bytes; g_secret : bytes; g_chans : list (bytes * bytes); g_cmds : list bytes }.

(** go-sasl: the client for PLAIN without identity, or EXTERNAL without identity. *)
Inductive gclient := GPlain (user secret : bytes) | GExternal.

(** upstream.go:180-260: the fields this is about. [s_closed]: the connection was
    given up after an error. [s_n] counts the visits of the map of capabilities. *)
Record gst := GSt { s_avail : list (bytes * bytes); s_enabled : list bytes; s_client : option gclient; s_started : bool;
  s_reg : bool; s_closed : bool; s_n : nat }.
Definition new_gst : gst := GSt [] [] None false false false 0.
Definition with_avail s l := GSt l (s_enabled s) (s_client s) (s_started s) (s_reg s) (s_closed s) (s_n s).
Definition with_enabled s l := GSt (s_avail s) l (s_client s) (s_started s) (s_reg s) (s_closed s) (s_n s).
Definition with_client s c b := GSt (s_avail s) (s_enabled s) c b (s_reg s) (s_closed s) (s_n s).
Definition set_reg s := GSt (s_avail s) (s_enabled s) (s_client s) (s_started s) true (s_closed s) (s_n s).
Definition set_closed s := GSt (s_avail s) (s_enabled s) (s_client s) (s_started s) (s_reg s) true (s_n s).
Definition visited s := GSt (s_avail s) (s_enabled s) (s_client s) (s_started s) (s_reg s) (s_closed s) (S (s_n s)).

Definition up_available (s : gst) (c : bytes) : bool := match bget (s_avail s) c with Some _ => true | None => false end.
Definition up_enabled (s : gst) (c : bytes) : bool := bmem c (s_enabled s).

(** upstream.go:1911-1922 (handleSupportedCaps). *)
Definition cap_kv (t : bytes) : bytes * bytes :=
  match cut_on "=" t with (k, Some v) => (to_lower k, v) | (k, None) => (to_lower k, []) end.
Definition supported_caps (avail : list (bytes * bytes)) (text : bytes) : list (bytes * bytes) :=
  fold_left (fun m t => bset m (fst (cap_kv t)) (snd (cap_kv t))) (fields text) avail.

(** upstream.go:1949-1966 (supportsSASL); strings.EqualFold for mechanisms without
    K and S. *)
Definition supports_sasl (s : gst) (mech : bytes) : bool :=
  match bget (s_avail s) (B "sasl") with
  | None => false
  | Some [] => true
  | Some v => existsb (fun m => beqb (to_upper m) (to_upper mech)) (split_on "," v)
  end.

Definition cap_end : message := msg (B "CAP") [B "END"].
Definition auth (p : bytes) : message := msg (B "AUTHENTICATE") [p].

(** go-sasl plain.go and external.go: Start. *)
Definition nul : ascii := ascii_of_nat 0.
Definition start_client (c : gclient) : bytes :=
  match c with GPlain u p => nul :: u ++ nul :: p | GExternal => [] end.

Section UpReg.
  (** The order in which Go visits permanentUpstreamCaps the n-th time; the
      channels in the order of GenerateJoin after its sort; irc.ParseMessage. *)
  Variable order : nat -> list bytes.
  Variable sorted : list (bytes * bytes) -> list (bytes * bytes).
  Variable parse_command : bytes -> option message.
  Variable cfg : gcfg.

  (** upstream.go:2020-2045 (register). *)
  Definition register : list message :=
    msg (B "CAP") [B "LS"; B "302"] ::
    (match g_pass cfg with [] => [] | p => [msg (B "PASS") [p]] end) ++
    [msg (B "NICK") [g_nick cfg]; msg (B "USER") [g_username cfg; B "0"; B "*"; g_realname cfg]].

  (** upstream.go:1924-1947 (updateCaps). *)
  Definition request (s : gst) : list bytes :=
    filter (fun c => up_available s c && negb (up_enabled s c)) (order (s_n s)) ++
    (if negb (up_enabled s (B "echo-message")) && up_available s (B "labeled-response") then [B "echo-message"]
     else if up_enabled s (B "echo-message") && negb (up_available s (B "labeled-response")) then [B "-echo-message"] else []).
  Definition update_caps (s : gst) : list message :=
    match request s with [] => [] | l => [msg (B "CAP") [B "REQ"; join (B " ") l]] end.

  (** upstream.go:1968-1973 (requestSASL). *)
  Definition request_sasl (s : gst) : bool := match g_mech cfg with [] => false | m => supports_sasl s m end.

  Definition res := (gst * list message)%type.
  (** An error ends a connection that is not registered yet, and is only logged
      otherwise (upstream.go:2063-2070, user.go:225-250, 707-709). *)
  Definition fail (s : gst) (o : list message) : res := (if s_reg s then s else set_closed s, o).

  (** upstream.go:1975-2012 (handleCapAck); [true]: an error. *)
  Definition cap_ack (s : gst) (name : bytes) (ok : bool) : res * bool :=
    let s := with_enabled s (set_enabled (s_enabled s) name ok) in
    if beqb name (B "sasl") then
      if negb (request_sasl s) then (s, [], false)
      else if negb ok then (s, [], false)
      else if beqb (g_mech cfg) (B "PLAIN") then
        (with_client s (Some (GPlain (g_user cfg) (g_secret cfg))) (s_started s), [auth (g_mech cfg)], false)
      else if beqb (g_mech cfg) (B "EXTERNAL") then (with_client s (Some GExternal) (s_started s), [auth (g_mech cfg)], false)
      else (s, [], true)
    else (s, [], false).

  (** upstream.go:743-761. *)
  Definition ack_token (ack : bool) (t : bytes) : bytes * bool :=
    match t with
    | c :: r => if aeqb c "-" then (to_lower r, false) else (to_lower t, ack)
    | [] => (to_lower t, ack)
    end.
  Fixpoint acks (ack : bool) (toks : list bytes) (s : gst) : res :=
    match toks with
    | [] => (s, [])
    | t :: toks =>
        let '(name, on) := ack_token ack t in
        let '(s1, o1, err) := cap_ack s name on in
        if err then fail s1 o1 else let '(s2, o2) := acks ack toks s1 in (s2, o1 ++ o2)
    end.

  (** upstream.go:705-781. *)
  Definition on_cap (s : gst) (params : list bytes) : res :=
    match params with
    | _ :: sub :: subs =>
        let sub := to_upper sub in
        if beqb sub (B "LS") then
          match subs with
          | [] => fail s []
          | _ =>
              let more := (2 <=? length subs) && beqb (nth (length subs - 2) params []) (B "*") in
              let s := with_avail s (supported_caps (s_avail s) (last subs [])) in
              if more then (s, [])
              else (visited s, update_caps s ++ (if request_sasl s then [] else [cap_end]))
          end
        else if beqb sub (B "ACK") || beqb sub (B "NAK") then
          match subs with [] => fail s [] | t :: _ => acks (beqb sub (B "ACK")) (fields t) s end
        else if beqb sub (B "NEW") then
          match subs with
          | [] => fail s []
          | t :: _ => let s := with_avail s (supported_caps (s_avail s) t) in (visited s, update_caps s)
          end
        else if beqb sub (B "DEL") then
          match subs with
          | [] => fail s []
          | t :: _ => (fold_left (fun s c => with_enabled (with_avail s (bdel (s_avail s) c)) (set_enabled (s_enabled s) c false)) (fields t) s, [])
          end
        else (s, [])
    | _ => fail s []
    end.

  (** upstream.go:782-830. *)
  Definition on_authenticate (s : gst) (params : list bytes) : res :=
    match s_client s with
    | None => fail s []
    | Some c =>
        match params with
        | [] => fail s [auth (B "*")]
        | p :: _ =>
            if negb (beqb p (B "+")) && match b64_decode B64Std p with None => true | Some _ => false end then fail s [auth (B "*")]
            else if negb (s_started s) then (with_client s (Some c) true, generate_sasl (start_client c))
            else fail s [auth (B "*")]       (* Next of both clients *)
        end
    end.

  Definition sasl_results : list bytes := [B "902"; B "903"; B "904"; B "905"; B "906"].
  Definition command_errors : list bytes := [B "400"; B "421"; B "461"; B "263"].
  Definition registration_errors : list bytes := [B "464"; B "432"; B "436"; B "437"; B "463"; B "465"].

  (** upstream.go:928-951, 2072-2080. *)
  Definition joins : list message := match g_chans cfg with [] => [] | l => generate_join (sorted l) end.
  Definition connect_commands : list message :=
    flat_map (fun c => match parse_command c with Some m => [m] | None => [] end) (g_cmds cfg).

  (** upstream.go:583-1855 (handleMessage) inside and after runUntilRegistered. *)
  Definition on_server (s : gst) (m : message) : res :=
    let c := m_command m in
    if s_closed s then (s, [])
    else if beqb c (B "PING") then (s, [msg (B "PONG") (m_params m)])
    else if beqb c (B "CAP") then on_cap s (m_params m)
    else if beqb c (B "AUTHENTICATE") then on_authenticate s (m_params m)
    else if bmem c sasl_results then
      if length (m_params m) <? 2 then fail s []
      else (with_client s None false, if s_reg s then [] else [cap_end])
    else if bmem c command_errors then
      match m_params m with
      | _ :: cmd :: _ :: _ => (if beqb cmd (B "AUTHENTICATE") then with_client s None false else s, [])
      | _ => fail s []
      end
    else if beqb c (B "FAIL") then
      match m_params m with
      | cmd :: code :: _ => if negb (s_reg s) && beqb cmd (B "*") && beqb code (B "ACCOUNT_REQUIRED") then fail s [] else (s, [])
      | _ => fail s []
      end
    else if beqb c (B "ERROR") then fail s []
    else if bmem c registration_errors then if s_reg s then (s, []) else fail s []
    else if beqb c (B "001") then
      match m_params m with
      | [] => fail s []
      | _ => (set_reg s, joins ++ (if s_reg s then [] else connect_commands))
      end
    else (s, []).

  (** downstream.go:2530-2572: a client logs in after the registration; [free]:
      no other request waits for an answer. *)
  Inductive gev := GMsg (m : message) | GAuth (user secret : bytes) (free : bool).
  Definition gstep (s : gst) (e : gev) : res :=
    match e with
    | GMsg m => on_server s m
    | GAuth u p free =>
        if s_closed s || negb (s_reg s) || negb (up_enabled s (B "sasl")) || match s_client s with Some _ => true | None => false end then (s, [])
        else (with_client s (Some (GPlain u p)) (s_started s), if free then [auth (B "PLAIN")] else [])
    end.
  Fixpoint gsteps (l : list gev) (s : gst) : res :=
    match l with
    | [] => (s, [])
    | e :: l => let '(s1, o1) := gstep s e in let '(s2, o2) := gsteps l s1 in (s2, o1 ++ o2)
    end.
End UpReg.
