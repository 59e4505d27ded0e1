(** Model of where the bouncer listens (cmd/soju/main.go:141-436) and of the address a client is said to come from
    (server.go:662-704, cmd/soju/main.go:467-482, downstream.go:383-387). Texts of addresses and ranges are in
    Model/IPAddr.v, URLs in Model/Addr.v, net.SplitHostPort in Model/Identd.v. *)
From Coq Require Import NArith.
From Verif.Base Require Import Bytes.
From Verif.Model Require Import Networks Addr IPAddr.
From Verif.Model Require Identd.

(** mime: isTSpecial, isTokenChar, consumeToken. *)
Definition tspecial (c : ascii) : bool := amem c (B "()<>@,;:\/[]?=") || aeqb c """".
Definition token_char (c : ascii) : bool := (32 <? code c)%N && (code c <? 127)%N && negb (tspecial c).
Fixpoint consume_token (v : bytes) : bytes * bytes :=
  match v with
  | c :: v' => if token_char c then let '(t, r) := consume_token v' in (c :: t, r) else ([], v)
  | [] => ([], [])
  end.

(** mime: consumeValue, after the opening quote. None: no closing quote, or the end of a line. *)
Fixpoint quoted (v : bytes) : option (bytes * bytes) :=
  match v with
  | [] => None
  | c :: v' =>
      if aeqb c """" then Some ([], v')
      else match v' with
           | d :: v'' =>
               if aeqb c "\" && tspecial d then option_map (fun '(s, r) => (d :: s, r)) (quoted v'')
               else if aeqb c "013" || aeqb c "010" then None
               else option_map (fun '(s, r) => (c :: s, r)) (quoted v')
           | [] => None
           end
  end.
Definition consume_value (v : bytes) : bytes * bytes :=
  match v with
  | [] => ([], [])
  | c :: v' => if aeqb c """" then match quoted v' with Some x => x | None => ([], v) end else consume_token v
  end.

(** mime: consumeMediaParam. White space is ASCII white space only: unicode.IsSpace also skips white space of other
    alphabets. *)
Definition consume_param (v : bytes) : option (bytes * bytes * bytes) :=
  match Identd.trim_left v with
  | c :: rest =>
      if negb (aeqb c ";") then None
      else let '(param, rest) := consume_token (Identd.trim_left rest) in
           if beqb param [] then None
           else match Identd.trim_left rest with
                | e :: rest =>
                    if negb (aeqb e "=") then None
                    else let rest := Identd.trim_left rest in
                         let '(value, rest2) := consume_value rest in
                         if beqb value [] && beqb rest2 rest then None else Some (to_lower param, value, rest2)
                | [] => None
                end
  | [] => None
  end.

(** Parameters in the order in which they are read. *)
Fixpoint assoc (k : bytes) (l : list (bytes * bytes)) : option bytes :=
  match l with [] => None | (a, v) :: l' => if beqb a k then Some v else assoc k l' end.

(** mime.ParseMediaType, the loop; None is an error. [fuel] is at least the length of the text: every round consumes
    a semicolon at least. *)
Fixpoint media_params (fuel : nat) (v : bytes) (acc : list (bytes * bytes)) : option (list (bytes * bytes)) :=
  match fuel with
  | O => Some acc
  | S fuel =>
      match Identd.trim_left v with
      | [] => Some acc
      | v =>
          match consume_param v with
          | None => if beqb (Identd.trim_space v) (B ";") then Some acc else None
          | Some (k, x, rest) =>
              match assoc k acc with
              | Some y => if beqb y x then media_params fuel rest acc else None
              | None => media_params fuel rest (acc ++ [(k, x)])
              end
          end
      end
  end.

Section Http.
  (** mime.ParseMediaType, the end: what the parameters with a star in their name (RFC 2231) add to the one asked for,
      which is then taken instead. *)
  Variable starred : bytes -> list (bytes * bytes) -> option bytes.

  Definition media_param (k : bytes) (v : bytes) : bytes :=
    match media_params (S (length v)) v [] with
    | None => []
    | Some l => match starred k (filter (fun p => amem "*" (fst p)) l) with
                | Some x => x
                | None => of_null (assoc k l)
                end
    end.

  (** http.Header.Get, of headers with canonical names. *)
  Definition header := list (bytes * bytes).
  Definition get (h : header) (k : bytes) : bytes := of_null (assoc k h).

  (** server.go:692-704 (parseForwarded), of the parameter "for". The media type is always "hack", and what comes
      after it is "; " and the header. *)
  Definition forwarded_for (h : header) : bytes :=
    match get h (B "Forwarded") with
    | [] => get h (B "X-Forwarded-For")
    | f => media_param (B "for") (B "; " ++ f)
    end.

  (** server.go:662-690 (ServeHTTP), after the WebSocket handshake: the remote address of the connection. *)
  Definition is_proxy (proxies : list cidr) (remote : bytes) : bool :=
    match Identd.split_host_port remote with
    | None => false
    | Some (host, _) => match parse_ip host with None => false | Some a => set_contains proxies a end
    end.
  Definition ws_remote (proxies : list cidr) (remote : bytes) (h : header) : bytes :=
    if is_proxy proxies remote then match forwarded_for h with [] => remote | f => f end else remote.
End Http.

(** cmd/soju/main.go:467-482 (proxyProtoListener): the remote address of a connection on which a header of the PROXY
    protocol names [header], if one does. The socket's own address is that of a TCP connection, with its text, or
    another one. The listener of github.com/pires/go-proxyproto reads a header in any case, and takes its address with
    the policy USE only. *)
Inductive peer := PTcp (a : SourceAddr.ip) (text : bytes) | POther (text : bytes).
Definition peer_text (p : peer) : bytes := match p with PTcp _ t | POther t => t end.
Definition proto_remote (proxies : list cidr) (p : peer) (header : option bytes) : bytes :=
  match p with
  | PTcp a _ => if set_contains proxies a then match header with Some h => h | None => peer_text p end else peer_text p
  | POther _ => peer_text p
  end.

(** downstream.go:383-387: the host of the client in messages. *)
Definition client_host (remote : bytes) : bytes :=
  match Identd.split_host_port remote with Some (h, _) => h | None => remote end.

(** ** Listeners *)

(** net/url: URL.Hostname (splitHostPort). *)
Definition url_hostname (host : bytes) : bytes :=
  let host := match Identd.cut_last ":" host with
              | Some (h, p) => if forallb is_digit p then h else host
              | None => host
              end in
  match host with
  | c :: rest => if aeqb c "[" then match Identd.cut_last "]" rest with Some (h, []) => h | _ => host end else host
  | [] => host
  end.

(** cmd/soju/main.go:484-489 (withDefaultPort). *)
Definition with_port (addr port : bytes) : bytes :=
  match Identd.split_host_port addr with Some _ => addr | None => addr ++ B ":" ++ port end.

(** A socket: of TCP, with or without TLS, or of a path, which then has its mode changed; a failure of this is fatal
    or not. *)
Inductive socket :=
| STls (addr : bytes)
| SPlain (addr : bytes)
| SUnix (path chmod : bytes) (mode : N) (fatal : bool).
(** What is behind it: IRC with accounts, the administration service, IRC over WebSocket, WebSocket and uploads below
    /socket and /uploads, ident, metrics, profiles. *)
Inductive handler := HIrc | HAdmin | HWs | HHttp | HIdent | HMetrics | HPprof.
(** [l_proto]: PROXY headers are read (proxyProtoListener). *)
Record listener := Listener { l_sock : socket; l_handler : handler; l_proto : bool }.

Definition mode775 : N := 509.
Definition mode600 : N := 384.
Definition admin_path : bytes := B "/run/soju/admin".
Definition local_host : bytes := B "localhost".

(** cmd/soju/main.go:203-436: one listening URI; None is log.Fatalf. Failures of the system calls are not modelled. *)
Definition listen_url (tls : bool) (u : url) : option listener :=
  let sch := u_scheme u in
  let host := u_host u in
  let is s := beqb sch s in
  let local := beqb (url_hostname host) local_host in
  if is (B "ircs") || is (B "") then
    if tls then Some (Listener (STls (with_port host (B "6697"))) HIrc true) else None
  else if is (B "irc") && negb local then None
  else if is (B "irc") || is (B "irc+insecure") then Some (Listener (SPlain (with_port host (B "6667"))) HIrc true)
  else if is (B "unix") then Some (Listener (SUnix (host ++ u_path u) (u_path u) mode775 false) HIrc true)
  else if is (B "unix+admin") then
    let path := match host ++ u_path u with [] => admin_path | p => p end in
    Some (Listener (SUnix path path mode600 true) HAdmin true)
  else if is (B "wss") then
    if tls then Some (Listener (STls (with_port host (B "https"))) HWs false) else None
  else if is (B "ws") && negb local then None
  else if is (B "ws") || is (B "ws+insecure") then Some (Listener (SPlain (with_port host (B "http"))) HWs false)
  else if is (B "ws+unix") then Some (Listener (SUnix (u_path u) (u_path u) mode775 false) HWs false)
  else if is (B "ident") then Some (Listener (SPlain (with_port host (B "113"))) HIdent true)
  else if is (B "http+prometheus") || is (B "http+pprof") then
    match Identd.split_host_port host with
    | Some (h, _) =>
        if beqb h local_host then Some (Listener (SPlain host) (if is (B "http+prometheus") then HMetrics else HPprof) false)
        else None
    | None => None
    end
  else if is (B "https") then
    if tls then Some (Listener (STls (with_port host (B "https"))) HHttp false) else None
  else if is (B "http") && negb local then None
  else if is (B "http") || is (B "http+insecure") then Some (Listener (SPlain (with_port host (B "http"))) HHttp false)
  else if is (B "http+unix") then Some (Listener (SUnix (u_path u) (u_path u) mode775 false) HHttp false)
  else None.
(** cmd/soju/main.go:192-202. *)
Definition listen_on (tls : bool) (listen : bytes) : option listener :=
  let uri := if contains (B ":/") listen then listen else B "//" ++ listen in
  match parse_url uri with None => None | Some u => listen_url tls u end.

(** cmd/soju/main.go:153-156, 192: every URI of the configuration and of the command line, or the default one. *)
Definition listen_uris (cfg flags : list bytes) : list bytes :=
  match cfg ++ flags with [] => [B ":6697"] | l => l end.
Fixpoint open_all (tls : bool) (l : list bytes) : option (list listener) :=
  match l with
  | [] => Some []
  | s :: l' => match listen_on tls s, open_all tls l' with Some x, Some y => Some (x :: y) | _, _ => None end
  end.
