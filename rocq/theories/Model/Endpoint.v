(** Model of where the requests of push notifications go: the check of an endpoint (downstream.go:3499-3523), which is
    made by WEBPUSH REGISTER (downstream.go:3269-3276), and the requests of Model/Push.v (server.go:332-377, 807-812),
    which are made by net/http of Go's standard library. url.Parse is in Model/Addr.v (that of Go before 1.26, and of
    later versions for a module that asks for go 1.19 as this one does), net.ParseIP is in Model/IPAddr.v.

    Simplifications: no proxy is set in the environment (http.ProxyFromEnvironment); locations of redirections are
    absolute URLs; a connection lists all addresses that may be tried (net.Dialer tries them until one works). *)
From Coq Require Import ZArith.
From Verif.Base Require Import Bytes.
From Verif.Model Require Import SourceAddr IPAddr Networks.
From Verif.Model Require Addr Push Identd.

(** net: IP.IsLoopback, IP.IsMulticast, IP.IsPrivate. *)
Definition byte_at (a : ip) (i : nat) : N := nth i a 0%N.
Definition is_loopback (a : ip) : bool :=
  match to4 a with
  | Some q => (byte_at q 0 =? 127)%N
  | None => list_eqb a (repeat 0%N 15 ++ [1%N])
  end.
Definition is_multicast (a : ip) : bool :=
  match to4 a with
  | Some q => (N.land (byte_at q 0) 240 =? 224)%N
  | None => Nat.eqb (length a) 16 && (byte_at a 0 =? 255)%N
  end.
Definition is_private (a : ip) : bool :=
  match to4 a with
  | Some q => (byte_at q 0 =? 10)%N || ((byte_at q 0 =? 172) && (N.land (byte_at q 1) 240 =? 16))%N ||
              ((byte_at q 0 =? 192) && (byte_at q 1 =? 168))%N
  | None => Nat.eqb (length a) 16 && (N.land (byte_at a 0) 254 =? 252)%N
  end.

(** net/netip: ParseAddr as net.Resolver.lookupIPAddr uses it: the zone is kept aside. *)
Definition parse_literal (s : bytes) : option ip :=
  match addr_family s with
  | Some V4 => parse_v4 s
  | Some V6 =>
      match cut_on "%" s with
      | (a, None) => parse_v6 a
      | (a, Some []) => None
      | (a, Some _) => parse_v6 a
      end
  | None => None
  end.

(** What the world is like during a step: the DNS, and the answer to a request to a host and port with or without
    TLS: none, or a status and the header Location. *)
Record world := World { dns : bytes -> option (list ip); answer : bool -> bytes -> bytes -> option (N * bytes) }.

(** net: isDomainName; only these bytes may be in a name that is looked up. *)
Definition name_char (c : ascii) : bool := Addr.alnum c || amem c (B "-_.").
(** net: Resolver.LookupIP, Resolver.internetAddrList, Resolver.lookupIPAddr. *)
Definition lookup (w : world) (host : bytes) : option (list ip) :=
  let found :=
    match parse_literal host with
    | Some a => Some [a]
    | None => if negb (beqb host []) && forallb name_char host then match dns w host with Some [] => None | r => r end else None
    end in
  match found with
  | Some [a] => if list_eqb a (repeat 0%N 16) then Some [a; [0; 0; 0; 0]%N] else Some [a]
  | r => r
  end.

(** downstream.go:3499-3523 (sanityCheckWebPushEndpoint). *)
Definition sane (w : world) (endpoint : bytes) : bool :=
  match Addr.parse_url endpoint with
  | None => false
  | Some u =>
      if negb (beqb (u_scheme u) (B "https")) then false
      else match lookup w (u_host u) with
           | None => false
           | Some l => forallb (fun a => negb (is_loopback a || is_multicast a || is_private a)) l
           end
  end.

(** net/url: URL.Hostname and URL.Port (splitHostPort). *)
Definition split_host (h : bytes) : bytes * bytes :=
  let '(host, port) := match Identd.cut_last ":" h with
                       | Some (a, p) => if forallb is_digit p then (a, p) else (h, [])
                       | None => (h, [])
                       end in
  (match host with
   | c :: r => if aeqb c "[" && aeqb (last r " "%char) "]" then removelast r else host
   | [] => host
   end, port).

(** A connection: with TLS or without, to a host and port, which has these addresses. *)
Record conn := Conn { k_tls : bool; k_host : bytes; k_port : bytes; k_addrs : list ip }.

(** net/http: canonicalAddr and Transport.dial. *)
Definition target (u : url) : option (bool * bytes * bytes) :=
  let '(host, port) := split_host (u_host u) in
  if beqb (u_scheme u) (B "https") then Some (true, host, match port with [] => B "443" | _ => port end)
  else if beqb (u_scheme u) (B "http") then Some (false, host, match port with [] => B "80" | _ => port end)
  else None.

(** net/http: redirectBehavior. *)
Definition is_redirect (code : N) : bool := existsb (N.eqb code) [301; 302; 303; 307; 308]%N.

(** net/http: Client.do with defaultCheckRedirect: [fuel] is how many requests may still be made. The last answer,
    and the connections. *)
Fixpoint fetch (w : world) (fuel : nat) (u : url) : option N * list conn :=
  match fuel with
  | O => (None, [])
  | S fuel =>
      match target u with
      | None => (None, [])
      | Some (tls, host, port) =>
          match lookup w host with
          | None => (None, [])
          | Some l =>
              let k := Conn tls host port l in
              match answer w tls host port with
              | None => (None, [k])
              | Some (code, location) =>
                  if is_redirect code && negb (beqb location []) then
                    match Addr.parse_url location with
                    | None => (None, [k])
                    | Some u' => let '(r, c) := fetch w fuel u' in (r, k :: c)
                    end
                  else (Some code, [k])
              end
          end
      end
  end.
Definition request (w : world) (endpoint : bytes) : option N * list conn :=
  match Addr.parse_url endpoint with None => (None, []) | Some u => fetch w 10 u end.

(** server.go:363-376. *)
Definition result (r : option N) : Push.wres :=
  match r with
  | None => Push.WError
  | Some c => if (c =? 404)%N then Push.WExpired else if (c / 100 =? 2)%N then Push.WOk else Push.WError
  end.

(** A step of Model/Push.v, with the world when an endpoint is checked and when a request is made. What the step
    takes as given about the check and the answer comes from there, and the connections are put out. *)
Section Step.
  Variable serial : bool.
  Variable vapid : bytes.
  Variable parse_tags : bytes -> list (bytes * bytes).
  Variable cm : N -> N -> bytes -> bytes.
  Variable time_text : Z -> bytes.

  Definition settle (s : Push.wst) (e : Push.wev) (at_check at_request : world) : Push.wev :=
    match e with
    | Push.WCommand u n cap (sub :: ep :: r) now _ _ =>
        Push.WCommand u n cap (sub :: ep :: r) now (sane at_check ep) (result (fst (request at_request ep)))
    | Push.WSend k now _ =>
        match Push.find_job s k with
        | Some (Push.Job _ _ _ _ (Some (x :: _))) => Push.WSend k now (result (fst (request at_request (Push.u_end x))))
        | _ => e
        end
    | _ => e
    end.
  Definition connections (w : world) (o : Push.wout) : list conn :=
    match o with
    | Push.OTest ep _ _ => snd (request w ep)
    | Push.ORequest _ _ _ ep _ _ _ => snd (request w ep)
    | _ => []
    end.

  Record ev := Ev { e_push : Push.wev; e_check : world; e_request : world }.
  Definition step (s : Push.wst) (e : ev) : Push.wst * (list Push.wout * list conn) :=
    let '(s1, o) := Push.wstep serial vapid parse_tags cm time_text s (settle s (e_push e) (e_check e) (e_request e)) in
    (s1, (o, flat_map (connections (e_request e)) o)).
  Fixpoint run (l : list ev) (s : Push.wst) : Push.wst * list (ev * (list Push.wout * list conn)) :=
    match l with
    | [] => (s, [])
    | e :: l => let '(s1, o) := step s e in let '(s2, t) := run l s1 in (s2, (e, o) :: t)
    end.
End Step.
