(** Addresses of networks as they are documented: [[scheme://]host[:port]], with TLS unless the scheme is
    irc+insecure. *)
From Verif.Base Require Import Bytes.
From Verif.Model Require Import Networks Addr.

(** Names of hosts and IPv4 addresses; IPv6 addresses, written between brackets; ports. *)
Definition host_name (h : bytes) : Prop :=
  h <> [] /\ forall c, In c h -> In c (B "abcdefghijklmnopqrstuvwxyzABCDEFGHIJKLMNOPQRSTUVWXYZ0123456789-._").
Definition ipv6 (h : bytes) : Prop :=
  h <> [] /\ forall c, In c h -> In c (B "0123456789abcdefABCDEF:.").
Definition port_number (p : bytes) : Prop := p <> [] /\ forall c, In c p -> In c (B "0123456789").
Inductive host_of : bytes -> bytes -> Prop :=
| HName h : host_name h -> host_of h h
| HSix h : ipv6 h -> host_of (B "[" ++ h ++ B "]") h.

(** How an address is written: with TLS, two ways; without. *)
Inductive written : bool -> bytes -> bytes -> Prop :=
| WBare a : written true a a
| WTls a : written true a (B "ircs://" ++ a)
| WPlain a : written false a (B "irc+insecure://" ++ a).

(** A file name that needs no escapes. *)
Definition socket_path (p : bytes) : Prop :=
  exists q, p = B "/" ++ q /\ forall c, In c q -> In c (B "abcdefghijklmnopqrstuvwxyzABCDEFGHIJKLMNOPQRSTUVWXYZ0123456789-._/").

(** The text before the first colon. *)
Definition scheme (addr s : bytes) : Prop := exists rest, addr = s ++ B ":" ++ rest /\ ~ In ":"%char s.

(** What clients see of an address: host, port, tls. *)
Definition shown (r : netrec) := addr_attrs parse_url Identd.split_host_port r.
Definition dflt (o : option bytes) (d : bytes) : bytes := match o with Some x => x | None => d end.
(** A port that is absent or empty is the default port. *)
Definition port_attr (o : option bytes) : Prop := match o with None | Some [] => True | Some p => port_number p end.
Definition tls_attr (o : option bytes) : Prop := match o with None => True | Some t => t = B "0" \/ t = B "1" end.
(** TLS unless it is "0". *)
Definition asks_tls (o : option bytes) (b : bool) : Prop := b = false <-> o = Some (B "0").
(** Host and port as clients give them, with the default port when there is none. *)
Definition endpoint (b : bool) (h : bytes) (p : option bytes) : bytes :=
  h ++ B ":" ++ match p with None | Some [] => if b then B "6697" else B "6667" | Some p => p end.
