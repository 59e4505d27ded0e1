(** Addresses of clients and listening sockets, as their users see them. *)
From Coq Require Import NArith.
From Verif.Base Require Import Bytes.
From Verif.Model Require Import Listen.
From Verif.Spec Require Import IPAddr.
From Verif.Spec Require Wire Addr.
Open Scope N_scope.

(** ** Where clients come from *)

(** accept-proxy-ip, with these parameters, has the address in it. *)
Definition trusted (cfg : list bytes) (a : list N) : Prop := exists s, In s cfg /\ proxy_word s a.

(** The text of the two ends of a connection: host and port. *)
Definition flat (s : bytes) : Prop := forall c, In c s -> ~ In c (B ":[]").
Definition unbracketed (s : bytes) : Prop := forall c, In c s -> ~ In c (B "[]").
Inductive sock_text : bytes -> bytes -> Prop :=
| SockPlain host port : flat host -> flat port -> sock_text (host ++ B ":" ++ port) host
| SockBracket host port : unbracketed host -> flat port -> sock_text (B "[" ++ host ++ B "]:" ++ port) host.

(** The header Forwarded (RFC 7239, section 4), of one proxy: parameters with semicolons in between. A value is a token
    or in quotes, with backslashes before quotes and backslashes. *)
Definition token_chars : bytes := B "abcdefghijklmnopqrstuvwxyzABCDEFGHIJKLMNOPQRSTUVWXYZ0123456789!#$%&'*+-.^_`{|}~".
Definition token (s : bytes) : Prop := s <> [] /\ Forall (fun c => In c token_chars) s.
Definition escape (c : ascii) : bytes := if aeqb c """" || aeqb c "\" then ["\"%char; c] else [c].
Definition quote (s : bytes) : bytes := """"%char :: flat_map escape s ++ [""""%char].
Inductive value_text : bytes -> bytes -> Prop :=
| VToken v : token v -> value_text v v
| VQuoted v : ~ In "013"%char v -> ~ In "010"%char v -> value_text (quote v) v.
Inductive forwarded_text : bytes -> list (bytes * bytes) -> Prop :=
| FOne k t v : token k -> value_text t v -> forwarded_text (k ++ B "=" ++ t) [(k, v)]
| FCons k t v s l : token k -> value_text t v -> forwarded_text s l -> forwarded_text (k ++ B "=" ++ t ++ B ";" ++ s) ((k, v) :: l).
(** Names do not depend on case, and no name is there twice. *)
Definition named (k : bytes) (l : list (bytes * bytes)) (v : bytes) : Prop := exists k', In (k', v) l /\ to_lower k' = k.
Definition once (l : list (bytes * bytes)) : Prop := NoDup (map (fun p => to_lower (fst p)) l).

(** What a client reads from a line with a source: the command, if there is one. *)
Definition command_of (line : bytes) : option bytes :=
  match Wire.words (match line with
                    | ":"%char :: rest => match cut_on " " rest with (_, Some r) => r | (_, None) => [] end
                    | _ => line
                    end) None with
  | [] => None
  | c :: _ => Some c
  end.

(** ** Listening *)

(** Texts of addresses of the machine itself, for the host "localhost". *)
Definition local_addr (addr : bytes) : Prop :=
  exists port, ~ In ":"%char port /\ (addr = B "localhost:" ++ port \/ addr = B "[localhost]:" ++ port).
(** The URI says so itself: its scheme, whatever the case. *)
Definition says (uri : bytes) (sch : bytes) : Prop := exists s, Addr.scheme uri s /\ to_lower s = sch.

(** Where the documentation says that a URI "scheme://host:port" listens: with TLS or not, what for, and the port if
    there is none. A host may be left out for all of the machine's addresses. *)
Definition anywhere (w : bytes) : Prop := w = [] \/ exists h, Addr.host_of w h.
Definition port_opt (po : option bytes) : Prop := match po with None => True | Some p => Addr.port_number p end.
Definition authority (w : bytes) (po : option bytes) : bytes := match po with None => w | Some p => w ++ B ":" ++ p end.
Definition socket_addr (w : bytes) (po : option bytes) (d : bytes) : bytes := w ++ B ":" ++ match po with None => d | Some p => p end.
Definition tcp_table : list (bytes * (bool * handler * bytes)) :=
  [(B "ircs", (true, HIrc, B "6697")); (B "irc+insecure", (false, HIrc, B "6667"));
   (B "wss", (true, HWs, B "https")); (B "ws+insecure", (false, HWs, B "http"));
   (B "https", (true, HHttp, B "https")); (B "http+insecure", (false, HHttp, B "http"));
   (B "ident", (false, HIdent, B "113"))].
Definition local_table : list (bytes * (handler * bytes)) :=
  [(B "irc", (HIrc, B "6667")); (B "ws", (HWs, B "http")); (B "http", (HHttp, B "http"))].
Definition unix_table : list (bytes * (handler * N)) :=
  [(B "unix", (HIrc, 509)); (B "ws+unix", (HWs, 509)); (B "http+unix", (HHttp, 509)); (B "unix+admin", (HAdmin, 384))].
(** Headers of the PROXY protocol are for connections other than those of HTTP. *)
Definition reads (h : handler) : bool := match h with HIrc | HAdmin | HIdent => true | _ => false end.
