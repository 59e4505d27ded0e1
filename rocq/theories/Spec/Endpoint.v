(** Where requests of push notifications may go: not to the bouncer's own machine and network. *)
From Coq Require Import NArith.
From Verif.Base Require Import Bytes.
From Verif.Spec Require Import SourceAddr IPAddr.
From Verif.Model Require Import Networks Endpoint.
From Verif.Model Require Push Addr.
Open Scope N_scope.

(** An address is four or sixteen bytes; the number of one of IPv4 is that of ::ffff:a.b.c.d. *)
Definition an_address (a : list N) : Prop := (length a = 4%nat \/ length a = 16%nat) /\ Forall (fun b => b < 256) a.
Definition number_of (a : list N) : N := addr_num (if Nat.eqb (length a) 4 then mapped ++ a else a).
Definition from_to (lo hi a : list N) : Prop := number_of lo <= number_of a <= number_of hi.

(** The bouncer's own machine, private networks (RFC 1918, RFC 4193), and groups of machines: first and last address. *)
Definition inner : list (list N * list N) :=
  [ ([127; 0; 0; 0], [127; 255; 255; 255]); (repeat 0 15 ++ [1], repeat 0 15 ++ [1]);
    ([10; 0; 0; 0], [10; 255; 255; 255]); ([172; 16; 0; 0], [172; 31; 255; 255]); ([192; 168; 0; 0], [192; 168; 255; 255]);
    (252 :: repeat 0 15, 253 :: repeat 255 15);
    ([224; 0; 0; 0], [239; 255; 255; 255]); (255 :: repeat 0 15, 255 :: repeat 255 15) ].
(** Machines on the same link, and again the own machine: no address at all. *)
Definition near : list (list N * list N) :=
  [ ([169; 254; 0; 0], [169; 254; 255; 255]); (254 :: 128 :: repeat 0 14, 254 :: 191 :: repeat 255 14);
    ([0; 0; 0; 0], [0; 0; 0; 0]); (repeat 0 16, repeat 0 16) ].
Definition within (t : list (list N * list N)) (a : list N) : Prop := exists lo hi, In (lo, hi) t /\ from_to lo hi a.

(** A connection for a notification as it should be: with TLS, to port 443, to addresses elsewhere. *)
Definition elsewhere (k : conn) : Prop := k_tls k = true /\ k_port k = B "443" /\ k_addrs k <> [] /\ Forall (fun a => ~ within inner a) (k_addrs k).

(** Answers that send a client elsewhere (RFC 9110). *)
Definition sends_on (code : N) : Prop := In code [301; 302; 303; 307; 308].
Definition no_redirects (w : world) : Prop := forall tls h p code loc, answer w tls h p = Some (code, loc) -> ~ sends_on code.
Definition addresses (w : world) : Prop := forall h l a, dns w h = Some l -> In a l -> an_address a.

(** A URL whose authority, the text between the slashes and what follows, has no colon: neither a port nor an IPv6
    address nor a password. *)
Definition ends_authority (c : ascii) : bool := amem c (B "/?#").
Inductive colonless : bytes -> Prop :=
| Colonless scheme auth rest :
    ~ In ":"%char scheme -> ~ In ":"%char auth -> (forall c, In c auth -> ends_authority c = false) ->
    (forall c r, rest = c :: r -> ends_authority c = true) ->
    colonless (scheme ++ B "://" ++ auth ++ rest).

(** A name of a host as it may be written in a URL and looked up. *)
Definition host_name (h : bytes) : Prop :=
  h <> [] /\ forall c, In c h -> In c (B "abcdefghijklmnopqrstuvwxyzABCDEFGHIJKLMNOPQRSTUVWXYZ0123456789-._").
(** It is not an IPv4 address, and the DNS knows these addresses. *)
Definition known (w : world) (h : bytes) (l : list (list N)) : Prop :=
  host_name h /\ (forall a, ~ text4 h a) /\ dns w h = Some l /\ l <> [].

(** Endpoints that events and their outputs are about. *)
Definition registering (p : Push.wev) (ep : bytes) : Prop :=
  match p with Push.WCommand _ _ _ (sub :: e :: _) _ _ _ => sub = B "REGISTER" /\ e = ep | _ => False end.
Definition requesting (o : list Push.wout) (ep : bytes) : Prop :=
  exists x, In x o /\ match x with Push.OTest e _ _ => e = ep | Push.ORequest _ _ _ e _ _ _ => e = ep | _ => False end.

(** At this moment the endpoint had an https URL and its host only addresses elsewhere. *)
Definition checked (w : world) (ep : bytes) : Prop :=
  exists u l, Addr.parse_url ep = Some u /\ u_scheme u = B "https" /\ lookup w (u_host u) = Some l /\ Forall (fun a => ~ within inner a) l.
(** Commands and answers, without the connections. *)
Definition seen (t : list (ev * (list Push.wout * list conn))) : list (Push.wev * list Push.wout) := map (fun x => (e_push (fst x), fst (snd x))) t.
