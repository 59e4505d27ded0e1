(** Property C86: where the bouncer connects to, and how. *)
From Verif.Base Require Import Bytes.
From Verif.Model Require Import Networks Addr.
From Verif.Model Require Identd.
From Verif.Proof Require Networks Addr.
From Verif.Spec Require Import Addr.
From Coq Require Import ZArith.
Local Open Scope Z_scope.

(** C86: the address host or host:port is dialled with TLS, and irc+insecure://host or irc+insecure://host:port
    without, at the port given or else 6697 and 6667; with TLS for the name of that host and with the fingerprint of
    the network. A host is a name, an IPv4 address, or an IPv6 address between brackets. *)
Theorem C86_dial : forall key_ok b w h p r,
  written b (w ++ B ":" ++ p) (n_addr r) -> host_of w h -> port_number p -> n_mech r <> EXTERNAL ->
  connect key_ok r = if b then PTls (w ++ B ":" ++ p) h None (n_certfp r) else PPlain (w ++ B ":" ++ p).
Proof. intros key_ok b w h p r Hw Hh Hp Hm. exact (Proof.Addr.dial key_ok b w h (Some p) r Hw Hh Hp Hm). Qed.
Print Assumptions C86_dial.
Theorem C86_default_port : forall key_ok b w h r,
  written b w (n_addr r) -> host_of w h -> n_mech r <> EXTERNAL ->
  connect key_ok r = if b then PTls (w ++ B ":6697") w None (n_certfp r) else PPlain (w ++ B ":6667").
Proof. intros key_ok b w h r Hw Hh Hm. rewrite (Proof.Addr.dial key_ok b w h None r Hw Hh I Hm). destruct b; reflexivity. Qed.
Print Assumptions C86_default_port.

(** With the mechanism EXTERNAL, the certificate of the network is presented, with TLS only. *)
Theorem C86_certificate : forall key_ok b w h p r,
  written b (w ++ B ":" ++ p) (n_addr r) -> host_of w h -> port_number p -> n_mech r = EXTERNAL ->
  n_cert r <> [] -> n_key r <> [] -> key_ok (n_key r) = true ->
  connect key_ok r = if b then PTls (w ++ B ":" ++ p) h (Some (n_cert r)) (n_certfp r) else PPlain (w ++ B ":" ++ p).
Proof. intros key_ok b w h p r Hw Hh Hp Hm Hc Hk Ho. exact (Proof.Addr.dial_cert key_ok b w h (Some p) r Hw Hh Hp Hm Hc Hk Ho). Qed.
Print Assumptions C86_certificate.

Theorem C86_socket : forall key_ok r p, n_addr r = B "unix://" ++ p \/ n_addr r = B "irc+unix://" ++ p -> socket_path p ->
  connect key_ok r = PUnix p.
Proof. exact Proof.Addr.dial_unix. Qed.
Print Assumptions C86_socket.

(** C86: for every address, of any bytes, nothing is sent in clear unless the address starts with irc+insecure: (in any
    case), and to no socket unless it starts with unix: or irc+unix:. *)
Theorem C86_tls : forall key_ok r,
  (forall a, connect key_ok r = PPlain a -> exists s, scheme (n_addr r) s /\ to_lower s = B "irc+insecure") /\
  (forall p, connect key_ok r = PUnix p -> exists s, scheme (n_addr r) s /\ (to_lower s = B "unix" \/ to_lower s = B "irc+unix")).
Proof. intros key_ok r. split; [exact (Proof.Addr.plain_asked key_ok r)|exact (Proof.Addr.unix_asked key_ok r)]. Qed.
Print Assumptions C86_tls.

(** C86: for every address, of any bytes, the name the certificate is checked for is that of the host dialled, and
    the fingerprint is that of the network. *)
Theorem C86_name : forall key_ok r addr server cert pin h p,
  connect key_ok r = PTls addr server cert pin -> Identd.split_host_port addr = Some (h, p) ->
  pin = n_certfp r /\ (server = h \/ server = B "[" ++ h ++ B "]").
Proof. exact Proof.Addr.right_name. Qed.
Print Assumptions C86_name.

Definition rec (addr : bytes) : netrec := set_addr addr (new_network []).
Definition any_key := fun _ : bytes => true.
Ltac chars := intros c Hc; vm_compute in Hc; repeat (destruct Hc as [<-|Hc]; [vm_compute; intuition auto 80|]); destruct Hc.
Example C86_nonvacuous :
  host_of (B "irc.libera.chat") (B "irc.libera.chat") /\ host_of (B "[2001:db8::1]") (B "2001:db8::1") /\ port_number (B "7000") /\
  connect any_key (rec (B "irc.libera.chat")) = PTls (B "irc.libera.chat:6697") (B "irc.libera.chat") None [] /\
  connect any_key (rec (B "ircs://[2001:db8::1]:7000")) = PTls (B "[2001:db8::1]:7000") (B "2001:db8::1") None [] /\
  connect any_key (rec (B "irc+insecure://localhost")) = PPlain (B "localhost:6667") /\
  connect any_key (rec (B "irc+unix:///run/ircd")) = PUnix (B "/run/ircd") /\
  connect any_key (rec (B "irc://libera.chat")) = PFail /\
  connect any_key (set_sasl EXTERNAL [] [] (B "C") (B "K") (rec (B "a.org:7000"))) = PTls (B "a.org:7000") (B "a.org") (Some (B "C")) [].
Proof.
  split; [apply HName; split; [discriminate|chars]|].
  split; [apply (HSix (B "2001:db8::1")); split; [discriminate|chars]|].
  split; [split; [discriminate|chars]|]. repeat (split; [vm_compute; reflexivity|]). vm_compute; reflexivity.
Qed.

(** ** Attributes set by clients *)

(** C86: when a client changes host, port or tls of a network, the next connection is to the address that they make with
    the attributes not named, and clients are shown them; the other attributes named are set, the others are
    not changed, and no other network is. *)
Theorem C86_change : forall command_ok config_max key_ok username nick realname admin enabled max os id a io u' n h0 p0 t0 b,
  let u := run parse_url Identd.split_host_port command_ok config_max (new_user username nick realname admin enabled max) os in
  In n (us_nets u) -> n_id n = id -> bnc_change parse_url Identd.split_host_port config_max u id a io = Some u' ->
  a_unknown a = false -> is_some (a_host a) || is_some (a_port a) || is_some (a_tls a) = true ->
  shown n = (Some h0, p0, t0) -> n_mech n <> EXTERNAL ->
  let h := dflt (a_host a) h0 in let p := or_else (a_port a) p0 in
  host_name h -> port_attr p -> asks_tls (or_else (a_tls a) t0) b ->
  exists x, In x (us_nets u') /\ n_id x = id /\
    connect key_ok x = (if b then PTls (endpoint b h p) h None (n_certfp n) else PPlain (endpoint b h p)) /\
    shown x = (Some h, match p with None | Some [] => None | Some q => Some q end, Some (if b then B "1" else B "0")) /\
    n_name x = dflt (a_name a) (n_name n) /\ n_username x = dflt (a_username a) (n_username n) /\
    n_pass x = dflt (a_pass a) (n_pass n) /\ n_mech x = n_mech n /\ n_cmds x = n_cmds n /\ n_enabled x = n_enabled n /\
    (forall y, n_id y <> id -> In y (us_nets u') <-> In y (us_nets u)).
Proof.
  intros ck cm key username nick realname admin enabled max os id a io u' n h0 p0 t0 b u Hn Hid H Hu Hs Hsh Hm h p Hh Hp Ht.
  pose proof (Proof.Networks.inv_run parse_url Identd.split_host_port ck cm _ os (Proof.Networks.inv_new username nick realname admin enabled max)) as I. fold u in I.
  assert (G : get_network_by_id (us_nets u) id = Some n) by (rewrite <- Hid; exact (Proof.Networks.in_get u n I Hn)).
  destruct (Proof.Addr.changed cm u id a io u' n I G H) as (r & x & Ea & Hx & K & _ & _ & _ & F).
  unfold Proof.Addr.kept in K.
  destruct (Proof.Addr.end_to_end key a n r x h0 p0 t0 b Ea) as [E1 E2]; try tauto; try exact Ht.
  destruct (Proof.Addr.change_address a n h p0 t0 h0 Hu Hs Hsh eq_refl Hh Hp) as (r1 & Er & O & _). rewrite Ea in Er. injection Er as <-.
  unfold Proof.Addr.other in O.
  exists x. split; [exact Hx|]. split; [intuition congruence|]. split; [exact E1|]. split; [exact E2|].
  repeat (split; [intuition congruence|]). exact F.
Qed.
Print Assumptions C86_change.

(** A change of other attributes does not change where the bouncer connects to. *)
Theorem C86_change_other : forall command_ok config_max key_ok username nick realname admin enabled max os id a io u' n,
  let u := run parse_url Identd.split_host_port command_ok config_max (new_user username nick realname admin enabled max) os in
  In n (us_nets u) -> n_id n = id -> bnc_change parse_url Identd.split_host_port config_max u id a io = Some u' ->
  a_unknown a = false -> is_some (a_host a) || is_some (a_port a) || is_some (a_tls a) = false -> n_mech n <> EXTERNAL ->
  exists x, In x (us_nets u') /\ n_id x = id /\ connect key_ok x = connect key_ok n /\ shown x = shown n /\
    n_name x = dflt (a_name a) (n_name n) /\ n_username x = dflt (a_username a) (n_username n) /\
    n_pass x = dflt (a_pass a) (n_pass n) /\ n_mech x = n_mech n /\ n_cmds x = n_cmds n /\ n_enabled x = n_enabled n.
Proof.
  intros ck cm key username nick realname admin enabled max os id a io u' n u Hn Hid H Hu Hs Hm.
  pose proof (Proof.Networks.inv_run parse_url Identd.split_host_port ck cm _ os (Proof.Networks.inv_new username nick realname admin enabled max)) as I. fold u in I.
  assert (G : get_network_by_id (us_nets u) id = Some n) by (rewrite <- Hid; exact (Proof.Networks.in_get u n I Hn)).
  destruct (Proof.Addr.changed cm u id a io u' n I G H) as (r & x & Ea & Hx & K & _).
  destruct (Proof.Addr.change_other a n Hu Hs) as (r1 & Er & O & Ad). rewrite Ea in Er. injection Er as <-.
  unfold Proof.Addr.kept in K. unfold Proof.Addr.other in O.
  assert (A1 : n_addr x = n_addr n) by intuition congruence. assert (A2 : n_mech x = n_mech n) by intuition congruence.
  assert (A3 : n_certfp x = n_certfp n) by intuition congruence.
  exists x. split; [exact Hx|]. split; [intuition congruence|].
  split. { unfold connect, net_url. rewrite A1, A2, A3. apply beqb_neq in Hm. rewrite Hm. reflexivity. }
  split; [exact (Proof.Addr.kept_shown x n A1)|]. repeat (split; [intuition congruence|]). intuition congruence.
Qed.
Print Assumptions C86_change_other.

(** C86: a network that a client adds is at the host and port asked for, with TLS unless tls=0. *)
Theorem C86_add : forall config_max key_ok u nick a nid io u' h b,
  bnc_add parse_url Identd.split_host_port config_max u nick a nid io = Some u' ->
  a_unknown a = false -> a_host a = Some h -> host_name h -> port_attr (a_port a) -> asks_tls (a_tls a) b ->
  exists x, In x (us_nets u') /\ n_id x = nid /\
    connect key_ok x = (if b then PTls (endpoint b h (a_port a)) h None [] else PPlain (endpoint b h (a_port a))) /\
    shown x = (Some h, match a_port a with None | Some [] => None | Some q => Some q end, Some (if b then B "1" else B "0")) /\
    n_name x = dflt (a_name a) [] /\ n_username x = dflt (a_username a) [] /\ n_pass x = dflt (a_pass a) [] /\
    n_mech x = [] /\ n_enabled x = true /\
    (forall y, y <> x -> In y (us_nets u') <-> In y (us_nets u)).
Proof.
  intros cm key u nick a nid io u' h b H Hu Hh Hn Hp Ht.
  destruct (Proof.Addr.added cm key u nick a nid io u' H) as (r & x & Ea & Hx & K & _ & _ & _ & F).
  set (n := set_nick nick (new_network [])) in *.
  assert (Hsh : shown n = (Some [], None, Some (B "1"))) by (vm_compute; reflexivity).
  assert (Hs : is_some (a_host a) || is_some (a_port a) || is_some (a_tls a) = true) by (rewrite Hh; reflexivity).
  unfold Proof.Addr.kept in K.
  assert (E0 : dflt (a_host a) [] = h) by (rewrite Hh; reflexivity).
  assert (Ep : or_else (a_port a) None = a_port a) by (destruct (a_port a); reflexivity).
  assert (Ht' : asks_tls (or_else (a_tls a) (Some (B "1"))) b).
  { destruct (a_tls a); [exact Ht|]. unfold asks_tls in *. cbn [or_else]. split; [intros X; apply Ht in X; discriminate|intros X; discriminate X]. }
  destruct (Proof.Addr.end_to_end key a n r x [] None (Some (B "1")) b Ea) as [E1 E2]; try (cbn [set_id] in K; tauto).
  - rewrite E0. exact Hn.
  - rewrite Ep. exact Hp.
  - discriminate.
  - rewrite E0, Ep in E1, E2.
    destruct (Proof.Addr.change_address a n h None (Some (B "1")) [] Hu Hs Hsh (eq_sym E0) Hn) as (r1 & Er & O & _); [rewrite Ep; exact Hp|].
    rewrite Ea in Er. injection Er as <-. unfold Proof.Addr.other in O. cbn [set_id n_id n_name n_username n_pass n_mech n_enabled] in K.
    exists x. split; [exact Hx|]. split; [intuition congruence|]. split; [exact E1|]. split; [exact E2|].
    destruct O as (_ & O2 & _ & O4 & _ & O6 & _ & _ & O9 & _ & O11). destruct K as (_ & K2 & _ & K4 & K5 & _ & _ & K8 & _ & K10).
    split; [rewrite K2; exact O2|]. split; [rewrite K4; exact O4|]. split; [rewrite K5; exact O6|]. split; [rewrite K8; exact O9|].
    split; [rewrite K10; exact O11|exact F].
Qed.
Print Assumptions C86_add.

(** The nickname asked for is the one used, unless it is the name of the user and the user has another
    nickname: see the refutation below. *)
Theorem C86_nick_partial : forall command_ok config_max username nick realname admin enabled max os id a io u' n k,
  let u := run parse_url Identd.split_host_port command_ok config_max (new_user username nick realname admin enabled max) os in
  In n (us_nets u) -> n_id n = id -> bnc_change parse_url Identd.split_host_port config_max u id a io = Some u' ->
  a_nick a = Some k -> k <> [] -> k <> us_username u \/ us_nick u = [] \/ us_nick u = us_username u ->
  exists x, In x (us_nets u') /\ n_id x = id /\ nick_on u' x = k.
Proof.
  intros ck cm username nick realname admin enabled max os id a io u' n k u Hn Hid H Ha Hk Hd.
  pose proof (Proof.Networks.inv_run parse_url Identd.split_host_port ck cm _ os (Proof.Networks.inv_new username nick realname admin enabled max)) as I. fold u in I.
  assert (G : get_network_by_id (us_nets u) id = Some n) by (rewrite <- Hid; exact (Proof.Networks.in_get u n I Hn)).
  destruct (Proof.Addr.changed cm u id a io u' n I G H) as (r & x & Ea & Hx & K & Nk & U1 & U2 & _).
  destruct (Proof.Networks.attrs_id _ _ _ _ _ Ea) as [Ei _]. unfold Proof.Addr.kept in K.
  exists x. split; [exact Hx|]. split; [intuition congruence|].
  apply (Proof.Addr.nick_asked u u' r x k U1 U2); [|exact Hk|exact Hd|exact Nk].
  exact (Proof.Addr.attrs_nick a n r k Ea Ha).
Qed.
Print Assumptions C86_nick_partial.

(** ** Fingerprints *)

(** C86: with a fingerprint, as norm_certfp makes it, the connection is made if and only if some certificate presented
    has it. *)
Theorem C86_pin_partial : forall sha256 sha512 chain_ok s t server certs,
  norm_certfp s = Some t -> t <> [] ->
  verify sha256 sha512 chain_ok t server certs <> None /\
  (verify sha256 sha512 chain_ok t server certs = Some true <->
   exists c, In c certs /\ (t = B "sha-256:" ++ sha256 c \/ t = B "sha-512:" ++ sha512 c)).
Proof. exact Proof.Addr.pin. Qed.
Print Assumptions C86_pin_partial.
Theorem C86_no_pin : forall sha256 sha512 chain_ok server certs, verify sha256 sha512 chain_ok [] server certs = Some (chain_ok server certs).
Proof. reflexivity. Qed.

(** ** A history with networks added and changed *)
Definition no_attrs := Attrs None None None None None None None None false.
Definition ex_u := run parse_url Identd.split_host_port (fun _ => true) 5 (new_user (B "alice") (B "bob") (B "Al") false true (-1))
  [BncAdd (B "bob") (Attrs (Some (B "a.org")) None None None None None None None false) 1 true;
   BncAdd (B "bob") (Attrs (Some (B "b.org")) (Some (B "7000")) (Some (B "0")) (Some (B "bee")) (Some (B "joe")) None None None false) 2 true;
   SvcCreate false (Flags (Some (B "ircs://[::1]:6697")) (Some (B "six")) None None None None None None None false None) 3 true;
   BncChange 1 (Attrs (Some (B "c.org")) None None None None None None None false) true].
Definition net (u : option ust) (id : Z) := match u with None => None | Some u => get_network_by_id (us_nets u) id end.
Example C86_attributes_nonvacuous :
  option_map shown (net (Some ex_u) 1) = Some (Some (B "c.org"), None, Some (B "1")) /\
  option_map (connect any_key) (net (Some ex_u) 1) = Some (PTls (B "c.org:6697") (B "c.org") None []) /\
  option_map shown (net (Some ex_u) 2) = Some (Some (B "b.org"), Some (B "7000"), Some (B "0")) /\
  option_map (connect any_key) (net (Some ex_u) 2) = Some (PPlain (B "b.org:7000")) /\
  option_map (connect any_key) (net (bnc_change parse_url Identd.split_host_port 5 ex_u 2 (Attrs None (Some []) (Some (B "1")) None None None None None false) true) 2)
    = Some (PTls (B "b.org:6697") (B "b.org") None []) /\
  host_name (B "b.org").
Proof. repeat (split; [vm_compute; reflexivity|]). split; [discriminate|chars]. Qed.

(** ** What fails *)

(** A fingerprint does not say who holds the connection: a certificate counts even when it is not the one whose key the server
    uses, so that anyone can append the right certificate, which is public, to their own. *)
Theorem C86_pin_refuted : exists sha256 sha512 chain_ok pin own genuine,
  sha256 own <> sha256 genuine /\ norm_certfp (sha256 genuine) = Some pin /\
  verify sha256 sha512 chain_ok pin (B "irc.example.org") [own] = Some false /\
  verify sha256 sha512 chain_ok pin (B "irc.example.org") [own; genuine] = Some true.
Proof.
  exists (fun c => concat (repeat c 32)), (fun c => concat (repeat c 64)), (fun _ _ => false), (B "sha-256:" ++ concat (repeat (B "ab") 32)), (B "cd"), (B "ab").
  split; [vm_compute; discriminate|]. repeat (split; [vm_compute; reflexivity|]). vm_compute; reflexivity.
Qed.
Print Assumptions C86_pin_refuted.

(** A change of tls or port loses the brackets of an IPv6 address, and the address is no longer one. *)
Theorem C86_six_refuted : exists n x,
  net (Some ex_u) 3 = Some n /\
  net (bnc_change parse_url Identd.split_host_port 5 ex_u 3 (Attrs None None (Some (B "0")) None None None None None false) true) 3 = Some x /\
  connect any_key n = PTls (B "[::1]:6697") (B "::1") None [] /\ n_addr x = B "irc+insecure://::1:6697" /\
  connect any_key x = PPlain (B "::1:6697:6667").
Proof. eexists. eexists. repeat (split; [vm_compute; reflexivity|]). vm_compute; reflexivity. Qed.
Print Assumptions C86_six_refuted.

(** A host with a scheme of its own decides whether TLS is used, whatever tls says. *)
Theorem C86_tls_attribute_refuted : exists x,
  net (bnc_change parse_url Identd.split_host_port 5 ex_u 1 (Attrs (Some (B "irc+insecure://c.org")) None (Some (B "1")) None None None None None false) true) 1 = Some x /\
  connect any_key x = PPlain (B "c.org:6667").
Proof. eexists. split; vm_compute; reflexivity. Qed.
Print Assumptions C86_tls_attribute_refuted.

(** A client that asks for the nickname equal to the name of the user gets the default nickname of the user. *)
Theorem C86_nick_refuted : exists u' x,
  bnc_change parse_url Identd.split_host_port 5 ex_u 1 (Attrs None None None None (Some (B "alice")) None None None false) true = Some u' /\
  net (Some u') 1 = Some x /\ nick_on u' x = B "bob".
Proof. eexists. eexists. split; [vm_compute; reflexivity|]. split; vm_compute; reflexivity. Qed.
Print Assumptions C86_nick_refuted.
