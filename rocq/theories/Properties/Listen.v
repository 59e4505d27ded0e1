(** Properties C91 and C92. *)
From Coq Require Import NArith.
From Verif.Base Require Import Bytes.
From Verif.Model Require Import Message IPAddr Listen.
From Verif.Proof Require Listen IPAddr Addr.
From Verif.Spec Require Import IPAddr Listen.
From Verif.Spec Require Addr.

(** ** C91 *)
Section Clients.
  (** Parameters with a star in their name (RFC 2231) do something when there are some only. *)
  Variable starred : bytes -> list (bytes * bytes) -> option bytes.
  Hypothesis starred_none : forall k, starred k [] = None.
  Variables (cfg : list bytes) (set : list cidr).
  Hypothesis loaded : load_proxies cfg = Some set.

  (** No header of HTTP counts unless the connection itself comes from one of the configured addresses. *)
  Theorem C91_untrusted_http : forall remote h,
    (forall host a, sock_text remote host -> denotes host a -> ~ trusted cfg a) -> ws_remote starred set remote h = remote.
  Proof. intros remote h H. exact (Proof.Listen.untrusted starred cfg set remote h loaded H). Qed.

  (** The same of the PROXY protocol, on the other listeners; on sockets of paths nothing is ever taken from it. *)
  Theorem C91_untrusted_proxy : forall a text hdr, address a -> ~ trusted cfg a -> proto_remote set (PTcp a text) hdr = text.
  Proof. intros a text hdr A N. exact (Proof.Listen.untrusted_proto cfg set a text hdr loaded A N). Qed.
  Theorem C91_unix_proxy : forall text hdr, proto_remote set (POther text) hdr = text.
  Proof. reflexivity. Qed.

  (** Configured proxies say where the client is: with a PROXY header, *)
  Theorem C91_trusted_proxy : forall a text hdr, address a -> trusted cfg a -> proto_remote set (PTcp a text) (Some hdr) = hdr.
  Proof. intros a text hdr A N. exact (Proof.Listen.trusted_proto cfg set a text hdr loaded A N). Qed.
  (** with the parameter "for" of Forwarded, of one element, in any order, quoted or not, in any case; *)
  Theorem C91_trusted_forwarded : forall remote host a h s l v,
    sock_text remote host -> denotes host a -> trusted cfg a ->
    assoc (B "Forwarded") h = Some s -> forwarded_text s l -> once l -> (forall k x, In (k, x) l -> ~ In "*"%char k) ->
    named (B "for") l v -> v <> [] ->
    ws_remote starred set remote h = v.
  Proof.
    intros remote host a h s l v S D T E F O N K V. apply (Proof.Listen.trusted_forwarded starred cfg set remote host a h v loaded S D T); [|exact V].
    apply (Proof.Listen.forwarded starred h s l v starred_none); try assumption. unfold get. rewrite E. reflexivity.
  Qed.
  (** or with X-Forwarded-For, if there is no Forwarded. *)
  Theorem C91_trusted_x_forwarded_for : forall remote host a h f,
    sock_text remote host -> denotes host a -> trusted cfg a ->
    assoc (B "Forwarded") h = None -> assoc (B "X-Forwarded-For") h = Some f -> f <> [] -> ws_remote starred set remote h = f.
  Proof.
    intros remote host a h f S D T A E V. apply (Proof.Listen.trusted_forwarded starred cfg set remote host a h f loaded S D T); [|exact V].
    exact (Proof.Listen.xforwarded starred h f A E).
  Qed.
End Clients.
Print Assumptions C91_untrusted_http.
Print Assumptions C91_untrusted_proxy.
Print Assumptions C91_unix_proxy.
Print Assumptions C91_trusted_proxy.
Print Assumptions C91_trusted_forwarded.
Print Assumptions C91_trusted_x_forwarded_for.

(** Which parameters of accept-proxy-ip are accepted, and which addresses are then in the set. *)
Theorem C91_accepted : forall cfg, (exists set, load_proxies cfg = Some set) <-> Forall proxy_valid cfg.
Proof. exact Proof.IPAddr.proxies_valid. Qed.
Print Assumptions C91_accepted.
Theorem C91_ranges : forall cfg set a, load_proxies cfg = Some set -> address a -> set_contains set a = true <-> trusted cfg a.
Proof. exact Proof.IPAddr.proxies_contain. Qed.
Print Assumptions C91_ranges.
(** Texts of addresses have one meaning. *)
Theorem C91_one_address : forall s a b, denotes s a -> denotes s b -> a = b.
Proof. intros s a b. exact (Proof.IPAddr.denotes_fun s a b). Qed.
Print Assumptions C91_one_address.

(** The host in messages is the address without its port. *)
Theorem C91_host_port : forall text host, sock_text text host -> client_host text = host.
Proof. exact Proof.Listen.host_port. Qed.
Print Assumptions C91_host_port.
Theorem C91_host_alone : forall text a, denotes text a -> client_host text = text.
Proof. exact Proof.Listen.host_alone. Qed.
Print Assumptions C91_host_alone.

(** A proxy behind a proxy: X-Forwarded-For is a list then. The host has a space in it, and the client takes the end of
    the source of each line for its command. *)
Theorem C91_proxy_chain_refuted : exists cfg set remote h,
  load_proxies cfg = Some set /\ assoc (B "X-Forwarded-For") h = Some (B "203.0.113.7, 10.0.0.1") /\
  let host := client_host (ws_remote (fun _ _ => None) set remote h) in
  host = B "203.0.113.7, 10.0.0.1" /\
  command_of (format_message (Message [] (Some (Prefix (B "alice") (B "alice") host)) (B "JOIN") [B "#soju"])) = Some (B "10.0.0.1").
Proof.
  exists [B "10.0.0.0/8"]. eexists. exists (B "10.0.0.1:4321"), [(B "X-Forwarded-For", B "203.0.113.7, 10.0.0.1")].
  split; [vm_compute; reflexivity|]. vm_compute. auto.
Qed.
Print Assumptions C91_proxy_chain_refuted.
(** The same with Forwarded: the header is not understood, and all clients have the address of the proxy. *)
Theorem C91_forwarded_list_refuted : exists cfg set remote h,
  load_proxies cfg = Some set /\ assoc (B "Forwarded") h = Some (B "for=203.0.113.7, for=10.0.0.1") /\
  client_host (ws_remote (fun _ _ => None) set remote h) = B "10.0.0.1".
Proof.
  exists [B "10.0.0.0/8"]. eexists. exists (B "10.0.0.1:4321"), [(B "Forwarded", B "for=203.0.113.7, for=10.0.0.1")].
  split; [vm_compute; reflexivity|]. vm_compute. auto.
Qed.
Print Assumptions C91_forwarded_list_refuted.

Ltac flats := intros ? X Y; revert X; destruct Y as [<-|[<-|[<-|[]]]]; vm_compute; intuition discriminate.
Example C91_nonvacuous :
  let cfg := [B "localhost"; B "192.0.2.0/25"; B "2001:db8::/32"] in
  exists set, load_proxies cfg = Some set /\
    ws_remote (fun _ _ => None) set (B "192.0.2.5:1000") [(B "Forwarded", B "Proto=https;For=""[2001:db8:1::7]:99""")] = B "[2001:db8:1::7]:99" /\
    client_host (B "[2001:db8:1::7]:99") = B "2001:db8:1::7" /\
    ws_remote (fun _ _ => None) set (B "192.0.2.130:1000") [(B "Forwarded", B "for=203.0.113.9")] = B "192.0.2.130:1000" /\
    ws_remote (fun _ _ => None) set (B "[2001:db8:ffff::1]:1000") [(B "X-Forwarded-For", B "203.0.113.9")] = B "203.0.113.9" /\
    forwarded_text (B "Proto=https;For=""[2001:db8:1::7]:99""") [(B "Proto", B "https"); (B "For", B "[2001:db8:1::7]:99")] /\
    sock_text (B "192.0.2.5:1000") (B "192.0.2.5") /\ denotes (B "192.0.2.5") (mapped ++ [192; 0; 2; 5]%N) /\
    load_proxies [B "192.0.2.0/33"] = None /\ load_proxies [B "192.0.2.1"] = None.
Proof.
  cbv zeta. eexists. split; [vm_compute; reflexivity|]. split; [vm_compute; reflexivity|]. split; [vm_compute; reflexivity|].
  split; [vm_compute; reflexivity|]. split; [vm_compute; reflexivity|]. split; [|split; [|split; [|split; vm_compute; reflexivity]]].
  - assert (T : forall s, s <> [] -> forallb (fun c => amem c token_chars) s = true -> token s).
    { intros s N F. split; [exact N|]. apply Forall_forall. intros c Hc. rewrite forallb_forall in F. apply amem_In. exact (F c Hc). }
    apply (FCons (B "Proto") (B "https") (B "https") (B "For=""[2001:db8:1::7]:99""") [(B "For", B "[2001:db8:1::7]:99")]).
    + apply T; [discriminate|vm_compute; reflexivity].
    + apply VToken. apply T; [discriminate|vm_compute; reflexivity].
    + apply (FOne (B "For") (quote (B "[2001:db8:1::7]:99")) (B "[2001:db8:1::7]:99")); [apply T; [discriminate|vm_compute; reflexivity]|].
      apply VQuoted; vm_compute; intuition discriminate.
  - apply (SockPlain (B "192.0.2.5") (B "1000")); flats.
  - apply Denotes4. apply (Text4 192 0 2 5); reflexivity.
Qed.

(** ** C92 *)

(** Plain text is offered over TCP to the machine itself only, unless the URI says "insecure". *)
Theorem C92_plain_text : forall tls uri l addr, listen_on tls uri = Some l -> l_sock l = SPlain addr ->
  local_addr addr \/ says uri (B "irc+insecure") \/ says uri (B "ws+insecure") \/ says uri (B "http+insecure") \/
  (says uri (B "ident") /\ l_handler l = HIdent).
Proof. exact Proof.Listen.plain_tcp. Qed.
Print Assumptions C92_plain_text.
(** With ircs, wss and https there is TLS, and there is a certificate. *)
Theorem C92_tls : forall tls uri l, listen_on tls uri = Some l -> says uri (B "ircs") \/ says uri (B "wss") \/ says uri (B "https") ->
  tls = true /\ exists addr, l_sock l = STls addr.
Proof. exact Proof.Listen.tls_said. Qed.
Print Assumptions C92_tls.
Theorem C92_certificate : forall tls uri l addr, listen_on tls uri = Some l -> l_sock l = STls addr -> tls = true.
Proof. exact Proof.Listen.tls_known. Qed.
Print Assumptions C92_certificate.
(** The administration service, which asks for no password, is behind a file of its owner only, or not at all. *)
Theorem C92_admin : forall tls uri l, listen_on tls uri = Some l -> l_handler l = HAdmin ->
  says uri (B "unix+admin") /\ exists path, l_sock l = SUnix path path 384 true.
Proof. exact Proof.Listen.admin_only. Qed.
Print Assumptions C92_admin.
(** Metrics and profiles are for the machine itself. *)
Theorem C92_debug : forall tls uri l, listen_on tls uri = Some l -> l_handler l = HMetrics \/ l_handler l = HPprof ->
  exists addr, l_sock l = SPlain addr /\ local_addr addr.
Proof. exact Proof.Listen.debug_only. Qed.
Print Assumptions C92_debug.

(** What the documentation says is what is listened on. *)
Theorem C92_tcp : forall tls sch t h d w po, In (sch, (t, h, d)) tcp_table -> (t = true -> tls = true) -> anywhere w -> port_opt po ->
  listen_on tls (sch ++ B "://" ++ authority w po) =
  Some (Listener (if t then STls (socket_addr w po d) else SPlain (socket_addr w po d)) h (reads h)).
Proof. exact Proof.Listen.listen_tcp. Qed.
Print Assumptions C92_tcp.
Theorem C92_bare : forall w po, anywhere w -> port_opt po ->
  listen_on true (authority w po) = Some (Listener (STls (socket_addr w po (B "6697"))) HIrc true).
Proof. exact Proof.Listen.listen_bare. Qed.
Print Assumptions C92_bare.
Theorem C92_localhost : forall tls sch h d po, In (sch, (h, d)) local_table -> port_opt po ->
  listen_on tls (sch ++ B "://" ++ authority (B "localhost") po) = Some (Listener (SPlain (socket_addr (B "localhost") po d)) h (reads h)).
Proof. exact Proof.Listen.listen_local. Qed.
Print Assumptions C92_localhost.
Theorem C92_debug_uris : forall tls sch h p, In (sch, h) [(B "http+prometheus", HMetrics); (B "http+pprof", HPprof)] -> Addr.port_number p ->
  listen_on tls (sch ++ B "://" ++ authority (B "localhost") (Some p)) = Some (Listener (SPlain (authority (B "localhost") (Some p))) h false).
Proof. exact Proof.Listen.listen_debug. Qed.
Print Assumptions C92_debug_uris.
Theorem C92_paths : forall tls sch h m p, In (sch, (h, m)) unix_table -> Addr.socket_path p ->
  exists fatal, listen_on tls (sch ++ B "://" ++ p) = Some (Listener (SUnix p p m fatal) h (reads h)).
Proof. exact Proof.Listen.listen_unix. Qed.
Print Assumptions C92_paths.
Theorem C92_admin_default : forall tls, exists fatal,
  listen_on tls (B "unix+admin://") = Some (Listener (SUnix (B "/run/soju/admin") (B "/run/soju/admin") 384 fatal) HAdmin true).
Proof. intros tls. eexists. reflexivity. Qed.
Print Assumptions C92_admin_default.

(** Each URI, of the file and of the command line, in order; nothing at all if one of them cannot be; and one with TLS if
    there is none. *)
Theorem C92_all : forall tls l ls, open_all tls l = Some ls <-> Forall2 (fun uri x => listen_on tls uri = Some x) l ls.
Proof. exact Proof.Listen.open_all_iff. Qed.
Print Assumptions C92_all.
Theorem C92_both : forall cfg flags, cfg ++ flags <> [] -> listen_uris cfg flags = cfg ++ flags.
Proof. intros cfg flags H. unfold listen_uris. destruct (cfg ++ flags); [congruence|reflexivity]. Qed.
Print Assumptions C92_both.
Theorem C92_default : open_all true (listen_uris [] []) = Some [Listener (STls (B ":6697")) HIrc true] /\ open_all false (listen_uris [] []) = None.
Proof. split; vm_compute; reflexivity. Qed.
Print Assumptions C92_default.

(** A path that does not begin with a slash: unix:// listens on one file and changes the mode of another, if there is
    such a file, or of none; http+unix:// and ws+unix:// listen on another file. *)
Theorem C92_relative_path_refuted : exists m f,
  listen_on false (B "unix://run/soju.sock") = Some (Listener (SUnix (B "run/soju.sock") (B "/soju.sock") m f) HIrc true) /\
  listen_on false (B "http+unix://run/soju.sock") = Some (Listener (SUnix (B "/soju.sock") (B "/soju.sock") m f) HHttp false) /\
  listen_on false (B "ws+unix://run/soju.sock") = Some (Listener (SUnix (B "/soju.sock") (B "/soju.sock") m f) HWs false).
Proof. do 2 eexists. vm_compute. auto. Qed.
Print Assumptions C92_relative_path_refuted.
(** An empty port is not the default port: the system chooses one. *)
Theorem C92_empty_port_refuted : listen_on true (B "ircs://irc.example.org:") = Some (Listener (STls (B "irc.example.org:")) HIrc true).
Proof. vm_compute. reflexivity. Qed.
Print Assumptions C92_empty_port_refuted.

Example C92_nonvacuous :
  listen_on true (B "ircs://") = Some (Listener (STls (B ":6697")) HIrc true) /\
  listen_on true (B "[2001:db8::1]:7000") = Some (Listener (STls (B "[2001:db8::1]:7000")) HIrc true) /\
  listen_on false (B "irc.example.org") = None /\
  listen_on false (B "irc://irc.example.org") = None /\ listen_on false (B "http://[::1]:80") = None /\
  listen_on false (B "irc://localhost") = Some (Listener (SPlain (B "localhost:6667")) HIrc true) /\
  listen_on false (B "HTTP+Insecure://0.0.0.0:8080") = Some (Listener (SPlain (B "0.0.0.0:8080")) HHttp false) /\
  says (B "HTTP+Insecure://0.0.0.0:8080") (B "http+insecure") /\
  listen_on false (B "http+pprof://0.0.0.0:8080") = None /\ listen_on true (B "gopher://localhost") = None /\
  open_all true [B "ircs://"; B "unix+admin://"; B "irc://example.org"] = None.
Proof.
  split; [vm_compute; reflexivity|]. split; [vm_compute; reflexivity|]. split; [vm_compute; reflexivity|]. split; [vm_compute; reflexivity|].
  split; [vm_compute; reflexivity|]. split; [vm_compute; reflexivity|]. split; [vm_compute; reflexivity|]. split.
  - exists (B "HTTP+Insecure"). split; [|reflexivity]. exists (B "//0.0.0.0:8080"). split; [reflexivity|vm_compute; intuition discriminate].
  - split; [vm_compute; reflexivity|]. split; vm_compute; reflexivity.
Qed.
