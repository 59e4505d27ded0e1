(** C96, C97: authentication by other servers, and the accounts that come of it. *)
From Coq Require Import NArith.
From Verif.Base Require Import Bytes Base64 Path.
From Verif.Model Require Import Username Register ExtAuth.
From Verif.Model Require Config.
From Verif.Proof Require ExtAuth.
From Verif.Spec Require Import Register ExtAuth.
Open Scope N_scope.

(** C96: a server that knows its users by name and password lets in exactly these, if no name has a colon in it. *)
Theorem C96_http : forall users server u p,
  http_honest users server -> ~ In ":"%char u -> http_plain server u p = users u p.
Proof. exact Proof.ExtAuth.http_iff. Qed.
Print Assumptions C96_http.

(** C96: a token is of whom the OAuth server says, for any token, client ID and secret, if the bouncer is a client of the
    server; *)
Theorem C96_token : forall clients public tokens o w t u,
  oauth_honest clients public tokens (sv_introspect w (oc_endpoint o)) ->
  (if beqb (oc_id o) [] then public = true else clients (oc_id o) (oc_secret o) = true) ->
  bearer o (sv_introspect w) t = Some u <-> u <> [] /\ tokens t = Some u.
Proof. exact Proof.ExtAuth.oauth_iff. Qed.
Print Assumptions C96_token.
(** otherwise it is of nobody. *)
Theorem C96_not_client : forall clients public tokens o w t,
  oauth_honest clients public tokens (sv_introspect w (oc_endpoint o)) ->
  (if beqb (oc_id o) [] then public = false else clients (oc_id o) (oc_secret o) = false) ->
  bearer o (sv_introspect w) t = None.
Proof. exact Proof.ExtAuth.oauth_unknown. Qed.
Print Assumptions C96_not_client.

(** C96: an OAuth server is used if its metadata allow what the URL asks for. *)
Theorem C96_discovery : forall url_ok user answer o, new_oauth2 url_ok user answer = Some o <->
  exists m, answer = Some (200, Some m) /\ oc_endpoint o = me_endpoint m /\
    oc_id o = (match user with Some (u, _) => u | None => [] end) /\ oc_secret o = (match user with Some (_, Some p) => p | _ => [] end) /\
    oauth_says url_ok (oc_id o) m.
Proof. exact Proof.ExtAuth.new_oauth2_iff. Qed.
Print Assumptions C96_discovery.
(** C96: these are asked for at the well-known place (RFC 8414, 3.1). *)
Theorem C96_well_known : forall names, Forall safe_name names -> names <> [] ->
  discovery_path ("/"%char :: join (B "/") names) = B "/.well-known/oauth-authorization-server/" ++ join (B "/") names.
Proof. exact Proof.ExtAuth.discovery. Qed.
Print Assumptions C96_well_known.

(** C96: credentials are verified exactly if the authority in force accepts them for this account. *)
Theorem C96_verified : forall k w db c u,
  (exists names imp, verify (env_of k w db) c = Some (names, imp) /\ fst (fst names) = u) <-> accepts k w db c u.
Proof.
  intros k w db c u. split; [|exact (Proof.ExtAuth.accepts_verify k w db c u)]. intros (names & imp & V & <-). exact (Proof.ExtAuth.verify_accepts k w db c names imp V).
Qed.
Print Assumptions C96_verified.
(** C96: whatever a client sends, when it is registered it was accepted before. *)
Theorem C96_registered : forall atoi parse_id oauth_parse oauth_failure p t m es u,
  (forall e ord msg, In (e, ord, msg) es -> exists k w db, e = env_of k w db) ->
  let s := fst (rrun atoi parse_id oauth_parse oauth_failure (new_conn p t m) es) in
  r_user s = Some u -> u <> [] ->
  exists es1 ord msg es2 k w db c, es = es1 ++ (env_of k w db, ord, msg) :: es2 /\ accepts k w db c u.
Proof. exact Proof.ExtAuth.registered. Qed.
Print Assumptions C96_registered.

(** C97: in any run, a connection serves a user only if it was accepted as that user. *)
Theorem C97_served : forall s0 l id u, st_conns s0 = [] -> conn id (st_conns (run s0 l)) = Some (Served u) -> was_accepted s0 l id u.
Proof. exact Proof.ExtAuth.served. Qed.
Print Assumptions C97_served.

(** C97: accounts are made by administrators, or for a client that was accepted when enable-user-on-auth was set and the
    account did not exist; such an account has no password and no privileges. *)
Theorem C97_created : forall s0 l u a,
  st_conns s0 = [] -> Config.lookup u (st_db s0) = None -> Config.lookup u (st_db (run s0 l)) = Some a ->
  (exists b, In (Admin u b) l) \/
  exists l1 id l2, l = l1 ++ Create id :: l2 /\ was_admitted s0 l1 id u /\
    Config.lookup u (st_db (run s0 (l1 ++ [Create id]))) = Some (Acct None true false).
Proof. exact Proof.ExtAuth.created. Qed.
Print Assumptions C97_created.

(** C97: logging in changes no account, but to enable the client's own if the configuration wants that. *)
Theorem C97_unchanged : forall s o u a,
  Config.lookup u (st_db s) = Some a ->
  (exists id q w c, o = Login id q w c) \/ (exists id, o = Finish id) \/ (exists id, o = Create id) ->
  Config.lookup u (st_db (step s o)) = Some a \/
  (k_enable (st_conf s) = true /\ Config.lookup u (st_db (step s o)) = Some (Acct (ac_pass a) true (ac_admin a)) /\
   exists id imp, o = Finish id /\ conn id (st_conns s) = Some (Authed u imp)).
Proof. exact Proof.ExtAuth.login_keeps. Qed.
Print Assumptions C97_unchanged.

(** C97: with the internal database only, logging in creates no accounts, if none is deleted. *)
Theorem C97_internal_partial : forall s0 l u,
  st_conns s0 = [] -> Proof.ExtAuth.only_internal (st_conf s0) -> (forall k, In (Reload k) l -> Proof.ExtAuth.only_internal k) ->
  (forall v, ~ In (Delete v) l) -> Config.lookup u (st_db s0) = None -> (forall b, ~ In (Admin u b) l) ->
  Config.lookup u (st_db (run s0 l)) = None.
Proof. exact Proof.ExtAuth.internal_none. Qed.
Print Assumptions C97_internal_partial.

(** C97: those who are accepted are let in, with an account that they have, *)
Theorem C97_lets_in : forall s id q w c u a,
  conn id (st_conns s) = None -> accepts (st_conf s) w (st_db s) c u -> u <> [] ->
  running s u = true -> Config.lookup u (st_db s) = Some a -> ac_enabled a = true \/ k_enable (st_conf s) = true ->
  conn id (st_conns (run s [Login id q w c; Finish id])) = Some (Served u).
Proof. exact Proof.ExtAuth.lets_in. Qed.
Print Assumptions C97_lets_in.
(** or a new one, if nobody interferes. *)
Theorem C97_lets_in_new_partial : forall s id q w c u,
  conn id (st_conns s) = None -> accepts (st_conf s) w (st_db s) c u -> u <> [] ->
  running s u = false -> Config.lookup u (st_db s) = None -> k_enable (st_conf s) = true ->
  let s' := run s [Login id q w c; Finish id; Create id] in
  conn id (st_conns s') = Some (Served u) /\ Config.lookup u (st_db s') = Some (Acct None true false) /\ running s' u = true.
Proof. exact Proof.ExtAuth.lets_in_new. Qed.
Print Assumptions C97_lets_in_new_partial.

(** ** Cases *)
(** An HTTP server with two users, and an OAuth server with one client and two tokens. *)
Definition two (u p : bytes) : bool := (beqb u (B "bob") && beqb p (B "x:y")) || (beqb u (B "alice") && beqb p (B "wonder land")).
Definition http_server (h : bytes) : option N :=
  match h with
  | _ =>
      if has_prefix h (B "Basic ")
      then match b64_decode B64Std (skipn 6 h) with
           | Some t => match cut_on ":" t with (u, Some p) => if two u p then Some 200 else Some 403 | _ => Some 403 end
           | None => Some 403
           end
      else Some 403
  end.
Definition tokens (t : bytes) : option bytes :=
  if beqb t (B "t=1&u=2 %") then Some (B "alice") else if beqb t (B "mail") then Some (B "carol@example.org") else None.
Definition oauth_server (endpoint : bytes) (h : option bytes) (body : bytes) : option (N * option (bool * bytes)) :=
  if beqb endpoint (B "https://a/i") && match h with Some h => beqb h (basic (B "so%3Aju") (B "s+3")) | None => false end then
    if beqb body (B "token=t%3D1%26u%3D2+%25") then Some (200, Some (true, B "alice"))
    else if beqb body (B "token=mail") then Some (200, Some (true, B "carol@example.org"))
    else Some (200, Some (false, []))
  else Some (401, None).
Definition web : servers := Servers (fun url => if beqb url (B "https://h") then http_server else fun _ => None) oauth_server (fun _ _ => false).
Definition o1 : oconf := Oconf (B "https://a/i") (B "so:ju") (B "s 3").
Definition by_http : conf := Conf (Config.Auth (Some (Config.Http (B "https://h"))) (Some (B "https://so%3Aju:s%203@a"))) o1 true.
Definition by_oauth : conf := Conf (Config.Auth (Some (Config.Oauth (B "https://so%3Aju:s%203@a"))) (Some (B "https://so%3Aju:s%203@a"))) o1 true.
Definition by_db : conf := Conf (Config.Auth (Some Config.Internal) None) (Oconf [] [] []) true.
Definition empty (k : conf) : st := St k [] [] [].

Example C96_nonvacuous :
  http_plain http_server (B "alice") (B "wonder land") = true /\ http_plain http_server (B "alice") (B "wonder") = false /\
  bearer o1 oauth_server (B "t=1&u=2 %") = Some (B "alice") /\ bearer o1 oauth_server (B "t=1") = None /\
  bearer (Oconf (B "https://a/i") [] []) oauth_server (B "t=1&u=2 %") = None /\
  new_oauth2 (fun _ => true) (Some (B "so:ju", Some (B "s 3"))) (Some (200, Some (Meta (B "https://a") (B "https://a/i") (Some [B "client_secret_basic"])))) = Some o1 /\
  new_oauth2 (fun _ => true) None (Some (200, Some (Meta (B "https://a") (B "https://a/i") (Some [B "client_secret_basic"])))) = None /\
  discovery_path (B "/realms/x") = B "/.well-known/oauth-authorization-server/realms/x" /\ discovery_path [] = B "/.well-known/oauth-authorization-server".
Proof. repeat (split; [vm_compute; reflexivity|]). vm_compute. reflexivity. Qed.
(** Such a server is honest. *)
Lemma cut_colon t : match cut_on ":" t with (u, Some p) => t = u ++ ":"%char :: p /\ ~ In ":"%char u | (_, None) => ~ In ":"%char t end.
Proof.
  induction t as [|c t IH]; [intros []|]. cbn [cut_on]. destruct (aeqb_spec c ":") as [->|N]; [split; [reflexivity|intros []]|]. destruct (cut_on ":" t) as [u [p|]].
  - destruct IH as [-> IH]. split; [reflexivity|]. intros [E|I]; [congruence|exact (IH I)].
  - intros [E|I]; [congruence|exact (IH I)].
Qed.
Example C96_http_nonvacuous : http_honest two http_server.
Proof.
  intros h. unfold http_server. split.
  - destruct (has_prefix h (B "Basic ")) eqn:P; [|discriminate]. apply has_prefix_iff in P. destruct P as [e ->]. change (skipn 6 (B "Basic " ++ e)) with e.
    destruct (b64_decode B64Std e) as [t|] eqn:D; [|discriminate]. pose proof (cut_colon t) as C. destruct (cut_on ":" t) as [u [p|]]; [|discriminate]. destruct C as [-> C].
    destruct (two u p) eqn:T; [|discriminate]. intros _. exists u, p. split; [exists e; auto|exact T].
  - intros (u & p & (e & -> & D & N) & T). assert (P : has_prefix (B "Basic " ++ e) (B "Basic ") = true) by (apply has_prefix_iff; exists e; reflexivity). rewrite P. change (skipn 6 (B "Basic " ++ e)) with e.
    rewrite D. pose proof (cut_colon (u ++ ":"%char :: p)) as C. destruct (cut_on ":" (u ++ ":"%char :: p)) as [u' [p'|]].
    + destruct C as [E C]. destruct (Proof.ExtAuth.first_colon _ _ _ _ N C E) as [<- <-]. rewrite T. reflexivity.
    + exfalso. apply C. apply in_or_app. right. left. reflexivity.
Qed.

(** C97: a first login, and one with an account of one's own; a wrong password. *)
Example C97_nonvacuous :
  let s := run (empty by_http) [Login 1 true web (CPlain [] (B "alice/libera") (B "wonder land")); Finish 1; Create 1; Login 2 false web (CPlain [] (B "alice") (B "wonder land")); Finish 2;
    Login 3 true web (CPlain [] (B "alice") (B "x")); Finish 3; Login 4 true web (COauth [] (B "t=1&u=2 %")); Finish 4] in
  map (fun i => conn i (st_conns s)) [1; 2; 3; 4] = [Some (Served (B "alice")); Some (Served (B "alice")); None; Some (Served (B "alice"))] /\
  st_db s = [(B "alice", Acct None true false)].
Proof. split; vm_compute; reflexivity. Qed.

(** C96 is refuted for names with a colon: the password of one user of the server lets in as another user. *)
Theorem C96_colon_refuted : exists users server u p,
  http_honest users server /\ (forall q, users u q = false) /\ http_plain server u p = true.
Proof.
  exists two, http_server, (B "bob:x"), (B "y"). split; [exact C96_http_nonvacuous|]. split; [|vm_compute; reflexivity].
  intros q. unfold two. change (beqb (B "bob:x") (B "bob")) with false. change (beqb (B "bob:x") (B "alice")) with false. reflexivity.
Qed.
Print Assumptions C96_colon_refuted.

(** C96 is refuted for user names with an @, like mail addresses: the token lets in with OAUTHBEARER, but not as a
    password, with whatever login name. *)
Theorem C96_mail_refuted : exists t u,
  bearer o1 oauth_server t = Some u /\
  (exists n, verify (env_of by_oauth web []) (COauth [] t) = Some (n, false) /\ fst (fst n) = u) /\
  forall z name, verify (env_of by_oauth web []) (CPlain z name t) = None.
Proof.
  exists (B "mail"), (B "carol@example.org"). split; [vm_compute; reflexivity|]. split; [eexists; split; vm_compute; reflexivity|].
  intros z name. unfold verify, env_of, by_oauth. cbn [e_plain k_auth Config.a_plain option_map plain k_oauth]. replace (bearer o1 (sv_introspect web) (B "mail")) with (Some (B "carol@example.org")) by (vm_compute; reflexivity).
  destruct (beqb_spec (fst (fst (unmarshal_username name))) (B "carol@example.org")) as [E|_]; [|reflexivity]. exfalso.
  assert (I : In "@"%char (account name)) by (unfold account; rewrite E; vm_compute; tauto). apply Proof.ExtAuth.account_plain in I. exact I.
Qed.
Print Assumptions C96_mail_refuted.

(** C97 is refuted for deleted accounts: a client that has authenticated, and sends the end of its registration only after
    its account is deleted, gets a new one. *)
Definition ann : st := St by_db [(B "ann", Acct (Some (B "pw")) true false)] [B "ann"] [].
Theorem C97_deleted_refuted : exists l,
  Config.lookup (B "ann") (st_db (run ann (l ++ [Stop (B "ann"); Delete (B "ann")]))) = None /\
  (let s := run ann (l ++ [Stop (B "ann"); Delete (B "ann"); Finish 1; Create 1]) in
   conn 1 (st_conns s) = Some (Served (B "ann")) /\ Config.lookup (B "ann") (st_db s) = Some (Acct None true false)).
Proof. exists [Login 1 true web (CPlain [] (B "ann") (B "pw"))]. split; [vm_compute; reflexivity|]. split; vm_compute; reflexivity. Qed.
Print Assumptions C97_deleted_refuted.

(** C97 is refuted for two clients of a new user that log in at the same time: one of them is turned away. *)
Theorem C97_twice_refuted : exists l,
  was_accepted (empty by_http) l 1 (B "alice") /\ was_accepted (empty by_http) l 2 (B "alice") /\
  (forall u, ~ In (Stop u) l) /\
  let s := run (empty by_http) l in conn 1 (st_conns s) = Some (Served (B "alice")) /\ conn 2 (st_conns s) = Some Gone.
Proof.
  set (c := CPlain [] (B "alice") (B "wonder land")).
  assert (A : forall db, accepts by_http web db c (B "alice")).
  { intros db. apply (APassword by_http web db [] (B "alice") (B "wonder land")); [|left; reflexivity]. apply (VHttp _ _ _ _ _ (B "https://h")); [reflexivity|vm_compute; reflexivity]. }
  exists [Login 1 true web c; Login 2 true web c; Finish 1; Finish 2; Create 1; Create 2]. split; [|split; [|split]].
  - exists [], true, web, c, [Login 2 true web c; Finish 1; Finish 2; Create 1; Create 2]. split; [reflexivity|]. apply A.
  - exists [Login 1 true web c], true, web, c, [Finish 1; Finish 2; Create 1; Create 2]. split; [reflexivity|]. apply A.
  - intros u H. cbn [In] in H. repeat (destruct H as [H|H]; [discriminate H|]). destruct H.
  - split; vm_compute; reflexivity.
Qed.
Print Assumptions C97_twice_refuted.
