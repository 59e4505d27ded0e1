(** Model of authentication by other servers (auth/auth.go, http.go, oauth2.go, pam.go) and of the accounts that a client
    gets after it: server.go:404-418 (createUser), 458-535 (Handle, getOrCreateUser), user.go:722-780, service.go:1175-1225
    (user delete). The verification of SASL credentials is [Register.verify] (Model/Register.v), given these authenticators.
    Not modelled: HTTP itself with its redirects, JSON; what a server answers is an input. Passwords of the internal
    database are compared as such (hashes are in Model/Activity.v). *)
From Coq Require Import NArith.
From Verif.Base Require Import Bytes Base64 Path.
From Verif.Model Require Import Username Register.
From Verif.Model Require Config UploadHttp.

(** net/http: Request.SetBasicAuth; the Authorization header. *)
Definition basic (u p : bytes) : bytes := B "Basic " ++ b64_encode B64Std (u ++ ":"%char :: p).

(** net/url: QueryEscape. *)
Definition unreserved (c : ascii) : bool :=
  is_digit c || (N.leb 65 (code c) && N.leb (code c) 90)%N || (N.leb 97 (code c) && N.leb (code c) 122)%N || amem c (B "-_.~").
Definition query_byte (c : ascii) : bytes :=
  if unreserved c then [c] else if aeqb c " " then B "+"
  else ["%"%char; UploadHttp.hex_digit (code c / 16); UploadHttp.hex_digit (N.modulo (code c) 16)].
Definition query_escape (s : bytes) : bytes := flat_map query_byte s.
(** oauth2.go:86-89: url.Values.Encode of one value. *)
Definition token_form (t : bytes) : bytes := B "token=" ++ query_escape t.

(** ** Discovery, oauth2.go:25-81, 144-171. *)
Record oconf := Oconf { oc_endpoint : bytes; oc_id : bytes; oc_secret : bytes }.
(** The metadata; no methods if there are none in it. *)
Record meta := Meta { me_issuer : bytes; me_endpoint : bytes; me_methods : option (list bytes) }.
(** oauth2.go:43 *)
Definition discovery_path (p : bytes) : bytes := path_join [B "/.well-known/oauth-authorization-server"; p].
(** [user]: the user information of the URL. [answer]: the status and the decoded metadata; None: no answer. [url_ok]:
    url.Parse. *)
Definition new_oauth2 (url_ok : bytes -> bool) (user : option (bytes * option bytes)) (answer : option (N * option meta)) : option oconf :=
  let '(id, secret) := match user with Some (u, p) => (u, match p with Some p => p | None => [] end) | None => ([], []) end in
  match answer with
  | Some (st, Some m) =>
      if negb (N.eqb st 200) || beqb (me_issuer m) [] || beqb (me_endpoint m) [] || negb (url_ok (me_endpoint m)) then None
      else match me_methods m with
           | Some l =>
               if beqb id [] && negb (bmem (B "none") l) then None
               else if negb (beqb id []) && negb (bmem (B "client_secret_basic") l) then None
               else Some (Oconf (me_endpoint m) id secret)
           | None => Some (Oconf (me_endpoint m) id secret)
           end
  | _ => None
  end.

(** ** The authenticators *)
(** The other servers, as they answer at one time. An HTTP server: the status for an Authorization header (None: the
    request could not be sent). An introspection endpoint: the status and the decoded answer, for an Authorization header
    and a form. PAM: authenticated, available, and still the same user. *)
Record servers := Servers {
  sv_http : bytes -> bytes -> option N;
  sv_introspect : bytes -> option bytes -> bytes -> option (N * option (bool * bytes));
  sv_pam : bytes -> bytes -> bool }.

(** database.go: an account. *)
Record acct := Acct { ac_pass : option bytes; ac_enabled : bool; ac_admin : bool }.

(** The configuration in force: authenticators (main.go:79-102), the OAuth server found, enable-user-on-auth. *)
Record conf := Conf { k_auth : Config.auth; k_oauth : oconf; k_enable : bool }.

(** http.go:30-51 *)
Definition http_plain (server : bytes -> option N) (u p : bytes) : bool :=
  match server (basic u p) with Some st => N.eqb st 200 | None => false end.
(** oauth2.go:85-125 *)
Definition bearer (o : oconf) (server : bytes -> option bytes -> bytes -> option (N * option (bool * bytes))) (t : bytes) : option bytes :=
  let header := if beqb (oc_id o) [] then None else Some (basic (query_escape (oc_id o)) (query_escape (oc_secret o))) in
  match server (oc_endpoint o) header (token_form t) with
  | Some (st, Some (active, u)) => if negb (N.eqb st 200) || negb active || beqb u [] then None else Some u
  | _ => None
  end.
(** internal.go:20-37, database.go:110-116 *)
Definition internal (db : list (bytes * acct)) (u p : bytes) : bool :=
  match Config.lookup u db with
  | Some a => match ac_pass a with Some q => beqb p q | None => false end
  | None => false
  end.
(** auth.go:12-40 *)
Definition plain (k : conf) (w : servers) (db : list (bytes * acct)) (c : Config.checker) (u p : bytes) : bool :=
  match c with
  | Config.Internal => internal db u p
  | Config.Http url => http_plain (sv_http w url) u p
  | Config.Pam => sv_pam w u p
  | Config.Oauth _ => match bearer (k_oauth k) (sv_introspect w) p with Some v => beqb u v | None => false end
  end.
Definition env_of (k : conf) (w : servers) (db : list (bytes * acct)) : env :=
  Env (option_map (plain k w db) (Config.a_plain (k_auth k)))
      (option_map (fun _ => bearer (k_oauth k) (sv_introspect w)) (Config.a_token (k_auth k)))
      (fun u => option_map ac_admin (Config.lookup u db)).

(** ** Connections and accounts *)
(** A connection: authenticated; about to create its account; a client of its user; closed or refused. *)
Inductive phase := Authed (u : bytes) (imp : bool) | Creating (u : bytes) | Served (u : bytes) | Gone.
Record st := St { st_conf : conf; st_db : list (bytes * acct); st_run : list bytes; st_conns : list (N * phase) }.

Inductive op :=
| Login (id : N) (sasl : bool) (w : servers) (c : creds)   (* credentials of SASL or PASS are verified *)
| Finish (id : N)                            (* the registration is complete: server.go:497-529 *)
| Create (id : N)                            (* then createUser *)
| Stop (u : bytes)                           (* the user stops: on deletion, or by a panic *)
| Delete (u : bytes)                         (* then db.DeleteUser *)
| Admin (u : bytes) (a : acct)               (* user create *)
| Update (u : bytes) (a : acct)              (* user update *)
| Reload (k : conf).

Fixpoint conn (id : N) (l : list (N * phase)) : option phase :=
  match l with [] => None | (i, x) :: l' => if N.eqb i id then Some x else conn id l' end.
Definition set_conn (s : st) (id : N) (x : phase) : st := St (st_conf s) (st_db s) (st_run s) ((id, x) :: st_conns s).
Definition put (u : bytes) (a : acct) (l : list (bytes * acct)) : list (bytes * acct) := (u, a) :: Config.remove u l.
Definition running (s : st) (u : bytes) : bool := bmem u (st_run s).

(** database.go:102-108 *)
Definition new_user : acct := Acct None true false.
(** user.go:728-747; the record in memory is the stored one (C62). *)
Definition connected (s : st) (id : N) (u : bytes) : st :=
  match Config.lookup u (st_db s) with
  | Some a =>
      if ac_enabled a then set_conn s id (Served u)
      else if k_enable (st_conf s)
      then set_conn (St (st_conf s) (put u (Acct (ac_pass a) true (ac_admin a)) (st_db s)) (st_run s) (st_conns s)) id (Served u)
      else set_conn s id Gone
  | None => set_conn s id Gone
  end.
(** server.go:404-418; the name is unique in the database. *)
Definition create (s : st) (u : bytes) (a : acct) : option st :=
  if running s u then None
  else match Config.lookup u (st_db s) with
       | Some _ => None
       | None => Some (St (st_conf s) (put u a (st_db s)) (u :: st_run s) (st_conns s))
       end.

(** An empty name is a panic in SASL exchanges (downstream.go:737-739), but not with PASS. *)
Definition step (s : st) (o : op) : st :=
  match o with
  | Login id sasl w c =>
      match conn id (st_conns s) with
      | None | Some (Authed _ _) =>
          match verify (env_of (st_conf s) w (st_db s)) c with
          | Some (names, imp) => set_conn s id (if sasl && beqb (fst (fst names)) [] then Gone else Authed (fst (fst names)) imp)
          | None => s
          end
      | _ => s
      end
  | Finish id =>
      match conn id (st_conns s) with
      | Some (Authed u _) =>
          if running s u then connected s id u
          else match Config.lookup u (st_db s) with
               | Some _ => set_conn s id Gone
               | None => set_conn s id (if k_enable (st_conf s) then Creating u else Gone)
               end
      | _ => s
      end
  | Create id =>
      match conn id (st_conns s) with
      | Some (Creating u) => match create s u new_user with Some s' => connected s' id u | None => set_conn s id Gone end
      | _ => s
      end
  | Stop u =>
      St (st_conf s) (st_db s) (filter (fun v => negb (beqb v u)) (st_run s))
        (map (fun x => match snd x with Served v => if beqb v u then (fst x, Gone) else x | _ => x end) (st_conns s))
  | Delete u => if running s u then s else St (st_conf s) (Config.remove u (st_db s)) (st_run s) (st_conns s)
  | Admin u a => match create s u a with Some s' => s' | None => s end
  | Update u a => match Config.lookup u (st_db s) with Some _ => St (st_conf s) (put u a (st_db s)) (st_run s) (st_conns s) | None => s end
  | Reload k => St k (st_db s) (st_run s) (st_conns s)
  end.
Definition run (s : st) (l : list op) : st := fold_left step l s.
