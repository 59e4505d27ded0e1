(** Who a client is, according to the authority that the configuration names. *)
From Coq Require Import NArith.
From Verif.Base Require Import Bytes Base64 Path.
From Verif.Model Require Import Username Register ExtAuth.
From Verif.Model Require Config.
From Verif.Spec Require Import Register.
Open Scope N_scope.

(** ** On the wire *)
(** RFC 7617: the name ends at the first colon. *)
Definition basic_credentials (header u p : bytes) : Prop :=
  exists e, header = B "Basic " ++ e /\ b64_decode B64Std e = Some (u ++ ":"%char :: p) /\ ~ In ":"%char u.

(** application/x-www-form-urlencoded. *)
Definition hex_value (c : ascii) : option N :=
  let n := code c in
  if (48 <=? n) && (n <=? 57) then Some (n - 48) else if (65 <=? n) && (n <=? 70) then Some (n - 55)
  else if (97 <=? n) && (n <=? 102) then Some (n - 87) else None.
Inductive form_text : bytes -> bytes -> Prop :=
| FNil : form_text [] []
| FPlus s t : form_text s t -> form_text ("+"%char :: s) (" "%char :: t)
| FHex a b x y s t : hex_value a = Some x -> hex_value b = Some y -> form_text s t ->
    form_text ("%"%char :: a :: b :: s) (ascii_of_N (x * 16 + y) :: t)
| FLit c s t : ~ In c (B "%+&=") -> form_text s t -> form_text (c :: s) (c :: t).
Definition form_value (body name value : bytes) : Prop :=
  exists e, body = name ++ "="%char :: e /\ ~ In "&"%char e /\ form_text e value.

(** A server that accepts the passwords of its users. *)
Definition http_honest (users : bytes -> bytes -> bool) (server : bytes -> option N) : Prop :=
  forall h, server h = Some 200 <-> exists u p, basic_credentials h u p /\ users u p = true.
(** A server that tells registered clients (or anybody, if [public]) whose token it is. *)
Definition oauth_honest (clients : bytes -> bytes -> bool) (public : bool) (tokens : bytes -> option bytes)
    (server : option bytes -> bytes -> option (N * option (bool * bytes))) : Prop :=
  forall h body u, server h body = Some (200, Some (true, u)) <->
    (match h with
     | None => public = true
     | Some h => exists eid esec id sec, basic_credentials h eid esec /\ form_text eid id /\ form_text esec sec /\ clients id sec = true
     end) /\
    exists t, form_value body (B "token") t /\ tokens t = Some u.

(** ** The metadata of an OAuth server *)
Definition oauth_says (url_ok : bytes -> bool) (id : bytes) (m : meta) : Prop :=
  me_issuer m <> [] /\ me_endpoint m <> [] /\ url_ok (me_endpoint m) = true /\
  (forall l, me_methods m = Some l -> (id = [] -> In (B "none") l) /\ (id <> [] -> In (B "client_secret_basic") l)).

(** ** Acceptance *)
(** The token is of [u], says the server. *)
Definition identifies (o : oconf) (w : servers) (t u : bytes) : Prop :=
  u <> [] /\ sv_introspect w (oc_endpoint o) (if beqb (oc_id o) [] then None else Some (basic (query_escape (oc_id o)) (query_escape (oc_secret o)))) (token_form t)
    = Some (200, Some (true, u)).
(** The password is of [u], says whoever checks passwords. *)
Inductive vouches (k : conf) (w : servers) (db : list (bytes * acct)) (u p : bytes) : Prop :=
| VInternal a : Config.a_plain (k_auth k) = Some Config.Internal -> Config.lookup u db = Some a -> ac_pass a = Some p -> vouches k w db u p
| VHttp url : Config.a_plain (k_auth k) = Some (Config.Http url) -> sv_http w url (basic u p) = Some 200 -> vouches k w db u p
| VPam : Config.a_plain (k_auth k) = Some Config.Pam -> sv_pam w u p = true -> vouches k w db u p
| VOauth url : Config.a_plain (k_auth k) = Some (Config.Oauth url) -> identifies (k_oauth k) w p u -> vouches k w db u p.
Inductive accepts (k : conf) (w : servers) (db : list (bytes * acct)) : creds -> bytes -> Prop :=
| APassword z name p : vouches k w db (account name) p -> z = [] \/ z = name -> accepts k w db (CPlain z name p) (account name)
| AAdmin z name p a b : vouches k w db (account name) p -> Config.lookup (account name) db = Some a -> ac_admin a = true ->
    Config.lookup (account z) db = Some b -> z <> [] -> z <> name -> accepts k w db (CPlain z name p) (account z)
| AToken name t u : Config.a_token (k_auth k) <> None -> identifies (k_oauth k) w t u -> name = [] \/ name = u -> accepts k w db (COauth name t) u.

(** The client of that connection was accepted as [u], when it logged in. *)
Definition was_accepted (s0 : st) (l : list op) (id : N) (u : bytes) : Prop :=
  exists l1 sasl w c l2, l = l1 ++ Login id sasl w c :: l2 /\ accepts (st_conf (run s0 l1)) w (st_db (run s0 l1)) c u.
(** It was let through when its registration was complete, to create its account. *)
Definition was_admitted (s0 : st) (l : list op) (id : N) (u : bytes) : Prop :=
  exists l1 l2, l = l1 ++ Finish id :: l2 /\ was_accepted s0 l1 id u /\ k_enable (st_conf (run s0 l1)) = true /\ Config.lookup u (st_db (run s0 l1)) = None.
Definition exists_account (s : st) (u : bytes) : Prop := Config.lookup u (st_db s) <> None.
