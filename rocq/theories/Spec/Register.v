(** Which credentials a client presented. *)
From Verif.Base Require Import Bytes Base64.
From Verif.Model Require Import Message GenMsg Username Register.
From Coq Require Import ZArith.
Open Scope nat_scope.

(** The first parameters of the AUTHENTICATE messages. *)
Definition auth_params (es : list rev_) : list bytes :=
  flat_map (fun x => if beqb (m_command (snd x)) (B "AUTHENTICATE") then firstn 1 (m_params (snd x)) else []) es.

(** The first parameter of the last message of a command with enough parameters. *)
Definition last_sent (cmd : bytes) (n : nat) (es : list rev_) : bytes :=
  fold_left (fun acc x => if beqb (m_command (snd x)) cmd && (n <=? length (m_params (snd x))) then hd [] (m_params (snd x)) else acc) es [].

(** The account part of a login name. *)
Definition account (raw : bytes) : bytes := fst (fst (unmarshal_username raw)).

(** The response given in a SASL exchange: the chunks since the name of the mechanism. *)
Definition sasl_text (c : bytes) : bytes := if beqb c (B "+") then [] else c.
Definition sasl_response (mech : bytes) (es : list rev_) (resp : bytes) : Prop :=
  exists pre name chunks, auth_params es = pre ++ name :: chunks /\ to_upper name = mech /\
    b64_decode B64Std (concat (map sasl_text chunks)) = Some resp.

(** The last of these events authenticates the client as [u]; [imp]: by an administrator. *)
Inductive authenticates (oauth_parse : bytes -> option (bytes * bytes)) (es : list rev_) : bytes -> bool -> Prop :=
| by_pass : forall es0 e ord m f,
    es = es0 ++ [(e, ord, m)] -> e_plain e = Some f -> last_sent (B "PASS") 1 es <> [] ->
    f (account (last_sent (B "USER") 4 es)) (last_sent (B "PASS") 1 es) = true ->
    authenticates oauth_parse es (account (last_sent (B "USER") 4 es)) false
| by_plain : forall es0 e ord m f authzid user pass,
    es = es0 ++ [(e, ord, m)] -> sasl_response (B "PLAIN") es (authzid ++ "000"%char :: user ++ "000"%char :: pass) ->
    ~ In "000"%char authzid -> ~ In "000"%char user -> ~ In "000"%char pass ->
    e_plain e = Some f -> f (account user) pass = true -> authzid = [] \/ authzid = user ->
    authenticates oauth_parse es (account user) false
| by_admin : forall es0 e ord m f authzid user pass,
    es = es0 ++ [(e, ord, m)] -> sasl_response (B "PLAIN") es (authzid ++ "000"%char :: user ++ "000"%char :: pass) ->
    ~ In "000"%char authzid -> ~ In "000"%char user -> ~ In "000"%char pass ->
    e_plain e = Some f -> f (account user) pass = true ->
    e_user e (account user) = Some true -> e_user e (account authzid) <> None ->
    authenticates oauth_parse es (account authzid) true
| by_oauth : forall es0 e ord m g resp user token u,
    es = es0 ++ [(e, ord, m)] -> sasl_response (B "OAUTHBEARER") es resp -> oauth_parse resp = Some (user, token) ->
    e_oauth e = Some g -> g token = Some u -> user = [] \/ user = u ->
    authenticates oauth_parse es u false.

(** At some point of the exchange. *)
Definition authenticated oauth_parse (es : list rev_) (u : bytes) (imp : bool) : Prop :=
  exists es1 es2, es = es1 ++ es2 /\ authenticates oauth_parse es1 u imp.

(** A client sends these messages while the outside answers the same. *)
Definition sends (e : env) (ord : list (bytes * bytes) -> list (bytes * bytes)) (l : list message) : list rev_ := map (fun m => (e, ord, m)) l.
Definition m_ c ps := msg (B c) ps.

(** Two names given by a client (a client name, a network name) do not contradict. *)
Definition compatible (x y : bytes) : Prop := x = [] \/ y = [] \/ x = y.
