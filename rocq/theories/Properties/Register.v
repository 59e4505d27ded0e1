(** Properties C23, C67 and C68. *)
From Verif.Base Require Import Bytes Base64.
From Verif.Model Require Import Message GenMsg Username Caps Register.
From Verif.Spec Require Import Register.
From Verif.Proof Require Register.
From Coq Require Import ZArith Lia.
Open Scope nat_scope.

(** C23: a registered client presented, at some point, credentials of the account it is registered
    as, and these were accepted at that point: a password with PASS or SASL PLAIN, a token with SASL
    OAUTHBEARER, or the password of an administrator who asks for the account. *)
Theorem C23_registered_authenticated :
  forall atoi parse_id oauth_parse oauth_failure plain oauth store es u,
    let s := fst (rrun atoi parse_id oauth_parse oauth_failure (new_conn plain oauth store) es) in
    r_user s = Some u -> authenticated oauth_parse es u (r_imp s).
Proof. exact Proof.Register.registered_authenticated. Qed.
Print Assumptions C23_registered_authenticated.

(** C67: with PASS, in both orders of NICK and USER, the right password registers the client under
    the parts of its login name, and a wrong one closes the connection. *)
Theorem C67_pass :
  forall atoi parse_id oauth_parse oauth_failure plain oauth store e ord f p n u a b c,
    e_plain e = Some f -> p <> [] -> n <> [] -> u <> [] ->
    let run := fun l => rrun atoi parse_id oauth_parse oauth_failure (new_conn plain oauth store) (sends e ord l) in
    forall r,
      r = run [m_ "PASS" [p]; m_ "NICK" [n]; m_ "USER" [u; a; b; c]] \/
      r = run [m_ "PASS" [p]; m_ "USER" [u; a; b; c]; m_ "NICK" [n]] ->
      if f (account u) p
      then snd r = [] /\ r_closed (fst r) = false /\ r_user (fst r) = Some (account u) /\ r_nick (fst r) = n /\
           (account u, r_client (fst r), r_netname (fst r)) = unmarshal_username u
      else snd r = [RError (B "464")] /\ r_closed (fst r) = true /\ r_user (fst r) = None.
Proof.
  intros atoi parse_id op of plain oauth store e ord f p n u a b c He Hp Hn Hu run r Hr.
  assert (E : r = let s := set_username (set_nick (set_pass (new_conn plain oauth store) p) n) u in
      if f (account u) p
      then (set_user (set_caps (set_auth (set_pass s []) (unmarshal_username u))
             (Cstate (cs_avail (r_caps s)) (cs_enabled (r_caps s)) (cs_version (r_caps s)) true (cs_negotiating (r_caps s)))) (Some (account u)), [])
      else (set_closed (set_pass s []), [RError (B "464")])).
  { destruct Hr as [-> | ->].
    - exact (Proof.Register.pass_nick_user atoi parse_id op of e ord plain oauth store f p n u a b c He Hp Hn Hu).
    - exact (Proof.Register.pass_user_nick atoi parse_id op of e ord plain oauth store f p n u a b c He Hp Hn Hu). }
  rewrite E. cbv zeta. destruct (f (account u) p).
  - cbn [fst snd]. split; [reflexivity|]. split; [reflexivity|]. split; [reflexivity|]. split; [reflexivity|].
    unfold account. cbn [set_user set_caps set_auth set_pass r_client r_netname]. destruct (unmarshal_username u) as [[x y] z]. reflexivity.
  - split; [reflexivity|]. split; reflexivity.
Qed.
Print Assumptions C67_pass.

(** C67: with SASL PLAIN, the right password registers the client as its account, for any text that
    fits in the limit of 10240 bytes and whatever its division in chunks. *)
Theorem C67_sasl_plain :
  forall atoi parse_id oauth_parse oauth_failure plain oauth store e ord f n u2 a b c authzid user pass,
    let resp := authzid ++ "000"%char :: user ++ "000"%char :: pass in
    e_plain e = Some f -> n <> [] -> u2 <> [] -> account user <> [] ->
    ~ In "000"%char user -> ~ In "000"%char pass ->
    (N.of_nat (length (b64_encode B64Std resp)) <= 10240)%N ->
    authzid = [] \/ authzid = user -> f (account user) pass = true ->
    compatible (snd (fst (unmarshal_username user))) (snd (fst (unmarshal_username u2))) ->
    compatible (snd (unmarshal_username user)) (snd (unmarshal_username u2)) ->
    let s := fst (rrun atoi parse_id oauth_parse oauth_failure (new_conn plain oauth store) (sends e ord
      (m_ "CAP" [B "REQ"; B "sasl"] :: m_ "NICK" [n] :: m_ "USER" [u2; a; b; c] ::
       m_ "AUTHENTICATE" [B "PLAIN"] :: generate_sasl resp ++ [m_ "CAP" [B "END"]]))) in
    r_user s = Some (account user) /\ r_imp s = false /\ r_closed s = false.
Proof.
  intros atoi parse_id op of plain oauth store e ord f n u2 a b c authzid user pass resp He Hn Hu2 Hne Hu Hp Hl Hz Hf C1 C2.
  apply (Proof.Register.sasl_registration atoi parse_id op of e ord plain oauth store n u2 a b c authzid user pass (unmarshal_username user, false)); try assumption.
  - destruct Hz as [-> | ->]; [intros []|exact Hu].
  - unfold verify. rewrite He. unfold account in Hf. rewrite Hf. cbn [negb].
    destruct Hz as [-> | ->]; [reflexivity|]. rewrite beqb_refl, orb_true_r. reflexivity.
Qed.
Print Assumptions C67_sasl_plain.

(** C67: an administrator can log in as another account that exists. *)
Theorem C67_sasl_plain_admin :
  forall atoi parse_id oauth_parse oauth_failure plain oauth store e ord f n u2 a b c authzid user pass,
    let resp := authzid ++ "000"%char :: user ++ "000"%char :: pass in
    e_plain e = Some f -> n <> [] -> u2 <> [] -> account authzid <> [] ->
    ~ In "000"%char authzid -> ~ In "000"%char user -> ~ In "000"%char pass ->
    (N.of_nat (length (b64_encode B64Std resp)) <= 10240)%N ->
    authzid <> user -> f (account user) pass = true ->
    e_user e (account user) = Some true -> e_user e (account authzid) <> None ->
    compatible (snd (fst (unmarshal_username authzid))) (snd (fst (unmarshal_username u2))) ->
    compatible (snd (unmarshal_username authzid)) (snd (unmarshal_username u2)) ->
    let s := fst (rrun atoi parse_id oauth_parse oauth_failure (new_conn plain oauth store) (sends e ord
      (m_ "CAP" [B "REQ"; B "sasl"] :: m_ "NICK" [n] :: m_ "USER" [u2; a; b; c] ::
       m_ "AUTHENTICATE" [B "PLAIN"] :: generate_sasl resp ++ [m_ "CAP" [B "END"]]))) in
    r_user s = Some (account authzid) /\ r_imp s = true /\ r_closed s = false.
Proof.
  intros atoi parse_id op of plain oauth store e ord f n u2 a b c authzid user pass resp He Hn Hu2 Hne Hz Hu Hp Hl Hd Hf Hadm Hex C1 C2.
  apply (Proof.Register.sasl_registration atoi parse_id op of e ord plain oauth store n u2 a b c authzid user pass (unmarshal_username authzid, true)); try assumption.
  unfold verify. rewrite He. unfold account in *. rewrite Hf. cbn [negb].
  replace (beqb authzid []) with false by (symmetry; apply beqb_neq; intros ->; exact (Hne eq_refl)).
  replace (beqb authzid user) with false by (symmetry; apply beqb_neq; exact Hd). cbn [orb]. rewrite Hadm. cbn [negb].
  destruct (e_user e (fst (fst (unmarshal_username authzid)))); [reflexivity|contradiction].
Qed.
Print Assumptions C67_sasl_plain_admin.

(** C67: a wrong password is reported, and leaves the connection as it was before the exchange: the
    client can try again. *)
Theorem C67_sasl_plain_wrong :
  forall atoi parse_id oauth_parse oauth_failure s e ord f authzid user pass,
    let resp := authzid ++ "000"%char :: user ++ "000"%char :: pass in
    r_closed s = false -> r_user s = None -> cs_negotiating (r_caps s) = true -> is_enabled (r_caps s) (B "sasl") = true ->
    r_sasl s = None -> e_plain e = Some f -> f (account user) pass = false ->
    ~ In "000"%char authzid -> ~ In "000"%char user -> ~ In "000"%char pass ->
    (N.of_nat (length (b64_encode B64Std resp)) <= 10240)%N ->
    rrun atoi parse_id oauth_parse oauth_failure s (sends e ord (m_ "AUTHENTICATE" [B "PLAIN"] :: generate_sasl resp)) =
    (s, [RChallenge (B "+"); RError (B "904")]).
Proof.
  intros atoi parse_id op of s e ord f authzid user pass resp Hc Hus Hneg Hs Hsa He Hf Hz Hu Hp Hl.
  assert (V : verify e (CPlain authzid user pass) = None).
  { unfold verify. rewrite He. unfold account in Hf. rewrite Hf. reflexivity. }
  pose proof (Proof.Register.sasl_plain atoi parse_id op of e ord s authzid user pass) as H. rewrite V in H.
  apply H; try assumption.
  - split; [split; assumption|split; assumption].
  - intros x Hx. discriminate Hx.
Qed.
Print Assumptions C67_sasl_plain_wrong.

(** A configuration: two accounts with passwords, one an administrator. *)
Definition ex_auth (u p : bytes) : bool := (beqb u (B "alice") && beqb p (B "wonder")) || (beqb u (B "root") && beqb p (B "toor")).
Definition ex_env : env :=
  Env (Some ex_auth) None (fun u => if beqb u (B "root") then Some true else if beqb u (B "alice") then Some false else None).
Definition ex_run (l : list message) : rstate * list rout :=
  rrun (fun _ => Some 302%Z) (fun _ => None) (fun _ => None) [] (new_conn true false true) (sends ex_env (fun l => l) l).
Definition ex_long (pass : bytes) : bytes := B "" ++ "000"%char :: B "alice/libera" ++ "000"%char :: pass.

Example C23_nonvacuous :
  r_user (fst (ex_run [m_ "PASS" [B "wonder"]; m_ "NICK" [B "al"]; m_ "USER" [B "alice@phone"; B "0"; B "*"; B "x"]])) = Some (B "alice") /\
  r_user (fst (ex_run [m_ "PASS" [B "wonderful"]; m_ "NICK" [B "al"]; m_ "USER" [B "alice@phone"; B "0"; B "*"; B "x"]])) = None /\
  r_user (fst (ex_run [m_ "NICK" [B "al"]; m_ "USER" [B "alice"; B "0"; B "*"; B "x"]; m_ "PASS" [B "wonder"]])) = None.
Proof. vm_compute. repeat split. Qed.

(** The hypotheses of the SASL theorems: a login with its own account, one as an administrator, and
    a wrong password. *)
Example C67_nonvacuous :
  (let s := fst (ex_run (m_ "CAP" [B "REQ"; B "sasl"] :: m_ "NICK" [B "al"] :: m_ "USER" [B "al"; B "0"; B "*"; B "x"] ::
      m_ "AUTHENTICATE" [B "PLAIN"] :: generate_sasl (ex_long (B "wonder")) ++ [m_ "CAP" [B "END"]])) in
   r_user s = Some (B "alice") /\ r_netname s = B "libera") /\
  (let s := fst (ex_run (m_ "CAP" [B "REQ"; B "sasl"] :: m_ "NICK" [B "al"] :: m_ "USER" [B "al"; B "0"; B "*"; B "x"] ::
      m_ "AUTHENTICATE" [B "PLAIN"] :: generate_sasl (B "alice" ++ "000"%char :: B "root" ++ "000"%char :: B "toor") ++ [m_ "CAP" [B "END"]])) in
   r_user s = Some (B "alice") /\ r_imp s = true) /\
  (let r := ex_run (m_ "CAP" [B "REQ"; B "sasl"] :: m_ "NICK" [B "al"] :: m_ "USER" [B "al"; B "0"; B "*"; B "x"] ::
      m_ "AUTHENTICATE" [B "PLAIN"] :: generate_sasl (ex_long (repeat "w"%char 600)) ++ [m_ "CAP" [B "END"]]) in
   r_user (fst r) = None /\ In (RError (B "904")) (snd r)) /\
  length (generate_sasl (ex_long (repeat "w"%char 600))) = 3 /\
  compatible (snd (unmarshal_username (B "alice/libera"))) (snd (unmarshal_username (B "al"))).
Proof.
  split; [vm_compute; split; reflexivity|]. split; [vm_compute; split; reflexivity|].
  split; [split; [vm_compute; reflexivity|vm_compute; tauto]|].
  split; [vm_compute; reflexivity|right; left; vm_compute; reflexivity].
Qed.

(** C68 is violated. A client of a disabled account is refused, but remains able to send messages:
    one whose handler uses the account of the connection ends the goroutine of the user, and nothing is
    handled for that user any more. *)
Theorem C68_disabled_refuted :
  exists g id,
    g_alive g = true /\ g_enabled g = false /\ nmem id (g_conns g) = false /\
    let g' := grun g [GConnected id false true; GMessage id true] in
    g_alive g' = false /\
    forall es, g_conns (grun g' es) = g_conns g /\ g_enabled (grun g' es) = false.
Proof.
  exists (Group' true false [] []), 1%N. split; [reflexivity|]. split; [reflexivity|]. split; [reflexivity|].
  split; [reflexivity|]. intros es.
  assert (H : grun (grun (Group' true false [] []) [GConnected 1%N false true; GMessage 1%N true]) es = Group' false false [] []).
  { change (grun (Group' true false [] []) [GConnected 1%N false true; GMessage 1%N true]) with (Group' false false [] []).
    induction es as [|e es IH]; [reflexivity|exact IH]. }
  rewrite H. split; reflexivity.
Qed.
Print Assumptions C68_disabled_refuted.

(** C68 is violated: a client refused because its network cannot be found is not a connection of the
    user but its messages are handled. *)
Theorem C68_no_network_refuted :
  exists g id,
    g_alive g = true /\ g_enabled g = true /\
    let g' := grun g [GConnected id false false] in
    nmem id (g_conns g') = false /\ g_alive (grun g' [GMessage id true]) = true /\ nmem id (g_welcomed g') = true.
Proof. exists (Group' true true [2%N] [2%N]), 1%N. vm_compute. repeat split. Qed.
Print Assumptions C68_no_network_refuted.
