(** Property C48. *)
From Verif.Base Require Import Bytes.
From Verif.Model Require Import Message CaseMap ServiceNick.
From Verif.Proof Require ServiceNick.
From Verif.Spec Require Import ServiceNick.
From Coq Require Import NArith.
Open Scope nat_scope.

(** C48: a text of a server from or to the service, in any spelling and under any
    case mapping, with or without status sigils, is dropped; any other one is given
    unchanged to all clients of the network, apart from the one that sent it, and to
    nobody else. *)
Theorem C48_from_server : forall s n net l m origin s' o t, nth_error (ss_nets s) n = Some net -> sn_link net = Some l -> textual m -> complete m -> bare (sl_status l) (target m) t ->
  sstep s (SMsg n m origin) = (s', o) ->
  s' = s /\ (spelled (source (sl_server l) m) \/ spelled t -> o = []) /\
  (~ spelled (source (sl_server l) m) -> ~ spelled t -> forall y, In y (ss_clients s) -> on_net n y = true ->
     sc_id y <> origin \/ sc_echo y = true \/ casemap (sn_cm net) (sl_nick l) <> casemap (sn_cm net) (source (sl_server l) m) ->
     (sc_id y <> 0)%N -> In (SClient (sc_id y) (sourced (sl_server l) m)) o) /\
  (forall c m', In (SClient c m') o -> m' = sourced (sl_server l) m /\ exists y, In y (ss_clients s) /\ on_net n y = true /\ sc_id y = c).
Proof. exact Proof.ServiceNick.from_server. Qed.
Print Assumptions C48_from_server.

(** C48: whatever happens, unless a server gave the user that nickname or the
    service was told to use it, clients never get a text from the service, apart from
    answers and broadcasts of the service itself. *)
Theorem C48_no_text_partial : forall name nick admin host tr s e s' o c m p,
  ~ spelled name -> ~ spelled nick -> sruns polite (new_sst name nick admin host) tr s -> polite e -> sstep s e = (s', o) ->
  (forall x n, In x ((e, o) :: tr) -> gives (fst x) n -> ~ spelled n) ->
  In (SClient c m) o -> textual m -> m_prefix m = Some p -> ~ spelled (p_name p).
Proof.
  intros name nick admin host tr s e s' o c m p H1 H2 H Pe E G Hi Ht Hp Hs.
  assert (F0 : Proof.ServiceNick.fine (new_sst name nick admin host)) by (constructor; [exact H1|exact H2|intros x []]).
  assert (O0 : Proof.ServiceNick.ours (new_sst name nick admin host)) by (split; [intros x l []|intros x []]).
  destruct (Proof.ServiceNick.runs_ours _ _ _ H F0 O0) as [[e0 [o0 [k [Hin [Hg Hk]]]]]|[O1 O2]]; [exact (G (e0, o0) k (or_intror Hin) Hg Hk)|].
  destruct (Proof.ServiceNick.client_texts s e s' o c m p E Hi Ht Hp Hs) as [[x [Hx Hn]]|[net [l [Hx [Hl Hn]]]]]; rewrite Hn in Hs; [exact (O2 x Hx Hs)|exact (O1 net l Hx Hl Hs)].
Qed.
Print Assumptions C48_no_text_partial.

(** C48: no text, WHO or WHOIS for the service ever reaches a server. *)
Theorem C48_to_server : forall s e s' o n m, sstep s e = (s', o) -> In (SServer n m) o ->
  (textual m \/ m_command m = B "WHO" -> ~ spelled (target m)) /\
  (m_command m = B "WHOIS" -> exists mask, (m_params m = [mask] \/ exists x r, m_params m = x :: mask :: r) /\ ~ spelled (fst (cut_on "," mask))).
Proof.
  intros s e s' o n m E H. assert (NT : forall cmd ps, textual (msg cmd ps) -> In cmd [B "PRIVMSG"; B "NOTICE"; B "TAGMSG"]) by (intros cmd ps Ht; exact Ht).
  destruct (Proof.ServiceNick.step_server s e s' o n m E H) as [c x m0 tags text name _ _ Ht Hs|c x m0 nick r _ _ _ Hs|net _ _ _|net _ _|mask r Hs|ps mask Hm Hs|c m _ Hc].
  - split; [intros _; exact Hs|]. intros Hw. unfold textual in Ht. cbn [m_command] in Hw. rewrite Hw in Ht. destruct Ht as [Ht|[Ht|[Ht|[]]]]; discriminate Ht.
  - split; [intros _; exact Hs|intros Hw; discriminate Hw].
  - split; [|intros Hw; discriminate Hw]. intros [Ht|Ht]; [apply NT in Ht as [Ht|[Ht|[Ht|[]]]]|]; discriminate Ht.
  - split; [|intros Hw; discriminate Hw]. intros [Ht|Ht]; [apply NT in Ht as [Ht|[Ht|[Ht|[]]]]|]; discriminate Ht.
  - split; [intros _; exact Hs|intros Hw; discriminate Hw].
  - split; [intros [Ht|Ht]; [apply NT in Ht as [Ht|[Ht|[Ht|[]]]]|]; discriminate Ht|]. intros _. exists mask. split; [|exact Hs].
    cbn [m_params msg]. destruct ps as [|a [|b r]]; [discriminate Hm| |]; cbn [whois_mask] in Hm; [left|right; exists a, r]; congruence.
  - split; [|intros Hw; rewrite Hw in Hc; discriminate Hc]. intros [Ht|Ht]; [unfold textual in Ht; rewrite Hc in Ht; destruct Ht as [Ht|[Ht|[Ht|[]]]]|rewrite Hc in Ht]; discriminate Ht.
Qed.
Print Assumptions C48_to_server.

(** C48: the text of a client on a network goes to the service once for each target
    that is a spelling of it, and to the server for the other targets, in order. *)
Theorem C48_split : forall s c x n net l m targets text rest s' o, find_cl c (ss_clients s) = Some x -> sc_net x = Some n -> nth_error (ss_nets s) n = Some net -> sn_link net = Some l ->
  m_command m = B "PRIVMSG" -> m_params m = targets :: text :: rest -> (forall t, In t (split_on "," targets) -> has_prefix t (B "$") = false) ->
  sstep s (SCommand c m) = (s', o) ->
  servers o = map (fun t => (n, Message (client_tags m) None (B "PRIVMSG") [t; text])) (filter (fun t => negb (spelledb t)) (split_on "," targets)) /\
  runs o = map (fun _ => (c, text)) (filter spelledb (split_on "," targets)).
Proof.
  intros s c x n net l m targets text rest s' o F Hn Ht Hl Hc Hp Hd E. cbn [sstep] in E. rewrite F, Hc in E. change (is_text (B "PRIVMSG")) with true in E. cbv iota in E.
  apply pair_equal_spec in E as [_ <-]. unfold cmd_text. rewrite Hp, Hc. change (beqb (B "PRIVMSG") (B "TAGMSG")) with false. cbv iota.
  destruct (Proof.ServiceNick.send_split s x (client_tags m) (B "PRIVMSG") [text] n net l Hn Ht Hl (split_on "," targets) Hd) as [S1 S2].
  split; [exact S1|]. rewrite S2. change (beqb (B "PRIVMSG") (B "PRIVMSG")) with true. cbv iota. cbn [map].
  assert (Hid : sc_id x = c) by (apply find_some in F as [_ F]; apply N.eqb_eq in F; exact F). rewrite Hid. clear S1 S2 Hd.
  induction (filter spelledb (split_on "," targets)) as [|t r IH]; [reflexivity|]. cbn [flat_map map app]. rewrite IH. reflexivity.
Qed.
Print Assumptions C48_split.

(** C48: the service can be reached even without a network or server. *)
Theorem C48_reached_partial : forall s c x m t text rest s' o, find_cl c (ss_clients s) = Some x -> ~ spelled (sc_nick x) -> spelled t -> m_command m = B "PRIVMSG" -> m_params m = t :: text :: rest ->
  sstep s (SCommand c m) = (s', o) -> servers o = [] /\ runs o = [(c, text)].
Proof.
  intros s c x m t text rest s' o F Hx Hs Hc Hp E. cbn [sstep] in E. rewrite F, Hc in E. change (is_text (B "PRIVMSG")) with true in E. cbv iota in E.
  apply pair_equal_spec in E as [_ <-]. unfold cmd_text. rewrite Hp, Hc. change (beqb (B "PRIVMSG") (B "TAGMSG")) with false. cbv iota.
  assert (Hid : sc_id x = c) by (apply find_some in F as [_ F]; apply N.eqb_eq in F; exact F).
  assert (Hd : forall a, t <> "$"%char :: a) by (intros a ->; discriminate Hs).
  assert (Hk : split_on "," t = [t]).
  { apply split_on_nosep. intros Hi. apply (in_map lower_byte) in Hi. fold (to_lower t) in Hi. rewrite Hs in Hi. cbn in Hi. intuition discriminate. }
  rewrite Hk. cbn [send_text]. rewrite (proj2 (beqb_neq t _) (Hd (ss_host s))). rewrite (proj2 (beqb_neq t (B "$*")) (Hd (B "*"))). cbn [orb andb].
  assert (Hb : unbound x && beqb (casemap (cl_cm s x) t) (casemap (cl_cm s x) (sc_nick x)) = false).
  { apply Bool.andb_false_iff. right. apply beqb_neq. intros H. apply Hx. apply (Proof.ServiceNick.casemap_spelled (cl_cm s x)). rewrite <- H. apply Proof.ServiceNick.casemap_spelled. exact Hs. }
  rewrite Hb, (proj2 (Proof.ServiceNick.service_spelled _ t) Hs). change (beqb (B "PRIVMSG") (B "PRIVMSG")) with true. cbv iota. rewrite Hid. destruct (sc_echo x); split; reflexivity.
Qed.
Print Assumptions C48_reached_partial.

(** C48: unless the service is told so, the bouncer never asks a server for the
    nickname of the service, neither when a client wants it nor otherwise; and if a
    client has it, a server gave it. *)
Theorem C48_not_asked_partial : forall name nick admin host tr s e s' o n m,
  ~ spelled name -> ~ spelled nick -> sruns polite (new_sst name nick admin host) tr s -> polite e -> sstep s e = (s', o) ->
  In (SServer n m) o -> m_command m = B "NICK" -> ~ spelled (target m).
Proof.
  intros name nick admin host tr s e s' o n m H1 H2 H P E Hi Hc.
  apply (Proof.ServiceNick.asked (new_sst name nick admin host) tr s e s' o n m); try assumption. constructor; [exact H1|exact H2|intros x []].
Qed.
Print Assumptions C48_not_asked_partial.

Theorem C48_not_taken_partial : forall name nick admin host tr s x,
  ~ spelled name -> ~ spelled nick -> sruns polite (new_sst name nick admin host) tr s -> In x (ss_clients s) -> spelled (sc_nick x) ->
  exists e o n, In (e, o) tr /\ gives e n /\ spelled n.
Proof.
  intros name nick admin host tr s x H1 H2 H Hx Hs.
  assert (F0 : Proof.ServiceNick.fine (new_sst name nick admin host)) by (constructor; [exact H1|exact H2|intros y []]).
  assert (O0 : Proof.ServiceNick.ours (new_sst name nick admin host)) by (split; [intros y l []|intros y []]).
  destruct (Proof.ServiceNick.runs_ours _ _ _ H F0 O0) as [G|[_ O]]; [exact G|]. destruct (O x Hx Hs).
Qed.
Print Assumptions C48_not_taken_partial.

(** ** Examples *)

Fixpoint srun (l : list sev) (tr : strace) (s : sst) : strace * sst :=
  match l with
  | [] => (tr, s)
  | e :: r => let '(s', o) := sstep s e in srun r ((e, o) :: tr) s'
  end.
Lemma srun_runs (ok : sev -> Prop) s0 l tr s tr' s' : Forall ok l -> sruns ok s0 tr s -> srun l tr s = (tr', s') -> sruns ok s0 tr' s'.
Proof.
  intros Hl. revert tr s. induction Hl as [|e l He Hl IH]; cbn [srun]; intros tr s H E; [congruence|]. destruct (sstep s e) as [s1 o] eqn:E1.
  exact (IH _ _ (SCons ok s0 tr s e s1 o H He E1) E).
Qed.
Definition text_from (from t : bytes) : message := Message [] (Some (Prefix from (B "u") (B "h"))) (B "PRIVMSG") [t; B "hi"].

(** The user ann has a client on a network and one without; the server sends texts
    from and to spellings of the service, which are dropped, and from bob, which is
    given to the client; the client writes to bob and the service. *)
Definition service_script : list sev :=
  [SOpen 1 None true; SNetNew []; SUp 0 (B "ann") (B "irc.example") (B "@+") false; SOpen 2 (Some 0) true;
   SMsg 0 (text_from (B "bouncerSERV") (B "ann")) 0; SMsg 0 (text_from (B "bob") (B "@BouncerServ")) 0; SMsg 0 (text_from (B "bob") (B "ann")) 0;
   SCommand 2 (msg (B "PRIVMSG") [B "bob,BOUNCERserv"; B "help"]); SCommand 2 (msg (B "NICK") [B "bouncerserv"])].
Example C48_nonvacuous :
  let r := srun service_script [] (new_sst (B "ann") [] false (B "bouncer.example")) in
  Forall polite service_script /\ sruns polite (new_sst (B "ann") [] false (B "bouncer.example")) (fst r) (snd r) /\
  map snd (fst r) =
    [[SClient 2 (msg (B "433") [B "ann"; B "bouncerserv"; B "Nickname reserved for bouncer service"])];
     [SServer 0 (msg (B "PRIVMSG") [B "bob"; B "help"]); SClient 2 (Message [] (Some (Prefix (B "ann") [] [])) (B "PRIVMSG") [B "bob"; B "help"]);
      SClient 2 (Message [] (Some (Prefix (B "ann") [] [])) (B "PRIVMSG") [B "BOUNCERserv"; B "help"]); SRun 2 (B "help")];
     [SClient 2 (text_from (B "bob") (B "ann"))]; []; []; []; []; []; []].
Proof.
  cbv zeta. assert (P : Forall polite service_script) by (repeat constructor; discriminate). split; [exact P|].
  destruct (srun service_script [] (new_sst (B "ann") [] false (B "bouncer.example"))) as [tr s] eqn:E.
  split; [exact (srun_runs polite _ _ _ _ _ _ P (SNil _ _) E)|]. vm_compute in E. injection E as <- <-. reflexivity.
Qed.

(** A user may be named like the service; then the service cannot be reached without
    a network: texts to it come back. *)
Theorem C48_username_refuted :
  exists name s c x m, ss_name s = name /\ find_cl c (ss_clients s) = Some x /\ m_command m = B "PRIVMSG" /\ spelled (target m) /\
    (exists tr, sruns polite (new_sst name [] false (B "h")) tr s) /\ spelled (sc_nick x) /\ runs (snd (sstep s (SCommand c m))) = [].
Proof.
  destruct (srun [SOpen 1 None false] [] (new_sst (B "BouncerServ") [] false (B "h"))) as [tr s] eqn:E.
  exists (B "BouncerServ"), s, 1%N, (SCl 1 None (B "BouncerServ") false), (msg (B "PRIVMSG") [B "bouncerserv"; B "help"]).
  assert (H : sruns polite (new_sst (B "BouncerServ") [] false (B "h")) tr s) by (refine (srun_runs polite _ _ _ _ _ _ _ (SNil _ _) E); repeat constructor).
  vm_compute in E. injection E as <- <-. split; [reflexivity|]. split; [reflexivity|]. split; [reflexivity|]. split; [reflexivity|]. split; [eexists; exact H|]. split; reflexivity.
Qed.
Print Assumptions C48_username_refuted.

(** The service accepts its own nickname for a network: the server is asked for it,
    clients have it, and texts of others to the user are lost. *)
Theorem C48_command_refuted :
  exists tr s o x, sruns (fun _ => True) (new_sst (B "ann") [] false (B "h")) tr s /\ In (SRegister 0, o) tr /\ o = [SServer 0 (msg (B "NICK") [B "BouncerServ"])] /\
    In x (ss_clients s) /\ spelled (sc_nick x) /\ snd (sstep s (SMsg 0 (text_from (B "bob") (sc_nick x)) 0)) = [].
Proof.
  destruct (srun [SNetNew []; SNetNick 0 (B "BouncerServ"); SOpen 1 (Some 0) false; SRegister 0; SUp 0 (B "BouncerServ") (B "irc") [] false] [] (new_sst (B "ann") [] false (B "h"))) as [tr s] eqn:E.
  eexists tr, s, _, (SCl 1 (Some 0) (B "BouncerServ") false).
  assert (H : sruns (fun _ => True) (new_sst (B "ann") [] false (B "h")) tr s) by (refine (srun_runs _ _ _ _ _ _ _ _ (SNil _ _) E); repeat constructor).
  vm_compute in E. injection E as <- <-. split; [exact H|]. split; [right; left; reflexivity|]. split; [reflexivity|]. split; [left; reflexivity|]. split; reflexivity.
Qed.
Print Assumptions C48_command_refuted.

(** Somebody on the network may change to that nickname: clients are told so, and see
    a user with the nickname of the service. *)
Theorem C48_rename_refuted :
  exists tr s m, sruns polite (new_sst (B "ann") [] false (B "h")) tr s /\ spelled (target m) /\ m_command m = B "NICK" /\ snd (sstep s (SMsg 0 m 0)) = [SClient 1 m].
Proof.
  destruct (srun [SNetNew []; SOpen 1 (Some 0) false; SUp 0 (B "ann") (B "irc") [] false] [] (new_sst (B "ann") [] false (B "h"))) as [tr s] eqn:E.
  exists tr, s, (Message [] (Some (Prefix (B "bob") (B "u") (B "h"))) (B "NICK") [B "BouncerServ"]).
  assert (H : sruns polite (new_sst (B "ann") [] false (B "h")) tr s) by (refine (srun_runs polite _ _ _ _ _ _ _ (SNil _ _) E); repeat constructor; discriminate).
  vm_compute in E. injection E as <- <-. split; [exact H|]. split; [reflexivity|]. split; reflexivity.
Qed.
Print Assumptions C48_rename_refuted.

(** Invitations for the service are sent to the server. *)
Theorem C48_invite_refuted :
  exists tr s m, sruns polite (new_sst (B "ann") [] false (B "h")) tr s /\ spelled (target m) /\ snd (sstep s (SCommand 1 m)) = [SServer 0 m].
Proof.
  destruct (srun [SNetNew []; SOpen 1 (Some 0) false; SUp 0 (B "ann") (B "irc") [] false] [] (new_sst (B "ann") [] false (B "h"))) as [tr s] eqn:E.
  exists tr, s, (msg (B "INVITE") [B "BouncerServ"; B "#c"]).
  assert (H : sruns polite (new_sst (B "ann") [] false (B "h")) tr s) by (refine (srun_runs polite _ _ _ _ _ _ _ (SNil _ _) E); repeat constructor; discriminate).
  vm_compute in E. injection E as <- <-. split; [exact H|]. split; [reflexivity|]. reflexivity.
Qed.
Print Assumptions C48_invite_refuted.
