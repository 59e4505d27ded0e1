(** C84: the clients of a network see the same conversations, and those are kept. *)
From Verif.Proof Require Relay.
From Verif.Base Require Import Bytes.
From Verif.Model Require Import Message Relay.
From Verif.Spec Require Import Relay.

Section C84.
  Variable cm : bytes -> bytes.
  Variable host server statusmsg : bytes.
  Variable admin utags : bool.
  Variable detached : bytes -> bool.
  Variable context : bytes -> bytes -> option bytes.
  Variable nick account : bytes.
  Variable log : list (bytes * message).

  Local Notation run := (run cm host server statusmsg admin utags detached context).
  Local Notation step := (step cm host server statusmsg admin utags detached context).
  Local Notation sees := (sees cm server statusmsg detached context account).
  Local Notation keeps := (keeps cm server statusmsg context account).
  (** The bouncer after some events, if the server has labeled-response and echo-message, or neither. *)
  Local Notation after b tr := (fst (run (fresh nick account b log) tr)).

  (** C84: the server has labeled-response and echo-message. A client that is connected sees every text
      the server lets pass, of others and of this user, once and in their order; its own texts only if it
      has echo-message. *)
  Theorem C84_seen : forall tr1 tr2 c,
    utags = true -> Forall steady tr1 -> Forall steady tr2 ->
    In c (t_conns (after true tr1)) -> Forall (stays (c_id c)) tr2 ->
    let o := snd (run (after true tr1) tr2) in
    exists ls, Forall2 (sees c) (server_turns o) ls /\ received (c_id c) o = concat ls.
  Proof.
    intros tr1 tr2 c Hu H1 H2 Hc Hs.
    apply (Proof.Relay.run_seen cm host server statusmsg admin utags detached context account true tr2 c); auto; [|discriminate].
    apply Proof.Relay.run_inv; [|exact H1]. apply Proof.Relay.inv_fresh. auto.
  Qed.

  (** C84: the server has none of the two. A client that is connected sees every text of others and every
      text this user sends. For texts without a status prefix or a channel context. *)
  Theorem C84_seen_local_partial : forall tr1 tr2 c,
    Forall steady tr1 -> Forall steady tr2 -> Forall (simple statusmsg) tr2 ->
    In c (t_conns (after false tr1)) -> Forall (stays (c_id c)) tr2 ->
    let o := snd (run (after false tr1) tr2) in
    exists ls, Forall2 (sees c) (turns o) ls /\ received (c_id c) o = concat ls.
  Proof.
    intros tr1 tr2 c H1 H2 Hp Hc Hs.
    apply (Proof.Relay.run_seen cm host server statusmsg admin utags detached context account false tr2 c); auto.
    apply Proof.Relay.run_inv; [|exact H1]. apply Proof.Relay.inv_fresh. discriminate.
  Qed.

  (** C84: the history has the same texts, in the conversations they belong to. *)
  Theorem C84_kept : forall tr1 tr2, utags = true -> Forall steady tr1 -> Forall steady tr2 ->
    let r := run (after true tr1) tr2 in
    exists ks, Forall2 keeps (server_turns (snd r)) ks /\ kept (fst r) = kept (after true tr1) ++ concat ks.
  Proof.
    intros tr1 tr2 Hu H1 H2.
    apply (Proof.Relay.run_kept cm host server statusmsg admin utags detached context account true tr2); auto; [|discriminate].
    apply Proof.Relay.run_inv; [|exact H1]. apply Proof.Relay.inv_fresh. auto.
  Qed.
  Theorem C84_kept_local_partial : forall tr1 tr2, Forall steady tr1 -> Forall steady tr2 -> Forall (simple statusmsg) tr2 ->
    let r := run (after false tr1) tr2 in
    exists ks, Forall2 keeps (turns (snd r)) ks /\ kept (fst r) = kept (after false tr1) ++ concat ks.
  Proof.
    intros tr1 tr2 H1 H2 Hp.
    apply (Proof.Relay.run_kept cm host server statusmsg admin utags detached context account false tr2); auto.
    apply Proof.Relay.run_inv; [|exact H1]. apply Proof.Relay.inv_fresh. discriminate.
  Qed.

  (** C84: the specification leaves no choice in what is seen and kept. *)
  Theorem C84_determined :
    (forall c t a b, sees c t a -> sees c t b -> a = b) /\ (forall t a b, keeps t a -> keeps t b -> a = b).
  Proof. split; [apply Proof.Relay.sees_fun|apply Proof.Relay.keeps_fun]. Qed.

  (** C84: a line of a client is sent as one text for each target that is for the server, with the tags
      that are meant for others; nothing else is sent. *)
  Theorem C84_sent : forall s e,
    sent (snd (step s e)) =
      match e with
      | Line id m _ => if existsb (fun c => N.eqb (c_id c) id) (t_conns s) then map (fun t => (id, t)) (texts cm host admin m) else []
      | _ => []
      end.
  Proof. exact (Proof.Relay.step_sent cm host server statusmsg admin utags detached context). Qed.

  (** C84: between the bouncer and the server no text is lost, repeated or reordered; a server without
      message-tags gets no tags. *)
  Theorem C84_transport : forall b tr, (b = true -> utags = true) -> Forall steady tr ->
    let s := after b tr in let o := snd (run (fresh nick account b log) tr) in
    heard o ++ downlink (t_nick s) (t_down s) = said o /\
    taken o ++ uplink s = map (fun p => (fst p, if utags then snd p else Message [] (m_prefix (snd p)) (m_command (snd p)) (m_params (snd p)))) (sent o).
  Proof.
    intros b tr Hu H.
    apply (Proof.Relay.run_link cm host server statusmsg admin utags detached context account b tr (fresh nick account b log)); [|exact H].
    apply Proof.Relay.inv_fresh. exact Hu.
  Qed.
End C84.
Print Assumptions C84_seen.
Print Assumptions C84_seen_local_partial.
Print Assumptions C84_kept.
Print Assumptions C84_kept_local_partial.
Print Assumptions C84_determined.
Print Assumptions C84_sent.
Print Assumptions C84_transport.

(** Two clients of "me": the first has no echo-message. *)
Definition ex_context (t from : bytes) : option bytes := if beqb t (B "#chan") then Some t else None.
Definition ex_detached (n : bytes) : bool := beqb n (B "#quiet").
Definition ex_run (b : bool) (tr : list ev) : st * list out :=
  run to_lower (B "bnc") (B "irc.example") (B "@+") false true ex_detached ex_context (fresh (B "me") (B "acc") b []) tr.
Definition ex_join : list ev := [Join (Client 0 false true true true); Join (Client 0 true false false true)].
Definition ex_text (target text : bytes) : message := Message [] None (B "PRIVMSG") [target; text].
Definition ex_from (n target text : bytes) : message := Message [] (Some (Prefix n (B "u") (B "h"))) (B "PRIVMSG") [target; text].
Definition ex_tags : message := Message [(B "label", B "x"); (B "+a", B "b")] None (B "PRIVMSG") [B "#chan,bouncerserv,Bob"; B "hi"].
Definition ex_talk : list ev :=
  [Line 1 ex_tags (B "12:00"); VNick (B "me2"); VAccept (ex_text (B "#chan") (B "hi"));
   VSay (ex_from (B "bob") (B "me2") (B "hey")); VRefuse; Hear (B "12:01"); Hear (B "12:02"); Hear (B "12:03")].

(** The first client's text passes under the new nickname, and the server's answer follows. *)
Example C84_nonvacuous :
  In (Client 1 false true true true) (t_conns (fst (ex_run true ex_join))) /\
  Forall steady (ex_join ++ ex_talk) /\ Forall (stays 1) ex_talk /\ Forall (stays 2) ex_talk /\
  let '(s, o) := ex_run true (ex_join ++ ex_talk) in
  sent o = [(1%N, Message [(B "+a", B "b")] None (B "PRIVMSG") [B "#chan"; B "hi"]);
            (1%N, Message [(B "+a", B "b")] None (B "PRIVMSG") [B "Bob"; B "hi"])] /\
  said o = [(B "me2", Some 1%N, Message [] (Some (Prefix (B "me2") [] [])) (B "PRIVMSG") [B "#chan"; B "hi"]);
            (B "me2", None, ex_from (B "bob") (B "me2") (B "hey"))] /\ heard o = said o /\
  received 1 o = [ex_from (B "bob") (B "me2") (B "hey")] /\
  received 2 o = [Message [] (Some (Prefix (B "me2") [] [])) (B "PRIVMSG") [B "#chan"; B "hi"]; ex_from (B "bob") (B "me2") (B "hey")] /\
  map fst (kept s) = [B "#chan"; B "bob"].
Proof.
  split; [left; reflexivity|]. split; [repeat (constructor; [exact I|]); constructor|].
  split; [repeat (constructor; [exact I|]); constructor|]. split; [repeat (constructor; [exact I|]); constructor|]. vm_compute. auto 10.
Qed.
(** Without echo-message it is the bouncer that tells the second client, at once. *)
Definition ex_local : list ev :=
  [Line 1 ex_tags (B "12:00"); Line 2 (ex_text (B "#quiet") (B "psst")) (B "12:00");
   VAccept (ex_text (B "#chan") (B "hi")); VSay (ex_from (B "bob") (B "me") (B "hey")); Hear (B "12:01")].
Example C84_local_nonvacuous :
  In (Client 2 true false false true) (t_conns (fst (ex_run false ex_join))) /\
  Forall steady (ex_join ++ ex_local) /\ Forall (simple (B "@+")) ex_local /\ Forall (stays 2) ex_local /\
  let '(s, o) := ex_run false (ex_join ++ ex_local) in
  received 1 o = [ex_from (B "bob") (B "me") (B "hey")] /\
  received 2 o = [Message [(B "account", B "acc")] (Some (Prefix (B "me") [] [])) (B "PRIVMSG") [B "#chan"; B "hi"];
                  Message [(B "account", B "acc")] (Some (Prefix (B "me") [] [])) (B "PRIVMSG") [B "Bob"; B "hi"]; ex_from (B "bob") (B "me") (B "hey")] /\
  map fst (kept s) = [B "#chan"; B "bob"; B "#quiet"; B "bob"].
Proof.
  split; [right; left; reflexivity|]. split; [repeat (constructor; [exact I|]); constructor|].
  split. { repeat constructor; cbn; try (intros [H|[H|[]]]; discriminate H); try tauto; intros t H; repeat destruct H as [H|H]; try destruct H; reflexivity. }
  split; [repeat (constructor; [exact I|]); constructor|]. vm_compute. auto 10.
Qed.

Local Notation ex_sees := (sees to_lower (B "irc.example") (B "@+") ex_detached ex_context (B "acc")).
Local Notation ex_keeps := (keeps to_lower (B "irc.example") (B "@+") ex_context (B "acc")).
Local Lemma no_context n m name : m_tags m = [] -> name = target (B "@+") m -> own_conversation (B "@+") ex_context n m name.
Proof. intros E ->. right. split; [|reflexivity]. intros ch (a & t & b & H & _). rewrite E in H. destruct a; discriminate. Qed.

(** Without echo-message, a text for the operators of a channel is kept as one of another channel,
    and it is shown although the channel is detached. *)
Theorem C84_status_refuted : exists tr c,
  Forall steady tr /\ In c (t_conns (fst (ex_run false ex_join))) /\ Forall (stays (c_id c)) tr /\
  let o := snd (ex_run false (ex_join ++ tr)) in
  (~ exists ls, Forall2 (ex_sees c) (turns o) ls /\ received (c_id c) o = concat ls) /\
  (~ exists ks, Forall2 ex_keeps (turns o) ks /\ kept (fst (ex_run false (ex_join ++ tr))) = concat ks).
Proof.
  exists [Line 1 (ex_text (B "@#quiet") (B "ops only")) (B "12:00")], (Client 2 true false false true).
  split; [repeat constructor|]. split; [right; left; reflexivity|]. split; [repeat constructor|]. split.
  - eapply Proof.Relay.refute_seen.
    + vm_compute. reflexivity.
    + apply (see_own_detached _ _ _ _ _ _ _ 1 (B "me") (ex_text (B "@#quiet") (B "ops only")) (B "#quiet")); [apply no_context; reflexivity|]. split; [discriminate|reflexivity].
    + vm_compute. discriminate.
  - eapply Proof.Relay.refute_kept.
    + vm_compute. reflexivity.
    + apply (keep_own _ _ _ _ _ 1 (B "me") (ex_text (B "@#quiet") (B "ops only")) (B "#quiet")); [apply no_context; reflexivity|].
      split; [discriminate|]. split; [intros r; discriminate|]. split; discriminate.
    + vm_compute. discriminate.
Qed.
Print Assumptions C84_status_refuted.

(** Without echo-message, a private text that belongs to a channel is kept with the nickname instead. *)
Theorem C84_context_refuted : exists tr, Forall steady tr /\
  let r := ex_run false (ex_join ++ tr) in
  ~ exists ks, Forall2 ex_keeps (turns (snd r)) ks /\ kept (fst r) = concat ks.
Proof.
  set (m := Message [(B "+draft/channel-context", B "#chan")] None (B "PRIVMSG") [B "bob"; B "see above"]).
  exists [Line 1 m (B "12:00")]. split; [repeat constructor|]. eapply Proof.Relay.refute_kept.
  - vm_compute. reflexivity.
  - apply (keep_own _ _ _ _ _ 1 (B "me") m (B "#chan")).
    + left. exists [], (B "#chan"), []. split; [reflexivity|]. split; [intros []|reflexivity].
    + split; [discriminate|]. split; [intros r; discriminate|]. split; discriminate.
  - vm_compute. discriminate.
Qed.
Print Assumptions C84_context_refuted.

(** The server withdraws labeled-response and keeps echo-message: a client without echo-message is
    shown its own text. *)
Theorem C84_unlabeled_refuted : exists tr,
  let o := snd (ex_run true (ex_join ++ tr)) in
  let own := Message [] (Some (Prefix (B "me") [] [])) (B "PRIVMSG") [B "bob"; B "hi"] in
  heard o = [(B "me", Some 1%N, own)] /\ received 1 o = [own].
Proof.
  exists [VDel true false; Hear (B "12:00"); Line 1 (ex_text (B "bob") (B "hi")) (B "12:01"); VAccept (ex_text (B "bob") (B "hi")); Hear (B "12:02")].
  vm_compute. auto.
Qed.
Print Assumptions C84_unlabeled_refuted.

(** The server withdraws echo-message while a text is on the way: no other client sees it, and it is
    not kept. *)
Theorem C84_lost_refuted : exists tr,
  let '(s, o) := ex_run true (ex_join ++ tr) in
  sent o = [(1%N, ex_text (B "bob") (B "hi"))] /\ taken o = sent o /\ t_up s = [] /\ t_down s = [] /\
  received 2 o = [] /\ kept s = [].
Proof.
  exists [Line 1 (ex_text (B "bob") (B "hi")) (B "12:01"); VDel false true; Hear (B "12:00"); VAccept (ex_text (B "bob") (B "hi"))].
  vm_compute. auto 10.
Qed.
Print Assumptions C84_lost_refuted.

(** The server offers labeled-response: a text sent before echo-message is confirmed is shown twice to
    the other clients, and kept twice. *)
Theorem C84_twice_refuted : exists tr m,
  let '(s, o) := ex_run false (ex_join ++ tr) in
  sent o = [(1%N, m)] /\ taken o = sent o /\ length (received 2 o) = 2 /\ length (kept s) = 2.
Proof.
  exists [VNew true; Hear (B "12:00"); Line 1 (ex_text (B "bob") (B "hi")) (B "12:01"); VCap true; VAccept (ex_text (B "bob") (B "hi")); Hear (B "12:02"); Hear (B "12:02")], (ex_text (B "bob") (B "hi")).
  vm_compute. auto 10.
Qed.
Print Assumptions C84_twice_refuted.

(** The server has labeled-response but not echo-message: the label of the bouncer is shown to clients
    and kept. *)
Theorem C84_label_refuted : exists tr t,
  let '(s, o) := ex_run true (ex_join ++ tr) in
  In t (flat_map m_tags (received 1 o)) /\ In t (flat_map (fun p => m_tags (snd p)) (kept s)) /\ fst t = B "label".
Proof.
  exists [VDel false true; Hear (B "12:00"); Line 2 (ex_text (B "bob") (B "hi")) (B "12:01")], (B "label", B "sd-2-0").
  vm_compute. auto.
Qed.
Print Assumptions C84_label_refuted.
