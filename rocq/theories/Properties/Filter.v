(** Properties C22 and C66. *)
From Verif.Base Require Import Bytes.
From Verif.Model Require Import Message Caps Filter.
From Verif.Spec Require Import Filter.
From Verif.Proof Require Filter.
From Coq Require Import ZArith.
Open Scope nat_scope.

(** C22: what is sent to a client is permitted by its capabilities. *)
Theorem C22_permitted : forall en hostname m m',
  NoDup (map fst (m_tags m)) -> hostname <> B "*" ->
  send_message en hostname m = Some m' -> permitted en m'.
Proof. exact Proof.Filter.sent_permitted. Qed.
Print Assumptions C22_permitted.

(** C22: a permitted message is sent as it is. *)
Theorem C22_unchanged : forall en hostname m,
  NoDup (map fst (m_tags m)) -> permitted en m -> send_message en hostname m = Some m.
Proof. exact Proof.Filter.permitted_unchanged. Qed.
Print Assumptions C22_unchanged.

(** C22: exactly the messages of unknown commands are dropped. *)
Theorem C22_dropped : forall en hostname m,
  send_message en hostname m = None <-> ~ knows_command en (m_command m).
Proof. exact Proof.Filter.dropped_iff. Qed.
Print Assumptions C22_dropped.

(** C22: the command is kept, the known tags are kept, the parameters are kept except for those of a
    JOIN, the source is kept except for the placeholder "*", and numerics get a source. *)
Theorem C22_rest : forall en hostname m m',
  NoDup (map fst (m_tags m)) -> send_message en hostname m = Some m' ->
  m_command m' = m_command m /\
  (forall k v, In (k, v) (m_tags m') <-> In (k, v) (m_tags m) /\ knows_tag en k v) /\
  (m_command m <> B "JOIN" \/ en (B "extended-join") = true -> m_params m' = m_params m) /\
  (m_command m = B "JOIN" -> en (B "extended-join") = false -> m_params m' = firstn 1 (m_params m)) /\
  (forall p, m_prefix m = Some p -> p_name p <> B "*" -> m_prefix m' = Some p) /\
  (m_prefix m = None \/ (exists p, m_prefix m = Some p /\ p_name p = B "*") ->
     (numeric (m_command m) -> m_prefix m' = Some (Prefix hostname [] [])) /\
     (~ numeric (m_command m) -> m_prefix m' = None)).
Proof.
  intros en hostname m m' Hnd H. destruct (Proof.Filter.send_fields _ _ _ _ H) as (_ & Hc & Ht & Hp & Hx).
  split; [exact Hc|]. split; [intros k v; rewrite Ht; exact (Proof.Filter.tags_kept en m k v Hnd)|]. rewrite Hp, Hx.
  split; [|split; [|split]].
  - intros [Hj|Hj]; [rewrite (proj2 (beqb_neq _ _) Hj); reflexivity|]. rewrite Hj, Bool.andb_false_r. reflexivity.
  - intros -> ->. reflexivity.
  - intros p Ep Es. rewrite Ep. rewrite (proj2 (beqb_neq _ _) Es). reflexivity.
  - intros Hn. split; intros Hm.
    + apply Proof.Filter.is_numeric_iff in Hm. rewrite Hm. destruct Hn as [->|(p & -> & ->)]; reflexivity.
    + destruct (is_numeric (m_command m)) eqn:E; [apply Proof.Filter.is_numeric_iff in E; destruct (Hm E)|]. destruct Hn as [->|(p & -> & ->)]; reflexivity.
Qed.
Print Assumptions C22_rest.

Definition ex_en (k : bytes) : bool := bmem k [B "server-time"; B "away-notify"].
Example C22_nonvacuous :
  send_message ex_en (B "srv") (Message [(B "time", B "t"); (B "msgid", B "x"); (B "batch", B "1")] (Some (Prefix (B "*") [] [])) (B "JOIN") [B "#c"; B "acc"; B "Real"])
    = Some (Message [(B "time", B "t")] None (B "JOIN") [B "#c"]) /\
  send_message ex_en (B "srv") (Message [] None (B "301") [B "n"; B "u"; B "away"]) = Some (Message [] (Some (Prefix (B "srv") [] [])) (B "301") [B "n"; B "u"; B "away"]) /\
  send_message ex_en (B "srv") (Message [] None (B "CHGHOST") [B "u"; B "h"]) = None /\
  permitted ex_en (Message [(B "time", B "t")] (Some (Prefix (B "n") (B "u") (B "h"))) (B "AWAY") [B "gone"]) /\
  NoDup (map fst [(B "time", B "t"); (B "msgid", B "x"); (B "batch", B "1")]).
Proof.
  split; [vm_compute; reflexivity|]. split; [vm_compute; reflexivity|]. split; [vm_compute; reflexivity|]. split.
  - unfold permitted. cbn [m_command m_tags m_params m_prefix]. split; [|split; [|split; [|split]]].
    + unfold knows_command. repeat split; intros H; discriminate H.
    + intros k v [E|[]]. injection E as <- <-. split; [right; left; split; [reflexivity|vm_compute; reflexivity]|]. intros H. discriminate H.
    + intros H. discriminate H.
    + intros p E. injection E as <-. discriminate.
    + intros _ H. discriminate H.
  - repeat constructor; cbn; intros H; repeat destruct H as [H|H]; try discriminate H; exact H.
Qed.

(** C66: whatever is sent, a client with the batch capability reads back the messages and the
    groups: every batch is opened with a fresh reference, contains exactly its messages, and is closed. *)
Theorem C66_batches_read : forall en hostname l,
  en (B "batch") = true -> Forall ordinary_item l ->
  assemble [] None (snd (send_items en hostname 0%N l)) = Some (flat_map (expected (send_list en hostname)) l).
Proof. intros en hostname l Hb Hl. apply Proof.Filter.batches_read; [exact Hb|exact Hl|]. intros r []. Qed.
Print Assumptions C66_batches_read.

(** C66: a client without it receives the same messages, without any trace of the batches. *)
Theorem C66_without_batch : forall en hostname l last,
  en (B "batch") = false -> Forall ordinary_item l ->
  snd (send_items en hostname last l) = flat_map (flat (send_list en hostname)) l.
Proof. intros en hostname l last Hb. exact (Proof.Filter.no_batch en hostname Hb l last). Qed.
Print Assumptions C66_without_batch.

Definition ex_items : list item :=
  [One (msg (B "PING") [B "a"]);
   Group (B "chathistory") [B "#c"] [] [(true, Message [(B "time", B "t")] None (B "PRIVMSG") [B "#c"; B "hi"]); (false, msg (B "NOTICE") [B "me"; B "x"]); (true, msg (B "TAGMSG") [B "#c"])];
   Group (B "soju.im/search") [] [] []].
Example C66_nonvacuous :
  Forall ordinary_item ex_items /\
  snd (send_items (fun k => bmem k [B "batch"]) (B "srv") 0 ex_items) =
    [msg (B "PING") [B "a"]; msg (B "BATCH") [B "+1"; B "chathistory"; B "#c"];
     Message [(B "batch", B "1")] None (B "PRIVMSG") [B "#c"; B "hi"]; msg (B "NOTICE") [B "me"; B "x"]; msg (B "BATCH") [B "-1"];
     msg (B "BATCH") [B "+2"; B "soju.im/search"]; msg (B "BATCH") [B "-2"]] /\
  snd (send_items (fun k => bmem k [B "message-tags"]) (B "srv") 0 ex_items) =
    [msg (B "PING") [B "a"]; Message [(B "time", B "t")] None (B "PRIVMSG") [B "#c"; B "hi"]; msg (B "NOTICE") [B "me"; B "x"]; msg (B "TAGMSG") [B "#c"]] /\
  assemble [] None (snd (send_items (fun k => bmem k [B "batch"]) (B "srv") 0 ex_items)) =
    Some [ROne (msg (B "PING") [B "a"]); ROne (msg (B "NOTICE") [B "me"; B "x"]); RGroup (B "chathistory") [B "#c"] [msg (B "PRIVMSG") [B "#c"; B "hi"]]; RGroup (B "soju.im/search") [] []].
Proof.
  split.
  - unfold ex_items. repeat constructor; discriminate.
  - split; [vm_compute; reflexivity|]. split; vm_compute; reflexivity.
Qed.
