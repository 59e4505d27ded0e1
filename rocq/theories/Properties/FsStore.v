(** Properties C18 and C55. *)
From Verif.Base Require Import Bytes.
From Verif.Model Require Import Message TimeFmt ZncLog FsStore.
From Verif.Spec Require Import ZncLog FsStore.
From Verif.Proof Require FsStore.
From Coq Require Import ZArith Sorting.Sorted.
Open Scope nat_scope.

(** C18, before a time: the last [limit] messages strictly inside the window, in
    order. The log must not have 100 days in a row without a matching message
    between the reference point and a matching message. *)
Theorem C18_before_window_partial : forall (M : Type) (parse : bytes -> option (option (M * Z))) fs lg lo hi limit sel,
  holds fs lg -> good_log parse lg -> gaps_down (in_window parse lg lo hi sel) (hi / 86400000000000) ->
  get_before_time parse fs hi lo limit sel = Some (map Some (lastn limit (window parse lg lo hi sel))).
Proof. intros M. exact Proof.FsStore.get_before_spec. Qed.
Print Assumptions C18_before_window_partial.

(** C18, after a time: the first [limit] messages strictly inside the window, in
    order, for logs without gaps of 100 days and without messages at midnight on
    the days after the reference point. *)
Theorem C18_after_window_partial : forall (M : Type) (parse : bytes -> option (option (M * Z))) fs lg lo hi limit sel,
  holds fs lg -> good_log parse lg ->
  (forall d t m, (lo / 86400000000000 < d)%Z -> In (t, m) (day_messages parse lg d) -> t <> (d * 86400000000000)%Z) ->
  gaps_up (in_window parse lg lo hi sel) (lo / 86400000000000) ->
  get_after_time parse fs lo hi limit sel = Some (firstn limit (window parse lg lo hi sel)).
Proof. intros M. exact Proof.FsStore.get_after_spec. Qed.
Print Assumptions C18_after_window_partial.

(** A log with messages on days 700000 (two), 700001 (one, at the time given). *)
Definition ex_log (third : bytes) : log := fun d =>
  if Z.eqb d 700000 then [B "[10:00:00] <bob> one"; B "[11:00:00] <bob> two"]
  else if Z.eqb d 700001 then [third] else [].
Definition ex_files (third : bytes) : files := fun d =>
  match ex_log third d with [] => None | ls => Some (file_of ls) end.
Definition ex_parse := fs_parse (B "me") (B "#chan") false.
Definition ex_msg (text : bytes) := LogMsg (Prefix (B "bob") [] []) (B "PRIVMSG") [B "#chan"; text].
Definition at_hour (d h : Z) : Z := ((d * 24 + h) * 3600000000000)%Z.

Lemma ex_holds third : holds (ex_files third) (ex_log third).
Proof. intros d. unfold ex_files. destruct (ex_log third d) eqn:E; reflexivity. Qed.

Lemma ex_good third : line_ok third ->
  (exists m s, ex_parse third = Some (Some (m, (s * 1000000000)%Z)) /\ (0 <= s < 86400)%Z) ->
  good_log ex_parse (ex_log third).
Proof.
  intros Hok (m0 & s0 & E0 & Hs0). split.
  - intros d l Hl. unfold ex_log in Hl.
    destruct (Z.eqb d 700000); [|destruct (Z.eqb d 700001)]; [| |destruct Hl].
    + assert (Hline : forall l, In l [B "[10:00:00] <bob> one"; B "[11:00:00] <bob> two"] -> line_ok l).
      { intros l' [<-|[<-|[]]]; (split; [vm_compute; intuition discriminate|]); intros l'' E;
          apply (f_equal (@rev ascii)) in E; rewrite rev_app_distr in E; vm_compute in E; discriminate. }
      split; [apply Hline; exact Hl|].
      destruct Hl as [<-|[<-|[]]].
      * split; [vm_compute; discriminate|]. intros m tod E. vm_compute in E. injection E as <- <-. exists 36000%Z. vm_compute. intuition discriminate.
      * split; [vm_compute; discriminate|]. intros m tod E. vm_compute in E. injection E as <- <-. exists 39600%Z. vm_compute. intuition discriminate.
    + destruct Hl as [<-|[]]. split; [exact Hok|]. split; [rewrite E0; discriminate|].
      intros m tod E. rewrite E0 in E. injection E as <- <-. exists s0. split; [reflexivity|exact Hs0].
  - intros d. unfold day_messages, ex_log.
    destruct (Z.eqb d 700000); [|destruct (Z.eqb d 700001)].
    + cbn [flat_map].
      change (ex_parse (B "[10:00:00] <bob> one")) with (Some (Some (ex_msg (B "one"), 36000000000000%Z))).
      change (ex_parse (B "[11:00:00] <bob> two")) with (Some (Some (ex_msg (B "two"), 39600000000000%Z))).
      cbn [app]. repeat constructor. cbn [fst]. lia.
    + cbn [flat_map]. rewrite E0. cbn [app]. repeat constructor.
    + constructor.
Qed.

Lemma ex_line_ok l : (~ In "010"%char l) -> (~ In "013"%char l) -> line_ok l.
Proof. intros H1 H2. split; [exact H1|]. intros l' ->. apply H2. apply in_app_iff. right. left. reflexivity. Qed.

(** The hypotheses hold for a log over two days, and the limit cuts in the
    middle of a day. *)
Example C18_nonvacuous :
  let third := B "[00:30:00] <bob> three" in
  holds (ex_files third) (ex_log third) /\ good_log ex_parse (ex_log third) /\
  gaps_down (in_window ex_parse (ex_log third) (at_hour 700000 0) (at_hour 700002 0) (fun _ => true)) (at_hour 700002 0 / 86400000000000) /\
  gaps_up (in_window ex_parse (ex_log third) (at_hour 700000 0) (at_hour 700002 0) (fun _ => true)) (at_hour 700000 0 / 86400000000000) /\
  (forall d t m, (at_hour 700000 0 / 86400000000000 < d)%Z -> In (t, m) (day_messages ex_parse (ex_log third) d) -> t <> (d * 86400000000000)%Z) /\
  get_before_time ex_parse (ex_files third) (at_hour 700002 0) (at_hour 700000 0) 2 (fun _ => true)
    = Some [Some (ex_msg (B "two")); Some (ex_msg (B "three"))] /\
  get_after_time ex_parse (ex_files third) (at_hour 700000 0) (at_hour 700002 0) 2 (fun _ => true)
    = Some [ex_msg (B "one"); ex_msg (B "two")].
Proof.
  intros third.
  assert (Hne : forall lo hi d, in_window ex_parse (ex_log third) lo hi (fun _ => true) d <> [] -> (d = 700000 \/ d = 700001)%Z).
  { intros lo hi d H. unfold in_window, day_messages, ex_log in H.
    destruct (Z.eqb_spec d 700000); [left; assumption|]. destruct (Z.eqb_spec d 700001); [right; assumption|].
    exfalso. apply H. reflexivity. }
  assert (E1 : (at_hour 700002 0 / 86400000000000 = 700002)%Z) by reflexivity.
  assert (E2 : (at_hour 700000 0 / 86400000000000 = 700000)%Z) by reflexivity.
  split; [apply ex_holds|]. split.
  { apply ex_good; [apply ex_line_ok; vm_compute; intuition discriminate|].
    exists (ex_msg (B "three")), 1800%Z. split; [vm_compute; reflexivity|lia]. }
  split; [intros d Hd Hf; apply Hne in Hf; left; rewrite E1; lia|].
  split; [intros d Hd Hf; apply Hne in Hf; left; rewrite E2; lia|].
  split.
  { intros d t m Hd Hin. rewrite E2 in Hd. unfold day_messages, ex_log in Hin.
    destruct (Z.eqb_spec d 700000); [lia|]. destruct (Z.eqb_spec d 700001) as [->|]; [|destruct Hin].
    vm_compute in Hin. destruct Hin as [Hin|[]]. injection Hin as <- _. vm_compute. discriminate. }
  split; vm_compute; reflexivity.
Qed.

(** The full C18 is false. A message logged at midnight is not found when
    loading messages after a time on an earlier day. *)
Theorem C18_midnight_refuted : exists fs lg lo hi,
  holds fs lg /\ good_log ex_parse lg /\
  get_after_time ex_parse fs lo hi 10 (fun _ => true) <> Some (firstn 10 (window ex_parse lg lo hi (fun _ => true))).
Proof.
  set (third := B "[00:00:00] <bob> three").
  exists (ex_files third), (ex_log third), (at_hour 700000 0), (at_hour 700002 0).
  split; [apply ex_holds|]. split.
  { apply ex_good; [apply ex_line_ok; vm_compute; intuition discriminate|].
    exists (ex_msg (B "three")), 0%Z. split; [vm_compute; reflexivity|lia]. }
  vm_compute. discriminate.
Qed.
Print Assumptions C18_midnight_refuted.

(** And 100 days in a row without messages end the search. *)
Theorem C18_gap_refuted : exists fs lg lo hi,
  holds fs lg /\ good_log ex_parse lg /\
  get_before_time ex_parse fs hi lo 10 (fun _ => true) <> Some (map Some (lastn 10 (window ex_parse lg lo hi (fun _ => true)))).
Proof.
  set (third := B "[00:30:00] <bob> three").
  exists (ex_files third), (ex_log third), (at_hour 700000 0), (at_hour 700101 12).
  split; [apply ex_holds|]. split.
  { apply ex_good; [apply ex_line_ok; vm_compute; intuition discriminate|].
    exists (ex_msg (B "three")), 1800%Z. split; [vm_compute; reflexivity|lia]. }
  vm_compute. discriminate.
Qed.
Print Assumptions C18_gap_refuted.

(** C55: loading from the identifier that Append gave for a message returns
    exactly the messages appended after it (the last [limit] of them), whatever
    the log lines are, as long as they are read back with their time. *)
Theorem C55_backlog_after_message_partial : forall (M : Type) (parse : bytes -> option (option (M * Z))) h1 t l h2 now limit,
  history_ok parse (h1 ++ (t, l) :: h2) now ->
  gaps_down (messages_on parse h2) (now / 86400000000000) ->
  load_latest parse (run (h1 ++ (t, l) :: h2)) now (snd (fs_append (run h1) t l)) limit
    = Some (map Some (lastn limit (messages parse h2))).
Proof. intros M. exact Proof.FsStore.latest_after_append. Qed.
Print Assumptions C55_backlog_after_message_partial.

(** C55: loading from the position LastMsgID gave at time [t0] returns exactly
    the messages appended since. *)
Theorem C55_backlog_from_position_partial : forall (M : Type) (parse : bytes -> option (option (M * Z))) h1 t0 h2 now limit,
  history_ok parse (h1 ++ h2) now ->
  Forall (fun e => (fst e <= t0)%Z) h1 -> Forall (fun e => (t0 <= fst e)%Z) h2 ->
  gaps_down (messages_on parse h2) (now / 86400000000000) ->
  load_latest parse (run (h1 ++ h2)) now (fs_last_msg_id (run h1) t0) limit
    = Some (map Some (lastn limit (messages parse h2))).
Proof. intros M. exact Proof.FsStore.latest_from_position. Qed.
Print Assumptions C55_backlog_from_position_partial.

(** C55: the empty identifier stands for the beginning. *)
Theorem C55_latest_partial : forall (M : Type) (parse : bytes -> option (option (M * Z))) h now limit,
  history_ok parse h now ->
  gaps_down (messages_on parse h) (now / 86400000000000) ->
  load_latest parse (run h) now (0, 0)%Z limit = Some (map Some (lastn limit (messages parse h))).
Proof. intros M. exact Proof.FsStore.latest_from_empty. Qed.
Print Assumptions C55_latest_partial.

(** C55, end to end with the log format: a conversation. *)
Theorem C55_conversation_partial : forall own entity events cs1 t0 cs2 now limit,
  Forall chat_ok (cs1 ++ cs2) ->
  StronglySorted (fun a b => (c_time a <= c_time b)%Z) (cs1 ++ cs2) ->
  Forall (fun c => (c_time c < now)%Z) (cs1 ++ cs2) ->
  Forall (fun c => (c_time c <= t0)%Z) cs1 -> Forall (fun c => (t0 <= c_time c)%Z) cs2 ->
  gaps_down (fun d => filter (fun c => Z.eqb (c_time c / 86400000000000) d) cs2) (now / 86400000000000) ->
  let logged cs := run (map (fun c => (c_time c, chat_line (c_from c) entity (c_text c) (c_time c))) cs) in
  load_latest (fs_parse own entity events) (logged (cs1 ++ cs2)) now (fs_last_msg_id (logged cs1) t0) limit
    = Some (map Some (lastn limit (map (chat_message own entity) cs2))).
Proof. exact Proof.FsStore.chat_from_position. Qed.
Print Assumptions C55_conversation_partial.

Definition ex_chat (t : Z) (text : bytes) := Chat t (Prefix (B "bob") (B "u") (B "h")) text.

Example C55_nonvacuous :
  let cs1 := [ex_chat (at_hour 700000 1) (B "one")] in
  let cs2 := [ex_chat (at_hour 700000 3) (B "two"); ex_chat (at_hour 700050 3) (B "three")] in
  let t0 := at_hour 700000 2 in let now := at_hour 700060 0 in
  Forall chat_ok (cs1 ++ cs2) /\
  StronglySorted (fun a b => (c_time a <= c_time b)%Z) (cs1 ++ cs2) /\
  Forall (fun c => (c_time c < now)%Z) (cs1 ++ cs2) /\
  Forall (fun c => (c_time c <= t0)%Z) cs1 /\ Forall (fun c => (t0 <= c_time c)%Z) cs2 /\
  gaps_down (fun d => filter (fun c => Z.eqb (c_time c / 86400000000000) d) cs2) (now / 86400000000000) /\
  let logged cs := run (map (fun c => (c_time c, chat_line (c_from c) (B "#chan") (c_text c) (c_time c))) cs) in
  load_latest ex_parse (logged (cs1 ++ cs2)) now (fs_last_msg_id (logged cs1) t0) 10
    = Some [Some (ex_msg (B "two")); Some (ex_msg (B "three"))].
Proof.
  intros cs1 cs2 t0 now.
  assert (Hok : forall t text, (86400000000000 <= t)%Z -> In text [B "one"; B "two"; B "three"] -> chat_ok (ex_chat t text)).
  { intros t text Ht Hin. split; [exact Ht|]. cbn [c_from c_text ex_chat p_name].
    split; [vm_compute; intuition discriminate|]. destruct Hin as [<-|[<-|[<-|[]]]];
      (split; [apply t_plain; intros t'; discriminate|]);
      repeat constructor; vm_compute; intuition discriminate. }
  split; [unfold cs1, cs2; cbn [app]; repeat (apply Forall_cons; [apply Hok; [vm_compute; discriminate|cbn [In]; tauto]|]); apply Forall_nil|].
  split; [repeat constructor; vm_compute; discriminate|].
  split; [repeat constructor; vm_compute; reflexivity|].
  split; [repeat constructor; vm_compute; discriminate|].
  split; [repeat constructor; vm_compute; discriminate|].
  split; [|vm_compute; reflexivity].
  intros d Hd Hf. change (now / 86400000000000)%Z with 700060%Z in *. left.
  unfold cs2 in Hf. cbn [filter c_time ex_chat] in Hf.
  change (at_hour 700000 3 / 86400000000000)%Z with 700000%Z in Hf.
  change (at_hour 700050 3 / 86400000000000)%Z with 700050%Z in Hf.
  destruct (Z.eqb_spec 700000 d); [lia|]. destruct (Z.eqb_spec 700050 d); [lia|]. congruence.
Qed.

(** The missing part of C55 is false: after 100 days without messages the
    backlog is lost. *)
Theorem C55_gap_refuted : exists cs1 t0 cs2 now,
  Forall chat_ok (cs1 ++ cs2) /\
  StronglySorted (fun a b => (c_time a <= c_time b)%Z) (cs1 ++ cs2) /\
  Forall (fun c => (c_time c < now)%Z) (cs1 ++ cs2) /\
  Forall (fun c => (c_time c <= t0)%Z) cs1 /\ Forall (fun c => (t0 <= c_time c)%Z) cs2 /\ cs2 <> [] /\
  let logged cs := run (map (fun c => (c_time c, chat_line (c_from c) (B "#chan") (c_text c) (c_time c))) cs) in
  load_latest ex_parse (logged (cs1 ++ cs2)) now (fs_last_msg_id (logged cs1) t0) 10 = Some [].
Proof.
  exists [], (at_hour 700000 0), [ex_chat (at_hour 700000 1) (B "lost")], (at_hour 700100 0).
  split.
  { apply Forall_cons; [|apply Forall_nil]. split; [vm_compute; discriminate|]. cbn [c_from c_text ex_chat p_name].
    split; [vm_compute; intuition discriminate|]. split; [apply t_plain; intros t'; discriminate|].
    repeat constructor; vm_compute; intuition discriminate. }
  split; [repeat constructor|].
  split; [repeat constructor; vm_compute; reflexivity|].
  split; [constructor|].
  split; [repeat constructor; vm_compute; discriminate|].
  split; [discriminate|]. vm_compute. reflexivity.
Qed.
Print Assumptions C55_gap_refuted.
