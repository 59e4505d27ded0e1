(** C102: SEARCH. *)
From Verif.Base Require Import Bytes.
From Verif.Model Require Import Message CaseMap TimeFmt Identd ZncLog Glob FsStore Sql SqlQuery History Networks Search.
From Verif.Proof Require SqlQuery Search.
From Verif.Spec Require Import TimeFmt ZncLog FsStore Sql SqlQuery Search.
From Verif.Properties Require SqlQuery History FsStore.
From Coq Require Import ZArith NArith Lia.
Open Scope nat_scope.

(** C102: a well formed request is passed on to the store, with the target in the
    case of the network, no other condition and at most 100 messages; the answer is
    one batch with what the store finds. *)
Theorem C102_request : forall M (c : hconn M) attrs r st cm f,
  NoDup (map fst attrs) -> requests attrs r -> hc_search c = Some st -> hc_net c = Some (cm, f) ->
  search_command c attrs = match st (query_of cm r) with
                           | Some l => HBatch (B "soju.im/search") [] l
                           | None => HRefuse (B "FAIL") [B "SEARCH"; B "INTERNAL_ERROR"; B "Messages could not be retrieved"]
                           end.
Proof. intros M c attrs r st cm f. exact (Proof.Search.request c attrs r st cm f). Qed.
Print Assumptions C102_request.

(** C102: any other request is refused, and the store not asked. *)
Theorem C102_malformed : forall M (c : hconn M) attrs st,
  NoDup (map fst attrs) -> hc_search c = Some st -> hc_net c = None \/ (forall r, ~ requests attrs r) ->
  exists x, search_command c attrs = HRefuse (B "FAIL") (B "SEARCH" :: B "INVALID_PARAMS" :: x).
Proof. intros M c attrs st. exact (Proof.Search.malformed c attrs st). Qed.
Print Assumptions C102_malformed.

(** C102, log files, no [after]: the last messages before the time that match. The
    log must not have 100 days in a row without a match. *)
Theorem C102_log_before_partial : forall lower own files lg now q pick,
  let parse := fs_parse own (q_in q) false in
  let hi := if (q_end q =? 0)%Z then now else q_end q in
  holds (files (q_in q)) lg -> good_log parse lg ->
  (forall m, pick m = true <-> log_matches lower q m) -> q_start q = 0%Z ->
  gaps_down (in_window parse lg 0 hi pick) (hi / 86400000000000) ->
  log_search lower own files now q = Some (map Some (lastn (Z.to_nat (q_limit q)) (window parse lg 0 hi pick))).
Proof. intros lower own files lg now q pick parse hi Hh Hg Hp. exact (Proof.Search.fs_before lower own files lg now q Hh Hg pick Hp). Qed.
Print Assumptions C102_log_before_partial.

(** C102, log files, with [after]: the first messages after that time that match. *)
Theorem C102_log_after_partial : forall lower own files lg now q pick,
  let parse := fs_parse own (q_in q) false in
  let hi := if (q_end q =? 0)%Z then now else q_end q in
  holds (files (q_in q)) lg -> good_log parse lg ->
  (forall m, pick m = true <-> log_matches lower q m) -> q_start q <> 0%Z ->
  (forall d t m, (q_start q / 86400000000000 < d)%Z -> In (t, m) (day_messages parse lg d) -> t <> (d * 86400000000000)%Z) ->
  gaps_up (in_window parse lg (q_start q) hi pick) (q_start q / 86400000000000) ->
  log_search lower own files now q = Some (map Some (firstn (Z.to_nat (q_limit q)) (window parse lg (q_start q) hi pick))).
Proof. intros lower own files lg now q pick parse hi Hh Hg Hp. exact (Proof.Search.fs_after lower own files lg now q Hh Hg pick Hp). Qed.
Print Assumptions C102_log_after_partial.

(** C102, database: what SQLite is given to match reads as the words of the request,
    whatever bytes it has: no text is an operator of the query language or makes it
    fail. *)
Theorem C102_quoted : forall token_rune text,
  fts5_strings (quote_fts token_rune text) None = Some (words token_rune text).
Proof. exact Proof.Search.quoted. Qed.
Print Assumptions C102_quoted.
Theorem C102_words : forall text, concat (map snd (code_points (length text) text)) = text.
Proof. intro text. apply Proof.Search.code_points_all. apply le_n. Qed.
Print Assumptions C102_words.

(** C102, database: the last of the rows stored for the target of that network that
    match, in order of time. *)
Theorem C102_db : forall token_rune has match5 raw_of by_time by_time_desc d net q,
  is_match5 has match5 -> sorts time_asc by_time -> sorts time_desc by_time_desc ->
  written raw_of d -> in_years (q_start q) -> in_years (q_end q) ->
  best not_later (fun r => In r (d_msgs d) /\ stored_for d net (q_in q) r /\ row_matches token_rune has q r) (Z.to_nat (q_limit q)) true
    (db_search by_time by_time_desc (sqlite_fts token_rune match5) net (q_in q) (q_start q) (q_end q) (Z.to_nat (q_limit q)) (q_from q) (q_text q) d).
Proof. intros token_rune has match5 raw_of by_time by_time_desc d net q M5. exact (Proof.Search.db_answer token_rune has match5 M5 raw_of by_time by_time_desc d net q). Qed.
Print Assumptions C102_db.

(** ** Examples *)
Import Properties.SqlQuery Properties.History.

Definition letter (n : N) : bool := ((97 <=? n) && (n <=? 122) || (65 <=? n) && (n <=? 90) || (48 <=? n) && (n <=? 57) || (192 <=? n))%N.
Definition ex_has (text w : bytes) : bool := contains w text.
Definition ex_match5 (e : bytes) (row : option bytes) : bool :=
  match fts5_strings e None, row with
  | Some ws, Some text => negb (match ws with [] => true | _ => false end) && forallb (ex_has text) ws
  | _, _ => false
  end.
Lemma ex_is_match5 : is_match5 ex_has ex_match5.
Proof. intros e ws row E. unfold ex_match5. rewrite E. reflexivity. Qed.

Definition search_db := query_db [text_at t0 (B "red green"); text_at t1 (B "green"); text_at t2 (B "green, red!"); join_at t2; text_at t3 (B "blue red or green")].
Lemma search_written : written format_message search_db.
Proof. apply Proof.SqlQuery.written_run; [apply written_empty|vm_compute; reflexivity]. Qed.
Definition found (q : search) : list (option bytes) :=
  map mr_text (db_search Proof.SqlQuery.sqlite_up Proof.SqlQuery.sqlite_down (sqlite_fts letter ex_match5) 1 (q_in q) (q_start q) (q_end q) (Z.to_nat (q_limit q)) (q_from q) (q_text q) search_db).
Definition ex_lower (s : bytes) : bytes := to_lower s.
Definition ex_attrs := [(B "in", B "#C"); (B "text", B "RED ""green"" OR"); (B "limit", B "1000"); (B "color", B "x")].

Example C102_nonvacuous :
  is_match5 ex_has ex_match5 /\ sorts time_asc Proof.SqlQuery.sqlite_up /\ sorts time_desc Proof.SqlQuery.sqlite_down /\ written format_message search_db /\
  NoDup (map fst ex_attrs) /\
  requests ex_attrs (Request (B "#C") None (Some (B "RED ""green"" OR")) None None (Some 1000%Z)) /\
  query_of CmRFC1459 (Request (B "#C") None (Some (B "RED ""green"" OR")) None None (Some 1000%Z)) = Search 0 0 [] (B "#c") (B "RED ""green"" OR") 100 /\
  (forall r, ~ requests [(B "in", B "#c"); (B "limit", B "0")] r) /\
  search_command (sample_conn true) [(B "in", B "#c"); (B "limit", B "0")] = HRefuse (B "FAIL") [B "SEARCH"; B "INVALID_PARAMS"; B "limit"; B "Invalid limit"] /\
  quote_fts letter (B "red, ""green"" OR*") = B """red"" ""green"" ""OR""" /\
  found (Search 0 0 [] (B "#c") (B "red ""green""") 2) = [Some (B "green, red!"); Some (B "blue red or green")] /\
  found (Search (at_ t0) (at_ t2) (B "bob") (B "#c") [] 10) = [Some (B "green")] /\
  found (Search 0 0 [] (B "#c") (B "*") 10) = [].
Proof.
  split; [exact ex_is_match5|]. split; [exact Proof.SqlQuery.up_sorts|]. split; [exact Proof.SqlQuery.down_sorts|]. split; [exact search_written|].
  split; [repeat (constructor; [vm_compute; intuition discriminate|]); constructor|].
  split.
  { unfold requests, ex_attrs. cbn [r_in r_from r_text r_after r_before r_limit given means].
    split; [left; reflexivity|]. split; [intros v I; vm_compute in I; intuition discriminate|]. split; [right; left; reflexivity|].
    split; [intros v I; vm_compute in I; intuition discriminate|]. split; [intros v I; vm_compute in I; intuition discriminate|].
    exists (B "1000"). split; [right; right; left; reflexivity|vm_compute; reflexivity]. }
  split; [vm_compute; reflexivity|]. split.
  { intros r (_ & _ & _ & _ & _ & H). destruct (r_limit r) as [n|]; cbn [means] in H.
    - destruct H as (v & I & C). vm_compute in I. destruct I as [I|[I|[]]]; [discriminate|]. injection I as <-. vm_compute in C. discriminate.
    - apply (H (B "0")). right. left. reflexivity. }
  vm_compute. tauto.
Qed.

(** A search of the log files of Properties.FsStore. *)
Definition log_text (r : option (list (option log_msg))) : option (list bytes) :=
  option_map (flat_map (fun m => match m with Some m => [nth 1 (lm_params m) []] | None => [] end)) r.
Definition ex_q (start limit : Z) (from text : bytes) : search := Search start 0 from (B "#chan") text limit.
Definition third := B "[00:30:00] <bob> three".
Definition ex_find (now : Z) (q : search) := log_text (log_search ex_lower (B "me") (fun _ => Properties.FsStore.ex_files third) now q).
Example C102_log_nonvacuous : let q := ex_q 0 2 (B "bob") (B "O") in let hi := Properties.FsStore.at_hour 700002 0 in
  let pick m := beqb (p_name (lm_prefix m)) (B "bob") && contains (B "o") (ex_lower (nth 1 (lm_params m) [])) in
  let parse := fs_parse (B "me") (B "#chan") false in
  holds (Properties.FsStore.ex_files third) (Properties.FsStore.ex_log third) /\ good_log parse (Properties.FsStore.ex_log third) /\
  (forall m, pick m = true <-> log_matches ex_lower q m) /\
  gaps_down (in_window parse (Properties.FsStore.ex_log third) 0 hi pick) (hi / 86400000000000) /\
  ex_find hi q = Some [B "one"; B "two"] /\
  ex_find hi (ex_q (Properties.FsStore.at_hour 700000 0) 2 [] (B "E")) = Some [B "one"; B "three"].
Proof.
  intros q hi pick parse. split; [apply Properties.FsStore.ex_holds|]. split.
  { apply Properties.FsStore.ex_good; [apply Properties.FsStore.ex_line_ok; vm_compute; intuition discriminate|].
    exists (Properties.FsStore.ex_msg (B "three")), 1800%Z. split; [vm_compute; reflexivity|lia]. }
  split.
  { intro m. unfold pick, log_matches. rewrite andb_true_iff, beqb_eq, Proof.Search.contains_iff. change (q_from q) with (B "bob"). change (ex_lower (q_text q)) with (B "o").
    split; [intros [A D]; split; right; assumption|]. intros [[A|A] [D|D]]; try discriminate. split; assumption. }
  split.
  { intros d Hd Hf. left. unfold in_window, day_messages, Properties.FsStore.ex_log in Hf. change (hi / 86400000000000)%Z with 700002%Z in *.
    destruct (Z.eqb_spec d 700000); [lia|]. destruct (Z.eqb_spec d 700001); [lia|]. exfalso. apply Hf. reflexivity. }
  split; vm_compute; reflexivity.
Qed.

(** ** What searches do not do *)

(** doc/ext/search.md: with [after], "messages SHOULD be searched from that time". The
    database gives the last ones, the log files the first ones: *)
Definition finds (d : db) (net : N) (q : search) : list msg_row :=
  db_search Proof.SqlQuery.sqlite_up Proof.SqlQuery.sqlite_down (sqlite_fts letter ex_match5) net (q_in q) (q_start q) (q_end q) (Z.to_nat (q_limit q)) (q_from q) (q_text q) d.
Theorem C102_from_refuted : exists raw_of d net t, written raw_of d /\
  let q n := Search t 0 [] (B "#c") [] n in
  t <> 0%Z /\ length (finds d net (q 10%Z)) = 3%nat /\ length (finds d net (q 1%Z)) = 1%nat /\ finds d net (q 1%Z) <> firstn 1%nat (finds d net (q 10%Z)).
Proof.
  exists format_message, search_db, 1%N, (at_ t0). split; [exact search_written|]. split; [vm_compute; discriminate|]. split; [vm_compute; reflexivity|].
  split; [vm_compute; reflexivity|]. vm_compute. discriminate.
Qed.
Print Assumptions C102_from_refuted.

(** A message sent exactly at the time of [after] is not found ("at or after this
    time"), and the same for [before]. *)
Theorem C102_bounds_refuted : exists raw_of d net r t, written raw_of d /\ In r (d_msgs d) /\ stored_for d net (B "#c") r /\ mr_text r <> None /\ mr_time r = format_time t /\
  ~ In r (finds d net (Search t 0 [] (B "#c") [] 10)) /\ ~ In r (finds d net (Search 0 t [] (B "#c") [] 10)) /\ In r (finds d net (Search 0 0 [] (B "#c") [] 10)).
Proof.
  exists format_message, search_db, 1%N, (nth 1%nat (d_msgs search_db) (MsgRow 0 0 [] [] [] None)), (at_ t1). split; [exact search_written|].
  split; [apply nth_In; vm_compute; lia|]. split; [exists (nth 0%nat (d_targets search_db) (TargetRow 0 0 [])); vm_compute; tauto|].
  split; [vm_compute; discriminate|]. split; [vm_compute; reflexivity|].
  split; [vm_compute; intuition discriminate|]. split; [vm_compute; intuition discriminate|]. vm_compute. tauto.
Qed.
Print Assumptions C102_bounds_refuted.

(** The sender is compared byte by byte: another spelling of the nickname finds
    nothing, although the target may be spelled in any case. *)
Theorem C102_case_refuted : exists (c : hconn message) nick nick' cm f,
  hc_net c = Some (cm, f) /\ casemap cm nick' = casemap cm nick /\
  length (texts (search_command c [(B "in", B "#C"); (B "from", nick)])) = 4%nat /\ search_command c [(B "in", B "#C"); (B "from", nick')] = HBatch (B "soju.im/search") [] [].
Proof. exists (sample_conn true), (B "bob"), (B "Bob"), CmRFC1459. eexists. split; [reflexivity|]. vm_compute. tauto. Qed.
Print Assumptions C102_case_refuted.

(** A search of the log files gives up after 100 days without a match, although a
    message before them matches. *)
Theorem C102_gap_refuted : exists now q text,
  ex_find now q = Some [] /\ ex_find (now - 86400000000000 * 100) q = Some [text].
Proof. exists (Properties.FsStore.at_hour 700101 12), (ex_q 0 5 (B "bob") (B "two")), (B "two"). split; vm_compute; reflexivity. Qed.
Print Assumptions C102_gap_refuted.
