(** Property C111: the copy of log files to a database. *)
From Verif.Base Require Import Bytes.
From Verif.Model Require Import Message Strip TimeFmt ZncLog FsStore LogPath Sql SqlQuery MigrateLogs.
From Verif.Spec Require Import TimeFmt ZncLog FsStore Sql SqlQuery MigrateLogs.
From Verif.Proof Require MigrateLogs.
From Coq Require Import ZArith NArith.

(** C111: when the copy has run to its end, the database has the messages that can be
    read in the log files, each once, of every network and target, in the order of the
    files and lines, with their times, and what it had before; nothing else. *)
Theorem C111_copied_partial : forall raw_of now root users d d', in_years now -> written raw_of d ->
  copy_logs raw_of now root users d = (d', true) ->
  exists items, all_items root d users items /\ added raw_of now d items d'.
Proof. intros raw_of now root users d d' Y. exact (Proof.MigrateLogs.copies raw_of now Y root users d d'). Qed.
Print Assumptions C111_copied_partial.

(** C111, from the writing of the log on: a text that soju wrote to a log file is found
    in the database under the same target, with its sender and its second. For
    targets whose name is not changed for the file system. *)
Theorem C111_text_partial : forall raw_of now root users d d' u n f es entity day ls c, in_years now ->
  written raw_of d -> copy_logs raw_of now root users d = (d', true) ->
  In u users -> In n (list_networks (gu_id u) d) ->
  root (escape_filename (gu_username u)) (escape_filename (log_name n)) = Some f ->
  In (escape_filename entity, es) f -> escape_filename entity = entity ->
  In (day_file day, file_of ls) es -> Forall line_ok ls -> (0 <= day < 3652059)%Z ->
  chat_ok c -> (c_time c / 86400000000000 = day)%Z -> In (chat_line (c_from c) entity (c_text c) (c_time c)) ls ->
  exists r, In r (d_msgs d') /\ stored_for d' (gn_id n) entity r /\ mr_sender r = p_name (c_from c) /\
    mr_text r = Some (strip_ansi (c_text c)) /\ row_at r (c_time c / 1000000000 * 1000000000).
Proof. intros raw_of now root users d d' u n f es entity day ls c Y. exact (Proof.MigrateLogs.chat_copied raw_of now Y root users d d' u n f es entity day ls c). Qed.
Print Assumptions C111_text_partial.

(** The copy gets to its end if every file is named after a day and all its lines can
    be read. *)
Theorem C111_ends : forall raw_of now root users d, in_years now -> written raw_of d ->
  (forall u n, In u users -> In n (list_networks (gu_id u) d) -> readable root u n) ->
  exists d', copy_logs raw_of now root users d = (d', true).
Proof. intros raw_of now root users d Y. exact (Proof.MigrateLogs.copies_end raw_of now Y root users d). Qed.
Print Assumptions C111_ends.

(** Two users with a network each. *)
Definition ex_raw (m : message) : bytes := m_command m.
Definition ex_user (id : N) (name : bytes) : guser := GUser id name (B "hash") [] [] false true 0 0.
Definition ex_net : gnet := GNet 0 (B "libera") (B "irc.libera.chat") [] [] [] [] [] [] [] [] [] None None true true.
Definition ex_users : list guser := [ex_user 1 (B "alice"); ex_user 2 (B "bob")].
Definition ex_db : db := fold_left (step_db ex_raw)
  [StoreUser 1000 (ex_user 0 (B "alice")); StoreUser 1000 (ex_user 0 (B "bob")); StoreNetwork 1 ex_net; StoreNetwork 2 ex_net] empty_db.
Definition ex_now : Z := (700001 * 86400000000000)%Z.
Definition ex_chat : chat := Chat (700000 * 86400000000000 + 36000000000000 + 7)%Z (Prefix (B "carol") (B "c") (B "host")) (B "hello").
Definition ex_lines (entity : bytes) : list bytes := [B "[09:00:00] *** Joins: carol (c@host)"; chat_line (c_from ex_chat) entity (c_text ex_chat) (c_time ex_chat)].
Definition ex_folder (entity : bytes) : folder :=
  [(escape_filename entity, [(B "1917-07-17.log", B "[00:00:01] <carol> next day" ++ [lf]); (day_file 700000, file_of (ex_lines entity))])].
Definition ex_root (alice bob : option folder) (u n : bytes) : option folder :=
  if beqb n (B "libera") then if beqb u (B "alice") then alice else if beqb u (B "bob") then bob else None else None.

Lemma ex_written : written ex_raw ex_db.
Proof. unfold ex_db. cbn [fold_left]. do 4 (apply written_step; [|exact I|exact I]). constructor. Qed.

Lemma ex_line_ok l : ~ In "010"%char l -> ~ In "013"%char l -> line_ok l.
Proof. intros H1 H2. split; [exact H1|]. intros l' ->. apply H2. apply in_app_iff. right. left. reflexivity. Qed.

Lemma ex_chat_ok : chat_ok ex_chat.
Proof.
  split; [vm_compute; discriminate|]. split; [vm_compute; intuition discriminate|]. split; [constructor; vm_compute; discriminate|].
  repeat constructor; vm_compute; intuition discriminate.
Qed.

Definition ex_copy (alice bob : option folder) (d : db) : db * bool := copy_logs ex_raw ex_now (ex_root alice bob) ex_users d.

(** The hypotheses hold, and the rows are those of the lines. *)
Example C111_nonvacuous : in_years ex_now /\ written ex_raw ex_db /\ chat_ok ex_chat /\ escape_filename (B "#chan") = B "#chan" /\
  snd (ex_copy (Some (ex_folder (B "#chan"))) None ex_db) = true /\
  map (fun r => (mr_target r, mr_time r, mr_sender r, mr_text r)) (d_msgs (fst (ex_copy (Some (ex_folder (B "#chan"))) None ex_db))) =
  [(1%N, B "1917-07-16T09:00:00.000Z", B "carol", None); (1%N, B "1917-07-16T10:00:00.000Z", B "carol", Some (B "hello"));
   (1%N, B "1917-07-17T00:00:01.000Z", B "carol", Some (B "next day"))].
Proof.
  split; [split; vm_compute; [discriminate|reflexivity]|]. split; [exact ex_written|]. split; [exact ex_chat_ok|].
  split; [reflexivity|]. split; vm_compute; reflexivity.
Qed.

(** A channel with a slash: the text is not found under its name. *)
Theorem C111_name_refuted : exists root users d d' u n f es entity day ls c,
  written ex_raw d /\ copy_logs ex_raw ex_now root users d = (d', true) /\ In u users /\ In n (list_networks (gu_id u) d) /\
  root (escape_filename (gu_username u)) (escape_filename (log_name n)) = Some f /\
  In (escape_filename entity, es) f /\ In (day_file day, file_of ls) es /\ Forall line_ok ls /\
  chat_ok c /\ (c_time c / 86400000000000 = day)%Z /\ In (chat_line (c_from c) entity (c_text c) (c_time c)) ls /\
  forall r, In r (d_msgs d') -> ~ stored_for d' (gn_id n) entity r.
Proof.
  pose (entity := B "#c++/dev").
  exists (ex_root (Some (ex_folder entity)) None), ex_users, ex_db, (fst (ex_copy (Some (ex_folder entity)) None ex_db)), (ex_user 1 (B "alice")).
  exists (GNet 1 (B "libera") (B "irc.libera.chat") [] [] [] [] [] [] [] [] [] None None true true), (ex_folder entity), (snd (hd ([], []) (ex_folder entity))), entity, 700000%Z, (ex_lines entity), ex_chat.
  split; [exact ex_written|]. split; [vm_compute; reflexivity|]. split; [left; reflexivity|]. split; [vm_compute; left; reflexivity|].
  split; [reflexivity|]. split; [left; reflexivity|]. split; [right; left; reflexivity|]. split.
  { repeat constructor; apply ex_line_ok; vm_compute; intuition discriminate. }
  split; [exact ex_chat_ok|]. split; [vm_compute; reflexivity|]. split; [right; left; reflexivity|].
  intros r _ (t & Ht & _ & _ & E). vm_compute in Ht. destruct Ht as [<-|[]]. vm_compute in E. discriminate E.
Qed.
Print Assumptions C111_name_refuted.

(** A line that cannot be read ends the copy; what was copied before stays, and is there
    twice after the line is repaired and the copy run again. *)
Theorem C111_again_refuted : exists alice bob bob' d1 d2,
  ex_copy alice bob ex_db = (d1, false) /\ ex_copy alice bob' d1 = (d2, true) /\
  exists r1 r2, In r1 (d_msgs d2) /\ In r2 (d_msgs d2) /\ mr_id r1 <> mr_id r2 /\ mr_target r1 = mr_target r2 /\
    mr_time r1 = mr_time r2 /\ mr_sender r1 = mr_sender r2 /\ mr_text r1 = mr_text r2 /\
  forall f items, alice = Some f -> target_items (B "alice") 1 (hd ([], []) f) items -> length items = 1.
Proof.
  exists (Some [(B "#chan", [(day_file 700000, B "[10:00:00] <carol> hello" ++ [lf])])]), (Some [(B "#chan", [(day_file 700000, B "[10:00:" ++ [lf])])]),
    (Some [(B "#chan", [])]).
  eexists. eexists. split; [vm_compute; reflexivity|]. split; [vm_compute; reflexivity|].
  eexists. eexists. split; [left; reflexivity|]. split; [right; left; reflexivity|]. split; [vm_compute; discriminate|].
  do 4 (split; [vm_compute; reflexivity|]). intros f items E. injection E as <-. cbn [hd]. intros (es & P & _ & parts & F & ->).
  cbn [snd] in P. apply Permutation.Permutation_sym, Permutation.Permutation_length_1_inv in P. subst es.
  inversion F as [|e p l ps (day & D & ->) F']; subst. inversion F'; subst. clear. vm_compute. reflexivity.
Qed.
Print Assumptions C111_again_refuted.

Example C111_ends_nonvacuous : forall u n, In u ex_users -> In n (list_networks (gu_id u) ex_db) ->
  readable (ex_root (Some (ex_folder (B "#chan"))) None) u n.
Proof.
  intros u n [<-|[<-|[]]] Hn; vm_compute in Hn; destruct Hn as [<-|[]]; intros f target es name content F; vm_compute in F; [|discriminate F].
  injection F as <-. intros [T|[]]. injection T as <- <-. intros [E|[E|[]]]; injection E as <- <-.
  - exists 700001%Z. split; [vm_compute; reflexivity|]. intros l Hl. vm_compute in Hl. destruct Hl as [<-|[]].
    eexists. split; [vm_compute; reflexivity|]. intros m tod E. injection E as <- <-. split; [split; vm_compute; [discriminate|reflexivity]|vm_compute; discriminate].
  - exists 700000%Z. split; [vm_compute; reflexivity|]. intros l Hl. vm_compute in Hl. destruct Hl as [<-|[<-|[]]].
    + eexists. split; [vm_compute; reflexivity|]. intros m tod E. injection E as <- <-. split; [split; vm_compute; [discriminate|reflexivity]|vm_compute; discriminate].
    + eexists. split; [vm_compute; reflexivity|]. intros m tod E. injection E as <- <-. split; [split; vm_compute; [discriminate|reflexivity]|vm_compute; discriminate].
Qed.
