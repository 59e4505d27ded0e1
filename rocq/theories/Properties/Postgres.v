(** C107: what is stored with PostgreSQL is what is read back. *)
From Verif.Base Require Import Bytes.
From Verif.Model Require Import Message TimeFmt Sql SqlQuery Postgres.
From Verif.Proof Require Postgres SqlQuery.
From Verif.Spec Require Import Sql SqlQuery Postgres.
From Coq Require Import ZArith NArith.
Open Scope N_scope.

Section C107.
Variable raw_of : message -> bytes.

Theorem C107_user_partial p now fresh u p' id : p_reachable raw_of p -> short_user u ->
  p_store_user now fresh u p = Some (p', id) ->
  (gu_id u <> 0 -> exists old, p_get_user (gu_username u) p = Some old /\ gu_id old = gu_id u) ->
  (gu_id u <> 0 -> id = gu_id u) /\ (gu_id u = 0 -> forall v, In v (p_list_users p) -> gu_id v <> id) /\
  (exists u', p_get_user (gu_username u) p' = Some u' /\ psaved_user id u u') /\
  (forall name, name <> gu_username u -> p_get_user name p' = p_get_user name p).
Proof. intros R. exact (Proof.Postgres.store_user_reads p now fresh u p' id (Proof.Postgres.reachable_valid raw_of p R)). Qed.

Theorem C107_network_partial p fresh u n p' id : p_reachable raw_of p -> short_network n -> storable_cmds (gn_cmds n) ->
  p_store_network fresh u n p = Some (p', id) ->
  (gn_id n <> 0 -> exists old, In old (p_list_networks u p) /\ gn_id old = gn_id n) ->
  (gn_id n <> 0 -> id = gn_id n) /\
  (gn_id n = 0 -> forall u' x, In x (p_list_networks u' p) -> gn_id x <> id) /\
  forall u' x, In x (p_list_networks u' p') <->
    (u' = u /\ x = saved_network id n) \/ (In x (p_list_networks u' p) /\ gn_id x <> id).
Proof. intros R. exact (Proof.Postgres.store_network_reads p fresh u n p' id (Proof.Postgres.reachable_valid raw_of p R)). Qed.

Theorem C107_channel_partial p fresh k c p' id : p_reachable raw_of p -> short_channel c ->
  p_store_channel fresh k c p = Some (p', id) ->
  (gc_id c <> 0 -> exists old, In old (p_list_channels k p) /\ gc_id old = gc_id c) ->
  (gc_id c <> 0 -> id = gc_id c) /\
  (gc_id c = 0 -> forall k' x, In x (p_list_channels k' p) -> gc_id x <> id) /\
  exists c', saved_channel id c c' /\
  forall k' x, In x (p_list_channels k' p') <-> (k' = k /\ x = c') \/ (In x (p_list_channels k' p) /\ gc_id x <> id).
Proof. intros R. exact (Proof.Postgres.store_channel_reads p fresh k c p' id (Proof.Postgres.reachable_valid raw_of p R)). Qed.

Theorem C107_delivery_partial p k client l p' : short 255 client ->
  (forall id t m, In (id, (t, m)) l -> short 255 t /\ short 255 m) -> p_store_drcpts k client l p = Some p' ->
  forall k' t c m, In (t, c, m) (p_list_drcpts k' p') <->
    (k' = k /\ c = client /\ In (t, m) (map snd l)) \/ (In (t, c, m) (p_list_drcpts k' p) /\ ~ (k' = k /\ c = client)).
Proof. exact (Proof.Postgres.store_drcpts_reads p k client l p'). Qed.

Theorem C107_read_partial p fresh k i target t p' id : p_reachable raw_of p -> short 255 target ->
  p_store_rrcpt fresh k i target t p = Some (p', id) ->
  (i <> 0 -> exists t0, p_get_rrcpt k target p = Some (Some (i, t0))) ->
  (i <> 0 -> id = i) /\
  (exists t', p_get_rrcpt k target p' = Some (Some (id, t')) /\ nearest t t') /\
  (forall k' name, (k', name) <> (k, target) -> p_get_rrcpt k' name p' = p_get_rrcpt k' name p).
Proof. intros R. exact (Proof.Postgres.store_rrcpt_reads p fresh k i target t p' id (Proof.Postgres.reachable_valid raw_of p R)). Qed.

Theorem C107_subscription p now fresh u k s p' id : p_reachable raw_of p -> p_store_sub now fresh u k s p = Some (p', id) ->
  (gs_id s <> 0 -> exists old, In old (p_list_subs u k p) /\ gs_id old = gs_id s /\ gs_endpoint old = gs_endpoint s) ->
  (gs_id s <> 0 -> id = gs_id s) /\
  (forall u' k' x, In x (p_list_subs u' k' p') <->
    (u' = u /\ k' = k /\ x = GSub id (gs_endpoint s) (gs_auth s) (gs_p256dh s) (gs_vapid s)) \/
    (In x (p_list_subs u' k' p) /\ gs_id x <> id)).
Proof. intros R. exact (Proof.Postgres.store_sub_reads p now fresh u k s p' id (Proof.Postgres.reachable_valid raw_of p R)). Qed.

(** Messages: all of a call are stored, for the target, and no others. *)
Theorem C107_messages p fresh net name now l p' ids : p_reachable raw_of p ->
  p_store_messages raw_of fresh net name now l p = Some (p', ids) ->
  ids = map fst l /\ NoDup ids /\ (forall r, In r (p_msgs p) -> ~ In (pm_id r) ids) /\
  (forall k e r, p_stored_for p k e r -> p_stored_for p' k e r) /\
  (forall k e r, p_stored_for p' k e r -> p_stored_for p k e r \/
     (k = net /\ e = name /\ exists id m, In (id, m) l /\ p_row_of raw_of now id m r)) /\
  (forall id m, In (id, m) l -> exists r, p_stored_for p' net name r /\ p_row_of raw_of now id m r).
Proof. intros R. exact (Proof.Postgres.store_messages_reads raw_of p fresh net name now l p' ids (Proof.Postgres.reachable_valid raw_of p R)). Qed.

(** Storing messages works if they are UTF-8. *)
Theorem C107_works_partial p fresh net name now l : p_reachable raw_of p -> In net (map nr_id (p_nets p)) ->
  ~ In fresh (map tr_id (p_targets p)) -> text name ->
  (forall id m, In (id, m) l -> text (raw_of m) /\ text (message_sender m) /\ text (string_of (message_text m)) /\ message_time now m <> None) ->
  NoDup (map fst l) -> (forall r, In r (p_msgs p) -> ~ In (pm_id r) (map fst l)) ->
  exists p', p_store_messages raw_of fresh net name now l p = Some (p', map fst l).
Proof. intros R. exact (Proof.Postgres.store_messages_works raw_of p fresh net name now l (Proof.Postgres.reachable_valid raw_of p R)). Qed.

(** Queries, for any order among messages of the same time. *)
Theorem C107_listed up down search p net name o out : p_reachable raw_of p ->
  sorts p_not_later up -> sorts (fun a b => p_not_later b a) down ->
  (o_after o mod 1000 = 0)%Z -> (o_before o mod 1000 = 0)%Z ->
  p_list_rows up down search net name o p = Some out -> p_answer search p net name o out.
Proof.
  intros R A D. exact (Proof.Postgres.list_rows_answer up down search A D p net name o out (Proof.Postgres.reachable_valid raw_of p R)).
Qed.

Theorem C107_last down p net name i : p_reachable raw_of p -> sorts (fun a b => p_not_later b a) down ->
  p_last_id down net name p = Some i ->
  ((forall r, ~ p_stored_for p net name r) /\ i = 0) \/
  exists r, p_stored_for p net name r /\ pm_id r = i /\ forall r', p_stored_for p net name r' -> (pm_time r' <= pm_time r)%Z.
Proof. intros R D. exact (Proof.Postgres.last_id_latest down D p net name i (Proof.Postgres.reachable_valid raw_of p R)). Qed.

Theorem C107_targets down lup ldown p net o : p_reachable raw_of p ->
  sorts (fun a b => p_not_later b a) down -> sorts l_not_later lup -> sorts (fun a b => l_not_later b a) ldown ->
  (o_after o mod 1000 = 0)%Z -> (o_before o mod 1000 = 0)%Z ->
  best l_not_later (p_target_listed p net o) (o_limit o) (o_last o) (p_list_latest down lup ldown net o p).
Proof.
  intros R D A B. exact (Proof.Postgres.list_latest_answer down (fun _ _ => true) D lup ldown A B p net o (Proof.Postgres.reachable_valid raw_of p R)).
Qed.

(** Deletion works and removes what belongs to the user, to the network, and nothing else. *)
Theorem C107_delete_user p u : p_reachable raw_of p ->
  exists p', p_delete_user u p = Some p' /\ p_erased p p' (fun x => x = u) (p_owns p u).
Proof. intros R. exact (Proof.Postgres.delete_user_erases p u (Proof.Postgres.reachable_valid raw_of p R)). Qed.

Theorem C107_delete_network p k : p_reachable raw_of p ->
  exists p', p_delete_network k p = Some p' /\ p_erased p p' (fun _ => False) (fun x => x = k).
Proof. intros R. exact (Proof.Postgres.delete_network_erases p k (Proof.Postgres.reachable_valid raw_of p R)). Qed.

Theorem C107_delete_channel p id : p_reachable raw_of p -> exists p', p_delete_channel id p = Some p' /\
  forall k x, In x (p_list_channels k p') <-> In x (p_list_channels k p) /\ gc_id x <> id.
Proof. intros R. exact (Proof.Postgres.delete_channel_reads p id (Proof.Postgres.reachable_valid raw_of p R)). Qed.

Theorem C107_delete_subscription p id : p_reachable raw_of p -> exists p', p_delete_sub id p = Some p' /\
  forall u k x, In x (p_list_subs u k p') <-> In x (p_list_subs u k p) /\ gs_id x <> id.
Proof. intros R. exact (Proof.Postgres.delete_sub_reads p id (Proof.Postgres.reachable_valid raw_of p R)). Qed.
End C107.

Print Assumptions C107_user_partial.
Print Assumptions C107_network_partial.
Print Assumptions C107_channel_partial.
Print Assumptions C107_delivery_partial.
Print Assumptions C107_read_partial.
Print Assumptions C107_subscription.
Print Assumptions C107_messages.
Print Assumptions C107_works_partial.
Print Assumptions C107_listed.
Print Assumptions C107_last.
Print Assumptions C107_targets.
Print Assumptions C107_delete_user.
Print Assumptions C107_delete_network.
Print Assumptions C107_delete_channel.
Print Assumptions C107_delete_subscription.

(** ** Cases *)

Definition ex_raw (m : message) : bytes := match m_params m with _ :: t :: _ => t | _ => [] end.
Definition ex_line (t : bytes) : message := Message [] (Some (Prefix (B "alice") [] [])) (B "PRIVMSG") [B "#c"; t].
Definition ex_user : guser := GUser 0 (B "bob") (B "hash") [] (B "Bob") true true 1234567 (-1).
Definition ex_net (pass : bytes) (cmds : list bytes) : gnet :=
  GNet 0 (B "libera") (B "irc.libera.chat") (B "bob") [] [] pass cmds [] (B "PLAIN") (B "bob") (B "secret") None None true true.
Definition ex_chan (after : Z) : gchan := GChan 0 (B "#c") [] true [] 0 0 after 0.
Definition ex_calls : list pcall :=
  [PStoreUser 1000 1 ex_user; PStoreNetwork 1 1 (ex_net [] [B "JOIN #a"; B "JOIN #b"]); PStoreChannel 1 1 (ex_chan 1500000000);
   PStoreDeliveryReceipts 1 (B "phone") [(1, (B "#c", B "x")); (2, (B "alice", B "y"))];
   PStoreReadReceipt 1 1 0 (B "#c") 5000001; PStoreSubscription 1000 1 1 0 (GSub 0 (B "https://a") (B "k") (B "l") (B "m"));
   PStoreMessages 1 1 (B "#c") 7000000 [(1, ex_line (B "hi")); (2, ex_line (B "there"))]].
Definition ex_pg : pg := fold_left (p_step ex_raw) ex_calls empty_pg.

Lemma ex_reachable : p_reachable ex_raw ex_pg.
Proof.
  unfold ex_pg. assert (H : forall cs p, p_reachable ex_raw p -> p_reachable ex_raw (fold_left (p_step ex_raw) cs p)).
  { induction cs as [|c cs IH]; intros p H; [exact H|]. apply IH. apply p_reach_step. exact H. }
  apply H. apply p_reach_empty.
Qed.

(** A user, a network, a channel, receipts, a subscription and two messages, then read. *)
Example C107_nonvacuous :
  p_reachable ex_raw ex_pg /\
  p_get_user (B "bob") ex_pg = Some (GUser 1 (B "bob") (B "hash") [] (B "Bob") true true 1235000 (-1)) /\
  p_list_networks 1 ex_pg = [saved_network 1 (ex_net [] [B "JOIN #a"; B "JOIN #b"])] /\
  p_list_channels 1 ex_pg = [GChan 1 (B "#c") [] true [] 0 0 2000000000 0] /\
  p_list_drcpts 1 ex_pg = [(B "#c", B "phone", B "x"); (B "alice", B "phone", B "y")] /\
  p_get_rrcpt 1 (B "#c") ex_pg = Some (Some (1, 5000000%Z)) /\
  p_list_subs 1 0 ex_pg = [GSub 1 (B "https://a") (B "k") (B "l") (B "m")] /\
  map pm_raw (p_msgs ex_pg) = [B "hi"; B "there"] /\
  (exists p', p_delete_user 1 ex_pg = Some p' /\ p' = empty_pg) /\
  short 255 (B "bob") /\ text (flat_map encode [233; 8364; 128512]) /\
  (* é, € and an emoji *)
  flat_map encode [233; 8364; 128512] = map ascii_of_N [195; 169; 226; 130; 172; 240; 159; 152; 128].
Proof.
  split; [exact ex_reachable|]. do 7 (split; [vm_compute; reflexivity|]).
  split; [eexists; split; vm_compute; reflexivity|]. split.
  - exists [98; 111; 98]. split; [split; [|reflexivity]|discriminate].
    intros c [<-|[<-|[<-|[]]]]; left; split; reflexivity.
  - split; [|reflexivity]. exists [233; 8364; 128512]. split; [|reflexivity].
    intros c [<-|[<-|[<-|[]]]]; [left|left|right]; split; first [reflexivity|discriminate].
Qed.

(** Queries on messages of two targets. *)
Definition ex_up : list pmsg -> list pmsg := Proof.Postgres.ksort pm_time.
Definition ex_down : list pmsg -> list pmsg := Proof.Postgres.ksort (fun r => - pm_time r)%Z.
Definition ex_lup : list (bytes * Z) -> list (bytes * Z) := Proof.Postgres.ksort snd.
Definition ex_ldown : list (bytes * Z) -> list (bytes * Z) := Proof.Postgres.ksort (fun r => - snd r)%Z.
Definition ex_pg2 : pg :=
  fold_left (p_step ex_raw) [PStoreMessages 2 1 (B "#c") 9000000 [(3, ex_line (B "again"))];
                             PStoreMessages 3 1 (B "alice") 8000000 [(4, ex_line (B "psst"))]] ex_pg.

Example C107_queries_nonvacuous :
  sorts p_not_later ex_up /\ sorts (fun a b => p_not_later b a) ex_down /\
  sorts l_not_later ex_lup /\ sorts (fun a b => l_not_later b a) ex_ldown /\ p_reachable ex_raw ex_pg2 /\
  option_map (map pm_raw) (p_list_rows ex_up ex_down (fun _ _ => false) 1 (B "#c") (Options 0 0 0 2 false [] [] true) ex_pg2)
    = Some [B "hi"; B "again"] /\
  option_map (map pm_raw) (p_list_rows ex_up ex_down (fun _ _ => false) 1 (B "#c") (Options 0 7000000 0 2 false [] [] false) ex_pg2)
    = Some [B "again"] /\
  p_last_id ex_down 1 (B "#c") ex_pg2 = Some 3 /\
  p_list_latest ex_down ex_lup ex_ldown 1 (Options 0 0 0 5 false [] [] false) ex_pg2
    = [(B "alice", 8000000%Z); (B "#c", 9000000%Z)].
Proof.
  split; [exact (Proof.Postgres.ksort_sorts pm_time)|].
  split; [intros l; destruct (Proof.Postgres.ksort_sorts (fun r => - pm_time r)%Z l) as [P S]; split; [exact P|];
    eapply Proof.SqlQuery.sorted_weaken; [|exact S]; cbn beta; unfold p_not_later; intros x y; apply Z.opp_le_mono|].
  split; [exact (Proof.Postgres.ksort_sorts snd)|].
  split; [intros l; destruct (Proof.Postgres.ksort_sorts (fun r : bytes * Z => - snd r)%Z l) as [P S]; split; [exact P|];
    eapply Proof.SqlQuery.sorted_weaken; [|exact S]; cbn beta; unfold l_not_later; intros x y; apply Z.opp_le_mono|].
  split; [unfold ex_pg2; cbn [fold_left]; apply p_reach_step; apply p_reach_step; exact ex_reachable|].
  split; [vm_compute; reflexivity|]. split; [vm_compute; reflexivity|]. split; vm_compute; reflexivity.
Qed.

(** ** Differences *)

(** A message in Latin-1 is refused, and with it the other messages of the call; SQLite stores them. *)
Definition latin : bytes := B "caf" ++ ["233"%char].
Theorem C107_encoding_refuted : exists l d',
  p_store_messages ex_raw 2 1 (B "#d") 7000000 [(3, ex_line (B "hi")); (4, ex_line l)] ex_pg = None /\
  store_messages ex_raw 1 (B "#d") 7000000 [ex_line (B "hi"); ex_line l]
    (fold_left (step_db ex_raw) [StoreUser 1000 ex_user; StoreNetwork 1 (ex_net [] [])] empty_db) = Some (d', [1; 2]).
Proof.
  exists latin. eexists. split; [vm_compute; reflexivity|]. vm_compute. reflexivity.
Qed.
Print Assumptions C107_encoding_refuted.

(** Connect commands of 1024 characters are refused; SQLite stores them. *)
Definition long_cmd : bytes := repeat "a"%char (N.to_nat 1024).
Theorem C107_length_refuted : exists n d',
  p_store_network 2 1 n (p_step ex_raw empty_pg (PStoreUser 1000 1 ex_user)) = None /\
  store_network 1 n (step_db ex_raw empty_db (StoreUser 1000 ex_user)) = Some (d', 1).
Proof. exists (ex_net [] [long_cmd]). eexists. split; vm_compute; reflexivity. Qed.
Print Assumptions C107_length_refuted.

(** A password of 255 characters and a blank is stored without the blank. *)
Definition long_pass : bytes := repeat "a"%char (N.to_nat 255) ++ [" "%char].
Theorem C107_blank_refuted : exists n p' n',
  p_store_network 1 1 n (p_step ex_raw empty_pg (PStoreUser 1000 1 ex_user)) = Some (p', 1) /\
  p_list_networks 1 p' = [n'] /\ length (gn_pass n) = 256%nat /\ length (gn_pass n') = 255%nat.
Proof.
  exists (ex_net long_pass []). eexists. eexists. split; [vm_compute; reflexivity|]. split; [vm_compute; reflexivity|].
  split; vm_compute; reflexivity.
Qed.
Print Assumptions C107_blank_refuted.

(** A channel to be detached after 2^31 seconds is refused; SQLite stores it. *)
Theorem C107_seconds_refuted : exists c d',
  p_store_channel 2 1 (GChan 0 (B "#x") [] false [] 0 0 c 0) ex_pg = None /\
  store_channel 1 (GChan 0 (B "#x") [] false [] 0 0 c 0)
    (fold_left (step_db ex_raw) [StoreUser 1000 ex_user; StoreNetwork 1 (ex_net [] [])] empty_db) = Some (d', 1).
Proof. exists 2147483648000000000%Z. eexists. split; vm_compute; reflexivity. Qed.
Print Assumptions C107_seconds_refuted.
