(** C49: history requests. *)
From Verif.Base Require Import Bytes.
From Verif.Model Require Import Message CaseMap TimeFmt Identd FsStore Sql SqlQuery History.
From Verif.Spec Require Import TimeFmt Sql SqlQuery History.
From Verif.Proof Require SqlQuery History.
From Verif.Properties Require SqlQuery.
From Coq Require Import ZArith NArith Lia.
Open Scope Z_scope.

(** C49: whatever the parameters, an answer has at most as many results as the
    request asks for, and this is at most 1000. *)
Theorem C49_limit : forall M (c : hconn M) st params, hc_store c = Some st -> keeps_limit st ->
  results (chathistory c params) = 0%nat \/
  exists s n, limit_param params = Some s /\ atoi s = Some (Z.of_nat n) /\ Z.of_nat n <= 1000 /\ (results (chathistory c params) <= n)%nat.
Proof.
  intros M c st params Hst K. destruct (Proof.History.limited c st Hst params K) as [H|[s [n [H1 [[H2 H3] H4]]]]]; [left; exact H|].
  right. exists s, n. auto.
Qed.
Print Assumptions C49_limit.

(** The stores of log files and of the database keep the limit. *)
Theorem C49_fs_limit : forall M (parse : bytes -> bool -> bytes -> option (option (M * Z))) files dirs sort now,
  keeps_limit (fs_hstore parse files dirs sort now).
Proof. exact @Proof.History.fs_keeps. Qed.
Print Assumptions C49_fs_limit.

Theorem C49_db_limit : forall by_time by_time_desc fts by_latest by_latest_desc parse net d,
  keeps_limit (sql_hstore by_time by_time_desc fts by_latest by_latest_desc parse net d).
Proof. exact Proof.History.sql_keeps. Qed.
Print Assumptions C49_db_limit.

(** C49: a well-formed request is answered with what it asks for. *)
Theorem C49_meaning : forall M (c : hconn M) st cm detached right params r e lo hi n newest,
  hc_store c = Some st -> hc_net c = Some (cm, detached) -> gives st right ->
  casemap (hc_cm c) (target_param params) <> B "bouncerserv" -> in_years (hc_now c) -> hc_now c <> 0 ->
  reads params r -> (forall t1 t2 n, r <> RTargets t1 t2 n) -> asked_for cm (hc_now c) r = (e, lo, hi, n, newest) ->
  exists l, chathistory c params = HBatch (B "chathistory") [e] l /\ right e (hc_events c) lo hi n newest l.
Proof.
  intros M c st cm detached right params r e lo hi n newest Hst Hn Hg Hs. exact (Proof.History.meaning c st Hst cm detached right params r e lo hi n newest Hn Hg Hs).
Qed.
Print Assumptions C49_meaning.

(** With the database these are the messages of the target between the two times,
    the newest or the oldest ones of them. *)
Theorem C49_db : forall raw_of by_time by_time_desc fts by_latest by_latest_desc parse net d,
  sorts time_asc by_time -> sorts time_desc by_time_desc -> written raw_of d ->
  (forall r, In r (d_msgs d) -> exists m, mr_raw r = raw_of m /\ parse (raw_of m) = Some m) ->
  gives (sql_hstore by_time by_time_desc fts by_latest by_latest_desc parse net d) (db_right raw_of d net).
Proof. exact Proof.History.sql_gives. Qed.
Print Assumptions C49_db.

(** C49: a request for targets is answered with those of the store, without
    detached channels. *)
Theorem C49_targets : forall M (c : hconn M) st cm detached params t1 t2 n l,
  hc_store c = Some st -> hc_net c = Some (cm, detached) -> casemap (hc_cm c) [] <> B "bouncerserv" ->
  reads params (RTargets t1 t2 n) -> h_targets st t1 t2 n (hc_events c) = Some l ->
  exists ts, chathistory c params = HTargets ts /\
    forall name time, In (name, time) ts <-> exists t, In (name, t) l /\ detached name = false /\ time = format_time t.
Proof.
  intros M c st cm detached params t1 t2 n l Hst Hn Hs Hr Hl.
  assert (Hs' : Proof.History.served c params) by (unfold Proof.History.served; inversion Hr; exact Hs).
  eexists. split; [exact (Proof.History.targets c st Hst cm detached params t1 t2 n l Hn Hs' Hr Hl)|].
  intros name time. rewrite in_map_iff. split.
  - intros [[nm t] [E Hi]]. apply filter_In in Hi as [Hi Hd]. cbn [fst snd] in *. assert (nm = name) by congruence. assert (format_time t = time) by congruence. subst.
    exists t. split; [exact Hi|]. split; [destruct (detached name); [discriminate Hd|reflexivity]|reflexivity].
  - intros [t [Hi [Hd ->]]]. exists (name, t). split; [reflexivity|]. apply filter_In. split; [exact Hi|]. cbn [fst]. rewrite Hd. reflexivity.
Qed.
Print Assumptions C49_targets.

(** C49: a malformed request about a network gets an error, unless it is about the
    service or its second bound is empty. *)
Theorem C49_malformed_partial : forall M (c : hconn M) st params, hc_store c = Some st -> hc_net c <> None ->
  casemap (hc_cm c) (target_param params) <> B "bouncerserv" -> second_bound params <> Some [] -> (forall r, ~ reads params r) ->
  exists cmd ps, chathistory c params = HRefuse cmd ps.
Proof. intros M c st params Hst Hn Hs. exact (Proof.History.malformed c st Hst params Hn Hs). Qed.
Print Assumptions C49_malformed_partial.

(** C49: a search has at most 100 results, and at most as many as it asks for. *)
Theorem C49_search_limit : forall M (c : hconn M) st attrs, hc_search c = Some st -> search_keeps_limit st -> NoDup (map fst attrs) ->
  Z.of_nat (results (search_command c attrs)) <= 100 /\
  forall s, In (B "limit", s) attrs -> results (search_command c attrs) = 0%nat \/
    exists l, atoi s = Some l /\ Z.of_nat (results (search_command c attrs)) <= l.
Proof. intros M c st attrs. exact (Proof.History.search_limited c st attrs). Qed.
Print Assumptions C49_search_limit.

Theorem C49_fs_search_limit : forall M (parse : bytes -> bool -> bytes -> option (option (M * Z))) files name contains now,
  search_keeps_limit (fs_search parse files name contains now).
Proof. exact @Proof.History.fs_search_keeps. Qed.
Print Assumptions C49_fs_search_limit.

Theorem C49_db_search_limit : forall by_time by_time_desc fts parse net d, search_keeps_limit (sql_search by_time by_time_desc fts parse net d).
Proof. exact Proof.History.sql_search_keeps. Qed.
Print Assumptions C49_db_search_limit.

(** ** Examples *)

Import Properties.SqlQuery Proof.SqlQuery.

(** A database with messages at four seconds, one second later. *)
Definition samples : list message :=
  [text_at t0 (B "a"); text_at t2 (B "b"); join_at t2; text_at t1 (B "c"); text_at t3 (B "d");
   text_at (B "2024-03-01T00:00:00.000Z") (B "other"); text_at (B "2024-02-29T12:00:01.000Z") (B "elsewhere")].
Definition sample_parse (s : bytes) : option message := find (fun m => beqb (format_message m) s) samples.
Definition sample_store : hstore message := sql_hstore sqlite_up sqlite_down no_fts latest_up latest_down sample_parse 1 sample_query.
Definition sample_conn (net : bool) : hconn message :=
  HConn (B "ann") CmRFC1459 (if net then Some (CmRFC1459, fun n => beqb n (B "#d")) else None) (Some sample_store)
    (Some (sql_search sqlite_up sqlite_down no_fts sample_parse 1 sample_query)) false (at_ (B "2024-02-29T12:00:04.000Z")).
Definition texts (a : hanswer message) : list (option bytes) := match a with HBatch _ _ l => map message_text l | _ => [] end.

Definition between_request := [B "BETWEEN"; B "#C"; B "timestamp=" ++ t3; B "timestamp=" ++ t0; B "1"].
Example C49_nonvacuous :
  gives sample_store (db_right format_message sample_query 1) /\ keeps_limit sample_store /\
  reads between_request (RBetween (B "#C") (at_ t3) (at_ t0) 1) /\
  asked_for CmRFC1459 (hc_now (sample_conn true)) (RBetween (B "#C") (at_ t3) (at_ t0) 1) = (B "#c", at_ t0, at_ t3, 1%nat, true) /\
  texts (chathistory (sample_conn true) between_request) = [Some (B "b")] /\
  texts (chathistory (sample_conn true) [B "AFTER"; B "#c"; B "timestamp=" ++ t0; B "2"]) = [Some (B "c"); Some (B "b")] /\
  texts (chathistory (sample_conn true) [B "LATEST"; B "#c"; B "*"; B "1000"]) = [Some (B "a"); Some (B "c"); Some (B "b"); Some (B "d")] /\
  chathistory (sample_conn true) [B "LATEST"; B "#c"; B "*"; B "1001"] = fail [B "INVALID_PARAMS"; B "LATEST"; B "1001"; B "Invalid limit"] /\
  chathistory (sample_conn true) [B "TARGETS"; B "timestamp=" ++ t0; B "timestamp=2025-01-01T00:00:00.000Z"; B "5"] = HTargets [(B "#c", t3)] /\
  texts (search_command (sample_conn true) [(B "in", B "#C"); (B "from", B "bob"); (B "limit", B "2")]) = [Some (B "b"); Some (B "d")].
Proof.
  split; [apply C49_db; [exact up_sorts|exact down_sorts|apply written_run; [apply written_empty|vm_compute; reflexivity]|]|].
  { assert (F : forallb (fun r => existsb (fun m => beqb (mr_raw r) (format_message m)) samples) (d_msgs sample_query) = true) by (vm_compute; reflexivity).
    assert (G : Forall (fun m => sample_parse (format_message m) = Some m) samples) by (repeat (constructor; [vm_compute; reflexivity|]); constructor).
    intros r Hr. apply (proj1 (forallb_forall _ _) F) in Hr. apply existsb_exists in Hr as [m [Hm He]]. apply beqb_eq in He.
    exists m. split; [exact He|]. rewrite Forall_forall in G. exact (G m Hm). }
  split; [apply C49_db_limit|].
  split; [apply RdBetween; [exists t3; split; [reflexivity|split; [vm_compute; reflexivity|vm_compute; discriminate]]|exists t0; split; [reflexivity|split; [vm_compute; reflexivity|vm_compute; discriminate]]|vm_compute; split; [reflexivity|discriminate]]|].
  vm_compute. tauto.
Qed.

(** Malformed requests: the ones of [C49_malformed_partial] get errors, others do
    not. *)
Example C49_malformed_nonvacuous : (forall r, ~ reads [B "AFTER"; B "#c"; B "*"; B "5"] r) /\
  chathistory (sample_conn true) [B "AFTER"; B "#c"; B "*"; B "5"] = fail [B "INVALID_PARAMS"; B "AFTER"; B "*"; B "Invalid first bound"].
Proof.
  split; [|vm_compute; reflexivity]. intros r H. inversion H as [|? s ? ? ? ? [x [E _]]| | | |]. discriminate E.
Qed.

(** A second bound that is empty counts as none. *)
Theorem C49_empty_bound_refuted : exists (c : hconn message) params,
  (forall r, ~ reads params r) /\ hc_net c <> None /\ texts (chathistory c params) = [Some (B "a"); Some (B "c")].
Proof.
  exists (sample_conn true), [B "BETWEEN"; B "#c"; B "timestamp=" ++ t2; []; B "5"]. split; [|split; [discriminate|vm_compute; reflexivity]].
  intros r H. inversion H as [| | | |? ? ? ? ? ? ? ? ? [x [E _]]|]. discriminate E.
Qed.
Print Assumptions C49_empty_bound_refuted.

(** About the service, any request with enough parameters gets an empty answer. *)
Theorem C49_service_refuted : exists (c : hconn message) params,
  (forall r, ~ reads params r) /\ chathistory c params = HBatch (B "chathistory") [B "BouncerServ"] [].
Proof.
  exists (sample_conn true), [B "AFTER"; B "BouncerServ"; B "yesterday"; B "many"]. split; [|vm_compute; reflexivity].
  intros r H. inversion H as [|? s ? ? ? ? [x [E _]]| | | |]. discriminate E.
Qed.
Print Assumptions C49_service_refuted.

(** So does TARGETS with any parameters without a network. *)
Theorem C49_unbound_refuted : exists (c : hconn message) params, (forall r, ~ reads params r) /\ chathistory c params = HTargets [].
Proof. exists (sample_conn false), [B "TARGETS"]. split; [|vm_compute; reflexivity]. intros r H. inversion H. Qed.
Print Assumptions C49_unbound_refuted.
