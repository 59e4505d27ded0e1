(** C88: an account that is used is not disabled, and one that is not used is.
    C89: the password that lets in is the one that was set last. *)
From Verif.Base Require Import Bytes.
From Verif.Model Require Import Activity.
From Verif.Proof Require Activity.
From Verif.Spec Require Import Activity.
From Coq Require Import ZArith.
Local Open Scope Z_scope.

Section Activity.
  Variables (hash : N -> bytes -> bytes -> bytes) (verify : bytes -> bytes -> bool) (cost : bytes -> N).
  Variables (delay : Z) (on_auth : bool).

  (** While the bouncer runs and the database works, an account is only chosen to be disabled when no client
      is connected, and none of its own clients was at any time during the delay. Hashes must be of the current
      cost: a login that upgrades one stores an old copy of the record. *)
  Theorem C88_selected_partial (strong_hash : forall salt pw, (default_cost <= cost (hash default_cost salt pw))%N)
      t h admin os : h = [] \/ (default_cost <= cost h)%N -> Forall running os -> Forall stored os ->
    s_sweep (run hash verify cost delay on_auth (start t h admin) (os ++ [SweepList; SweepFilter])) = SSelected ->
    let s := run hash verify cost delay on_auth (start t h admin) os in
    delay <> 0 /\ s_clients s = [] /\ t < s_now s - delay /\
    forall p q, os = p ++ q -> serving (run hash verify cost delay on_auth (start t h admin) p) ->
      s_now (run hash verify cost delay on_auth (start t h admin) p) < s_now s - delay.
  Proof.
    intros Hh F1 F2 H.
    destruct (Proof.Activity.selected hash verify cost delay on_auth strong_hash (start t h admin) os
      (Proof.Activity.inv_start cost t h admin Hh) F1 F2 eq_refl H) as (A & _ & B & C & D).
    split; [exact A|]. split; [exact B|]. split; [exact C|exact D].
  Qed.

  (** An account that is not in use is disabled, in the database and in memory. *)
  Theorem C88_disabled s ok : delay <> 0 -> s_clients s = [] -> s_queue s = [] -> inactive delay s = true ->
    let s' := run hash verify cost delay on_auth s [SweepList; SweepFilter; SweepSend; Step true ok] in
    a_enabled (s_db s') = false /\ a_enabled (s_mem s') = false /\ s_queue s' = [].
  Proof. exact (Proof.Activity.disables hash verify cost delay on_auth s ok). Qed.

  (** Until somebody asks for it to be enabled, a disabled account has no new client, through restarts too... *)
  Theorem C88_refused s os : on_auth = false -> disabled s -> Forall not_enabling os ->
    disabled (run hash verify cost delay on_auth s os) /\
    incl (s_clients (run hash verify cost delay on_auth s os)) (s_clients s).
  Proof. exact (Proof.Activity.disabled_run hash verify cost delay on_auth s os). Qed.

  (** ...and with enable-user-on-auth the next login is enough. *)
  Theorem C88_welcomed s id q c : s_queue s = EConn id :: q -> find_conn id s = Some c ->
    a_enabled (s_mem s) = true \/ on_auth = true ->
    In id (s_clients (step hash verify cost delay on_auth s (Step true true))).
  Proof. exact (Proof.Activity.welcomed hash verify cost delay on_auth s id q c). Qed.
  Theorem C88_reenabled s id q c : on_auth = true -> s_queue s = EConn id :: q -> find_conn id s = Some c ->
    a_enabled (s_mem s) = false ->
    let s' := step hash verify cost delay on_auth s (Step true true) in
    a_enabled (s_db s') = true /\ a_enabled (s_mem s') = true.
  Proof.
    intros Ho Hq Hc He. destruct (Proof.Activity.reenabled hash verify cost delay on_auth s id q c Ho Hq Hc) as [H|H]; [exact H|].
    rewrite He in H. discriminate.
  Qed.

  (** bcrypt: the hash of a password accepts that password and no other. *)
  Hypothesis hash_verify : forall n salt pw, verify (hash n salt pw) pw = true.
  Hypothesis hash_some : forall n salt pw, hash n salt pw <> [].
  Hypothesis unique : forall h pw pw', verify h pw = true -> verify h pw' = true -> pw = pw'.

  (** When no login is interrupted by other events, and sojudb is not used, the password that lets in is the
      one that was set by the last change that was made, whatever clients, admins, failures of the database and
      restarts do. *)
  Theorem C89_last_set_partial t0 n salt p admin os pw : Forall whole os ->
    (accepts verify (run hash verify cost delay on_auth (start t0 (hash n salt p) admin) os) pw <->
     fst (tracked (step hash verify cost delay on_auth) (start t0 (hash n salt p) admin) os (Some p, [])) = Some pw).
  Proof. exact (Proof.Activity.last_set hash verify cost delay on_auth hash_verify hash_some unique t0 n salt p admin os pw). Qed.

  (** A login succeeds exactly when the password is the one that is accepted. *)
  Theorem C89_login s id pw salt : find_conn id s = None ->
    (find_conn id (step hash verify cost delay on_auth s (Auth id pw salt)) <> None <-> accepts verify s pw).
  Proof. exact (Proof.Activity.login hash verify cost delay on_auth s id pw salt). Qed.

  (** After an admin changed the password, every client that was connected is disconnected. *)
  Theorem C89_closed s io ok h a e q : s_queue s = EUpdate (Some h) a e :: q ->
    forall c, In c (s_conns (step hash verify cost delay on_auth s (Step io ok))) -> In (c_id c) (s_clients s) ->
      c_closed c = true.
  Proof. exact (Proof.Activity.closes hash verify cost delay on_auth s io ok h a e q). Qed.
End Activity.
Print Assumptions C88_selected_partial.
Print Assumptions C88_disabled.
Print Assumptions C88_refused.
Print Assumptions C88_welcomed.
Print Assumptions C88_reenabled.
Print Assumptions C89_last_set_partial.
Print Assumptions C89_login.
Print Assumptions C89_closed.

(** A hash function for the examples: the cost, then the password. *)
Definition ex_hash (n : N) (salt pw : bytes) : bytes := ascii_of_N n :: pw.
Definition ex_verify (h pw : bytes) : bool := match h with [] => false | _ :: q => beqb q pw end.
Definition ex_cost (h : bytes) : N := match h with [] => 0%N | c :: _ => N_of_ascii c end.
Lemma ex_ideal :
  (forall salt pw, (default_cost <= ex_cost (ex_hash default_cost salt pw))%N) /\
  (forall n salt pw, ex_verify (ex_hash n salt pw) pw = true) /\
  (forall n salt pw, ex_hash n salt pw <> []) /\
  (forall h pw pw', ex_verify h pw = true -> ex_verify h pw' = true -> pw = pw').
Proof.
  split; [intros; vm_compute; discriminate|]. split; [intros; apply beqb_refl|]. split; [discriminate|].
  intros [|c h] pw pw' H H'; [discriminate|]. apply beqb_eq in H, H'. congruence.
Qed.
Notation ex_run := (run ex_hash ex_verify ex_cost 30 false).
Notation ex_start := (start 0 (ex_hash 10 [] (B "old")) false).

(** An account whose only client leaves on day 10 is chosen on day 41, and not on day 40. *)
Definition ex_use : list op := [Auth 1 (B "old") []; Arrive 1; Step true true; Tick 10; Leave 1; Step true true].
Example C88_nonvacuous :
  s_sweep (ex_run ex_start ((ex_use ++ [Tick 31]) ++ [SweepList; SweepFilter])) = SSelected /\
  s_sweep (ex_run ex_start ((ex_use ++ [Tick 30]) ++ [SweepList; SweepFilter])) = SNone /\
  serving (ex_run ex_start (firstn 4 ex_use)) /\ s_now (ex_run ex_start (firstn 4 ex_use)) = 10 /\
  Forall running (ex_use ++ [Tick 31]) /\ Forall stored (ex_use ++ [Tick 31]) /\
  disabled (ex_run ex_start (ex_use ++ [Tick 31; SweepList; SweepFilter; SweepSend; Step true true])) /\
  s_clients (ex_run ex_start (ex_use ++ [Tick 31; SweepList; SweepFilter; SweepSend; Step true true;
    Auth 2 (B "old") []; Arrive 2; Step true true])) = [] /\
  s_clients (run ex_hash ex_verify ex_cost 30 true ex_start (ex_use ++ [Tick 31; SweepList; SweepFilter; SweepSend; Step true true;
    Auth 2 (B "old") []; Arrive 2; Step true true])) = [2].
Proof.
  split; [vm_compute; reflexivity|]. split; [vm_compute; reflexivity|]. split; [|split; [vm_compute; reflexivity|]].
  { exists (Conn 1 false (B "old") Arrived false). vm_compute. auto. }
  split; [repeat (constructor; [discriminate|]); constructor|]. split; [repeat (constructor; [exact I || reflexivity|]); constructor|].
  split; [|split; vm_compute; reflexivity].
  split; [vm_compute; reflexivity|]. split; [vm_compute; reflexivity|]. split; [vm_compute; intros h a []|].
  intros c r H. revert H. vm_compute. intros [<-|[]]. discriminate.
Qed.

(** A client that connects while the account is being disabled is thrown out, and the account is disabled. *)
Theorem C88_race_refuted : exists os, Forall running os /\ Forall stored os /\
  let s := ex_run ex_start os in
  s_now s = 40 /\ serving s /\
  let s' := ex_run s [SweepSend; Step true true] in
  a_enabled (s_db s') = false /\ s_clients s' = [1] /\ map c_closed (s_conns s') = [true].
Proof.
  exists [Tick 40; SweepList; SweepFilter; Auth 1 (B "old") []; Arrive 1; Step true true].
  split; [repeat (constructor; [discriminate|]); constructor|]. split; [repeat (constructor; [exact I || reflexivity|]); constructor|].
  split; [vm_compute; reflexivity|]. split; [|vm_compute; auto]. exists (Conn 1 false (B "old") Arrived false). vm_compute. auto.
Qed.
Print Assumptions C88_race_refuted.

(** The end of a session at a restart is not stored: a user that was connected until the restart is
    taken for inactive since they connected. *)
Theorem C88_restart_refuted : exists os, Forall stored os /\ serving (ex_run ex_start os) /\
  let s := ex_run ex_start (os ++ [Reboot; SweepList; SweepFilter; SweepSend; Step true true]) in
  s_now s = s_now (ex_run ex_start os) /\ a_enabled (s_db s) = false.
Proof.
  exists [Auth 1 (B "old") []; Arrive 1; Step true true; Tick 40].
  split; [repeat (constructor; [exact I || reflexivity|]); constructor|]. split; [|vm_compute; auto].
  exists (Conn 1 false (B "old") Arrived false). vm_compute. auto.
Qed.
Print Assumptions C88_restart_refuted.

(** An account that an admin enables again is disabled by the next round, before the user can connect. *)
Theorem C88_enable_refuted : exists os, Forall running os /\ Forall stored os /\
  a_enabled (s_db (ex_run ex_start os)) = false /\
  a_enabled (s_db (ex_run ex_start (os ++ [Update None [] None (Some true); Step true true]))) = true /\
  a_enabled (s_db (ex_run ex_start (os ++ [Update None [] None (Some true); Step true true; SweepList; SweepFilter; SweepSend; Step true true]))) = false.
Proof.
  exists [Tick 40; SweepList; SweepFilter; SweepSend; Step true true].
  split; [repeat (constructor; [discriminate|]); constructor|]. split; [repeat (constructor; [exact I || reflexivity|]); constructor|].
  vm_compute. auto.
Qed.
Print Assumptions C88_enable_refuted.

(** A change by an admin, one by the user, a failure, and no password. *)
Definition ex_changes : list op :=
  [Auth 1 (B "old") []; Arrive 1; Step true true; Update (Some (B "new")) [] None None; Update (Some (B "lost")) [] None None; Leave 1;
   Step true true; Step false true; Step true true].
Example C89_nonvacuous :
  Forall whole ex_changes /\
  fst (tracked (step ex_hash ex_verify ex_cost 30 false) ex_start ex_changes (Some (B "old"), [])) = Some (B "new") /\
  accepts ex_verify (ex_run ex_start ex_changes) (B "new") /\
  ~ accepts ex_verify (ex_run ex_start ex_changes) (B "old") /\
  ~ accepts ex_verify (ex_run ex_start ex_changes) (B "lost") /\
  accepts ex_verify (ex_run ex_start (ex_changes ++ [Own (Some (B "mine")) [] true; Reboot])) (B "mine") /\
  a_hash (s_db (ex_run ex_start (ex_changes ++ [NoPassword; Step true true]))) = [] /\
  map c_closed (s_conns (ex_run ex_start (firstn 7 ex_changes))) = [true].
Proof.
  split; [repeat (constructor; [exact I|]); constructor|]. split; [vm_compute; reflexivity|].
  split; [split; [discriminate|vm_compute; reflexivity]|]. split; [intros [_ H]; revert H; vm_compute; discriminate|].
  split; [intros [_ H]; revert H; vm_compute; discriminate|]. split; [split; [discriminate|vm_compute; reflexivity]|].
  vm_compute. auto.
Qed.

(** A login that upgrades the hash, during a change of the password and of other settings, brings back the old
    password, and the administrator's rights at the next start. *)
Theorem C89_upgrade_race_refuted : exists h os,
  ex_cost h = 4%N /\
  let s0 := start 0 h true in
  let s := ex_run s0 os in
  fst (tracked (step ex_hash ex_verify ex_cost 30 false) s0 os (Some (B "old"), [])) = Some (B "new") /\
  accepts ex_verify s (B "old") /\ ~ accepts ex_verify s (B "new") /\
  a_admin (s_mem s) = false /\ a_admin (s_mem (ex_run s [Reboot])) = true.
Proof.
  exists (ex_hash 4 [] (B "old")),
    [AuthRead 1 (B "old") []; Update (Some (B "new")) [] (Some false) None; Step true true; AuthDone 1].
  split; [vm_compute; reflexivity|]. split; [vm_compute; reflexivity|]. split; [split; [discriminate|vm_compute; reflexivity]|].
  split; [intros [_ H]; revert H; vm_compute; discriminate|]. vm_compute. auto.
Qed.
Print Assumptions C89_upgrade_race_refuted.

(** A password changed with sojudb while the bouncer runs is undone by the next client that connects. *)
Theorem C89_sojudb_refuted : exists os,
  accepts ex_verify (ex_run ex_start os) (B "new") /\
  let s := ex_run ex_start (os ++ [Step true true]) in
  accepts ex_verify s (B "old") /\ ~ accepts ex_verify s (B "new").
Proof.
  exists [Auth 1 (B "old") []; Arrive 1; Sojudb (B "new") []].
  split; [split; [discriminate|vm_compute; reflexivity]|]. split; [split; [discriminate|vm_compute; reflexivity]|].
  intros [_ H]. revert H. vm_compute. discriminate.
Qed.
Print Assumptions C89_sojudb_refuted.

(** A connection that authenticated with the old password, but arrives after the change, stays; so do the
    other clients of a user that changes their own password. *)
Theorem C89_late_refuted : exists os, Forall whole os /\
  let s := ex_run ex_start os in
  accepts ex_verify s (B "new") /\ s_clients s = [1] /\ s_conns s = [Conn 1 false (B "old") Arrived false].
Proof.
  exists [Auth 1 (B "old") []; Update (Some (B "new")) [] None None; Arrive 1; Step true true; Step true true].
  split; [repeat (constructor; [exact I|]); constructor|]. split; [split; [discriminate|vm_compute; reflexivity]|]. vm_compute. auto.
Qed.
Print Assumptions C89_late_refuted.
Theorem C89_own_refuted : exists os, Forall whole os /\
  let s := ex_run ex_start os in
  accepts ex_verify s (B "new") /\ s_clients s = [1; 2] /\ map c_closed (s_conns s) = [false; false].
Proof.
  exists [Auth 1 (B "old") []; Arrive 1; Step true true; Auth 2 (B "old") []; Arrive 2; Step true true; Own (Some (B "new")) [] true].
  split; [repeat (constructor; [exact I|]); constructor|]. split; [split; [discriminate|vm_compute; reflexivity]|]. vm_compute. auto.
Qed.
Print Assumptions C89_own_refuted.

(** A weak hash is not replaced for good at a login: the copy in memory is written over it. *)
Theorem C89_upgrade_refuted : exists h os, Forall whole os /\ ex_cost h = 4%N /\
  ex_cost (a_hash (s_db (ex_run (start 0 h false) os))) = 10%N /\
  ex_cost (a_hash (s_db (ex_run (start 0 h false) (os ++ [Step true true])))) = 4%N.
Proof.
  exists (ex_hash 4 [] (B "old")), [Auth 1 (B "old") []; Arrive 1].
  split; [repeat (constructor; [exact I|]); constructor|]. vm_compute. auto.
Qed.
Print Assumptions C89_upgrade_refuted.
