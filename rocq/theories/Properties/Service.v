(** C33, C59, C60, C61, C62: the bouncer service. *)
From Verif.Base Require Import Bytes.
From Verif.Model Require Import Service.
From Verif.Spec Require Import Service.
From Verif.Proof Require Service.
From Coq Require Import ZArith.
Open Scope nat_scope.

(** A small server, used in the examples: Alice is an administrator, Bob is not. The data of a
    user is the list of the parameters of the commands run for this user. *)
Definition ex_local (path : list bytes) (cx : context) (a : account) (d : list bytes) (params : list bytes) : list bytes * list say * sresult :=
  (d ++ params, [], ROk).
Definition ex_refresh (a b : account) (d : list bytes) : list bytes := d.
Definition ex_kick (d : list bytes) : list bytes := d.
Definition alice := Account (B "alice") (B "h1") [] [] true true (-1).
Definition bob := Account (B "bob") (B "h2") (B "bob") [] false true 3.
Definition ex_server : server (list bytes) :=
  Server [User alice [B "x"]; User bob []] [alice; bob] false [] [].
Definition ex_env : env := Env true true (fun p => Some (B "hash:" ++ p)) (fun n => B "t-" ++ n) (fun _ => Some 5%Z) (fun _ => Some 5%Z).
Definition sent (name : bytes) (words : list bytes) : issuer * env * list bytes := (ByUser name None, ex_env, words).
Definition ex_serve := serve (list bytes) ex_local ex_refresh ex_kick [].
Definition ex_issue := issue (list bytes) ex_local ex_refresh ex_kick [].

(** The commands of Bob in the examples. *)
Definition bob_words : list (list bytes) :=
  [ [B "network"; B "create"; B "-addr"; B "irc.example"];
    [B "u"; B "upd"; B "-password"; B "secret"; B "-nick"; B "b"];
    [B "user"; B "update"; B "-max-networks"; B "100"];
    [B "user"; B "update"; B "alice"; B "-password"; B "p"];
    [B "user"; B "run"; B "alice"; B "network"; B "delete"; B "x"];
    [B "user"; B "delete"; B "alice"; B "t-alice"];
    [B "server"; B "debug"; B "true"] ].

(** C33, resolution: words run a command exactly if they name it, by its full name or by a prefix
    that no other command of the set shares, at each level. *)
Theorem C33_resolution : forall cmds words c rest, distinct cmds ->
  (get cmds words = inl (c, rest) <-> resolves cmds words c rest).
Proof. exact (fun cmds words c rest => Proof.Service.get_resolves words cmds c rest). Qed.
Print Assumptions C33_resolution.

Theorem C33_table_distinct : distinct service_commands.
Proof. exact Proof.Service.service_distinct. Qed.
Print Assumptions C33_table_distinct.

(** C33, order: the order in which Go walks through the sets does not matter, neither for the
    command found nor for the error. *)
Theorem C33_order_independent : forall x y words, distinct x -> distinct y -> same_set x y ->
  match get x words, get y words with
  | inl (c, rest), inl (c', rest') => same_command c c' /\ rest = rest'
  | inr e, inr e' => e = e'
  | _, _ => False
  end.
Proof.
  intros x y words Hx Hy H. destruct (Proof.Service.get_same words x y Hx Hy H); [split; [assumption|reflexivity]|reflexivity].
Qed.
Print Assumptions C33_order_independent.

(** C33, rights: a command about other users or about the server is only run when the one who
    sent the words is an administrator, or the administration socket. *)
Theorem C33_privileged_calls : forall D local refresh kick new_data (s : server D) ev h cx,
  In (h, cx) (snd (issue D local refresh kick new_data service_commands s ev)) -> privileged h ->
  fst (fst ev) = ByConsole \/
  exists name net u, fst (fst ev) = ByUser name net /\ In u (sv_users s) /\ a_name (us_acc u) = name /\ a_admin (us_acc u) = true.
Proof. exact Proof.Service.issue_privileged. Qed.
Print Assumptions C33_privileged_calls.

(** C33, confinement: whatever ordinary users send, in any number, the server, the set of accounts
    and the rights of each account stay the same, and nothing of the other users changes. *)
Theorem C33_confined : forall D local refresh kick new_data (s : server D) evs,
  consistent s -> Forall (from_ordinary s) evs ->
  confined evs s (serve D local refresh kick new_data service_commands s evs).
Proof. exact (fun D local refresh kick new_data s evs => Proof.Service.serve_confined D local refresh kick new_data evs s). Qed.
Print Assumptions C33_confined.

Example ex_consistent : consistent ex_server.
Proof.
  assert (H : B "alice" <> B "bob") by discriminate.
  constructor.
  - cbn [ex_server sv_users map us_acc alice bob a_name]. constructor; [intros [E|[]]; congruence|]. constructor; [intros []|constructor].
  - cbn [ex_server sv_db map alice bob a_name]. constructor; [intros [E|[]]; congruence|]. constructor; [intros []|constructor].
  - intros u [<-|[<-|[]]]; [left|right; left]; reflexivity.
Qed.

Example C33_nonvacuous :
  Forall (from_ordinary ex_server) (map (sent (B "bob")) bob_words) /\
  ex_serve service_commands ex_server (map (sent (B "bob")) bob_words) =
    Server [User alice [B "x"]; User (Account (B "bob") (B "hash:secret") (B "b") [] false true 3) [B "-addr"; B "irc.example"]]
           [alice; Account (B "bob") (B "hash:secret") (B "b") [] false true 3] false [] [] /\
  (exists c rest, get service_commands [B "u"; B "upd"; B "-nick"; B "b"] = inl (c, rest) /\ c_handle c = Some HUserUpdate /\ rest = [B "-nick"; B "b"]) /\
  get service_commands [B "se"; B "debug"] = get service_commands [B "server"; B "d"] /\
  get service_commands [B "s"; B "status"] = inr (Ambiguous (B "s")) /\
  In (HServerDebug, Ctx (Some (B "alice")) true None) (snd (ex_issue service_commands ex_server (sent (B "alice") [B "se"; B "debug"; B "true"]))) /\
  same_set service_commands (rev service_commands).
Proof.
  split.
  { apply Forall_forall. intros ev Hin. apply in_map_iff in Hin as [w [<- _]].
    exists (B "bob"), None, ex_env, w. split; [reflexivity|].
    intros u Hu. cbn [ex_server sv_users In] in Hu. destruct Hu as [<-|[<-|[]]]; [discriminate|reflexivity]. }
  split; [vm_compute; reflexivity|].
  split; [do 2 eexists; split; [vm_compute; reflexivity|split; reflexivity]|].
  split; [vm_compute; reflexivity|].
  split; [vm_compute; reflexivity|].
  split; [vm_compute; left; reflexivity|].
  assert (Hr : forall c, same_command c c).
  { fix IH 1. intros [a g h ch]. constructor.
    - induction ch as [|[k c] ch IHc]; intros k' c' H; [destruct H|].
      destruct H as [H|H]; [injection H as <- <-; exists c; split; [left; reflexivity|apply IH]|].
      destruct (IHc _ _ H) as [c2 [H1 H2]]. exists c2. split; [right; exact H1|exact H2].
    - induction ch as [|[k c] ch IHc]; intros k' c' H; [destruct H|].
      destruct H as [H|H]; [injection H as <- <-; exists c; split; [left; reflexivity|apply IH]|].
      destruct (IHc _ _ H) as [c2 [H1 H2]]. exists c2. split; [right; exact H1|exact H2]. }
  constructor; intros k c H; exists c; (split; [|apply Hr]).
  - apply in_rev in H. exact H.
  - apply in_rev. exact H.
Qed.

(** C59: for a user, "help" lists exactly the commands that this user may run: those that are
    called when their name is sent. *)
Theorem C59_user_help : forall D local refresh kick new_data fuel e me admin net stack (s : server D) path args,
  In path (set_help [] admin false service_commands) <->
  exists c h, leaf_at service_commands path c /\ c_handle c = Some h /\
    exists l, snd (service_command D local refresh kick new_data service_commands (S fuel) e (Ctx (Some me) admin net) stack s (path ++ args))
              = (h, Ctx (Some me) admin net) :: l.
Proof. exact Proof.Service.help_runs. Qed.
Print Assumptions C59_user_help.

Theorem C59_help_printed : forall D local refresh kick new_data fuel e cx stack (s : server D),
  fst (service_command D local refresh kick new_data service_commands (S fuel) e cx stack s [B "help"]) =
  (s, [SHelp (set_help [] (cx_admin cx) (match cx_user cx with Some _ => false | None => true end) service_commands)], ROk).
Proof. intros. destruct cx as [[u|] a n]; reflexivity. Qed.
Print Assumptions C59_help_printed.

(** On the administration socket the list lacks commands that can be run there: the group
    "server" is not marked as global, although its commands are. *)
Theorem C59_console_help_refuted : exists path c h,
  leaf_at service_commands path c /\ c_handle c = Some h /\
  ~ In path (set_help [] true true service_commands) /\
  snd (ex_issue service_commands ex_server (ByConsole, ex_env, path)) = [(h, Ctx None true None)].
Proof.
  exists [B "server"; B "status"], (leaf true true HServerStatus), HServerStatus.
  split; [|split; [reflexivity|split]].
  - apply (la_below _ _ (group true false [(B "status", leaf true true HServerStatus); (B "notice", leaf true true HServerNotice); (B "debug", leaf true true HServerDebug)])).
    + unfold service_commands. cbn [In]. tauto.
    + apply la_here; [left; reflexivity|reflexivity].
  - intros H. apply Proof.Service.console_help in H as (c & _ & _ & H). apply H. reflexivity.
  - vm_compute. reflexivity.
Qed.
Print Assumptions C59_console_help_refuted.

(** It lacks nothing else. *)
Theorem C59_console_help : forall path,
  In path (set_help [] true true service_commands) <->
  exists c, leaf_at service_commands path c /\ c_global c = true /\ hd [] path <> B "server".
Proof. exact Proof.Service.console_help. Qed.
Print Assumptions C59_console_help.

Example C59_nonvacuous :
  length (set_help [] true false service_commands) = 23 /\
  length (set_help [] false false service_commands) = 17 /\
  length (set_help [] true true service_commands) = 6.
Proof. vm_compute. repeat split. Qed.

(** C60: once a client of the administration socket sends CAP, NICK, USER or PASS, as an IRC
    client does, nothing that it sends is executed. *)
Theorem C60_console_gate : forall D local refresh kick new_data cmds lines1 (s : server D) e l lines2,
  In (l_command l) [B "CAP"; B "NICK"; B "USER"; B "PASS"] ->
  console D local refresh kick new_data cmds s (lines1 ++ (e, l) :: lines2) =
  console D local refresh kick new_data cmds s lines1.
Proof. exact (fun D local refresh kick new_data cmds => Proof.Service.console_app D local refresh kick new_data cmds). Qed.
Print Assumptions C60_console_gate.

Definition srv_line (words : list bytes) : env * line := (ex_env, Line (B "BOUNCERSERV") (Some (Some words))).
Definition debug_on : list bytes := [B "server"; B "debug"; B "true"].

Example C60_nonvacuous :
  sv_debug (fst (console _ ex_local ex_refresh ex_kick [] service_commands ex_server [srv_line debug_on])) = true /\
  sv_debug (fst (console _ ex_local ex_refresh ex_kick [] service_commands ex_server
    [(ex_env, Line (B "NICK") None); srv_line debug_on])) = false.
Proof. vm_compute. split; reflexivity. Qed.

(** C61: a command that a user sends to the service is carried out, except "user run", and the
    confirmed deletion of the user's own account. *)
Theorem C61_completes_partial : forall D local refresh kick new_data (s : server D) name net e words,
  local_ends D local -> sv_hung s = [] ->
  result_of D (issue D local refresh kick new_data service_commands s (ByUser name net, e, words)) = RBlocked ->
  (exists c, resolves service_commands words c [name; e_token e name] /\ c_handle c = Some HUserDelete) \/
  (exists c params, resolves service_commands words c params /\ c_handle c = Some HUserRun).
Proof. exact Proof.Service.issue_blocks. Qed.
Print Assumptions C61_completes_partial.

(** The deletion of one's own account: the goroutine of the user waits for its own end. The account
    stays, and the user gets no command executed any more. *)
Theorem C61_self_delete_blocks : forall D local refresh kick new_data (s : server D) name net e words c,
  sv_hung s = [] -> (exists u, In u (sv_users s) /\ a_name (us_acc u) = name) ->
  resolves service_commands words c [name; e_token e name] -> c_handle c = Some HUserDelete ->
  let o := issue D local refresh kick new_data service_commands s (ByUser name net, e, words) in
  result_of D o = RBlocked /\
  sv_users (fst (fst (fst o))) = sv_users s /\ sv_db (fst (fst (fst o))) = sv_db s /\
  In name (sv_hung (fst (fst (fst o)))).
Proof. exact Proof.Service.self_delete_blocks. Qed.
Print Assumptions C61_self_delete_blocks.

Theorem C61_self_delete_refuted : exists evs,
  Forall (fun ev => fst (fst ev) = ByUser (B "bob") None) evs /\
  sv_db (ex_serve service_commands ex_server evs) = [alice; bob] /\
  sv_hung (ex_serve service_commands ex_server evs) = [B "bob"] /\
  snd (fst (ex_issue service_commands (ex_serve service_commands ex_server evs) (sent (B "bob") [B "help"]))) = RBlocked.
Proof.
  exists [sent (B "bob") [B "user"; B "delete"; B "bob"]; sent (B "bob") [B "user"; B "delete"; B "bob"; B "t-bob"]].
  split; [repeat constructor|]. vm_compute. repeat split.
Qed.
Print Assumptions C61_self_delete_refuted.

(** "user run" with the deletion of the other user hangs both. *)
Theorem C61_run_delete_refuted : exists words,
  sv_hung (ex_serve service_commands ex_server [sent (B "alice") words]) = [B "alice"; B "bob"].
Proof. exists [B "user"; B "run"; B "bob"; B "user"; B "delete"; B "bob"; B "t-bob"]. vm_compute. reflexivity. Qed.
Print Assumptions C61_run_delete_refuted.

Example C61_nonvacuous :
  snd (fst (ex_issue service_commands ex_server (sent (B "alice") [B "user"; B "delete"; B "bob"; B "t-bob"]))) = ROk /\
  sv_db (ex_serve service_commands ex_server [sent (B "alice") [B "user"; B "delete"; B "bob"; B "t-bob"]]) = [alice].
Proof. vm_compute. split; reflexivity. Qed.

(** C62: whoever sends whatever to the service, and whether the database works or not, the names
    of the accounts stay unique, and the running users are as stored. *)
Theorem C62_accounts_consistent : forall D local refresh kick new_data cmds evs (s : server D),
  consistent s -> consistent (serve D local refresh kick new_data cmds s evs).
Proof. exact Proof.Service.serve_consistent. Qed.
Print Assumptions C62_accounts_consistent.

Definition down_env : env := Env false true (fun p => Some p) (fun n => B "t-" ++ n) (fun _ => Some 5%Z) (fun _ => Some 5%Z).

Example C62_nonvacuous :
  consistent ex_server /\
  map (fun u => a_name (us_acc u)) (sv_users (ex_serve service_commands ex_server
    [ sent (B "alice") [B "user"; B "create"; B "-username"; B "carol"; B "-password"; B "p"; B "-admin"];
      sent (B "carol") [B "user"; B "update"; B "bob"; B "-enabled"; B "false"; B "-max-networks"; B "5"];
      (ByUser (B "alice") None, down_env, [B "user"; B "delete"; B "carol"; B "t-carol"]) ])) = [B "alice"; B "bob"] /\
  map a_name (sv_db (ex_serve service_commands ex_server
    [ sent (B "alice") [B "user"; B "create"; B "-username"; B "carol"; B "-password"; B "p"; B "-admin"];
      sent (B "carol") [B "user"; B "update"; B "bob"; B "-enabled"; B "false"; B "-max-networks"; B "5"];
      (ByUser (B "alice") None, down_env, [B "user"; B "delete"; B "carol"; B "t-carol"]) ])) = [B "alice"; B "bob"; B "carol"].
Proof. split; [exact ex_consistent|]. vm_compute. split; reflexivity. Qed.
