(** Properties C31, C32, C56, C57 and C58. *)
From Verif.Base Require Import Bytes.
From Verif.Model Require Import Networks.
From Verif.Spec Require Import Networks.
From Verif.Proof Require Networks.
From Coq Require Import ZArith Permutation.
Local Open Scope Z_scope.

(** C31: starting with no network, commands of a user who is not an admin never
    lead to more enabled networks than the limit (the user's, or else the server's). Database failures may
    happen anywhere. *)
Theorem C31_limit : forall parse_url split_host_port command_ok config_max username nick realname admin enabled max os,
  0 <= (if max <? 0 then config_max else max) ->
  Forall (ordinary max) os ->
  let u := run parse_url split_host_port command_ok config_max (new_user username nick realname admin enabled max) os in
  enabled_count (us_nets u) <= (if max <? 0 then config_max else max).
Proof.
  intros pu sh ck cm username nick realname admin enabled max os L A u.
  pose proof (Proof.Networks.limit_run pu sh ck cm _ os (Proof.Networks.inv_new username nick realname admin enabled max) L A) as X.
  unfold limit in X. cbn [new_user us_max us_nets enabled_count] in X. rewrite Z.max_r in X by exact L. exact X.
Qed.
Print Assumptions C31_limit.

(** C31: from any state reached by any commands (an admin may have created more,
    or have lowered the limit), ordinary commands do not go beyond the limit or
    what there is already. *)
Theorem C31_limit_later : forall parse_url split_host_port command_ok config_max username nick realname admin enabled max os0 os,
  let u0 := run parse_url split_host_port command_ok config_max (new_user username nick realname admin enabled max) os0 in
  let u := run parse_url split_host_port command_ok config_max u0 os in
  0 <= limit config_max u0 ->
  Forall (ordinary (us_max u0)) os ->
  enabled_count (us_nets u) <= Z.max (enabled_count (us_nets u0)) (limit config_max u0).
Proof.
  intros pu sh ck cm username nick realname admin enabled max os0 os u0 u L A.
  exact (Proof.Networks.limit_run pu sh ck cm u0 os (Proof.Networks.inv_run pu sh ck cm _ os0 (Proof.Networks.inv_new _ _ _ _ _ _)) L A).
Qed.
Print Assumptions C31_limit_later.

(** A URL parser for the examples: everything up to the first "://" is the scheme
    and the rest the host. *)
Definition ex_parse (s : bytes) : option url :=
  match scheme_of s with
  | None => None
  | Some sch => Some (Url sch false [] [] (skipn (length sch + 3) s) [])
  end.
Definition ex_run := run ex_parse (fun _ => None) (fun _ => true) 5.
Definition no_flags := Flags None None None None None None None None None false None.
Definition fl (addr name : option bytes) (en : option bool) := Flags addr name None None None None None None en false None.
Definition user0 := new_user (B "jo") (B "jo") (B "Jo") false true 2.
Definition ex_ops : list op :=
  [SvcCreate false (fl (Some (B "irc.a.org")) (Some (B "a")) None) 1 true;
   BncAdd (B "jo") (Attrs (Some (B "irc.b.org")) None (Some (B "0")) None None None None None false) 4 true;
   SvcCreate false (fl (Some (B "irc.c.org")) None None) 7 true;              (* refused: limit *)
   SvcCreate false (fl (Some (B "irc.d.org")) (Some (B "d")) (Some false)) 9 true;
   SvcUpdate false None (B "d") (fl None None (Some true)) true;               (* refused: limit *)
   SvcUpdate false None (B "a") (fl None None (Some false)) true;
   SvcUpdate false None (B "d") (fl None (Some (B "dd")) (Some true)) true;
   SvcUpdate false None (B "a") (fl None (Some (B "dd")) None) true;           (* refused: name *)
   DcNick 9 (B "jojo") true].

Example C31_nonvacuous :
  Forall (ordinary 2) ex_ops /\
  map (fun r => (n_id r, get_name r, n_enabled r)) (us_nets (ex_run user0 ex_ops)) =
    [(1, B "a", false); (4, B "irc+insecure://irc.b.org", true); (9, B "dd", true)].
Proof. split; [repeat constructor|vm_compute; reflexivity]. Qed.

(** C32: after any commands the names of the networks are distinct, not empty and
    do not start with a dash. *)
Theorem C32_names_distinct : forall parse_url split_host_port command_ok config_max username nick realname admin enabled max os,
  let u := run parse_url split_host_port command_ok config_max (new_user username nick realname admin enabled max) os in
  names_distinct (us_nets u) /\
  forall n x, In n (us_nets u) -> shown n x -> x <> [] /\ (forall y, x <> "-"%char :: y).
Proof.
  intros pu sh ck cm username nick realname admin enabled max os u.
  pose proof (Proof.Networks.inv_run pu sh ck cm _ os (Proof.Networks.inv_new username nick realname admin enabled max)) as I. fold u in I.
  split; [apply Proof.Networks.nodup_distinct, (Proof.Networks.i_names u I)|].
  intros n x A S. apply Proof.Networks.shown_name in S. subst x. destruct (Proof.Networks.i_ok u I n A) as [N1 N2]. split; [exact N1|].
  intros y E. rewrite E in N2. discriminate N2.
Qed.
Print Assumptions C32_names_distinct.

(** C32, partial: looking up the name of a network finds this network if no other network
    has this name as its address. Without the condition this is false, see below. *)
Theorem C32_lookup_partial : forall parse_url split_host_port command_ok config_max username nick realname admin enabled max os n x,
  let u := run parse_url split_host_port command_ok config_max (new_user username nick realname admin enabled max) os in
  In n (us_nets u) -> shown n x ->
  (forall m, In m (us_nets u) -> n_addr m = x -> m = n) ->
  get_network (us_nets u) x = Some n.
Proof.
  intros pu sh ck cm username nick realname admin enabled max os n x u A S Sh.
  apply Proof.Networks.shown_name in S. subst x.
  exact (Proof.Networks.lookup_name u n (Proof.Networks.inv_run pu sh ck cm _ os (Proof.Networks.inv_new username nick realname admin enabled max)) A Sh).
Qed.
Print Assumptions C32_lookup_partial.

Example C32_nonvacuous :
  let u := ex_run user0 ex_ops in
  length (us_nets u) = 3%nat /\
  forallb (fun n => forallb (fun m => negb (beqb (n_addr m) (get_name n)) || (n_id m =? n_id n)) (us_nets u)) (us_nets u) = true.
Proof. split; vm_compute; reflexivity. Qed.

(** C32 is false: a second network on the same server, without a name of its own, is shown under the address,
    and this finds the first network. Deleting by the shown name deletes
    the other network. *)
Theorem C32_lookup_refuted : exists os n m,
  let u := ex_run user0 os in
  In n (us_nets u) /\ shown n (B "irc.a.org") /\ get_network (us_nets u) (B "irc.a.org") = Some m /\ n_id m <> n_id n /\
  us_nets (ex_run u [SvcDelete None (B "irc.a.org") true]) = [n].
Proof.
  exists [SvcCreate false (fl (Some (B "irc.a.org")) (Some (B "a")) None) 1 true;
          SvcCreate false (fl (Some (B "irc.a.org")) None None) 2 true].
  eexists _, _. cbv zeta. split; [vm_compute; right; left; reflexivity|].
  split; [right; split; vm_compute; reflexivity|]. split; [vm_compute; reflexivity|].
  split; [vm_compute; discriminate|vm_compute; reflexivity].
Qed.
Print Assumptions C32_lookup_refuted.

(** C56: restarting the bouncer after any commands gives back the same networks,
    except for commands which change memory and database separately. *)
Theorem C56_restart_partial : forall parse_url split_host_port command_ok config_max username nick realname admin enabled max os,
  Forall typed os -> Forall (fun o => ~ split_update o) os ->
  restart_safe (run parse_url split_host_port command_ok config_max (new_user username nick realname admin enabled max) os).
Proof.
  intros pu sh ck cm username nick realname admin enabled max os.
  exact (Proof.Networks.restart_run pu sh ck cm _ os (Proof.Networks.inv_new _ _ _ _ _ _) (Proof.Networks.synced_new _ _ _ _ _ _)).
Qed.
Print Assumptions C56_restart_partial.

Definition ex_ops2 : list op :=
  [SvcCreate false (Flags (Some (B "irc.a.org")) None None None None None None None None false (Some [B "PRIVMSG a :x"; B "MODE +i"])) 3 true;
   AutoSave 3 (B "jo") (B "secret") true; SvcCertfp None (B "irc.a.org") (B "CERT") (B "KEY") true; DcSetname 3 (B "Joe") false true].
Example C56_nonvacuous :
  Forall typed ex_ops2 /\ Forall (fun o => ~ split_update o) ex_ops2 /\
  map persistent (us_nets (ex_run user0 ex_ops2)) =
    [Net 3 [] (B "irc.a.org") [] [] (B "Joe") [] [] [B "PRIVMSG a :x"; B "MODE +i"] (B "EXTERNAL") [] [] (B "CERT") (B "KEY") true true].
Proof.
  split; [|split; [|vm_compute; reflexivity]].
  - constructor; [|repeat constructor]. cbn [typed typed_flags f_cmds]. intros c [<-|[<-|[]]]; vm_compute; intuition discriminate.
  - repeat constructor; cbn; try easy.
Qed.

(** C56 is false with SETNAME: if the upstream server handles SETNAME, the real
    name is stored, but not kept in the network in use; a later NICK command stores the old real name. *)
Theorem C56_setname_lost_refuted : exists os,
  Forall typed os /\
  let u1 := ex_run user0 (os ++ [DcSetname 3 (B "Joe") true true]) in
  let u2 := ex_run u1 [DcNick 3 (B "joe") true] in
  ~ restart_safe u1 /\ map n_realname (reloaded u1) = [B "Joe"] /\ map n_realname (reloaded u2) = [[]].
Proof.
  exists [SvcCreate false (fl (Some (B "irc.a.org")) None None) 3 true].
  split; [repeat constructor|]. split; [|split; vm_compute; reflexivity].
  unfold restart_safe. intros P. apply (Permutation_map n_realname) in P. vm_compute in P.
  apply Permutation_length_1 in P. discriminate P.
Qed.
Print Assumptions C56_setname_lost_refuted.

(** C57: users who are not admins have networks on the Internet only. *)
Theorem C57_no_unix_socket : forall parse_url split_host_port command_ok config_max username nick realname enabled max m os n,
  Forall (ordinary m) os ->
  let u := run parse_url split_host_port command_ok config_max (new_user username nick realname false enabled max) os in
  In n (us_nets u) ->
  exists v, net_url parse_url n = Some v /\ (u_scheme v = B "ircs" \/ u_scheme v = B "irc+insecure") /\ u_host v <> [].
Proof.
  intros pu sh ck cm username nick realname enabled max m os n A u Hn.
  pose proof (Proof.Networks.internet_run pu sh ck cm m _ os (Proof.Networks.inv_new username nick realname false enabled max)
                eq_refl (Forall_nil _) A) as F.
  rewrite Forall_forall in F. exact (F n Hn).
Qed.
Print Assumptions C57_no_unix_socket.

Example C57_nonvacuous :
  us_nets (ex_run user0 [SvcCreate false (fl (Some (B "unix:///run/x")) None None) 1 true]) = [] /\
  map n_addr (us_nets (ex_run (new_user (B "root") (B "r") (B "R") true true 2)
                              [SvcCreate false (fl (Some (B "unix:///run/x")) None None) 1 true])) = [B "unix:///run/x"] /\
  length (us_nets (ex_run user0 ex_ops)) = 3%nat.
Proof. split; [vm_compute; reflexivity|split; vm_compute; reflexivity]. Qed.

(** C58: an accepted fingerprint is stored with the name of its hash and its
    digits, whatever the case and the colons; the empty one removes it. *)
Theorem C58_fingerprint : forall s t, norm_certfp s = Some t ->
  (t = [] /\ forall c, In c s -> c = ":"%char) \/
  exists d, (forall c, In c d -> In c hexdigits) /\ d = to_lower (filter (fun c => negb (aeqb c ":")) s) /\
    ((length d = 64%nat /\ t = B "sha-256:" ++ d) \/ (length d = 128%nat /\ t = B "sha-512:" ++ d)).
Proof.
  intros s t H. destruct (Proof.Networks.certfp_out s t H) as [A [[E ->]|C]].
  - left. split; [reflexivity|]. intros c Hc. destruct (aeqb_spec c ":") as [->|N]; [reflexivity|].
    exfalso. assert (X : In (lower_byte c) (to_lower (filter (fun c => negb (aeqb c ":")) s))).
    { apply in_map, filter_In. split; [exact Hc|]. apply aeqb_neq in N. rewrite N. reflexivity. }
    rewrite E in X. destruct X.
  - right. eexists. split; [exact A|]. split; [reflexivity|exact C].
Qed.
Print Assumptions C58_fingerprint.

Theorem C58_notation_irrelevant : forall a b,
  norm_certfp (a ++ B ":" ++ b) = norm_certfp (a ++ b) /\ norm_certfp (to_upper a) = norm_certfp a.
Proof. intros a b. split; [apply Proof.Networks.certfp_colons|apply Proof.Networks.certfp_upper]. Qed.
Print Assumptions C58_notation_irrelevant.

Example C58_nonvacuous :
  norm_certfp (concat (repeat (B "aB:") 32)) = Some (B "sha-256:" ++ concat (repeat (B "ab") 32)) /\
  norm_certfp (B "xy") = None /\ norm_certfp (B "::") = Some [].
Proof. split; [vm_compute; reflexivity|split; vm_compute; reflexivity]. Qed.
