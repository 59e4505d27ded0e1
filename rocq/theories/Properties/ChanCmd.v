(** C106: the channel commands of the service do what they are told, and the listing shows it. *)
From Verif.Base Require Import Bytes.
From Verif.Model Require Import CaseMap Service ChanCmd.
From Verif.Proof Require ChanCmd.
From Verif.Spec Require Import Accounts ChanCmd.
From Coq Require Import ZArith Permutation.
Open Scope nat_scope.

Section C106.
  (** How durations are read. *)
  Variable duration : bytes -> option Z.

  (** "channel update" with any settings, each written in one of the possible ways, changes exactly
      these settings of exactly the channel that is named; what the database has is what is in
      memory, as before. *)
  Theorem C106_update : forall u bound p i name n c l words,
    consistent u -> names_differ u -> addressed u bound p i name -> nth_error (u_nets u) i = Some n -> In c (n_mem n) -> alike n (c_name c) name ->
    Forall2 (written duration) l words ->
    exists u', step duration bound true u (Update (p :: concat words)) = (u', [SUpdated name], [], true) /\ only_at i u u' /\ consistent u' /\
      forall c', has u' i c' <-> c' = apply_all c l \/ (has u i c' /\ ~ alike n (c_name c') name).
  Proof. exact (Proof.ChanCmd.update_effect duration). Qed.

  (** "channel create" with a name that is possible and not in use adds exactly this channel with
      exactly these settings, and joins it if there is a connection. Missing: -detached. *)
  Theorem C106_create_partial : forall u bound p i name n l words,
    consistent u -> names_differ u -> addressed u bound p i name -> nth_error (u_nets u) i = Some n ->
    name <> [] -> ~ In " "%char name -> ~ In ","%char name -> ~ In (ascii_of_N 7) name ->
    (forall k, n_conn n = Some k -> exists c, hd_error name = Some c /\ In c (k_types k)) ->
    (forall c, In c (n_mem n) -> ~ alike n (c_name c) name) ->
    Forall2 (written duration) l words -> existsb is_detached l = false ->
    exists u' id, step duration bound true u (Create (p :: concat words)) =
        (u', [SCreated name], match n_conn n with Some _ => [(i, Join name)] | None => [] end, true) /\
      only_at i u u' /\ consistent u' /\ ~ (exists c, has u i c /\ c_id c = Some id) /\
      forall c', has u' i c' <-> c' = apply_all (Chan (Some id) name [] false FDefault FDefault 0 FDefault) l \/ has u i c'.
  Proof. exact (Proof.ChanCmd.create_effect duration). Qed.

  (** "channel delete" removes exactly the channel that is named, and leaves it if it is joined. *)
  Theorem C106_delete : forall u bound p i name n c,
    consistent u -> names_differ u -> addressed u bound p i name -> nth_error (u_nets u) i = Some n -> In c (n_mem n) -> alike n (c_name c) name ->
    exists u' msgs, step duration bound true u (Delete [p]) = (u', [SDeleted name], msgs, true) /\ only_at i u u' /\ consistent u' /\
      (forall c', has u' i c' <-> has u i c' /\ ~ alike n (c_name c') name) /\
      msgs = (match n_conn n with Some k => if existsb (fun x => beqb (casemap (n_cm n) x) (casemap (n_cm n) name)) (k_joined k) then [(i, Part name)] else [] | None => [] end).
  Proof. exact (Proof.ChanCmd.delete_effect duration). Qed.

  (** A command that fails sends nothing and, with a working database and at most one option,
      changes nothing. *)
  Theorem C106_failed_partial : forall u bound ok c, snd (step duration bound ok u c) = false ->
    snd (fst (fst (step duration bound ok u c))) = [] /\ snd (fst (step duration bound ok u c)) = [] /\
    (ok = true -> consistent u -> one_option c -> state (step duration bound ok u c) = u).
  Proof.
    intros u bound ok c H. destruct (Proof.ChanCmd.failed_silent duration u bound ok c H) as [H1 H2]. split; [exact H1|]. split; [exact H2|].
    intros -> Hc Ho. exact (Proof.ChanCmd.failed_unchanged duration u bound c Hc Ho H).
  Qed.

  (** After any such commands the database has what is in memory. *)
  Theorem C106_stored_partial : forall u l, consistent u -> all_work duration u l -> consistent (run duration u l).
  Proof. exact (Proof.ChanCmd.run_consistent duration). Qed.

  (** "channel status" lists all channels of all networks for a client that is bound to none... *)
  Theorem C106_status : forall u, exists ls said, step duration None true u (Status []) = (u, said, [], true) /\
    Forall2 (listing true) (u_nets u) ls /\ said = match concat ls with [] => [SNone] | l => l end.
  Proof. exact (Proof.ChanCmd.status_all duration). Qed.

  (** ...and those of its network for one that is bound, if no network before has its name as
      address. *)
  Theorem C106_status_bound_partial : forall u i n, nth_error (u_nets u) i = Some n -> found_first u i ->
    exists l said, step duration (Some i) true u (Status []) = (u, said, [], true) /\
    listing false n l /\ said = match l with [] => [SNone] | l => l end.
  Proof. exact (Proof.ChanCmd.status_bound duration). Qed.

  (** What is listed can be used in the other commands, from the same client. Missing: channels with
      a slash in their names. *)
  Theorem C106_listed_partial : forall u bound i n c, nth_error (u_nets u) i = Some n -> In c (n_mem n) ->
    (bound = None /\ ~ In "/"%char (c_name c)) \/ (bound = Some i /\ found_first u i) ->
    exists said p rest, step duration bound true u (Status []) = (u, said, [], true) /\ In (SLine (p ++ B " [" ++ rest)) said /\ addressed u bound p i (c_name c).
  Proof.
    intros u bound i n c Hn Hc [[-> H]|[-> H]]; [exact (Proof.ChanCmd.listed_unbound duration u i n c Hn Hc H)|exact (Proof.ChanCmd.listed_bound duration u i n c Hn H Hc)].
  Qed.
End C106.
Print Assumptions C106_update.
Print Assumptions C106_create_partial.
Print Assumptions C106_delete.
Print Assumptions C106_failed_partial.
Print Assumptions C106_stored_partial.
Print Assumptions C106_status.
Print Assumptions C106_status_bound_partial.
Print Assumptions C106_listed_partial.

(** ** What does not hold *)

(** Durations for the examples. *)
Definition some_duration (s : bytes) : option Z :=
  if beqb s (B "1500ms") then Some 1500000000%Z else if beqb s (B "2h") then Some 7200000000000%Z else None.
Definition chan (id : N) (name : bytes) : channel := Chan (Some id) name [] false FDefault FDefault 0 FDefault.
Definition net1 : network :=
  Net (B "libera") (B "irc.libera.chat") CmRFC1459 (Some (Conn (B "#&") [B "#Soju"])) [chan 1 (B "#soju"); chan 2 (B "&local")] [chan 2 (B "&local"); chan 1 (B "#soju")].
Definition net2 : network := Net [] (B "irc.oftc.net") CmASCII None [chan 3 (B "#ops")] [chan 3 (B "#ops")].
Definition user1 : user := User [net1; net2] 4.

(** "channel create -detached true" creates a channel that is not detached. *)
Theorem C106_detached_refuted : exists u u' said msgs c,
  step some_duration None true u (Create [B "#new/irc.oftc.net"; B "-detached"; B "true"]) = (u', said, msgs, true) /\
  has u' 1 c /\ c_name c = B "#new" /\ c_detached c = false.
Proof.
  exists user1. eexists. eexists. eexists. exists (chan 4 (B "#new")). split; [vm_compute; reflexivity|]. split; [|split; reflexivity].
  eexists. split; [reflexivity|]. right. left. reflexivity.
Qed.

(** An update that fails at its second option leaves the first one changed in memory, not in the
    database. *)
Theorem C106_failed_refuted : exists u u' c r,
  step some_duration (Some 1) true u (Update [B "#ops"; B "-relay-detached"; B "message"; B "-detach-on"; B "never"]) = (u', [], [], false) /\
  has u' 1 c /\ c_relay c = FMessage /\ (exists n, nth_error (u_nets u') 1 = Some n /\ n_db n = [r]) /\ c_relay r = FDefault.
Proof.
  exists user1. eexists. eexists. eexists. split; [vm_compute; reflexivity|].
  split; [eexists; split; [reflexivity|left; reflexivity]|]. split; [reflexivity|]. split; [eexists; split; reflexivity|reflexivity].
Qed.

(** A channel that could not be stored stays in memory, and is not joined. *)
Theorem C106_database_refuted : exists u u' c,
  step some_duration (Some 0) false u (Create [B "#new"]) = (u', [], [], false) /\ has u' 0 c /\ c_name c = B "#new".
Proof.
  exists user1. eexists. eexists. split; [vm_compute; reflexivity|]. split; [eexists; split; [reflexivity|right; right; left; reflexivity]|reflexivity].
Qed.

(** A duration is not kept exactly: after a restart it is longer. *)
Theorem C106_after_refuted : exists u u' c r,
  step some_duration (Some 1) true u (Update [B "#ops"; B "-detach-after"; B "1500ms"]) = (u', [SUpdated (B "#ops")], [], true) /\
  has u' 1 c /\ (exists n, nth_error (u_nets u') 1 = Some n /\ n_db n = [r]) /\ c_after c <> c_after r.
Proof.
  exists user1. eexists. eexists. eexists. split; [vm_compute; reflexivity|].
  split; [eexists; split; [reflexivity|left; reflexivity]|]. split; [eexists; split; reflexivity|]. vm_compute. discriminate.
Qed.

(** A client bound to a network is shown the channels of another one, that has the name of the first
    as its address. *)
Theorem C106_bound_refuted : exists u n c said, names_differ u /\ consistent u /\
  nth_error (u_nets u) 1 = Some n /\ n_mem n = [c] /\
  step some_duration (Some 1) true u (Status []) = (u, said, [], true) /\ said = [SLine (B "#secret [disconnected]")] /\ c_name c = B "#ops".
Proof.
  exists (User [Net (B "second") (B "irc.oftc.net") CmASCII None [chan 7 (B "#secret")] [chan 7 (B "#secret")]; net2] 8). eexists. eexists. eexists.
  split; [repeat constructor; vm_compute; intuition discriminate|]. split.
  - unfold consistent. repeat constructor; try (intros H; destruct H; fail).
    + intros c [<-|[]]. exists 7%N. split; reflexivity.
    + exists [chan 7 (B "#secret")]. split; [apply Permutation_refl|]. apply Proof.ChanCmd.rows_iff. reflexivity.
    + intros c [<-|[]]. exists 3%N. split; reflexivity.
    + exists [chan 3 (B "#ops")]. split; [apply Permutation_refl|]. apply Proof.ChanCmd.rows_iff. reflexivity.
  - split; [reflexivity|]. split; [reflexivity|]. split; [vm_compute; reflexivity|]. split; reflexivity.
Qed.

(** The listed name of a channel with a slash cannot be used. *)
Theorem C106_slash_refuted : exists u p rest said,
  step some_duration None true u (Status []) = (u, said, [], true) /\ said = [SLine (p ++ B " [" ++ rest)] /\
  step some_duration None true u (Delete [p]) = (u, [], [], false).
Proof.
  exists (User [Net (B "net") (B "irc.net") CmASCII None [chan 1 (B "#a/b")] [chan 1 (B "#a/b")]] 2), (B "#a/b/net"), (B "disconnected]"). eexists.
  split; [vm_compute; reflexivity|]. split; vm_compute; reflexivity.
Qed.

(** ** The hypotheses can be met *)
Lemma user1_ok : consistent user1 /\ names_differ user1.
Proof.
  split; [|repeat constructor; vm_compute; intuition discriminate].
  unfold consistent. repeat constructor; try (vm_compute; intuition discriminate).
  - intros c [<-|[<-|[]]]; eexists; (split; [reflexivity|vm_compute; reflexivity]).
  - exists [chan 2 (B "&local"); chan 1 (B "#soju")]. split; [apply perm_swap|]. apply Proof.ChanCmd.rows_iff. reflexivity.
  - intros c [<-|[]]. eexists. split; [reflexivity|vm_compute; reflexivity].
  - exists [chan 3 (B "#ops")]. split; [apply Permutation_refl|]. apply Proof.ChanCmd.rows_iff. reflexivity.
Qed.
(** The channel #soju of libera, written #SOJU/libera, with two settings in two notations. *)
Example C106_nonvacuous : consistent user1 /\ names_differ user1 /\
  addressed user1 None (B "#SOJU/libera") 0 (B "#SOJU") /\ In (chan 1 (B "#soju")) (n_mem net1) /\ alike net1 (B "#soju") (B "#SOJU") /\
  Forall2 (written some_duration) [Relay FMessage; After (B "2h") 7200000000000; Detached true]
    [[B "-relay-detached"; B "message"]; [B "--detach-after=2h"]; [B "-detached=1"]] /\
  exists u', step some_duration None true user1 (Update [B "#SOJU/libera"; B "-relay-detached"; B "message"; B "--detach-after=2h"; B "-detached=1"]) = (u', [SUpdated (B "#SOJU")], [], true) /\
    has u' 0 (Chan (Some 1%N) (B "#soju") [] true FMessage FDefault 7200000000000 FDefault).
Proof.
  split; [exact (proj1 user1_ok)|]. split; [exact (proj2 user1_ok)|].
  split; [split; [vm_compute; intuition discriminate|exists net1; split; reflexivity]|]. split; [left; reflexivity|]. split; [vm_compute; reflexivity|]. split.
  - constructor; [exists (B "-"); split; [left; reflexivity|left; reflexivity]|]. constructor; [|constructor; [|constructor]].
    + split; [exists (B "--"); split; [right; reflexivity|right; reflexivity]|]. split; [vm_compute; reflexivity|discriminate].
    + exists (B "1"). split; [left; reflexivity|]. exists (B "-"). split; [left; reflexivity|right; reflexivity].
  - eexists. split; [vm_compute; reflexivity|]. eexists. split; [reflexivity|left; reflexivity].
Qed.
Example C106_listed_nonvacuous : found_first user1 1 /\
  step some_duration None true user1 (Status []) =
    (user1, [SLine (B "&local/libera [parted]"); SLine (B "#soju/libera [joined]"); SLine (B "#ops/irc.oftc.net [disconnected]")], [], true) /\
  all_work some_duration user1 [(Some 0, true, Create [B "#go"; B "-detach-on"; B "none"]); (None, true, Delete [B "#ops/irc.oftc.net"]); (None, true, Update [B "#go/libera"; B "-reattach-on=what"])].
Proof.
  split; [|split; [vm_compute; reflexivity|]].
  - intros n H. injection H as <-. split; [discriminate|]. intros [|j] m Hj Hm; [|exfalso; inversion Hj as [|x H1 H2]; inversion H1]. injection Hm as <-. split; discriminate.
  - split; [reflexivity|]. split; [left; vm_compute; reflexivity|]. split; [reflexivity|]. split; [left; vm_compute; reflexivity|].
    split; [reflexivity|]. split; [right|exact I]. exists (B "reattach-on"), (B "what"). split; [cbn [map fst channel_flags In]; tauto|].
    exists (B "-"). split; [left; reflexivity|right; reflexivity].
Qed.
