(** C99: what the lines of a server can stop. *)
From Verif.Base Require Import Bytes.
From Verif.Model Require Import Message CaseMap Membership Modes Roster Robust.
From Verif.Proof Require Robust.
From Verif.Spec Require Import Robust.
Open Scope nat_scope.

Section C99.
  Variable tags_of : bytes -> list (bytes * bytes).
  Variable highlights : bytes -> bytes -> bool.
  Variable fails : pst -> message -> bool.
  Variable want : bytes.
  Notation run := (run tags_of highlights fails want).
  Notation on_line := (on_line tags_of highlights fails want).

  (** As long as sources are named, nothing a server sends, in any order and
      interleaved with anything clients do, ends the whole program. *)
  Theorem C99_process nick saved clients events :
    (forall line m, In line (lines events) -> parse_line tags_of line = Some m -> sourced m) ->
    run (new_pst nick saved clients) events <> ProcessDown.
  Proof. intros H. apply Proof.Robust.process_named. intros x Hx m P. exact (H x m Hx P). Qed.

  (** If nicknames given are not empty either, only three coincidences stop the
      bouncer for the user. *)
  Theorem C99_user nick saved clients events : nick <> [] ->
    (forall line m, In line (lines events) -> parse_line tags_of line = Some m -> sourced m /\ nicknamed m) ->
    (forall before line after s m, events = before ++ ELine line :: after -> run (new_pst nick saved clients) before = Alive s ->
       parse_line tags_of line = Some m -> ~ bad_moment m s) ->
    exists s, run (new_pst nick saved clients) events = Alive s.
  Proof. intros N H M. apply (Proof.Robust.user_named tags_of highlights fails want nick saved clients events N); [intros x Hx m P; exact (H x m Hx P)|exact M]. Qed.

  (** Without a name of the source, four commands are the end: of the program
      before registration, of the user's session after it. *)
  Theorem C99_unnamed s line m : st_closed s = false -> parse_line tags_of line = Some m ->
    tag m (B "label") = None -> tag m (B "batch") = None ->
    In (m_command m) (map B ["NICK"; "SETNAME"; "JOIN"; "ACCOUNT"]%string) -> m_params m <> [] -> p_name (source s m) = [] ->
    on_line s line = if st_reg s then UserStopped else ProcessDown.
  Proof. exact (Proof.Robust.unnamed_panics tags_of highlights fails want s line m). Qed.

  (** One line ends the program for everybody. *)
  Theorem C99_process_refuted : exists line, forall nick saved clients,
    run (new_pst nick saved clients) [ELine line] = ProcessDown.
  Proof. exists (B ": ACCOUNT x"). intros. reflexivity. Qed.
End C99.
Print Assumptions C99_process.
Print Assumptions C99_user.
Print Assumptions C99_unnamed.
Print Assumptions C99_process_refuted.

(** Witnesses. *)
Definition r_run := run (fun _ => []) (fun _ _ => false) (fun _ _ => false) (B "me").
Definition r_saved (detached : bool) (re : mfilter) : cmmap saved :=
  cm_set (cm_new CmRFC1459) (B "#c") (Saved (B "#c") detached FDefault re FDefault).
Definition r_line (s : string) : pevent := ELine (B s).

Definition well_named (l : list pevent) : Prop :=
  forall line m, In line (lines l) -> parse_line (fun _ => []) line = Some m -> sourced m /\ nicknamed m.
Ltac names :=
  let H := fresh in intros line m H; unfold lines, r_line in H; cbn [flat_map app] in H;
  repeat (destruct H as [<-|H]; [vm_compute; intros E; injection E as <-; split;
      [intros p E; cbn in E; try discriminate E; injection E as <-; discriminate
      |intros [E|E]; try (vm_compute in E; discriminate E); intros n l; cbn; intros Q; injection Q as <- _; discriminate]|]);
  destruct H.

(** An empty nickname in the welcome, then any text in a saved channel. *)
Theorem C99_nameless_refuted : exists events saved clients, (forall line m, In line (lines events) -> parse_line (fun _ => []) line = Some m -> sourced m) /\
  r_run (new_pst (B "me") saved clients) events = UserStopped.
Proof.
  exists [r_line ":irc.example 001 :"; r_line ":bob!b@h PRIVMSG #c :hello"], (r_saved false FDefault), [PClient 1 None].
  split; [|vm_compute; reflexivity].
  intros line m H. unfold lines, r_line in H. cbn [flat_map app] in H.
  repeat (destruct H as [<-|H]; [vm_compute; intros E; injection E as <-; intros p E; cbn in E; injection E as <-; discriminate|]). destruct H.
Qed.

(** A text in a detached channel while its members are being listed. *)
Theorem C99_half_joined_refuted : exists events saved clients, well_named events /\
  r_run (new_pst (B "me") saved clients) events = UserStopped.
Proof.
  exists [r_line ":irc.example 001 me :Welcome"; r_line ":me!u@h JOIN #c"; r_line ":bob!b@h PRIVMSG #c :hello"], (r_saved true FMessage), [PClient 1 None].
  split; [names|vm_compute; reflexivity].
Qed.

(** A login is accepted after the client has given it up and begun another. *)
Theorem C99_login_refuted : exists events saved clients, well_named events /\
  r_run (new_pst (B "me") saved clients) events = UserStopped.
Proof.
  exists [r_line ":irc.example 001 me :Welcome"; EQuery (B "AUTHENTICATE") 1 [B "PLAIN"] false; EClients [PClient 1 (Some false)];
     r_line ":irc.example 903 me :OK"], (r_saved false FDefault), [PClient 1 (Some true)].
  split; [names|vm_compute; reflexivity].
Qed.

(** A reply to an extended WHO with an empty nickname, after an empty member. *)
Theorem C99_whox_refuted : exists events saved clients, well_named events /\
  r_run (new_pst (B "me") saved clients) events = UserStopped.
Proof.
  exists [r_line ":irc.example 001 me :Welcome"; r_line ":me!u@h JOIN #c"; r_line ":irc.example 353 me = #c :me @";
     r_line ":irc.example 366 me #c :End"; EQuery (B "WHO") 1 [B "#c"; B "%n"] false;
     r_line ":irc.example 354 me :"], (r_saved false FDefault), [PClient 1 None].
  split; [names|vm_compute; reflexivity].
Qed.
Print Assumptions C99_nameless_refuted.
Print Assumptions C99_half_joined_refuted.
Print Assumptions C99_login_refuted.
Print Assumptions C99_whox_refuted.

(** A session that meets the hypotheses of both theorems. *)
Definition r_session : list pevent :=
  [r_line ":irc.example CAP * LS :sasl"; r_line ":irc.example 001 me :Welcome"; r_line ":irc.example 005 me PREFIX=(ov)@+ CASEMAPPING=ascii :are";
   r_line ":irc.example 376 me :End"; r_line ":me!u@h JOIN #c"; r_line ":irc.example 353 me = #c :me @bob"; r_line ":irc.example 366 me #c :End";
   EWhois 1 [B "bob"] false; r_line ":irc.example 401 me bob :No such nick"; EQuery (B "WHO") 1 [B "#c"; B "%nr"] false;
   r_line ":irc.example 354 me bob :"; r_line ":bob!b@h NICK :rob"; r_line ":rob!b@h PRIVMSG #c :me: hello"; r_line "PING :x"].
Example C99_nonvacuous :
  (forall line m, In line (lines r_session) -> parse_line (fun _ => []) line = Some m -> sourced m /\ nicknamed m) /\
  (exists s, r_run (new_pst (B "me") (r_saved false FDefault) [PClient 1 None]) r_session = Alive s /\
     st_reg s = true /\ st_motd s = true /\ cm_has (r_users (st_ro s)) (B "rob") = true).
Proof.
  split.
  - unfold r_session. names.
  - eexists. split; [vm_compute; reflexivity|]. vm_compute. auto.
Qed.

(** No moment of it is bad: the reply to WHO with an empty real name is harmless,
    an empty nickname would not be. *)
Example C99_nonvacuous_moment : exists before s m,
  r_run (new_pst (B "me") (r_saved false FDefault) [PClient 1 None]) before = Alive s /\
  parse_line (fun _ => []) (B ":irc.example 354 me :") = Some m /\ blank_whox m s.
Proof.
  exists [r_line ":irc.example 001 me :Welcome"; EQuery (B "WHO") 1 [B "#c"; B "%n"] false].
  eexists. eexists. split; [vm_compute; reflexivity|]. split; [vm_compute; reflexivity|].
  split; [reflexivity|]. eexists. eexists. eexists. split; [vm_compute; reflexivity|]. split; vm_compute; reflexivity.
Qed.
