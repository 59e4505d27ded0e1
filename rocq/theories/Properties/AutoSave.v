(** C30: credentials that the bouncer saves on its own. *)
From Verif.Base Require Import Bytes Base64.
From Verif.Model Require Import Message GenMsg Pending Register AutoSave.
From Verif.Spec Require Import AutoSave.
From Verif.Proof Require AutoSave.
From Coq Require Import ZArith.
Open Scope nat_scope.

Section Props.
  Variable cm : bytes -> bytes.
  Variable oauth_parse : bytes -> option (bytes * bytes).
  Variable oauth_failure : bytes.
  Notation step := (astep cm oauth_parse oauth_failure).
  Notation run := (arun cm oauth_parse oauth_failure).

  (** Whatever happened before and whatever happens next, the credentials of the network stay, or the
      user changes them (other settings, or AUTHENTICATE ANONYMOUS), or they become SASL PLAIN
      credentials that the user has supplied, and there were none or others for SASL PLAIN. The
      database has the old or the new ones. What is missing: for SET commands to NickServ other than
      SET PASSWORD the credentials become empty, see C30_set_refuted. *)
  Theorem C30_saved_partial : forall v es e,
    let s := fst (run (loaded v) es) in
    let s' := fst (run (loaded v) (es ++ [e])) in
    (a_mem s' = a_mem s
     \/ (exists v', e = EConfig v' /\ a_mem s' = v')
     \/ (AskedAnonymous (es ++ [e]) /\ (exists id us ds params dbok now, e = EAuth id us ds params dbok now) /\ a_mem s' = Saved [] [] [])
     \/ (Savable (a_mem s) /\ exists u p, a_mem s' = Saved (B "PLAIN") u p /\
          (Supplied cm (es ++ [e]) u p \/
           exists id target text nick dbok ws, e = EMessage id (B "PRIVMSG") target text nick dbok /\ cm target = B "nickserv" /\
             Words text ws /\ OtherSetting ws /\ u = [] /\ p = [])))
    /\ (a_db s' = a_db s \/ a_db s' = a_mem s').
  Proof.
    intros v es e s s'. destruct (Proof.AutoSave.saved_supplied cm oauth_parse oauth_failure v es e) as [[H|[H|[(H1 & H2 & H3)|H]]] H'];
      (split; [|exact H']); [left; exact H|right; left; exact H| |right; right; right; exact H].
    right; right; left. split; [exact H1|]. split; [|exact H3].
    destruct e as [| | |id us ds params dbok now| | | | | | | |]; try discriminate H2. exists id, us, ds, params, dbok, now. reflexivity.
  Qed.

  (** Another mechanism is never replaced. *)
  Theorem C30_other_mechanism : forall v es e,
    let s := fst (run (loaded v) es) in
    let s' := fst (run (loaded v) (es ++ [e])) in
    sv_mech (a_mem s) <> [] -> sv_mech (a_mem s) <> B "PLAIN" ->
    a_mem s' = a_mem s
    \/ (exists v', e = EConfig v' /\ a_mem s' = v')
    \/ (AskedAnonymous (es ++ [e]) /\ (exists id us ds params dbok now, e = EAuth id us ds params dbok now)).
  Proof.
    intros v es e s s' H1 H2. destruct (C30_saved_partial v es e) as [[H|[H|[(H & H' & _)|([H|H] & _)]]] _]; auto; contradiction.
  Qed.

  (** What is said to NickServ in one of the four forms is saved, in any spacing and case. *)
  Theorem C30_nickserv : forall s id target text nick dbok ws u p,
    a_panic s = false -> Savable (a_mem s) -> cm target = B "nickserv" -> Words text ws -> Tells nick ws u p ->
    a_mem (fst (step s (EMessage id (B "PRIVMSG") target text nick dbok))) = Saved (B "PLAIN") u p.
  Proof.
    intros s id target text nick dbok ws u p Hp Hs Ht Hw Hte. unfold astep. rewrite Hp. cbn [fst]. unfold on_message.
    rewrite beqb_refl, Ht, beqb_refl. cbn [andb].
    rewrite (proj2 (Proof.AutoSave.parse_spec text nick ws Hw u p) (or_introl Hte)). unfold auto_save.
    destruct Hs as [->| ->]; [reflexivity|]. rewrite beqb_refl. cbn [negb]. rewrite andb_false_r. reflexivity.
  Qed.

  (** What else is said to NickServ, except SET, changes nothing. *)
  Theorem C30_nickserv_other : forall s id cmd target text nick dbok ws,
    Words text ws -> (forall u p, ~ Tells nick ws u p) -> ~ OtherSetting ws ->
    fst (step s (EMessage id cmd target text nick dbok)) = s.
  Proof.
    intros s id cmd target text nick dbok ws Hw Ht Ho. unfold astep. destruct (a_panic s); [reflexivity|]. cbn [fst]. unfold on_message.
    destruct (_ && _); [|reflexivity]. destruct (parse_nickserv text nick) as [[u p]|] eqn:E; [|reflexivity].
    apply (Proof.AutoSave.parse_spec text nick ws Hw) in E as [E|(E & _)]; [exfalso; exact (Ht u p E)|contradiction].
  Qed.

  (** When the bouncer has answered a challenge of the server and the server then reports success, the
      credentials that are saved, if any, are the ones in the answer; whatever the clients do in
      between. *)
  Theorem C30_accepted : forall v es1 params ms es2 rparams dbok now,
    let s1 := fst (run (loaded v) es1) in
    snd (step s1 (EChallenge params)) = [ASend ms] ->
    forallb undisturbed es2 = true ->
    let s2 := fst (run (loaded v) (es1 ++ EChallenge params :: es2)) in
    let s3 := fst (step s2 (EReply true rparams dbok now)) in
    a_mem s3 = a_mem s2 \/
    exists u p, a_mem s3 = Saved (B "PLAIN") u p /\ ms = generate_sasl ("000"%char :: u ++ "000"%char :: p).
  Proof. exact (Proof.AutoSave.accepted_saved cm oauth_parse oauth_failure). Qed.

  (** The database has the credentials in use, as long as it does not fail. *)
  Theorem C30_stored : forall v es, forallb db_works es = true ->
    let s := fst (run (loaded v) es) in a_db s = a_mem s.
  Proof. exact (fun v es H => eq_sym (Proof.AutoSave.agree_run cm oauth_parse oauth_failure es (loaded v) H eq_refl)). Qed.
End Props.
Print Assumptions C30_stored.
Print Assumptions C30_saved_partial.
Print Assumptions C30_other_mechanism.
Print Assumptions C30_nickserv.
Print Assumptions C30_nickserv_other.
Print Assumptions C30_accepted.

Definition ex_run := arun to_lower (fun _ => None) [].
Definition ex_config := Saved (B "PLAIN") (B "alice") (B "secret").
Definition ex_say (text : bytes) : aev := EMessage 1 (B "PRIVMSG") (B "NickServ") text (B "alice") true.

(** A user with working credentials asks NickServ to change the e-mail address: the credentials are
    replaced by empty ones, also in the database. *)
Theorem C30_set_refuted : exists es,
  let s := fst (ex_run (loaded ex_config) es) in
  a_mem s = Saved (B "PLAIN") [] [] /\ a_db s = Saved (B "PLAIN") [] [] /\ ~ Supplied to_lower es [] [].
Proof.
  exists [ex_say (B "SET EMAIL alice@example.org")]. cbv zeta.
  split; [vm_compute; reflexivity|]. split; [vm_compute; reflexivity|].
  intros [id target text nick dbok ws [H|[]] _ Hw Ht|id pre chunks post z H [Hr _]|id cap a email rest now r more dbok now' [H|[]] _].
  - unfold ex_say in H. inversion H; subst. apply Proof.AutoSave.words_fields in Hw. vm_compute in Hw. subst ws. inversion Ht.
  - cbn in H. symmetry in H. apply app_eq_nil in H as [_ H]. apply app_eq_nil in H as [-> _]. vm_compute in Hr. destruct z; discriminate Hr.
  - discriminate H.
Qed.
Print Assumptions C30_set_refuted.

(** Two registrations: the server answers the first one after more than 30 seconds, when the second
    one has been given. The account of the first is saved with the password of the second. *)
Theorem C30_register_refuted : exists es,
  a_mem (fst (ex_run (loaded (Saved [] [] [])) es)) = Saved (B "PLAIN") (B "alice") (B "pw2")
  /\ forall id cap a email rest now, In (ERegister id cap (a :: email :: B "pw2" :: rest) now) es -> a = B "bob".
Proof.
  exists [EConnect 1; ERegister 1 true [B "alice"; B "*"; B "pw1"] 1000000000;
          ERegister 1 true [B "bob"; B "*"; B "pw2"] 40000000000;
          ERegistered [B "SUCCESS"; B "alice"; B "Account created"] true 41000000000].
  split; [vm_compute; reflexivity|]. intros id cap a email rest now H.
  repeat (destruct H as [H|H]; [inversion H; subst; reflexivity|]). destruct H.
Qed.
Print Assumptions C30_register_refuted.

(** A client that aborts and begins another exchange before the server has answered: when the server
    reports success the bouncer reads credentials that are not there, and the goroutine of the user
    panics. *)
Definition ex_response : bytes := b64_encode B64Std ("000"%char :: B "alice" ++ "000"%char :: B "secret").
Definition ex_abort : list aev :=
  [EConnect 1; EAuth 1 true true [B "PLAIN"] true 0; EAuth 1 true true [ex_response] true 0; EChallenge [B "+"];
   EAuth 1 true true [B "*"] true 0; EAuth 1 true true [B "PLAIN"] true 0].
Theorem C30_panic_refuted : exists v es,
  a_panic (fst (ex_run (loaded v) es)) = true.
Proof. exists (Saved [] [] []), (ex_abort ++ [EReply true [B "alice"; B "success"] true 0]). vm_compute. reflexivity. Qed.
Print Assumptions C30_panic_refuted.

(** The hypotheses are met: credentials for NickServ in odd spelling, and an exchange. *)
Example C30_nonvacuous :
  Words (B "  identify" ++ utf8 160 ++ B "bob  pw ") [B "identify"; B "bob"; B "pw"]
  /\ Tells (B "alice") [B "identify"; B "bob"; B "pw"] (B "bob") (B "pw")
  /\ a_mem (fst (ex_run (loaded ex_config) [ex_say (B "  identify" ++ utf8 160 ++ B "bob  pw ")])) = Saved (B "PLAIN") (B "bob") (B "pw")
  /\ a_mem (fst (ex_run (loaded (Saved (B "EXTERNAL") [] [])) [ex_say (B "identify bob pw")])) = Saved (B "EXTERNAL") [] []
  /\ ex_run (loaded (Saved [] [] [])) (firstn 4 ex_abort) = (fst (ex_run (loaded (Saved [] [] [])) (firstn 4 ex_abort)),
       [ASend (generate_sasl ("000"%char :: B "alice" ++ "000"%char :: B "secret"))])
  /\ a_mem (fst (ex_run (loaded (Saved [] [] [])) (firstn 4 ex_abort ++ [EReply true [B "alice"; B "success"] true 0])))
     = Saved (B "PLAIN") (B "alice") (B "secret").
Proof.
  split; [|split; [|split; [|split; [|split]]]].
  - match goal with |- Words ?t _ => pose proof (Proof.AutoSave.fields_words t) as H end. vm_compute in H. vm_compute. exact H.
  - apply tells_identify_account. apply (Proof.AutoSave.upper_iff _ (B "IDENTIFY")); vm_compute; reflexivity.
  - vm_compute. reflexivity.
  - vm_compute. reflexivity.
  - vm_compute. reflexivity.
  - vm_compute. reflexivity.
Qed.
