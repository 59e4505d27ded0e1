(** Proofs about the nickname of the service. *)
From Verif.Base Require Import Bytes.
From Verif.Model Require Import Message CaseMap ReadMarker Username ServiceNick.
From Verif.Proof Require CaseMap.
From Verif.Spec Require Import ServiceNick.
From Coq Require Import NArith Lia.
Open Scope nat_scope.

Lemma aeqb_iff a b : aeqb a b = true <-> a = b.
Proof. unfold aeqb. apply Ascii.eqb_eq. Qed.

(** A byte is mapped to a letter of the name by all case mappings alike. *)
Definition agree (x : ascii) : bool :=
  forallb (fun d => Bool.eqb (aeqb (fold_ascii x) d) (aeqb (lower_byte x) d) && Bool.eqb (aeqb (fold_rfc1459 x) d) (aeqb (lower_byte x) d) && Bool.eqb (aeqb (fold_rfc1459_strict x) d) (aeqb (lower_byte x) d)) (B "bouncersv").
Lemma agrees x : agree x = true.
Proof. apply byte_forall. vm_compute. reflexivity. Qed.
Lemma fold_letter (f : ascii -> ascii) x d : (f = fold_ascii \/ f = fold_rfc1459 \/ f = fold_rfc1459_strict) -> In d (B "bouncersv") -> f x = d <-> lower_byte x = d.
Proof.
  intros Hf Hd. pose proof (agrees x) as A. unfold agree in A. rewrite forallb_forall in A. specialize (A d Hd).
  apply Bool.andb_true_iff in A as [A A3]. apply Bool.andb_true_iff in A as [A1 A2]. apply Bool.eqb_prop in A1, A2, A3.
  rewrite <- !aeqb_iff. destruct Hf as [-> |[-> | ->]]; [rewrite A1|rewrite A2|rewrite A3]; reflexivity.
Qed.
Lemma map_letters (f : ascii -> ascii) : (f = fold_ascii \/ f = fold_rfc1459 \/ f = fold_rfc1459_strict) -> forall w x, (forall d, In d w -> In d (B "bouncersv")) ->
  map f x = w <-> map lower_byte x = w.
Proof.
  intros Hf w. induction w as [|d w IH]; intros x Hw; destruct x as [|c x]; cbn [map]; try (split; (reflexivity || discriminate)).
  assert (Hd : In d (B "bouncersv")) by (apply Hw; left; reflexivity). assert (Hw' : forall d, In d w -> In d (B "bouncersv")) by (intros d' H; apply Hw; right; exact H).
  pose proof (fold_letter f c d Hf Hd) as F. specialize (IH x Hw').
  split; intros H.
  - assert (H1 : f c = d) by congruence. assert (H2 : map f x = w) by congruence. rewrite (proj1 F H1), (proj1 IH H2). reflexivity.
  - assert (H1 : lower_byte c = d) by congruence. assert (H2 : map lower_byte x = w) by congruence. rewrite (proj2 F H1), (proj2 IH H2). reflexivity.
Qed.
Lemma casemap_spelled cm x : casemap cm x = service_cm <-> spelled x.
Proof.
  unfold spelled, to_lower. destruct cm; cbn [casemap]; apply map_letters; auto; intros d H; cbn in H; cbn; intuition.
Qed.
Lemma service_spelled cm x : beqb (casemap cm x) service_cm = true <-> spelled x.
Proof. rewrite beqb_eq. apply casemap_spelled. Qed.
Lemma service_folded cm : casemap cm (B "BouncerServ") = service_cm.
Proof. destruct cm; reflexivity. Qed.
Lemma same_spelled cm x : beqb (casemap cm x) (casemap cm (B "BouncerServ")) = true <-> spelled x.
Proof. rewrite service_folded. apply service_spelled. Qed.
Lemma not_spelled cm x : beqb (casemap cm x) service_cm = false <-> ~ spelled x.
Proof. rewrite <- (service_spelled cm). destruct (beqb _ _); split; congruence. Qed.

Lemma is_text_textual m : is_text (m_command m) = true <-> textual m.
Proof.
  unfold is_text, textual. rewrite !Bool.orb_true_iff, !beqb_eq. cbn [In]. split; [intros [[H|H]|H]; rewrite H; auto|].
  intros [H|[H|[H|[]]]]; rewrite <- H; auto.
Qed.

(** ** Messages to servers *)

Definition clean (o : sout) : Prop :=
  match o with
  | SServer _ m => (textual m -> ~ spelled (target m)) /\ (m_command m = B "WHO" -> ~ spelled (target m))
  | _ => True
  end.

Lemma produce_client s n l cm m origin o : In o (produce s n l cm m origin) -> exists y, In y (ss_clients s) /\ on_net n y = true /\ o = SClient (sc_id y) m.
Proof.
  unfold produce. intros H. apply in_flat_map in H as [y [Hy H]]. destruct (on_net n y && _) eqn:E; [|destruct H]. destruct H as [<-|[]].
  apply Bool.andb_true_iff in E as [E _]. exists y. auto.
Qed.

(** What [send_text] may do. *)
Inductive sends (s : sst) (x : scl) (tags : list (bytes * bytes)) (cmd : bytes) (text : list bytes) : sout -> Prop :=
| SdBroadcast name : ss_admin s = true -> sends s x tags cmd text (SBroadcast (Message tags (Some service_prefix) cmd (name :: text)))
| SdReply num ps : ~ In num [B "PRIVMSG"; B "NOTICE"; B "TAGMSG"] -> sends s x tags cmd text (reply x num ps)
| SdEcho name : sends s x tags cmd text (SClient (sc_id x) (Message tags (Some (user_prefix (sc_nick x))) cmd (name :: text)))
| SdRun t : In t text -> cmd = B "PRIVMSG" -> sends s x tags cmd text (SRun (sc_id x) t)
| SdServer n name : sc_net x = Some n -> ~ spelled name -> sends s x tags cmd text (SServer n (Message tags None cmd (name :: text)))
| SdProduce n net l y name : sc_net x = Some n -> nth_error (ss_nets s) n = Some net -> sn_link net = Some l -> In y (ss_clients s) -> on_net n y = true -> ~ spelled name ->
    sends s x tags cmd text (SClient (sc_id y) (Message tags (Some (user_prefix (sl_nick l))) cmd (name :: text))).

Lemma send_text_sends s x tags cmd text names o : In o (send_text s x tags cmd text names) -> sends s x tags cmd text o.
Proof.
  induction names as [|name r IH]; cbn [send_text]; [intros []|].
  assert (N1 : forall a b c : bytes, ~ In (B "415") [B "PRIVMSG"; B "NOTICE"; B "TAGMSG"]) by (intros _ _ _ [H|[H|[H|[]]]]; discriminate H).
  assert (N2 : ~ In (B "400") [B "PRIVMSG"; B "NOTICE"; B "TAGMSG"]) by (intros [H|[H|[H|[]]]]; discriminate H).
  destruct (_ || _); [destruct (ss_admin s) eqn:A; [intros [<-|H]; [apply SdBroadcast; exact A|exact (IH H)]|intros [<-|[]]; apply SdReply; apply (N1 [] [] [])]|].
  destruct (unbound x && _); [intros [<-|H]; [apply SdEcho|exact (IH H)]|].
  destruct (beqb (casemap (cl_cm s x) name) service_cm) eqn:E.
  { intros H. apply in_app_or in H as [H|H]; [destruct (sc_echo x); [destruct H as [<-|[]]; apply SdEcho|destruct H]|].
    apply in_app_or in H as [H|H]; [|exact (IH H)]. destruct (beqb_spec cmd (B "PRIVMSG")) as [->|]; [|destruct H]. apply in_map_iff in H as [t [<- Ht]]. apply SdRun; auto. }
  apply not_spelled in E. destruct (sc_net x) as [n|] eqn:En; [|intros [<-|[]]; apply SdReply; exact N2]. unfold net_of. rewrite En.
  destruct (nth_error (ss_nets s) n) as [net|] eqn:Et; [|intros [<-|[]]; apply SdReply; exact N2].
  destruct (sn_link net) as [l|] eqn:El; [|intros [<-|[]]; apply SdReply; exact N2].
  intros [<-|H]; [apply SdServer; auto|]. apply in_app_or in H as [H|H]; [|exact (IH H)].
  destruct (sl_echo l); [destruct H|]. apply produce_client in H as [y [Hy [Hn ->]]]. exact (SdProduce s x tags cmd text n net l y name En Et El Hy Hn E).
Qed.

Lemma cmd_text_sends s x m o : In o (cmd_text s x m) -> (exists text, sends s x (client_tags m) (m_command m) text o) \/ exists ps, o = reply x (B "461") ps.
Proof.
  unfold cmd_text. destruct (m_params m) as [|targets r]; [intros [<-|[]]; right; eauto|].
  destruct (beqb (m_command m) (B "TAGMSG")); [intros H; left; exists []; exact (send_text_sends _ _ _ _ _ _ _ H)|].
  destruct r as [|text r]; [intros [<-|[]]; right; eauto|]. intros H. left. exists [text]. exact (send_text_sends _ _ _ _ _ _ _ H).
Qed.

Lemma update_nicks_out s f o : In o (snd (update_nicks s f)) -> exists x, In x (ss_clients s) /\ f x = true /\ new_nick s x <> sc_nick x /\
  o = SClient (sc_id x) (Message [] (Some (user_prefix (sc_nick x))) (B "NICK") [new_nick s x]).
Proof.
  cbn [update_nicks snd]. intros H. apply in_flat_map in H as [x [Hx H]]. destruct (f x) eqn:F; [|destruct H]. unfold update_nick in H.
  destruct (beqb_spec (new_nick s x) (sc_nick x)) as [E|E]; [destruct H|]. destruct H as [<-|[]]. exists x. auto.
Qed.

Definition asks_out (s s1 : sst) : list sout :=
  flat_map (fun n => match nth_error (ss_nets s) n with
    | Some net => match sn_link net, sn_nick net with Some _, [] => [SServer n (msg (B "NICK") [get_nick s1 (Some net)])] | _, _ => [] end
    | None => [] end) (seq 0 (length (ss_nets s))).
Lemma asks_out_In s s1 o : In o (asks_out s s1) -> exists n net, nth_error (ss_nets s) n = Some net /\ sn_nick net = [] /\ o = SServer n (msg (B "NICK") [get_nick s1 (Some net)]).
Proof.
  unfold asks_out. intros H. apply in_flat_map in H as [n [_ H]]. destruct (nth_error (ss_nets s) n) as [net|] eqn:E; [|destruct H].
  destruct (sn_link net); [|destruct H]. destruct (sn_nick net) eqn:En; [|destruct H]. destruct H as [<-|[]]. exists n, net. auto.
Qed.

(** Everything an event may lead to: for the messages to servers. *)
Inductive to_server (s s' : sst) (e : sev) (n : nat) : message -> Prop :=
| TsText c x m tags text name : e = SCommand c m -> find_cl c (ss_clients s) = Some x -> textual m -> ~ spelled name -> to_server s s' e n (Message tags None (m_command m) (name :: text))
| TsNick c x m nick r : e = SCommand c m -> find_cl c (ss_clients s) = Some x -> m_params m = nick :: r -> ~ spelled nick -> to_server s s' e n (msg (B "NICK") [nick])
| TsOwn net : (match e with SCommand c m => exists nick r, m_params m = nick :: r /\ ss_nick s' = nick | SUserNick _ => True | _ => False end) -> nth_error (ss_nets s) n = Some net -> sn_nick net = [] ->
    to_server s s' e n (msg (B "NICK") [get_nick s' (Some net)])
| TsRegister net : e = SRegister n -> nth_error (ss_nets s) n = Some net -> to_server s s' e n (msg (B "NICK") [get_nick s (Some net)])
| TsWho mask r : ~ spelled mask -> to_server s s' e n (msg (B "WHO") (mask :: r))
| TsWhois ps mask : whois_mask ps = Some mask -> ~ spelled (fst (cut_on "," mask)) -> to_server s s' e n (msg (B "WHOIS") ps)
| TsInvite c m : e = SCommand c m -> m_command m = B "INVITE" -> to_server s s' e n m.

Lemma get_nick_same s1 s2 net : ss_nick s1 = ss_nick s2 -> ss_name s1 = ss_name s2 -> get_nick s1 net = get_nick s2 net.
Proof. unfold get_nick. intros -> ->. reflexivity. Qed.

Lemma cmd_nick_server s x m s' o n m' c : find_cl c (ss_clients s) = Some x -> cmd_nick s x (m_params m) = (s', o) -> In (SServer n m') o -> to_server s s' (SCommand c m) n m'.
Proof.
  intros F E. unfold cmd_nick in E. destruct (m_params m) as [|nick r] eqn:Ep; [apply pair_equal_spec in E as [<- <-]; intros [H|[]]; discriminate H|].
  destruct (bad_nick nick); [apply pair_equal_spec in E as [<- <-]; intros [H|[]]; discriminate H|].
  destruct (beqb (casemap (cl_cm s x) nick) service_cm) eqn:Es; [apply pair_equal_spec in E as [<- <-]; intros [H|[]]; discriminate H|]. apply not_spelled in Es.
  destruct (sc_net x) as [k|].
  - destruct (nth_error (ss_nets s) k) as [net|]; [|apply pair_equal_spec in E as [<- <-]; intros []]. destruct (sn_link net).
    + apply pair_equal_spec in E as [<- <-]. intros [H|[]]. assert (n = k) by congruence. assert (m' = msg (B "NICK") [nick]) by congruence. subst n m'. exact (TsNick s _ (SCommand c m) k c x m nick r eq_refl F Ep Es).
    + intros H. exfalso. apply (f_equal snd) in E. cbn [snd] in E. rewrite <- E in H. apply update_nicks_out in H as [y [_ [_ [_ H]]]]. discriminate H.
  - destruct (update_nicks _ unbound) as [s2 o2] eqn:Eu. apply pair_equal_spec in E as [<- <-]. intros H. apply in_app_or in H as [H|H].
    + destruct (beqb nick (ss_nick s)); [destruct H|]. apply (asks_out_In s) in H as [j [net [Hn [He Hm]]]]. assert (n = j) by congruence. subst j.
      assert (Hm' : m' = msg (B "NICK") [get_nick (SSt (ss_name s) nick (ss_admin s) (ss_host s) (ss_nets s) (ss_clients s)) (Some net)]) by (apply (f_equal (fun o => match o with SServer _ z => z | _ => m' end)) in Hm; exact Hm).
      apply (f_equal fst) in Eu. cbn [fst update_nicks] in Eu.
      rewrite Hm', (get_nick_same _ s2); [|rewrite <- Eu; reflexivity|rewrite <- Eu; reflexivity]. apply TsOwn; [|exact Hn|exact He]. exists nick, r. split; [exact Ep|]. rewrite <- Eu. reflexivity.
    + exfalso. apply (f_equal snd) in Eu. cbn [snd] in Eu. rewrite <- Eu in H. apply update_nicks_out in H as [y [_ [_ [_ H]]]]. discriminate H.
Qed.

Lemma step_server s e s' o n m : sstep s e = (s', o) -> In (SServer n m) o -> to_server s s' e n m.
Proof.
  intros E H. destruct e as [c net echo|c reg echo|c|c m0|nick|k nick|nick|k|k nick server status echo|k|k cm|k m0 origin]; cbn [sstep] in E.
  - destruct (find_cl c _); apply pair_equal_spec in E as [<- <-]; destruct H.
  - destruct (find_cl c _); [apply pair_equal_spec in E as [<- <-]; destruct H|]. destruct (bad_nick _); [apply pair_equal_spec in E as [<- <-]; destruct H as [H|[]]; discriminate H|].
    destruct (beqb _ _); apply pair_equal_spec in E as [<- <-]; [destruct H as [H|[]]; discriminate H|destruct H].
  - apply pair_equal_spec in E as [<- <-]. destruct H.
  - destruct (find_cl c (ss_clients s)) as [x|] eqn:F; [|apply pair_equal_spec in E as [<- <-]; destruct H].
    destruct (is_text (m_command m0)) eqn:It.
    { apply pair_equal_spec in E as [<- <-]. apply is_text_textual in It. apply cmd_text_sends in H as [[text H]|[ps H]]; [|discriminate H].
      remember (SServer n m) as out eqn:Eo. destruct H as [?|? ? ?|?|? ? ?|n' name ? ?|? ? ? ? ? ? ? ? ? ? ?]; try discriminate Eo.
      assert (n' = n) by congruence. assert (m = Message (client_tags m0) None (m_command m0) (name :: text)) by congruence. subst n' m. eapply TsText; eauto. }
    destruct (beqb (m_command m0) (B "NICK")); [exact (cmd_nick_server s x m0 s' o n m c F E H)|].
    destruct (beqb_spec (m_command m0) (B "WHO")) as [Ew|_].
    { apply pair_equal_spec in E as [<- <-]. unfold cmd_who in H. destruct (m_params m0) as [|mask r] eqn:Ep; [destruct H as [H|[]]; discriminate H|].
      destruct (unbound x && _); [destruct H as [H|[H|[]]]; discriminate H|]. destruct (beqb _ service_cm) eqn:Es; [destruct H as [H|[H|[]]]; discriminate H|]. apply not_spelled in Es.
      destruct (sc_net x) as [k|]; [|destruct H as [H|[]]; discriminate H]. destruct (link_for s x); [|destruct H as [H|[]]; discriminate H].
      destruct H as [H|[]]. assert (m = msg (B "WHO") (mask :: r)) by congruence. subst m. apply TsWho. exact Es. }
    destruct (beqb (m_command m0) (B "WHOIS")).
    { apply pair_equal_spec in E as [<- <-]. unfold cmd_whois in H. destruct (whois_mask (m_params m0)) as [mask|] eqn:Ep; [|destruct H as [H|[]]; discriminate H].
      destruct (unbound x && _); [destruct H as [H|[H|[]]]; discriminate H|]. destruct (beqb _ service_cm) eqn:Es; [destruct H as [H|[H|[]]]; discriminate H|]. apply not_spelled in Es.
      destruct (sc_net x) as [k|]; [|destruct H as [H|[]]; discriminate H]. destruct (link_for s x); [|destruct H as [H|[]]; discriminate H].
      destruct H as [H|[]]. assert (m = msg (B "WHOIS") (m_params m0)) by congruence. subst m. exact (TsWhois _ _ _ _ _ mask Ep Es). }
    destruct (beqb_spec (m_command m0) (B "INVITE")) as [Ei|_]; [|apply pair_equal_spec in E as [<- <-]; destruct H].
    apply pair_equal_spec in E as [<- <-]. unfold cmd_invite in H. destruct (sc_net x) as [k|]; [|destruct H as [H|[]]; discriminate H]. destruct (link_for s x); [|destruct H as [H|[]]; discriminate H].
    destruct H as [H|[]]. assert (m = m0) by congruence. subst m. exact (TsInvite _ _ _ _ c m0 eq_refl Ei).
  - unfold user_nick in E. apply pair_equal_spec in E as [<- <-]. destruct (beqb nick (ss_nick s)); [destruct H|]. apply (asks_out_In s) in H as [j [net [Hn [He Hm]]]].
    assert (j = n) by congruence. subst j. apply (f_equal (fun o => match o with SServer _ x => x | _ => m end)) in Hm. cbv beta iota in Hm. rewrite Hm. apply (TsOwn s (SSt (ss_name s) nick (ss_admin s) (ss_host s) (ss_nets s) (ss_clients s)) (SUserNick nick)); [exact I|exact Hn|exact He].
  - apply pair_equal_spec in E as [<- <-]. destruct H.
  - apply pair_equal_spec in E as [<- <-]. destruct H.
  - destruct (nth_error (ss_nets s) k) as [net|] eqn:En; apply pair_equal_spec in E as [<- <-]; [|destruct H]. destruct H as [H|[]]. assert (k = n) by congruence. assert (m = msg (B "NICK") [get_nick s (Some net)]) by congruence. subst k m.
    apply TsRegister; auto.
  - destruct (nth_error (ss_nets s) k) as [net|]; [|apply pair_equal_spec in E as [<- <-]; destruct H]. exfalso. apply (f_equal snd) in E. cbn [snd] in E. rewrite <- E in H. apply update_nicks_out in H as [y [_ [_ [_ H]]]]. discriminate H.
  - destruct (nth_error (ss_nets s) k); apply pair_equal_spec in E as [<- <-]; destruct H.
  - destruct (nth_error (ss_nets s) k); apply pair_equal_spec in E as [<- <-]; destruct H.
  - destruct (nth_error (ss_nets s) k) as [net|]; [|apply pair_equal_spec in E as [<- <-]; destruct H]. destruct (sn_link net) as [l|]; [|apply pair_equal_spec in E as [<- <-]; destruct H].
    destruct (is_text (m_command m0)).
    { apply pair_equal_spec in E as [<- <-]. exfalso. unfold server_text in H. destruct (m_params m0) as [|t r]; [destruct H|].
      repeat match type of H with In _ (if ?b then _ else _) => destruct b end; try (destruct H; fail); apply produce_client in H as [y [_ [_ H]]]; discriminate H. }
    destruct (beqb (m_command m0) (B "NICK")); [|apply pair_equal_spec in E as [<- <-]; destruct H]. exfalso. unfold server_nick in E. destruct (m_params m0) as [|nick r]; [apply pair_equal_spec in E as [<- <-]; destruct H|].
    destruct (beqb _ _).
    + apply (f_equal snd) in E. cbn [snd] in E. rewrite <- E in H. apply update_nicks_out in H as [y [_ [_ [_ H]]]]. discriminate H.
    + apply pair_equal_spec in E as [<- <-]. apply in_flat_map in H as [y [_ H]]. destruct (on_net k y); [destruct H as [H|[]]; discriminate H|destruct H].
Qed.

(** ** Nicknames *)

Record fine (s : sst) : Prop := {
  fi_name : ~ spelled (ss_name s); fi_nick : ~ spelled (ss_nick s);
  fi_nets : forall x, In x (ss_nets s) -> ~ spelled (sn_nick x) }.

Lemma nil_fine : ~ spelled [].
Proof. discriminate. Qed.
Lemma get_nick_fine s net : fine s -> (forall x, net = Some x -> ~ spelled (sn_nick x)) -> ~ spelled (get_nick s net).
Proof.
  intros [A B0 C] H. assert (O : ~ spelled (match ss_nick s with [] => ss_name s | n => n end)) by (destruct (ss_nick s); assumption).
  unfold get_nick. destruct net as [x|]; [|exact O]. specialize (H x eq_refl). destruct (sn_nick x); assumption.
Qed.
Lemma put_net_In n x l y : In y (put_net n x l) -> y = x \/ In y l.
Proof. revert l. induction n as [|n IH]; intros [|z l]; cbn; [intros []|intros [->|H]; auto|intros []|intros [->|H]; [auto|]]. destruct (IH l H); auto. Qed.
Lemma fine_set s n x : fine s -> ~ spelled (sn_nick x) -> fine (set_net s n x).
Proof. intros [A B0 C] H. constructor; cbn; [exact A|exact B0|]. intros y Hy. apply put_net_In in Hy as [->|Hy]; [exact H|exact (C y Hy)]. Qed.
Lemma fine_clients s l : fine s -> fine (with_clients s l).
Proof. intros [A B0 C]. constructor; assumption. Qed.
Lemma fine_new s cm nick : fine s -> ~ spelled nick -> fine (with_nets s (ss_nets s ++ [SNet cm nick None])).
Proof. intros [A B0 C] H. constructor; cbn; [exact A|exact B0|]. intros x Hx. apply in_app_or in Hx as [Hx|[<-|[]]]; [exact (C x Hx)|exact H]. Qed.
Lemma nth_fine s n net : fine s -> nth_error (ss_nets s) n = Some net -> ~ spelled (sn_nick net).
Proof. intros F H. apply (fi_nets s F). exact (nth_error_In _ _ H). Qed.

Lemma step_fine s e s' o : fine s -> polite e -> sstep s e = (s', o) -> fine s'.
Proof.
  intros F P E. destruct e as [c net echo|c reg echo|c|c m|nick|n nick|nick|n|n nick server status echo|n|n cm|n m origin]; cbn [sstep polite] in *.
  - destruct (find_cl c _); apply pair_equal_spec in E as [<- <-]; [exact F|apply fine_clients; exact F].
  - destruct (find_cl c _); [apply pair_equal_spec in E as [<- <-]; exact F|]. destruct (bad_nick _); [apply pair_equal_spec in E as [<- <-]; exact F|].
    destruct (beqb (casemap CmASCII _) service_cm) eqn:Es; apply pair_equal_spec in E as [<- <-]; [exact F|]. apply not_spelled in Es. apply fine_clients. apply fine_new; assumption.
  - apply pair_equal_spec in E as [<- <-]. apply fine_clients. exact F.
  - destruct (find_cl c (ss_clients s)) as [x|]; [|apply pair_equal_spec in E as [<- <-]; exact F]. destruct (is_text _); [apply pair_equal_spec in E as [<- <-]; exact F|].
    destruct (beqb (m_command m) (B "NICK")).
    { unfold cmd_nick in E. destruct (m_params m) as [|nick r]; [apply pair_equal_spec in E as [<- <-]; exact F|]. destruct (bad_nick nick); [apply pair_equal_spec in E as [<- <-]; exact F|].
      destruct (beqb (casemap (cl_cm s x) nick) service_cm) eqn:Es; [apply pair_equal_spec in E as [<- <-]; exact F|]. apply not_spelled in Es.
      destruct (sc_net x) as [k|].
      - destruct (nth_error (ss_nets s) k) as [net|]; [|apply pair_equal_spec in E as [<- <-]; exact F]. assert (F1 : fine (set_net s k (SNet (sn_cm net) nick (sn_link net)))) by (apply fine_set; assumption).
        destruct (sn_link net); [apply pair_equal_spec in E as [<- <-]; exact F1|]. apply (f_equal fst) in E. cbn [fst update_nicks] in E. rewrite <- E. apply fine_clients. exact F1.
      - destruct (update_nicks _ unbound) as [s2 o2] eqn:Eu. apply pair_equal_spec in E as [<- _]. apply (f_equal fst) in Eu. cbn [fst update_nicks] in Eu. rewrite <- Eu. apply fine_clients.
        destruct F as [A B0 C]. constructor; assumption. }
    destruct (beqb _ _); [apply pair_equal_spec in E as [<- <-]; exact F|]. destruct (beqb _ _); [apply pair_equal_spec in E as [<- <-]; exact F|]. destruct (beqb _ _); apply pair_equal_spec in E as [<- <-]; exact F.
  - unfold user_nick in E. apply pair_equal_spec in E as [<- _]. destruct F as [A B0 C]. constructor; assumption.
  - apply pair_equal_spec in E as [<- <-]. unfold network_nick. destruct (nth_error (ss_nets s) n) as [net|]; [|exact F]. apply fine_set; [exact F|]. cbn [sn_nick]. destruct (beqb _ _); [exact nil_fine|exact P].
  - apply pair_equal_spec in E as [<- <-]. apply fine_new; assumption.
  - destruct (nth_error (ss_nets s) n); apply pair_equal_spec in E as [<- <-]; exact F.
  - destruct (nth_error (ss_nets s) n) as [net|] eqn:En; [|apply pair_equal_spec in E as [<- <-]; exact F]. apply (f_equal fst) in E. cbn [fst update_nicks] in E. rewrite <- E. apply fine_clients. apply fine_set; [exact F|]. exact (nth_fine s n net F En).
  - destruct (nth_error (ss_nets s) n) as [net|] eqn:En; apply pair_equal_spec in E as [<- <-]; [|exact F]. apply fine_set; [exact F|]. exact (nth_fine s n net F En).
  - destruct (nth_error (ss_nets s) n) as [net|] eqn:En; apply pair_equal_spec in E as [<- <-]; [|exact F]. apply fine_set; [exact F|]. exact (nth_fine s n net F En).
  - destruct (nth_error (ss_nets s) n) as [net|] eqn:En; [|apply pair_equal_spec in E as [<- <-]; exact F]. destruct (sn_link net) as [l|]; [|apply pair_equal_spec in E as [<- <-]; exact F].
    destruct (is_text _); [apply pair_equal_spec in E as [<- <-]; exact F|]. destruct (beqb _ _); [|apply pair_equal_spec in E as [<- <-]; exact F]. unfold server_nick in E. destruct (m_params m) as [|nick r]; [apply pair_equal_spec in E as [<- <-]; exact F|].
    destruct (beqb _ _); [|apply pair_equal_spec in E as [<- <-]; exact F]. apply (f_equal fst) in E. cbn [fst update_nicks] in E. rewrite <- E. apply fine_clients. apply fine_set; [exact F|]. exact (nth_fine s n net F En).
Qed.

(** A nickname of ours that is spelled so was given by a server. *)
Definition given (tr : strace) : Prop := exists e o nick, In (e, o) tr /\ gives e nick /\ spelled nick.
Definition ours (s : sst) : Prop :=
  (forall x l, In x (ss_nets s) -> sn_link x = Some l -> ~ spelled (sl_nick l)) /\ (forall x, In x (ss_clients s) -> ~ spelled (sc_nick x)).

Lemma new_nick_fine s x : fine s -> (forall x l, In x (ss_nets s) -> sn_link x = Some l -> ~ spelled (sl_nick l)) -> ~ spelled (new_nick s x).
Proof.
  intros F O. unfold new_nick, link_for, net_of. destruct (sc_net x) as [n|]; [destruct (nth_error (ss_nets s) n) as [net|] eqn:E|].
  - destruct (sn_link net) as [l|] eqn:El; [exact (O net l (nth_error_In _ _ E) El)|]. apply get_nick_fine; [exact F|]. intros y Hy. assert (y = net) by congruence. subst y. exact (nth_fine s n net F E).
  - apply get_nick_fine; [exact F|discriminate].
  - apply get_nick_fine; [exact F|discriminate].
Qed.
Lemma update_nicks_ours s f : fine s -> ours s -> ours (fst (update_nicks s f)).
Proof.
  intros F [O1 O2]. split; [exact O1|]. cbn [update_nicks fst with_clients ss_clients]. intros x Hx. apply in_map_iff in Hx as [y [<- Hy]]. destruct (f y); [|exact (O2 y Hy)].
  unfold update_nick. destruct (beqb _ _); [exact (O2 y Hy)|]. cbn [fst sc_nick]. exact (new_nick_fine s y F O1).
Qed.
Lemma set_ours s n x : ours s -> (forall l, sn_link x = Some l -> ~ spelled (sl_nick l)) -> ours (set_net s n x).
Proof. intros [O1 O2] H. split; [|exact O2]. cbn. intros y l Hy. apply put_net_In in Hy as [->|Hy]; [exact (H l)|exact (O1 y l Hy)]. Qed.

Lemma step_ours s e s' o : fine s -> polite e -> ours s -> (forall nick, gives e nick -> ~ spelled nick) -> sstep s e = (s', o) -> ours s'.
Proof.
  intros F P O G E. assert (N : forall n net, nth_error (ss_nets s) n = Some net -> forall l, sn_link net = Some l -> ~ spelled (sl_nick l)) by (intros n net H l Hl; exact (proj1 O net l (nth_error_In _ _ H) Hl)).
  assert (New : forall s1 c net echo, fine s1 -> ours s1 -> ours (with_clients s1 (ss_clients s1 ++ [new_client s1 c net echo]))).
  { intros s1 c net echo F1 O1. split; [exact (proj1 O1)|]. cbn. intros x Hx. apply in_app_or in Hx as [Hx|[<-|[]]]; [exact (proj2 O1 x Hx)|].
    unfold new_client. cbn [sc_nick]. destruct net; [exact (new_nick_fine s1 _ F1 (proj1 O1))|exact (fi_name s1 F1)]. }
  assert (Add : forall cm nick, ours (with_nets s (ss_nets s ++ [SNet cm nick None]))).
  { intros cm nick. split; [|exact (proj2 O)]. cbn. intros x l Hx. apply in_app_or in Hx as [Hx|[<-|[]]]; [exact (proj1 O x l Hx)|discriminate]. }
  destruct e as [c net echo|c reg echo|c|c m|nick|n nick|nick|n|n nick server status echo|n|n cm|n m origin]; cbn [sstep polite gives] in *.
  - destruct (find_cl c _); apply pair_equal_spec in E as [<- <-]; [exact O|]. apply New; assumption.
  - destruct (find_cl c _); [apply pair_equal_spec in E as [<- <-]; exact O|]. destruct (bad_nick _); [apply pair_equal_spec in E as [<- <-]; exact O|].
    destruct (beqb (casemap CmASCII _) service_cm) eqn:Es; apply pair_equal_spec in E as [<- <-]; [exact O|]. apply not_spelled in Es.
    apply (New (with_nets s (ss_nets s ++ [SNet CmRFC1459 (fst (fst (unmarshal_username reg))) None]))); [apply fine_new; assumption|apply Add].
  - apply pair_equal_spec in E as [<- <-]. split; [exact (proj1 O)|]. cbn. intros x Hx. apply filter_In in Hx as [Hx _]. exact (proj2 O x Hx).
  - destruct (find_cl c (ss_clients s)) as [x|]; [|apply pair_equal_spec in E as [<- <-]; exact O]. destruct (is_text _); [apply pair_equal_spec in E as [<- <-]; exact O|].
    destruct (beqb (m_command m) (B "NICK")).
    { unfold cmd_nick in E. destruct (m_params m) as [|nick r]; [apply pair_equal_spec in E as [<- <-]; exact O|]. destruct (bad_nick nick); [apply pair_equal_spec in E as [<- <-]; exact O|].
      destruct (beqb (casemap (cl_cm s x) nick) service_cm) eqn:Es; [apply pair_equal_spec in E as [<- <-]; exact O|]. apply not_spelled in Es.
      destruct (sc_net x) as [k|].
      - destruct (nth_error (ss_nets s) k) as [net|] eqn:En; [|apply pair_equal_spec in E as [<- <-]; exact O]. assert (F1 : fine (set_net s k (SNet (sn_cm net) nick (sn_link net)))) by (apply fine_set; assumption).
        assert (O1 : ours (set_net s k (SNet (sn_cm net) nick (sn_link net)))) by (apply set_ours; [exact O|exact (N k net En)]).
        destruct (sn_link net); [apply pair_equal_spec in E as [<- <-]; exact O1|]. apply (f_equal fst) in E. change (fst (s', o)) with s' in E. rewrite <- E. exact (update_nicks_ours _ _ F1 O1).
      - destruct (update_nicks _ unbound) as [s2 o2] eqn:Eu. apply pair_equal_spec in E as [<- _]. apply (f_equal fst) in Eu. cbn [fst] in Eu. rewrite <- Eu. apply update_nicks_ours; [|exact O].
        destruct F as [A B0 C]. constructor; assumption. }
    destruct (beqb _ _); [apply pair_equal_spec in E as [<- <-]; exact O|]. destruct (beqb _ _); [apply pair_equal_spec in E as [<- <-]; exact O|]. destruct (beqb _ _); apply pair_equal_spec in E as [<- <-]; exact O.
  - unfold user_nick in E. apply pair_equal_spec in E as [<- _]. exact O.
  - apply pair_equal_spec in E as [<- <-]. unfold network_nick. destruct (nth_error (ss_nets s) n) as [net|]; [|exact O]. apply set_ours; [exact O|discriminate].
  - apply pair_equal_spec in E as [<- <-]. apply Add.
  - destruct (nth_error (ss_nets s) n); apply pair_equal_spec in E as [<- <-]; exact O.
  - destruct (nth_error (ss_nets s) n) as [net|] eqn:En; [|apply pair_equal_spec in E as [<- <-]; exact O]. apply (f_equal fst) in E. cbn [fst] in E. rewrite <- E. apply update_nicks_ours.
    + apply fine_set; [exact F|]. exact (nth_fine s n net F En).
    + apply set_ours; [exact O|]. cbn. intros l Hl. assert (l = SLink nick server status echo) by congruence. subst l. exact (G nick eq_refl).
  - destruct (nth_error (ss_nets s) n) as [net|] eqn:En; apply pair_equal_spec in E as [<- <-]; [|exact O]. apply set_ours; [exact O|discriminate].
  - destruct (nth_error (ss_nets s) n) as [net|] eqn:En; apply pair_equal_spec in E as [<- <-]; [|exact O]. apply set_ours; [exact O|exact (N n net En)].
  - destruct (nth_error (ss_nets s) n) as [net|] eqn:En; [|apply pair_equal_spec in E as [<- <-]; exact O]. destruct (sn_link net) as [l|]; [|apply pair_equal_spec in E as [<- <-]; exact O].
    destruct (is_text _); [apply pair_equal_spec in E as [<- <-]; exact O|]. destruct (beqb_spec (m_command m) (B "NICK")) as [Ec|_]; [|apply pair_equal_spec in E as [<- <-]; exact O]. unfold server_nick in E. destruct (m_params m) as [|nick r] eqn:Ep; [apply pair_equal_spec in E as [<- <-]; exact O|].
    destruct (beqb _ _); [|apply pair_equal_spec in E as [<- <-]; exact O]. apply (f_equal fst) in E. cbn [fst] in E. rewrite <- E. apply update_nicks_ours.
    + apply fine_set; [exact F|]. exact (nth_fine s n net F En).
    + apply set_ours; [exact O|]. cbn. intros l' Hl. assert (l' = SLink nick (sl_server l) (sl_status l) (sl_echo l)) by congruence. subst l'. apply G. split; [exact Ec|]. unfold target. rewrite Ep. reflexivity.
Qed.

Lemma spelled_dec x : {spelled x} + {~ spelled x}.
Proof. unfold spelled. apply bytes_dec. Qed.

Lemma gives_dec e : (exists nick, gives e nick /\ spelled nick) \/ forall nick, gives e nick -> ~ spelled nick.
Proof.
  destruct e as [| | | | | | | |? nick ? ? ?| | |? m ?]; try (right; intros ? []; fail); cbn [gives].
  - destruct (spelled_dec nick) as [H|H]; [left; exists nick; auto|right; intros ? <-; exact H].
  - destruct (bytes_dec (m_command m) (B "NICK")) as [Ec|Ec]; [|right; intros ? [H _]; contradiction].
    destruct (spelled_dec (target m)) as [H|H]; [left; exists (target m); auto|right; intros ? [_ <-]; exact H].
Qed.

Lemma runs_fine s0 tr s : sruns polite s0 tr s -> fine s0 -> fine s.
Proof. intros H F. induction H as [|tr s e s' o H IH P E]; [exact F|exact (step_fine s e s' o IH P E)]. Qed.
Lemma runs_ours s0 tr s : sruns polite s0 tr s -> fine s0 -> ours s0 -> given tr \/ ours s.
Proof.
  intros H F O. induction H as [|tr s e s' o H IH P E]; [right; exact O|].
  destruct IH as [[e0 [o0 [nick [Hi Hg]]]]|IH]; [left; exists e0, o0, nick; split; [right; exact Hi|exact Hg]|].
  destruct (gives_dec e) as [[nick Hg]|G]; [left; exists e, o, nick; split; [left; reflexivity|exact Hg]|].
  right. exact (step_ours s e s' o (runs_fine _ _ _ H F) P IH G E).
Qed.

Lemma asked s0 tr s e s' o n m : sruns polite s0 tr s -> polite e -> fine s0 -> sstep s e = (s', o) -> In (SServer n m) o -> m_command m = B "NICK" -> ~ spelled (target m).
Proof.
  intros H P F0 E Hi Hc. pose proof (runs_fine _ _ _ H F0) as F. pose proof (step_fine s e s' o F P E) as F'.
  destruct (step_server s e s' o n m E Hi) as [c x m0 tags text name _ _ Ht Hs|c x m0 nick r _ _ _ Hs|net _ Hn He|net _ Hn|mask r Hs|ps mask _ _|c m _ Hi'].
  - exact Hs.
  - exact Hs.
  - apply get_nick_fine; [exact F'|]. intros y Hy. assert (y = net) by congruence. subst y. rewrite He. exact nil_fine.
  - apply get_nick_fine; [exact F|]. intros y Hy. assert (y = net) by congruence. subst y. exact (nth_fine s n net F Hn).
  - discriminate Hc.
  - discriminate Hc.
  - rewrite Hi' in Hc. discriminate Hc.
Qed.

(** ** Texts of servers *)

Lemma trim_bare sigils t : bare sigils t (trim_left t sigils).
Proof.
  induction t as [|c t [pre [E [H1 H2]]]]; cbn [trim_left]; [exists []; split; [reflexivity|]; split; [intros ? []|discriminate]|].
  destruct (amem c sigils) eqn:A.
  - apply amem_In in A. exists (c :: pre). split; [cbn; congruence|]. split; [intros d [<-|Hd]; auto|exact H2].
  - apply amem_nIn in A. exists []. split; [reflexivity|]. split; [intros ? []|]. intros d r Hd. assert (d = c) by congruence. subst d. exact A.
Qed.
Lemma bare_unique sigils t a b : bare sigils t a -> bare sigils t b -> a = b.
Proof.
  revert a b. induction t as [|c t IH]; intros a b [p1 [E1 [A1 B1]]] [p2 [E2 [A2 B2]]].
  - symmetry in E1, E2. apply app_eq_nil in E1 as [_ ->]. apply app_eq_nil in E2 as [_ ->]. reflexivity.
  - destruct p1 as [|d1 p1], p2 as [|d2 p2]; cbn [app] in *.
    + congruence.
    + exfalso. apply (B1 c t (eq_sym E1)). assert (c = d2) by congruence. subst d2. apply A2. left. reflexivity.
    + exfalso. apply (B2 c t (eq_sym E2)). assert (c = d1) by congruence. subst d1. apply A1. left. reflexivity.
    + apply IH; [exists p1|exists p2]; (split; [congruence|]; split; [intros x Hx; (apply A1 + apply A2); right; exact Hx|assumption]).
Qed.

Lemma from_server s n net l m origin s' o t : nth_error (ss_nets s) n = Some net -> sn_link net = Some l -> textual m -> complete m -> bare (sl_status l) (target m) t ->
  sstep s (SMsg n m origin) = (s', o) ->
  s' = s /\ (spelled (source (sl_server l) m) \/ spelled t -> o = []) /\
  (~ spelled (source (sl_server l) m) -> ~ spelled t -> forall y, In y (ss_clients s) -> on_net n y = true -> sc_id y <> origin \/ sc_echo y = true \/ casemap (sn_cm net) (sl_nick l) <> casemap (sn_cm net) (source (sl_server l) m) ->
     (sc_id y <> 0)%N -> In (SClient (sc_id y) (sourced (sl_server l) m)) o) /\
  (forall c m', In (SClient c m') o -> m' = sourced (sl_server l) m /\ exists y, In y (ss_clients s) /\ on_net n y = true /\ sc_id y = c).
Proof.
  intros Hn Hl Ht [t0 [r [Ep Hr]]] Hb E. cbn [sstep] in E. rewrite Hn, Hl, (proj2 (is_text_textual m) Ht) in E. apply pair_equal_spec in E as [<- <-]. split; [reflexivity|].
  unfold server_text. rewrite Ep. assert (Ec : negb (beqb (m_command m) (B "TAGMSG")) && (match r with [] => true | _ => false end) = false).
  { destruct Hr as [->|Hr]; [reflexivity|]. destruct r; [congruence|apply Bool.andb_false_r]. }
  rewrite Ec. assert (Et : trim_left t0 (sl_status l) = t). { apply (bare_unique (sl_status l) t0); [apply trim_bare|]. unfold target in Hb. rewrite Ep in Hb. exact Hb. }
  rewrite Et. fold (source (sl_server l) m).
  change (Message (m_tags m) (Some (match m_prefix m with Some p => p | None => Prefix (sl_server l) [] [] end)) (m_command m) (t0 :: r)) with (Message (m_tags m) (Some (match m_prefix m with Some p => p | None => Prefix (sl_server l) [] [] end)) (m_command m) (t0 :: r)).
  rewrite <- Ep. fold (sourced (sl_server l) m).
  assert (Src : match m_prefix (sourced (sl_server l) m) with Some p => p_name p | None => [] end = source (sl_server l) m) by (unfold source, sourced; cbn; destruct (m_prefix m); reflexivity).
  assert (Prod : forall og, og = origin \/ og = 0%N -> ~ spelled (source (sl_server l) m) ->
    (forall y, In y (ss_clients s) -> on_net n y = true -> sc_id y <> origin \/ sc_echo y = true \/ casemap (sn_cm net) (sl_nick l) <> casemap (sn_cm net) (source (sl_server l) m) ->
       (sc_id y <> 0)%N -> In (SClient (sc_id y) (sourced (sl_server l) m)) (produce s n l (sn_cm net) (sourced (sl_server l) m) og))).
  { intros og Hog Hs y Hy Hyn Hc Hy0. unfold produce. apply in_flat_map. exists y. split; [exact Hy|]. rewrite Hyn. cbn [andb].
    assert (Eown : (match m_prefix (sourced (sl_server l) m) with Some p => beqb (casemap (sn_cm net) (sl_nick l)) (casemap (sn_cm net) (p_name p)) | None => false end) = beqb (casemap (sn_cm net) (sl_nick l)) (casemap (sn_cm net) (source (sl_server l) m))).
    { unfold source, sourced. cbn. destruct (m_prefix m); reflexivity. }
    rewrite Eown. destruct (negb _ || sc_echo y) eqn:Eb; [left; reflexivity|]. exfalso. apply Bool.orb_false_iff in Eb as [Eb1 Eb2]. apply Bool.negb_false_iff in Eb1. apply Bool.andb_true_iff in Eb1 as [Eb1 Eb3].
    apply N.eqb_eq in Eb1. apply beqb_eq in Eb3. destruct Hc as [Hc|[Hc|Hc]]; [|congruence|contradiction]. destruct Hog; congruence. }
  assert (Only : forall og c m', In (SClient c m') (produce s n l (sn_cm net) (sourced (sl_server l) m) og) -> m' = sourced (sl_server l) m /\ exists y, In y (ss_clients s) /\ on_net n y = true /\ sc_id y = c).
  { intros og c m' Hi. apply produce_client in Hi as [y [Hy [Hyn Hi]]]. split; [congruence|]. exists y. split; [exact Hy|]. split; [exact Hyn|congruence]. }
  destruct (beqb (casemap (sn_cm net) (source (sl_server l) m)) (casemap (sn_cm net) (B "BouncerServ"))) eqn:E1.
  { apply same_spelled in E1. split; [reflexivity|]. split; [intros H; contradiction|intros c m' []]. }
  assert (N1 : ~ spelled (source (sl_server l) m)) by (rewrite <- (same_spelled (sn_cm net)); congruence).
  destruct (beqb (casemap (sn_cm net) t) (casemap (sn_cm net) (B "BouncerServ"))) eqn:E2.
  { apply same_spelled in E2. split; [reflexivity|]. split; [intros _ H; contradiction|intros c m' []]. }
  assert (N2 : ~ spelled t) by (rewrite <- (same_spelled (sn_cm net)); congruence).
  split; [intros [H|H]; contradiction|].
  destruct (_ || _).
  - split; [|exact (Only 0%N)]. intros _ _. apply (Prod 0%N); auto.
  - split; [|exact (Only origin)]. intros _ _. apply (Prod origin); auto.
Qed.

(** ** The texts clients get *)

Lemma client_texts s e s' o c m p : sstep s e = (s', o) -> In (SClient c m) o -> textual m -> m_prefix m = Some p -> spelled (p_name p) ->
  (exists x, In x (ss_clients s) /\ p_name p = sc_nick x) \/ (exists net l, In net (ss_nets s) /\ sn_link net = Some l /\ p_name p = sl_nick l).
Proof.
  intros E H Ht Hp Hs.
  assert (Nn : forall x cmd ps, SClient x (msg cmd ps) = SClient c m -> False) by (intros x cmd ps Ex; assert (Em : m = msg cmd ps) by congruence; rewrite Em in Hp; discriminate Hp).
  assert (Un : forall s1 f, In (SClient c m) (snd (update_nicks s1 f)) -> False).
  { intros s1 f Hi. apply update_nicks_out in Hi as [x [_ [_ [_ Hi]]]]. assert (m_command m = B "NICK") by (apply (f_equal (fun o => match o with SClient _ x => m_command x | _ => [] end)) in Hi; exact Hi).
    unfold textual in Ht. rewrite H0 in Ht. destruct Ht as [Ht|[Ht|[Ht|[]]]]; discriminate Ht. }
  destruct e as [c0 net echo|c0 reg echo|c0|c0 m0|nick|k nick|nick|k|k nick server status echo|k|k cm|k m0 origin]; cbn [sstep] in E.
  - destruct (find_cl c0 _); apply pair_equal_spec in E as [<- <-]; destruct H.
  - destruct (find_cl c0 _); [apply pair_equal_spec in E as [<- <-]; destruct H|]. exfalso.
    destruct (bad_nick _); [apply pair_equal_spec in E as [<- <-]; destruct H as [H|[]]; exact (Nn _ _ _ H)|].
    destruct (beqb _ _); apply pair_equal_spec in E as [<- <-]; [destruct H as [H|[]]; exact (Nn _ _ _ H)|destruct H].
  - apply pair_equal_spec in E as [<- <-]. destruct H.
  - destruct (find_cl c0 (ss_clients s)) as [x|] eqn:F; [|apply pair_equal_spec in E as [<- <-]; destruct H].
    assert (Hx : In x (ss_clients s)) by (apply find_some in F; tauto).
    destruct (is_text (m_command m0)) eqn:It.
    { apply pair_equal_spec in E as [<- <-]. apply cmd_text_sends in H as [[text H]|[ps H]]; [|exfalso; exact (Nn _ _ _ (eq_sym H))].
      remember (SClient c m) as out eqn:Eo. destruct H as [?|num ps _|name|? ? ?|? ? ? ?|n net l y name En Et El Hy _ _]; try discriminate Eo.
      - exfalso. exact (Nn _ _ _ eq_refl).
      - left. exists x. split; [exact Hx|]. assert (Em : m_prefix m = Some (user_prefix (sc_nick x))) by (apply (f_equal (fun o => match o with SClient _ z => m_prefix z | _ => None end)) in Eo; symmetry; exact Eo). assert (p = user_prefix (sc_nick x)) by congruence. subst p. reflexivity.
      - right. exists net, l. split; [exact (nth_error_In _ _ Et)|]. split; [exact El|]. assert (Em : m_prefix m = Some (user_prefix (sl_nick l))) by (apply (f_equal (fun o => match o with SClient _ z => m_prefix z | _ => None end)) in Eo; symmetry; exact Eo). assert (p = user_prefix (sl_nick l)) by congruence. subst p. reflexivity. }
    exfalso. destruct (beqb (m_command m0) (B "NICK")).
    { unfold cmd_nick in E. destruct (m_params m0) as [|nick r]; [apply pair_equal_spec in E as [<- <-]; destruct H as [H|[]]; exact (Nn _ _ _ H)|].
      destruct (bad_nick nick); [apply pair_equal_spec in E as [<- <-]; destruct H as [H|[]]; exact (Nn _ _ _ H)|].
      destruct (beqb _ _); [apply pair_equal_spec in E as [<- <-]; destruct H as [H|[]]; exact (Nn _ _ _ H)|].
      destruct (sc_net x) as [k|].
      - destruct (nth_error (ss_nets s) k) as [net|]; [|apply pair_equal_spec in E as [<- <-]; destruct H]. destruct (sn_link net); [apply pair_equal_spec in E as [<- <-]; destruct H as [H|[]]; discriminate H|].
        apply (f_equal snd) in E. cbn [snd] in E. rewrite <- E in H. exact (Un _ _ H).
      - destruct (update_nicks _ unbound) as [s2 o2] eqn:Eu. apply pair_equal_spec in E as [_ <-]. apply in_app_or in H as [H|H].
        + destruct (beqb _ _); [destruct H|]. apply (asks_out_In s) in H as [j [net [_ [_ H]]]]. discriminate H.
        + apply (f_equal snd) in Eu. cbn [snd] in Eu. rewrite <- Eu in H. exact (Un _ _ H). }
    destruct (beqb _ _).
    { apply pair_equal_spec in E as [<- <-]. unfold cmd_who in H. destruct (m_params m0) as [|mask r]; [destruct H as [H|[]]; exact (Nn _ _ _ H)|].
      destruct (unbound x && _); [destruct H as [H|[H|[]]]; exact (Nn _ _ _ H)|]. destruct (beqb _ service_cm); [destruct H as [H|[H|[]]]; exact (Nn _ _ _ H)|].
      destruct (sc_net x); [|destruct H as [H|[]]; exact (Nn _ _ _ H)]. destruct (link_for s x); destruct H as [H|[]]; [discriminate H|exact (Nn _ _ _ H)]. }
    destruct (beqb _ _).
    { apply pair_equal_spec in E as [<- <-]. unfold cmd_whois in H. destruct (whois_mask _) as [mask|]; [|destruct H as [H|[]]; exact (Nn _ _ _ H)].
      destruct (unbound x && _); [destruct H as [H|[H|[]]]; exact (Nn _ _ _ H)|]. destruct (beqb _ service_cm); [destruct H as [H|[H|[]]]; exact (Nn _ _ _ H)|].
      destruct (sc_net x); [|destruct H as [H|[]]; exact (Nn _ _ _ H)]. destruct (link_for s x); destruct H as [H|[]]; [discriminate H|exact (Nn _ _ _ H)]. }
    destruct (beqb _ _); [|apply pair_equal_spec in E as [<- <-]; destruct H]. apply pair_equal_spec in E as [<- <-]. unfold cmd_invite in H.
    destruct (sc_net x); [|destruct H as [H|[]]; exact (Nn _ _ _ H)]. destruct (link_for s x); destruct H as [H|[]]; [discriminate H|exact (Nn _ _ _ H)].
  - exfalso. unfold user_nick in E. apply pair_equal_spec in E as [_ <-]. destruct (beqb _ _); [destruct H|]. apply (asks_out_In s) in H as [j [net [_ [_ H]]]]. discriminate H.
  - apply pair_equal_spec in E as [<- <-]. destruct H.
  - apply pair_equal_spec in E as [<- <-]. destruct H.
  - destruct (nth_error (ss_nets s) k); apply pair_equal_spec in E as [<- <-]; [destruct H as [H|[]]; discriminate H|destruct H].
  - destruct (nth_error (ss_nets s) k) as [net|]; [|apply pair_equal_spec in E as [<- <-]; destruct H]. exfalso. apply (f_equal snd) in E. cbn [snd] in E. rewrite <- E in H. exact (Un _ _ H).
  - destruct (nth_error (ss_nets s) k); apply pair_equal_spec in E as [<- <-]; destruct H.
  - destruct (nth_error (ss_nets s) k); apply pair_equal_spec in E as [<- <-]; destruct H.
  - exfalso. destruct (nth_error (ss_nets s) k) as [net|] eqn:En; [|apply pair_equal_spec in E as [<- <-]; destruct H]. destruct (sn_link net) as [l|] eqn:El; [|apply pair_equal_spec in E as [<- <-]; destruct H].
    destruct (is_text (m_command m0)) eqn:It.
    { apply pair_equal_spec in E as [<- <-]. unfold server_text in H. destruct (m_params m0) as [|t r]; [destruct H|].
      destruct (negb _ && _); [destruct H|]. destruct (beqb (casemap (sn_cm net) (match m_prefix m0 with Some p => p_name p | None => sl_server l end)) (casemap (sn_cm net) (B "BouncerServ"))) eqn:E1; [destruct H|].
      destruct (beqb (casemap (sn_cm net) (trim_left t (sl_status l))) (casemap (sn_cm net) (B "BouncerServ"))) eqn:E2; [destruct H|].
      assert (Hm : m = Message (m_tags m0) (Some (match m_prefix m0 with Some p => p | None => Prefix (sl_server l) [] [] end)) (m_command m0) (t :: r)).
      { destruct (_ || _); apply produce_client in H as [y [_ [_ H]]]; congruence. }
      assert (Ns : ~ spelled (match m_prefix m0 with Some p => p_name p | None => sl_server l end)) by (rewrite <- (same_spelled (sn_cm net)); congruence).
      apply Ns. rewrite Hm in Hp. cbn in Hp. destruct (m_prefix m0); [assert (p = p0) by congruence; subst p0; exact Hs|]. assert (p = Prefix (sl_server l) [] []) by congruence. subst p. exact Hs. }
    destruct (beqb_spec (m_command m0) (B "NICK")) as [Ec|_]; [|apply pair_equal_spec in E as [<- <-]; destruct H]. unfold server_nick in E. destruct (m_params m0) as [|nick r]; [apply pair_equal_spec in E as [<- <-]; destruct H|].
    destruct (beqb _ _); [apply (f_equal snd) in E; cbn [snd] in E; rewrite <- E in H; exact (Un _ _ H)|]. apply pair_equal_spec in E as [<- <-].
    apply in_flat_map in H as [y [_ H]]. destruct (on_net k y); [|destruct H]. destruct H as [H|[]]. assert (m = m0) by congruence. subst m0.
    unfold textual in Ht. rewrite Ec in Ht. destruct Ht as [Ht|[Ht|[Ht|[]]]]; discriminate Ht.
Qed.

(** ** Where the targets of a text go *)

Lemma spelledb_spelled x : spelledb x = true <-> spelled x.
Proof. unfold spelledb, spelled. apply beqb_eq. Qed.
Lemma service_spelledb cm x : beqb (casemap cm x) service_cm = spelledb x.
Proof.
  destruct (spelledb x) eqn:E.
  - apply service_spelled. apply spelledb_spelled. exact E.
  - apply not_spelled. rewrite <- spelledb_spelled. congruence.
Qed.

Lemma servers_app a b : servers (a ++ b) = servers a ++ servers b.
Proof. unfold servers. apply flat_map_app. Qed.
Lemma runs_app a b : runs (a ++ b) = runs a ++ runs b.
Proof. unfold runs. apply flat_map_app. Qed.
Lemma produce_none s n l cm m origin : servers (produce s n l cm m origin) = [] /\ runs (produce s n l cm m origin) = [].
Proof.
  unfold produce. induction (ss_clients s) as [|y r [I1 I2]]; [split; reflexivity|]. cbn [flat_map]. rewrite servers_app, runs_app, I1, I2. destruct (on_net n y && _); split; reflexivity.
Qed.

Lemma run_none c text : servers (map (SRun c) text) = [] /\ runs (map (SRun c) text) = map (pair c) text.
Proof. induction text as [|t text [I1 I2]]; [split; reflexivity|]. cbn [map]. split; [exact I1|]. unfold runs in *. cbn [flat_map app]. rewrite I2. reflexivity. Qed.

Lemma send_split s x tags cmd text n net l : sc_net x = Some n -> nth_error (ss_nets s) n = Some net -> sn_link net = Some l ->
  forall names, (forall name, In name names -> has_prefix name (B "$") = false) ->
  servers (send_text s x tags cmd text names) = map (fun name => (n, Message tags None cmd (name :: text))) (filter (fun name => negb (spelledb name)) names) /\
  runs (send_text s x tags cmd text names) = flat_map (fun _ => if beqb cmd (B "PRIVMSG") then map (pair (sc_id x)) text else []) (filter spelledb names).
Proof.
  intros En Et El. induction names as [|name r IH]; intros Hn; [split; reflexivity|]. cbn [send_text].
  assert (Hd : forall a, beqb name ("$"%char :: a) = false).
  { intros a. apply beqb_neq. intros ->. specialize (Hn _ (or_introl eq_refl)). discriminate Hn. }
  change (B "$*") with ("$"%char :: B "*"). rewrite !Hd. cbn [andb orb]. assert (Hu : unbound x = false) by (unfold unbound; rewrite En; reflexivity). rewrite Hu. cbn [andb].
  rewrite service_spelledb. destruct IH as [I1 I2]; [intros y Hy; apply Hn; right; exact Hy|]. cbn [filter]. destruct (spelledb name); cbn [negb].
  - rewrite !servers_app, !runs_app, I1, I2. destruct (run_none (sc_id x) text) as [R1 R2]. cbn [flat_map]. split.
    + destruct (sc_echo x), (beqb cmd (B "PRIVMSG")); rewrite ?R1; reflexivity.
    + destruct (sc_echo x), (beqb cmd (B "PRIVMSG")); rewrite ?R2; reflexivity.
  - unfold net_of. rewrite En, Et, El. destruct (produce_none s n l (sn_cm net) (Message tags (Some (user_prefix (sl_nick l))) cmd (name :: text)) (sc_id x)) as [P1 P2].
    split.
    + cbn [map]. unfold servers at 1. cbn [flat_map app]. f_equal. fold (servers ((if sl_echo l then [] else produce s n l (sn_cm net) (Message tags (Some (user_prefix (sl_nick l))) cmd (name :: text)) (sc_id x)) ++ send_text s x tags cmd text r)).
      rewrite servers_app, I1. destruct (sl_echo l); [reflexivity|]. rewrite P1. reflexivity.
    + unfold runs at 1. cbn [flat_map app]. fold (runs ((if sl_echo l then [] else produce s n l (sn_cm net) (Message tags (Some (user_prefix (sl_nick l))) cmd (name :: text)) (sc_id x)) ++ send_text s x tags cmd text r)).
      rewrite runs_app, I2. destruct (sl_echo l); [reflexivity|]. rewrite P2. reflexivity.
Qed.
