(** Proofs about the lines that reach a server. *)
From Verif.Base Require Import Bytes.
From Verif.Model Require Import Message Roster Robust Lines.
From Verif.Model Require ChanView Detach.
From Verif.Spec Require Import Lines.
From Coq Require Import Lia.

Definition cr : ascii := "013"%char.

Section Ends.
Variable ends : ascii -> bool.
Hypothesis ends_space : ends " " = false.
Hypothesis ends_colon : ends ":" = false.
Hypothesis ends_bang : ends "!" = false.
Hypothesis ends_at : ends "@" = false.
Hypothesis ends_upper : forall c, ends c = false -> ends (upper_byte c) = false.

Definition clean (s : bytes) : Prop := Forall (fun c => ends c = false) s.

Lemma clean_app a b : clean (a ++ b) <-> clean a /\ clean b.
Proof. apply Forall_app. Qed.

Lemma clean_split sep s : clean s -> Forall clean (split_on sep s).
Proof.
  induction s as [|c s IH]; intros H; cbn [split_on]; [constructor; [constructor|constructor]|]. inversion H; subst.
  destruct (aeqb c sep); [constructor; [constructor|auto]|]. specialize (IH H3). destruct (split_on sep s) as [|w ws]; [repeat constructor; assumption|].
  inversion IH; subst. constructor; [constructor; assumption|assumption].
Qed.

Lemma clean_space s : clean s -> Forall clean (split_space s).
Proof.
  intros H. apply (clean_split " ") in H. unfold split_space. apply Forall_forall. intros x Hx. apply filter_In in Hx.
  exact (proj1 (Forall_forall _ _) H x (proj1 Hx)).
Qed.

Lemma clean_cut sep s : clean s -> clean (fst (cut_on sep s)) /\ match snd (cut_on sep s) with Some r => clean r | None => True end.
Proof.
  induction s as [|c s IH]; intros H; cbn [cut_on]; [split; [constructor|exact I]|]. inversion H; subst.
  destruct (aeqb c sep); [split; [constructor|assumption]|]. specialize (IH H3). destruct (cut_on sep s) as [a b]. cbn [fst snd] in *.
  split; [constructor; tauto|tauto].
Qed.

Lemma clean_cut_trailing s : clean s -> clean (fst (cut_trailing s)) /\ match snd (cut_trailing s) with Some r => clean r | None => True end.
Proof.
  induction s as [|a [|b s] IH]; intros H; [split; [constructor|exact I]|split; [exact H|exact I]|].
  change (cut_trailing (a :: b :: s)) with (if aeqb a " " && aeqb b ":" then ([], Some s) else let (x, y) := cut_trailing (b :: s) in (a :: x, y)).
  inversion H as [|? ? Ha Hb]; subst. destruct (aeqb a " " && aeqb b ":"); [split; [constructor|inversion Hb; assumption]|].
  specialize (IH Hb). destruct (cut_trailing (b :: s)) as [x y]. cbn [fst snd] in *. split; [constructor; tauto|tauto].
Qed.

Lemma clean_trim s cut : clean s -> clean (Detach.trim_left s cut).
Proof. induction s as [|c s IH]; intros H; cbn [Detach.trim_left]; [constructor|]. inversion H; subst. destruct (amem c cut); [auto|exact H]. Qed.

Definition clean_prefix (p : prefix) : Prop := clean (p_name p) /\ clean (p_user p) /\ clean (p_host p).
Definition clean_message (m : message) : Prop :=
  match m_prefix m with Some p => clean_prefix p | None => True end /\ clean (m_command m) /\ m_command m <> [] /\ Forall clean (m_params m).

Lemma clean_parse_prefix s : clean s -> clean_prefix (ChanView.parse_prefix s).
Proof.
  intros H. unfold ChanView.parse_prefix, clean_prefix. cbn [p_name p_user p_host].
  destruct (clean_cut "@" s H) as [A B]. destruct (clean_cut "!" _ A) as [C D].
  split; [exact C|]. split; [destruct (snd (cut_on "!" _)); [exact D|constructor]|destruct (snd (cut_on "@" s)); [exact B|constructor]].
Qed.

Lemma clean_body tags p line m : match p with Some p => clean_prefix p | None => True end -> clean line -> parse_body tags p line = Some m -> clean_message m.
Proof.
  intros Hp H E. unfold parse_body in E. pose proof (clean_cut_trailing line H) as [A C]. destruct (cut_trailing line) as [mid tr]. cbn [fst snd] in *.
  pose proof (clean_space mid A) as S. destruct (split_space mid) as [|cmd ps] eqn:Es; [discriminate|]. injection E as <-. inversion S as [|? ? S1 S2]; subst.
  split; [exact Hp|]. cbn [m_command m_params]. split.
  { unfold to_upper, clean. apply Forall_map. revert S1. apply Forall_impl. exact ends_upper. }
  split.
  { assert (K : In cmd (split_space mid)) by (rewrite Es; left; reflexivity). unfold split_space in K. apply filter_In in K. destruct cmd; [destruct K as [_ K]; discriminate K|discriminate]. }
  apply Forall_app. split; [exact S2|]. destruct tr; [constructor; [exact C|constructor]|constructor].
Qed.

Lemma clean_source tags line m : clean line -> parse_source tags line = Some m -> clean_message m.
Proof.
  intros H E. destruct line as [|c r]; [discriminate|]. cbn [parse_source] in E. destruct (aeqb c ":").
  - inversion H as [|? ? _ Hr]; subst. pose proof (clean_cut " " r Hr) as [A C]. destruct (cut_on " " r) as [src [rest|]]; [|discriminate]. cbn [fst snd] in *.
    apply (clean_body _ (Some (ChanView.parse_prefix src)) _ _ (clean_parse_prefix src A) (clean_trim rest _ C) E).
  - exact (clean_body _ None _ _ I H E).
Qed.

Lemma clean_parse tags_of line m : clean (trim_eol line) -> parse_line tags_of line = Some m -> clean_message m.
Proof.
  intros H E. unfold parse_line in E. destruct (trim_eol line) as [|c r]; [discriminate|]. destruct (aeqb c "@").
  - inversion H as [|? ? _ Hr]; subst. pose proof (clean_cut " " r Hr) as [A C]. destruct (cut_on " " r) as [t [rest|]]; [|discriminate]. cbn [fst snd] in *.
    exact (clean_source _ _ _ (clean_trim rest _ C) E).
  - exact (clean_source _ _ _ H E).
Qed.

Lemma clean_relay m : clean_message m -> Forall clean_message (relay m).
Proof.
  intros (P & C & N & A). unfold relay. destruct (beqb _ _ || beqb _ _).
  - destruct (m_params m) as [|targets [|text rest]]; [constructor|constructor|]. inversion A as [|? ? A1 A2]; subst. inversion A2; subst.
    apply Forall_map. pose proof (clean_split "," targets A1) as S. revert S. apply Forall_impl. intros name Hn.
    split; [exact I|]. cbn [m_command m_params]. split; [exact C|]. split; [exact N|]. repeat constructor; assumption.
  - constructor; [|constructor]. split; [exact P|]. split; [exact C|]. split; [exact N|exact A].
Qed.

Lemma clean_trailing t : clean t -> clean (format_trailing t).
Proof.
  intros H. assert (S : clean [" "; ":"]%char) by (repeat constructor; assumption). unfold format_trailing. destruct t as [|c t]; [exact S|].
  destruct (aeqb c ":" || amem " " (c :: t)); [apply clean_app; split; [exact S|exact H]|constructor; assumption].
Qed.

Lemma clean_params ps : Forall clean ps -> clean (format_params ps).
Proof.
  induction ps as [|p [|q ps] IH]; intros H; [constructor|inversion H; subst; apply clean_trailing; assumption|].
  inversion H; subst. change (format_params (p :: q :: ps)) with (" "%char :: p ++ format_params (q :: ps)).
  constructor; [exact ends_space|]. apply clean_app. split; [assumption|auto].
Qed.

Lemma clean_format m : clean_message m -> clean (format_message m) /\ format_message m <> [].
Proof.
  intros (P & C & N & A). unfold format_message. split.
  - apply clean_app. split.
    + destruct (m_prefix m) as [p|]; [|constructor]. destruct P as (P1 & P2 & P3). constructor; [exact ends_colon|]. apply clean_app.
      split; [|repeat constructor; exact ends_space]. unfold format_prefix. apply clean_app. split; [exact P1|]. apply clean_app.
      split; [destruct (p_user p); [constructor|constructor; [exact ends_bang|exact P2]]|destruct (p_host p); [constructor|constructor; [exact ends_at|exact P3]]].
    + apply clean_app. split; [exact C|apply clean_params; exact A].
  - destruct (m_command m); [contradiction|]. destruct (m_prefix m); [discriminate|discriminate].
Qed.

Lemma reads_clean s : forall cur rest, clean s -> server_reads ends (s ++ rest) cur = server_reads ends rest (cur ++ s).
Proof.
  induction s as [|c s IH]; intros cur rest H; [rewrite app_nil_r; reflexivity|]. inversion H as [|? ? H1 H2]; subst. cbn [app server_reads]. rewrite H1.
  rewrite IH by assumption. rewrite <- app_assoc. reflexivity.
Qed.

Lemma clean_read_all tags_of lines : Forall (fun l => clean (trim_eol l)) lines -> Forall clean_message (read_all tags_of lines).
Proof.
  induction lines as [|l lines IH]; intros H; cbn [read_all]; [constructor|]. inversion H; subst. destruct (parse_line tags_of l) as [m|] eqn:E; [|constructor].
  constructor; [exact (clean_parse tags_of l m H2 E)|auto].
Qed.

Lemma clean_relay_all l : Forall clean_message l -> Forall clean_message (flat_map relay l).
Proof. induction l as [|m l IH]; intros H; cbn [flat_map]; [constructor|]. inversion H; subst. apply Forall_app. split; [apply clean_relay; assumption|auto]. Qed.
End Ends.

(** ** Servers that end lines with LF *)
Lemma strict_upper c : strict c = false -> strict (upper_byte c) = false.
Proof.
  pose proof (byte_forall (fun c => strict c || negb (strict (upper_byte c)))) as H. intros S.
  specialize (H ltac:(vm_compute; reflexivity) c). cbn beta in H. rewrite S in H. destruct (strict (upper_byte c)); [discriminate H|reflexivity].
Qed.

Lemma lenient_upper c : lenient c = false -> lenient (upper_byte c) = false.
Proof.
  pose proof (byte_forall (fun c => lenient c || negb (lenient (upper_byte c)))) as H. intros S.
  specialize (H ltac:(vm_compute; reflexivity) c). cbn beta in H. rewrite S in H. destruct (lenient (upper_byte c)); [discriminate H|reflexivity].
Qed.

Lemma strict_written l : Forall (clean_message strict) l -> server_reads strict (write_all l) [] = map (fun m => format_message m ++ [cr]) l.
Proof.
  induction l as [|m l IH]; intros H; [reflexivity|]. inversion H; subst. unfold write_all. cbn [flat_map map]. fold (write_all l).
  destruct (clean_format strict eq_refl eq_refl eq_refl eq_refl m H2) as [C N]. rewrite <- app_assoc, (reads_clean strict _ _ _ C). cbn [app crlf server_reads].
  change (strict "013") with false. change (strict "010") with true. cbn iota. rewrite <- (IH H3).
  destruct (format_message m ++ ["013"%char]) eqn:E; [destruct (format_message m); discriminate E|]. rewrite <- E. reflexivity.
Qed.

Lemma trim_lf s : clean strict s -> clean strict (trim_eol (s ++ [lf])).
Proof.
  intros H. unfold trim_eol. rewrite rev_app_distr. cbn [rev app Detach.trim_left]. change (amem lf crlf) with true. cbn iota.
  unfold clean. apply Forall_rev. apply clean_trim. apply Forall_rev. exact H.
Qed.

Lemma read_lines_strict s : forall cur, clean strict cur -> Forall (fun l => clean strict (trim_eol l)) (read_lines s cur).
Proof.
  induction s as [|c s IH]; intros cur H; cbn [read_lines]; [constructor|]. destruct (aeqb_spec c lf) as [->|E].
  - constructor; [apply trim_lf; exact H|apply IH; constructor].
  - apply IH. apply clean_app. split; [exact H|]. constructor; [|constructor]. unfold strict. apply aeqb_neq. exact E.
Qed.

Theorem one_line tags_of stream : let ms := flat_map relay (read_tcp tags_of stream) in
  server_reads strict (write_all ms) [] = map (fun m => format_message m ++ [cr]) ms.
Proof.
  cbv zeta. apply strict_written. apply (clean_relay_all strict). unfold read_tcp.
  apply (clean_read_all strict strict_upper). apply read_lines_strict. constructor.
Qed.

(** ** Servers that end lines with CR too *)
Lemma lenient_written l : Forall (clean_message lenient) l -> server_reads lenient (write_all l) [] = map format_message l.
Proof.
  induction l as [|m l IH]; intros H; [reflexivity|]. inversion H; subst. unfold write_all. cbn [flat_map map]. fold (write_all l).
  destruct (clean_format lenient eq_refl eq_refl eq_refl eq_refl m H2) as [C N]. rewrite <- app_assoc, (reads_clean lenient _ _ _ C). cbn [app crlf server_reads].
  change (lenient "013") with true. change (lenient "010") with true. cbn iota. rewrite (IH H3).
  destruct (format_message m) eqn:E; [contradiction|reflexivity].
Qed.

Lemma trim_crlf s : clean lenient s -> clean lenient (trim_eol (s ++ [lf])) /\ clean lenient (trim_eol (s ++ [cr] ++ [lf])).
Proof.
  intros H. assert (K : clean lenient (rev (Detach.trim_left (rev s) crlf))) by (unfold clean; apply Forall_rev; apply clean_trim; apply Forall_rev; exact H).
  unfold trim_eol. rewrite !rev_app_distr. cbn [rev app Detach.trim_left]. change (amem lf crlf) with true. change (amem cr crlf) with true. cbn iota. auto.
Qed.

Lemma read_lines_lenient s : forall cur, proper s ->
  clean lenient cur \/ (exists x s', cur = x ++ [cr] /\ s = lf :: s' /\ clean lenient x) -> Forall (fun l => clean lenient (trim_eol l)) (read_lines s cur).
Proof.
  induction s as [|c s IH]; intros cur P H; cbn [read_lines]; [constructor|]. destruct P as [P1 P2]. destruct (aeqb_spec c lf) as [->|E].
  - constructor; [|apply IH; [exact P2|left; constructor]]. destruct H as [H|(x & s' & -> & _ & H)]; [apply trim_crlf; exact H|].
    rewrite <- app_assoc. apply trim_crlf. exact H.
  - destruct H as [H|(x & s' & _ & K & _)]; [|injection K as K _; contradiction]. apply IH; [exact P2|].
    destruct (aeqb_spec c cr) as [->|F].
    + right. destruct (P1 eq_refl) as (s' & ->). exists cur, s'. auto.
    + left. apply clean_app. split; [exact H|]. constructor; [|constructor]. unfold lenient. apply orb_false_iff. split; apply aeqb_neq; assumption.
Qed.

Theorem one_line_lenient tags_of stream : proper stream -> let ms := flat_map relay (read_tcp tags_of stream) in
  server_reads lenient (write_all ms) [] = map format_message ms.
Proof.
  intros P. cbv zeta. apply lenient_written. apply (clean_relay_all lenient). unfold read_tcp.
  apply (clean_read_all lenient lenient_upper). apply read_lines_lenient; [exact P|left; constructor].
Qed.

(** ** Frames with line ends *)
Fixpoint letters (n : nat) : bytes := match n with O => ["a"%char] | S n => "a"%char :: lf :: letters n end.
Definition frame (n : nat) : bytes := B "PRIVMSG x :" ++ letters n.

Lemma letters_end n : exists s, letters n = s ++ ["a"%char].
Proof. induction n as [|n (s & IH)]; [exists []; reflexivity|]. exists ("a"%char :: lf :: s). cbn [letters app]. rewrite IH. reflexivity. Qed.

Lemma letters_space n : amem " " (letters n) = false.
Proof. induction n as [|n IH]; [reflexivity|]. cbn [letters amem]. change (aeqb " " "a") with false. change (aeqb " " lf) with false. exact IH. Qed.

Lemma frame_parse tags_of n : parse_line tags_of (frame n) = Some (Message [] None (B "PRIVMSG") [B "x"; letters n]).
Proof.
  assert (T : trim_eol (frame n) = frame n).
  { unfold frame, trim_eol. destruct (letters_end n) as (s & ->). rewrite app_assoc, rev_app_distr. cbn [rev app Detach.trim_left].
    change (amem "a" crlf) with false. cbn iota. cbn [rev]. rewrite rev_involutive. reflexivity. }
  unfold parse_line. rewrite T. unfold frame. reflexivity.
Qed.

Lemma letters_read n : forall cur, cur <> [] -> length (server_reads strict (lf :: letters n ++ crlf) cur) = S (S n).
Proof.
  induction n as [|n IH]; intros cur H; (destruct cur as [|c cur]; [contradiction|]).
  - reflexivity.
  - cbn [letters app server_reads]. change (strict lf) with true. change (strict "a") with false. cbn iota. cbn [app length]. f_equal.
    exact (IH ["a"%char] ltac:(discriminate)).
Qed.

Theorem many_lines tags_of n : exists m, read_websocket tags_of [frame n] = [m] /\ length (relay m) = 1 /\
  length (server_reads strict (write_all (relay m)) []) = S n.
Proof.
  exists (Message [] None (B "PRIVMSG") [B "x"; letters n]). split; [unfold read_websocket; cbn [read_all]; rewrite frame_parse; reflexivity|].
  split; [reflexivity|]. change (relay _) with [Message [] None (B "PRIVMSG") [B "x"; letters n]].
  unfold write_all. cbn [flat_map]. rewrite app_nil_r. unfold format_message. cbn [m_prefix m_command m_params app].
  change (format_params [B "x"; letters n]) with (" "%char :: B "x" ++ format_trailing (letters n)).
  assert (F : format_trailing (letters n) = " "%char :: letters n).
  { pose proof (letters_space n) as S. unfold format_trailing. destruct n as [|n]; [reflexivity|]. cbn [letters] in *. rewrite S. reflexivity. }
  rewrite F. destruct n as [|n]; [reflexivity|]. cbn [letters].
  change ((B "PRIVMSG" ++ " "%char :: B "x" ++ " "%char :: "a"%char :: lf :: letters n) ++ crlf) with (B "PRIVMSG x a" ++ lf :: letters n ++ crlf).
  rewrite (reads_clean strict); [|repeat constructor]. cbn [app]. apply (letters_read n). discriminate.
Qed.

Theorem one_line_frames tags_of frames : Forall (fun f => ~ In lf f) frames -> let ms := flat_map relay (read_websocket tags_of frames) in
  server_reads strict (write_all ms) [] = map (fun m => format_message m ++ [cr]) ms.
Proof.
  intros P. cbv zeta. apply strict_written. apply (clean_relay_all strict). unfold read_websocket. apply (clean_read_all strict strict_upper).
  revert P. apply Forall_impl. intros f N. unfold trim_eol, clean. apply Forall_rev. apply clean_trim. apply Forall_rev. apply Forall_forall. intros c Hc.
  unfold strict. apply aeqb_neq. intros ->. exact (N Hc).
Qed.
