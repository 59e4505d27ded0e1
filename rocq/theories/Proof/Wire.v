From Verif.Base Require Import Bytes.
From Verif.Model Require Import Message.
From Verif.Spec Require Import Wire.

Lemma words_mid w s acc :
  ~ In " "%char w -> words (w ++ s) (Some acc) = words s (Some (acc ++ w)).
Proof.
  revert acc; induction w as [|c w IH]; intros acc H; simpl.
  - rewrite app_nil_r. reflexivity.
  - destruct (aeqb_spec c " ") as [->|_]; [exfalso; apply H; left; reflexivity|].
    rewrite IH by (intros Hx; apply H; right; exact Hx). rewrite <- app_assoc. reflexivity.
Qed.

Lemma words_word w s : word w -> words (w ++ " "%char :: s) None = w :: words (" "%char :: s) None.
Proof.
  intros (H1 & H2 & H3). destruct w as [|c w]; [congruence|]. simpl.
  destruct (aeqb_spec c " ") as [->|_]; [exfalso; apply H2; left; reflexivity|].
  destruct (aeqb_spec c ":") as [->|_]; [exfalso; eapply H3; reflexivity|].
  rewrite words_mid by (intros Hx; apply H2; right; exact Hx). simpl. reflexivity.
Qed.

Lemma words_last w : word w -> words w None = [w].
Proof.
  intros (H1 & H2 & H3). destruct w as [|c w]; [congruence|]. simpl.
  destruct (aeqb_spec c " ") as [->|_]; [exfalso; apply H2; left; reflexivity|].
  destruct (aeqb_spec c ":") as [->|_]; [exfalso; eapply H3; reflexivity|].
  rewrite <- (app_nil_r w). rewrite words_mid by (intros Hx; apply H2; right; exact Hx).
  simpl. rewrite app_nil_r. reflexivity.
Qed.

Lemma words_trailing t : words (format_trailing t) None = [t].
Proof.
  unfold format_trailing. destruct t as [|c t]; [reflexivity|].
  destruct (aeqb_spec c ":") as [->|Hc]; [reflexivity|]. cbn [orb].
  destruct (amem " " (c :: t)) eqn:E; [reflexivity|].
  change (words (c :: t) None = [c :: t]). apply words_last. split; [discriminate|].
  split; [apply amem_nIn; exact E|]. intros r H. congruence.
Qed.

Lemma format_params_space ps : ps <> [] -> exists s, format_params ps = " "%char :: s.
Proof.
  destruct ps as [|p [|q ps]]; intros H; [congruence| |eexists; reflexivity].
  simpl. unfold format_trailing. destruct p as [|c r]; [eexists; reflexivity|].
  destruct (_ || _); eexists; reflexivity.
Qed.

Lemma words_params ps t : Forall word ps -> words (format_params (ps ++ [t])) None = ps ++ [t].
Proof.
  induction 1 as [|p ps Hp _ IH]; [apply words_trailing|].
  cbn [app]. destruct (ps ++ [t]) as [|q qs] eqn:E; [destruct ps; discriminate|].
  change (format_params (p :: q :: qs)) with (" "%char :: p ++ format_params (q :: qs)).
  destruct (format_params_space (q :: qs) ltac:(discriminate)) as [s Hs]. rewrite Hs.
  change (words (p ++ " "%char :: s) None = p :: q :: qs).
  rewrite (words_word p s Hp). rewrite <- Hs, IH. reflexivity.
Qed.

(** A line without parameters problems is read back as it was written. *)
Lemma parse_format cmd ps t :
  word cmd -> Forall word ps -> parse_line (format_message (msg cmd (ps ++ [t]))) = Some (msg cmd (ps ++ [t])).
Proof.
  intros Hc Hp. unfold parse_line, format_message. cbn [m_prefix msg m_command m_params app].
  assert (Hne : ps ++ [t] <> []) by (destruct ps; discriminate).
  destruct (format_params_space (ps ++ [t]) Hne) as [s Hs].
  rewrite Hs, (words_word cmd s Hc), <- Hs, (words_params ps t Hp). reflexivity.
Qed.

Lemma parse_format_all cmd ps :
  word cmd -> Forall word ps -> ps <> [] -> parse_line (format_message (msg cmd ps)) = Some (msg cmd ps).
Proof.
  intros Hc Hp Hne. destruct (exists_last Hne) as (ps' & t & ->). apply parse_format; [exact Hc|].
  apply Forall_app in Hp. apply Hp.
Qed.
