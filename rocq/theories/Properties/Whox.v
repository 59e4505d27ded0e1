(** Property C12. *)
From Verif.Base Require Import Bytes.
From Verif.Model Require Import Message Whox.
From Verif.Spec Require Import Wire Whox.
From Verif.Proof Require Whox.

(** C12: sending a reply over the wire and parsing it with the same field set
    conveys every requested field and nothing else. *)
Theorem C12_whox_roundtrip :
  forall fields i,
    fields <> [] ->
    (forall k p, In (k, p) info_fields -> In k fields -> sendable k (p i)) ->
    exists m i',
      parse_line (format_message (generate_whox fields i)) = Some m /\
      parse_whox_reply m fields = Some i' /\
      forall k p, In (k, p) info_fields ->
        (In k fields -> conveys k (p i) (p i')) /\ (~ In k fields -> p i' = []).
Proof.
  intros fields i Hne Hs. exists (generate_whox fields i).
  destruct (Proof.Whox.whox_fill_spec (filter (fun k => amem k fields) whox_fields) whox_zero (whox_get i) []
              (Proof.Whox.requested_nodup fields)) as (i' & E & Hi).
  exists i'. split; [exact (Proof.Whox.whox_wire fields i Hne Hs)|]. split.
  - destruct fields as [|c f]; [congruence|]. unfold parse_whox_reply, generate_whox.
    rewrite app_nil_r in E. exact E.
  - intros k p Hin. rewrite (Hi k p Hin).
    assert (Hk : In k whox_fields).
    { simpl in Hin. repeat (destruct Hin as [Hin|Hin]; [injection Hin as <- _; vm_compute; tauto|]). destruct Hin. }
    destruct (amem k (filter (fun k => amem k fields) whox_fields)) eqn:Ek.
    + apply amem_In, filter_In in Ek as [_ Ek]. apply amem_In in Ek.
      split; [intros _; apply Proof.Whox.whox_get_conveys; exact Hin|contradiction].
    + apply amem_nIn in Ek. rewrite filter_In, amem_In in Ek. split; [tauto|]. intros _.
      simpl in Hin. repeat (destruct Hin as [Hin|Hin]; [injection Hin as _ <-; reflexivity|]). destruct Hin.
Qed.
Print Assumptions C12_whox_roundtrip.

(** WHOX option strings are split into lower-case fields and, when the token
    field is requested, the token. *)
Theorem C12_whox_options :
  forall flags fields token,
    ~ In "%"%char flags -> ~ In ","%char fields ->
    parse_whox_options (flags ++ "%"%char :: fields ++ ","%char :: token) =
      (map lower_byte fields, if amem "t" (map lower_byte fields) then token else []) /\
    parse_whox_options (flags ++ "%"%char :: fields) = (map lower_byte fields, []) /\
    parse_whox_options flags = ([], []).
Proof.
  intros flags fields token H1 H2. unfold parse_whox_options.
  rewrite !(cut_on_app "%" flags) by exact H1. rewrite (cut_on_app "," fields token H2).
  rewrite (cut_on_nosep "," fields H2), (cut_on_nosep "%" flags H1). repeat split.
Qed.
Print Assumptions C12_whox_options.

Example C12_nonvacuous :
  let i := WhoxInfo (B "42") [] (B "bob") (B "::1") (B "srv") (B "Bob") (B "H") [] (B "Real Name") in
  format_message (generate_whox (B "rnahtc") i) = B "354 * 42 * 0::1 Bob 0 :Real Name" /\
  (forall k p, In (k, p) info_fields -> In k (B "rnahtc") -> sendable k (p i)).
Proof.
  intros i. split; [vm_compute; reflexivity|]. intros k p Hin _. simpl in Hin.
  repeat (destruct Hin as [Hin|Hin]; [injection Hin as <- <-; unfold sendable; simpl; try exact I;
    (split; [intuition discriminate|split; [intros; discriminate || (simpl in *; intuition discriminate)|intros; try discriminate; try congruence]])|]).
  destruct Hin.
Qed.
