(** Properties C06, C07. *)
From Verif.Base Require Import Bytes.
From Verif.Model Require Import CaseMap Membership Modes.
From Verif.Spec Require Import Modes.
From Verif.Proof Require Modes.

(** C06: an error is reported exactly for malformed strings. *)
Theorem C06_error_iff_malformed :
  forall ms s, snd (um_apply ms None s) = false <-> malformed s.
Proof. intros ms s. exact (Proof.Modes.um_apply_ok_iff ms None s). Qed.
Print Assumptions C06_error_iff_malformed.

(** C06: for ASCII mode letters, modes stay duplicate free and each letter is
    set iff the last sign applied to it (or the previous state) says so. *)
Theorem C06_user_modes_set_semantics_partial :
  forall ms s,
    NoDup ms -> Forall (fun c => (code c < 128)%N) s ->
    NoDup (fst (um_apply ms None s)) /\
    (~ malformed s -> forall c, ~ is_sign c ->
       In c (fst (um_apply ms None s)) <-> set_after s c (In c ms)).
Proof.
  intros ms s Hnd Ha. split; [exact (Proof.Modes.um_apply_nodup ms None s Ha Hnd)|].
  intros Hm c Hc. apply (Proof.Modes.um_apply_In ms None s c Ha Hnd Hc).
  destruct (snd (um_apply ms None s)) eqn:E; [reflexivity|].
  exfalso. apply Hm. apply (C06_error_iff_malformed ms s). exact E.
Qed.
Print Assumptions C06_user_modes_set_semantics_partial.

(** The restriction to ASCII is needed: adding a non-ASCII letter twice
    duplicates it, because Go's conversion of a byte to a string encodes it as
    two bytes. *)
Theorem C06_non_ascii_letters_refuted :
  exists c, fst (um_apply [] None ["+"%char; c; c]) = utf8_of_byte c ++ utf8_of_byte c /\
            ~ In c (fst (um_apply [] None ["+"%char; c])).
Proof.
  exists (ascii_of_N 233). split; [vm_compute; reflexivity|].
  vm_compute. intuition congruence.
Qed.
Print Assumptions C06_non_ascii_letters_refuted.

Example C06_nonvacuous :
  um_apply (B "iw") None (B "+x-w+wr-i") = (B "xwr", true) /\ ~ malformed (B "+x-w+wr-i") /\
  malformed (B "x+i").
Proof.
  split; [reflexivity|]. split.
  - rewrite <- (C06_error_iff_malformed (B "iw")). discriminate.
  - rewrite <- (C06_error_iff_malformed (B "iw")). reflexivity.
Qed.

(** C07: whatever the map iteration order, formatting the tracked modes and
    applying them to a channel with no modes gives the same modes back and does
    not touch the members. *)
Theorem C07_mode_snapshot_roundtrip_partial :
  forall avail table m order mem str params,
    modes_consistent avail table m ->
    (forall c v, In (c, v) m -> (code c < 128)%N) ->
    Permutation order m ->
    format_modes order = (str, params) ->
    exists m',
      apply_channel_modes avail table (Chan (Some []) mem) str params = (Chan (Some m') mem, true) /\
      NoDup (map fst m') /\ (forall k, al_get m' k = al_get m k).
Proof.
  intros avail table m order mem str params H1 H2 H3 Hf.
  pose proof (Proof.Modes.format_apply avail table m order mem H1 H2 H3) as H.
  rewrite Hf in H. exact H.
Qed.
Print Assumptions C07_mode_snapshot_roundtrip_partial.

(** ASCII letters are needed: Go's conversion of a byte to a string encodes other
    letters as two bytes, which stand for two other modes. *)
Theorem C07_mode_snapshot_roundtrip_refuted :
  exists avail table m (mem : cmmap (list membership)) (str : bytes) (params : list bytes),
    modes_consistent avail table m /\ format_modes m = (str, params) /\ exists c ch', apply_channel_modes avail table (Chan (Some []) mem) str params = (ch', true) /\ al_get m c <> None /\ forall m', ch_modes ch' = Some m' -> al_get m' c = None.
Proof.
  set (e := ascii_of_N 233). exists [], [(e, ModeD)], [(e, [])], (cm_new CmRFC1459), ("+"%char :: utf8_of_byte e), [].
  split. { split; [repeat constructor; intros []|]. intros c v [H|[]]. injection H as <- <-. split; [reflexivity|]. split; [intros H; destruct H; discriminate|]. right. right. split; reflexivity. }
  split; [vm_compute; reflexivity|]. exists e. eexists. split; [vm_compute; reflexivity|]. split; [vm_compute; discriminate|].
  intros m' H. vm_compute in H. injection H as <-. vm_compute. reflexivity.
Qed.
Print Assumptions C07_mode_snapshot_roundtrip_refuted.

(** The hypothesis holds in every reachable state: any MODE line keeps the
    tracked modes consistent with the tables. *)
Theorem C07_modes_stay_consistent :
  forall avail table m mem s args ch' ok m',
    modes_consistent avail table m ->
    apply_channel_modes avail table (Chan (Some m) mem) s args = (ch', ok) ->
    ch_modes ch' = Some m' -> modes_consistent avail table m'.
Proof.
  intros avail table m mem s args ch' ok m' Hc Ha Hm.
  pose proof (Proof.Modes.apply_modes_consistent avail table (Chan (Some m) mem) None s args Hc) as H.
  unfold apply_channel_modes in Ha. rewrite Ha in H. simpl in H.
  unfold Proof.Modes.chan_consistent in H. rewrite Hm in H. exact H.
Qed.
Print Assumptions C07_modes_stay_consistent.

Example C07_nonvacuous :
  let avail := [Membership "o" "@"; Membership "v" "+"]%char in
  let table := [("b", ModeA); ("k", ModeB); ("l", ModeC); ("n", ModeD); ("t", ModeD)]%char in
  let mem := cm_set (cm_new CmRFC1459) (B "bob") [] in
  apply_channel_modes avail table (Chan (Some []) mem) (B "+nbokl-t+t") [B "*!*@x"; B "BOB"; B "sesame"; B "10"]
  = (Chan (Some [("n", []); ("k", B "sesame"); ("l", B "10"); ("t", [])]%char)
          (cm_set mem (B "bob") [Membership "o" "@"]%char), true) /\
  format_modes [("n", []); ("k", B "sesame"); ("l", B "10"); ("t", [])]%char = (B "+klnt", [B "sesame"; B "10"]).
Proof. split; vm_compute; reflexivity. Qed.

(** C63: the value of every letter after a MODE line. Statuses, list modes and unknown letters
    are not recorded; the last occurrence of any other letter decides, and its value is the
    argument that belongs to that occurrence. *)
Theorem C63_mode_line_values :
  forall avail table m mem s args ch',
    apply_channel_modes avail table (Chan (Some m) mem) s args = (ch', true) ->
    exists m', ch_modes ch' = Some m' /\
    (forall c, ~ In c s \/ (forall t, ~ tracked avail table c t) -> al_get m' c = al_get m c) /\
    (forall c t i, tracked avail table c t -> nth_error s i = Some c ->
       (forall j, i < j -> nth_error s j <> Some c) ->
       (sign_at s None i = Some true /\
        al_get m' c = Some (match t with
          | ModeD => []
          | _ => match arg_at avail table s args None i with Some a => a | None => [] end
          end)) \/
       (sign_at s None i = Some false /\ al_get m' c = None)).
Proof.
  intros avail table m mem s args ch' H. unfold apply_channel_modes in H.
  pose proof (fun c => Proof.Modes.line_other avail table s _ None args ch' c H) as Ho.
  pose proof (fun c t i => Proof.Modes.line_last avail table s _ None args ch' c t i H) as Hl.
  destruct (ch_modes ch') as [m'|] eqn:E.
  - exists m'. split; [reflexivity|]. unfold Proof.Modes.mget in Ho, Hl. rewrite E in Ho, Hl. cbn [ch_modes] in Ho, Hl.
    split; [exact Ho|]. intros c t i Ht Hi Hj.
    destruct (Hl c t i ltac:(discriminate) Ht Hi Hj) as (plus & Hs & Hv). unfold Proof.Modes.new_value in Hv.
    destruct plus; [left|right]; (split; [exact Hs|exact Hv]).
  - exfalso. pose proof (Proof.Modes.line_nil avail table s _ _ _ _ H) as Hn. rewrite E in Hn. cbn [ch_modes] in Hn.
    destruct Hn as [Hn _]. discriminate (Hn eq_refl).
Qed.
Print Assumptions C63_mode_line_values.

(** C63: the statuses of every member after a MODE line: the changes that name them (up to the
    case mapping), in order; nobody joins or leaves. *)
Theorem C63_mode_line_members :
  forall avail table modes mem s args ch' who,
    apply_channel_modes avail table (Chan modes mem) s args = (ch', true) ->
    cm_get (ch_members ch') who =
    option_map (fun set => fold_left (ms_step avail) (status_changes avail table s args None (cm_fold mem) who) set)
      (cm_get mem who).
Proof.
  intros avail table modes mem s args ch' who H.
  exact (proj2 (Proof.Modes.line_members avail table s _ _ _ _ H) who).
Qed.
Print Assumptions C63_mode_line_members.

(** C63: a line is rejected exactly when a letter comes before any sign or a status has no
    argument left. *)
Theorem C63_mode_line_rejected :
  forall avail table ch s args,
    snd (apply_channel_modes avail table ch s args) = false <->
    malformed s \/
    exists i c mb, nth_error s i = Some c /\ ~ is_sign c /\ find (fun m => aeqb (mb_mode m) c) avail = Some mb /\
      arg_at avail table s args None i = None.
Proof. intros avail table ch s args. exact (Proof.Modes.line_fails avail table s ch None args). Qed.
Print Assumptions C63_mode_line_rejected.

Example C63_nonvacuous :
  let avail := [Membership "o" "@"; Membership "v" "+"]%char in
  let table := [("b", ModeA); ("k", ModeB); ("l", ModeC); ("n", ModeD); ("t", ModeD)]%char in
  let mem := cm_set (cm_set (cm_new CmRFC1459) (B "bob") []) (B "al") [Membership "o" "@"]%char in
  let s := B "+nbo-l-kv+v-o+k" in
  let args := [B "*!*@x"; B "BOB"; B "old"; B "al"; B "Bob"; B "al"; B "new"] in
  status_changes avail table s args None CmRFC1459 (B "bob") = [MsAdd (Membership "o" "@"); MsAdd (Membership "v" "+")]%char /\
  status_changes avail table s args None CmRFC1459 (B "al") = [MsRemove (Membership "v" "+"); MsRemove (Membership "o" "@")]%char /\
  arg_at avail table s args None 14 = Some (B "new") /\
  tracked avail table "k"%char ModeB /\
  exists mem', apply_channel_modes avail table (Chan (Some [("l", B "5"); ("k", B "old")]%char) mem) s args
  = (Chan (Some [("n", []); ("k", B "new")]%char) mem', true) /\
  cm_get mem' (B "bob") = Some [Membership "o" "@"; Membership "v" "+"]%char /\
  cm_get mem' (B "al") = Some [].
Proof.
  split; [vm_compute; reflexivity|]. split; [vm_compute; reflexivity|]. split; [vm_compute; reflexivity|].
  split.
  { split; [intros [H|H]; discriminate|]. split; [|split; [reflexivity|discriminate]].
    intros mb [<-|[<-|[]]]; discriminate. }
  eexists. split; [vm_compute; reflexivity|]. split; vm_compute; reflexivity.
Qed.
