(** C93: origins of web pages. *)
From Coq Require Import NArith.
From Verif.Base Require Import Bytes.
From Verif.Model Require Import Glob.
From Verif.Proof Require Glob.
From Verif.Spec Require Import Glob.

(** C93: patterns are accepted when the configuration is read exactly if all of them are well formed. *)
Theorem C93_accepted : forall os, origins_ok os = true <-> forall o, In o os -> exists l, pat o l.
Proof. exact Proof.Glob.origins_patterns. Qed.
Print Assumptions C93_accepted.

(** C93: then no request makes the check panic, whatever host it comes from. *)
Theorem C93_no_panic : forall os host, origins_ok os = true -> check_origin os host <> None.
Proof. exact Proof.Glob.origins_total. Qed.
Print Assumptions C93_no_panic.

(** C93: only hosts that some pattern describes are let in. *)
Theorem C93_only_matching : forall os host,
  check_origin os host = Some true -> exists o l, In o os /\ pat o l /\ glob l host.
Proof. exact Proof.Glob.origins_sound. Qed.
Print Assumptions C93_only_matching.

(** C93: and the hosts that some pattern describes are: hosts have no slash. *)
Theorem C93_every_matching : forall os o l host,
  origins_ok os = true -> In o os -> pat o l -> glob l host ->
  ~ In "/"%char host -> ascii_text host \/ plain l ->
  check_origin os host = Some true.
Proof. intros os o l host H I P G N A. exact (Proof.Glob.origins_complete os o l host H I P (or_intror N) A G). Qed.
Print Assumptions C93_every_matching.

(** C93: a text is one pattern at most. *)
Theorem C93_one_meaning : forall p l l', pat p l -> pat p l' -> l = l'.
Proof. intros p l l' H. exact (Proof.Glob.pat_det p l H l'). Qed.
Print Assumptions C93_one_meaning.

(** C93: names with slashes are matched as well, if no brackets match a slash. *)
Theorem C93_with_slashes : forall p l s,
  pat p l -> Forall no_slash l -> ascii_text s \/ plain l -> (path_match p s = Some true <-> glob l s).
Proof.
  intros p l s P N A. split; [|exact (Proof.Glob.complete p l s P (or_introl N) A)].
  intros H. destruct (Proof.Glob.sound p s H) as (l' & P' & G). rewrite (Proof.Glob.pat_det p l P l' P'). exact G.
Qed.
Print Assumptions C93_with_slashes.

(** C93: the characters of patterns and hosts are those of UTF-8. *)
Theorem C93_characters : forall n y, scalar n -> rune (encode n ++ y) = (n, y) /\ utf8 (encode n ++ y).
Proof. exact Proof.Glob.decode_encode. Qed.
Print Assumptions C93_characters.

(** C93: and nothing else is a character: overlong forms, surrogates and what is above U+10FFFF are not. *)
Theorem C93_characters_only : forall s n y, s <> [] -> rune s = (n, y) -> utf8 s -> scalar n /\ s = encode n ++ y.
Proof. exact Proof.Glob.encode_decode. Qed.
Print Assumptions C93_characters_only.

(** C93, refuted: brackets that match a slash are not always found. *)
Theorem C93_slashes_refuted : exists p l s, pat p l /\ glob l s /\ path_match p s = Some false.
Proof.
  exists (B "*[^a]*b"), [TStar; TIn true [(code "a", code "a")]; TStar; TLit "b"%char], (B "x/b").
  assert (U : forall c x, (code c < 128)%N -> rune (c :: x) = (code c, x) /\ utf8 (c :: x)).
  { intros c x L. unfold utf8, rune. destruct (N.ltb_spec (code c) 128) as [_|L']; [|apply N.le_ngt in L'; contradiction].
    split; [reflexivity|]. cbn [fst]. intros [E _]. rewrite E in L. discriminate L. }
  split; [|split; [|vm_compute; reflexivity]].
  - apply PStar. apply PNot with (q := B "*b").
    + apply ILast. apply Single; [|discriminate]. destruct (U "a"%char (B "]*b") eq_refl) as [E F].
      apply Bare; [intros [X|[X|[X|[]]]]; discriminate X|exact E|exact F].
    + apply PStar. apply PLit; [intros [X|[X|[X|[X|[]]]]]; discriminate X|constructor].
  - apply (GStar (B "x") _ (B "/b")); [intros [X|[]]; discriminate X|].
    apply GIn.
    + split; [|discriminate]. intros (lo & hi & [E|[]] & L1 & _). injection E as <- <-. exfalso. revert L1. vm_compute. congruence.
    + apply (GStar [] [TLit "b"%char] (B "b")); [intros []|]. apply GLit. constructor.
Qed.
Print Assumptions C93_slashes_refuted.

(** C93, refuted: glob(7), which the manual refers to, writes "[!...]" for everything else. Here it lets in the
    character meant to be kept out, and keeps out the others. *)
Theorem C93_negation_refuted : exists c d, c <> d /\ origins_ok [B "[!" ++ c :: B "].example.org"] = true /\
  check_origin [B "[!" ++ c :: B "].example.org"] (c :: B ".example.org") = Some true /\
  check_origin [B "[!" ++ c :: B "].example.org"] (d :: B ".example.org") = Some false.
Proof. exists "a"%char, "b"%char. vm_compute. repeat split. discriminate. Qed.
Print Assumptions C93_negation_refuted.

(** The hypotheses can be met. *)
Example C93_nonvacuous :
  let os := [B "*.example.org"; B "[a-c^\-]?.net"; B "irc.*"] in
  origins_ok os = true /\ origins_ok [B "x["] = false /\ origins_ok [B "[]"] = false /\ origins_ok [B "a\"] = false /\
  check_origin os (B "irc.example.org") = Some true /\ check_origin os (B "example.org") = Some false /\
  check_origin os (B "-x.net") = Some true /\ check_origin os (B "d1.net") = Some false /\
  check_origin os (B "irc.org.evil") = Some true /\
  ~ In "/"%char (B "irc.example.org") /\ ascii_text (B "irc.example.org") /\
  (exists l, pat (B "*.or") l /\ plain l /\ glob l (B "x.or")) /\
  rune (encode 8364) = (8364%N, []) /\ scalar 8364.
Proof.
  intros os. repeat match goal with |- _ /\ _ => split end; try (vm_compute; reflexivity).
  - intros H. apply amem_In in H. revert H. vm_compute. discriminate.
  - repeat constructor; vm_compute; reflexivity.
  - exists [TStar; TLit "."%char; TLit "o"%char; TLit "r"%char]. split; [|split].
    + apply PStar. repeat (apply PLit; [intros H; repeat (destruct H as [H|H]; [discriminate H|]); destruct H|]). constructor.
    + constructor; [left; reflexivity|]. repeat (constructor; [right; eexists; reflexivity|]). constructor.
    + apply (GStar (B "x") _ (B ".or")); [intros [H|[]]; discriminate H|]. repeat (apply GLit). constructor.
  - left. vm_compute. reflexivity.
Qed.
