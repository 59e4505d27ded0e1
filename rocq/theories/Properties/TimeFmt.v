(** Property C41. *)
From Verif.Base Require Import Bytes.
From Verif.Model Require Import TimeFmt.
From Verif.Spec Require Import TimeFmt.
From Verif.Proof Require TimeFmt.
From Coq Require Import ZArith.
Open Scope Z_scope.

(** C41: stored texts compare like the times truncated to milliseconds. *)
Theorem C41_text_order : forall t u, in_years t -> in_years u ->
  (text_lt (format_time t) (format_time u) <-> millis t < millis u) /\
  (format_time t = format_time u <-> millis t = millis u).
Proof.
  intros t u Ht Hu. unfold millis.
  pose proof (Proof.TimeFmt.format_lt t u Ht Hu) as F1. pose proof (Proof.TimeFmt.format_lt u t Hu Ht) as F2.
  pose proof (Proof.TimeFmt.format_same t u) as F3.
  destruct (Z.lt_trichotomy (t / 1000000) (u / 1000000)) as [H|[H|H]].
  - specialize (F1 H). split; split; intros K; try lia; try exact F1.
    exfalso. rewrite K in F1. exact (Proof.TimeFmt.text_lt_irrefl _ F1).
  - specialize (F3 H). rewrite F3. split; split; intros K; try lia; try reflexivity.
    exfalso. exact (Proof.TimeFmt.text_lt_irrefl _ K).
  - specialize (F2 H). split; split; intros K; try lia.
    + exfalso. exact (Proof.TimeFmt.text_lt_asym _ _ F2 K).
    + exfalso. rewrite K in F2. exact (Proof.TimeFmt.text_lt_irrefl _ F2).
Qed.
Print Assumptions C41_text_order.

(** C41: reading a server-time tag back gives the time truncated to milliseconds. *)
Theorem C41_tag_roundtrip : forall t, in_years t -> parse_time (format_time t) = Some (millis t).
Proof. exact Proof.TimeFmt.parse_format. Qed.
Print Assumptions C41_tag_roundtrip.

(** C41: so does reading a database column, including the zero time. *)
Theorem C41_column_roundtrip : forall t, in_years t -> sqlite_scan (sqlite_value t) = Some (millis t).
Proof.
  intros t Ht. unfold sqlite_value. destruct (Z.eqb_spec t 0) as [->|Hne]; [reflexivity|].
  exact (Proof.TimeFmt.parse_format t Ht).
Qed.
Print Assumptions C41_column_roundtrip.

(** Seconds from 1 January of year 1 to the Unix epoch: 62135596800. *)
Example C41_nonvacuous :
  let t := (62135596800 + 1709210096) * 1000000000 + 789654321 in
  in_years t /\ format_time t = B "2024-02-29T12:34:56.789Z" /\
  parse_time (B "2024-02-29T12:34:56.789Z") = Some ((62135596800 + 1709210096) * 1000000000 + 789000000) /\
  parse_time (B "2023-02-29T12:34:56.789Z") = None.
Proof.
  cbv zeta. split; [unfold in_years; lia|]. split; [vm_compute; reflexivity|]. split; vm_compute; reflexivity.
Qed.
