(** Property C15. [valid] is the string check of the decoding library. *)
From Verif.Base Require Import Bytes Base64.
From Verif.Model Require Import MsgID.
From Verif.Proof Require MsgID.

(** C15: decoding a generated ID gives back what was encoded, for targets that
    are valid strings. *)
Theorem C15_msgid_roundtrip :
  forall valid net target b,
    i64 net -> (N.of_nat (length target) < two64)%N -> body_ok b -> valid target = true ->
    parse_msgid valid (Some (body_type b)) (format_msgid net target b) = Some (net, target, Some b) /\
    parse_msgid valid None (format_msgid net target b) = Some (net, target, None).
Proof.
  intros valid net target b H1 H2 H3 Hv. split.
  - apply Proof.MsgID.parse_format; [split; [exact H1|split; [exact H2|exact H3]]|exact Hv].
  - unfold format_msgid. rewrite Proof.MsgID.parse_format_gen;
      try assumption; try apply Proof.MsgID.type_number_u64; [reflexivity|unfold u64, msgid_version, two64; lia].
Qed.
Print Assumptions C15_msgid_roundtrip.

(** C15: different (network, target, position) triples get different IDs. *)
Theorem C15_msgid_injective :
  forall net1 target1 b1 net2 target2 b2,
    i64 net1 -> (N.of_nat (length target1) < two64)%N -> body_ok b1 ->
    i64 net2 -> (N.of_nat (length target2) < two64)%N -> body_ok b2 ->
    format_msgid net1 target1 b1 = format_msgid net2 target2 b2 ->
    net1 = net2 /\ target1 = target2 /\ b1 = b2.
Proof.
  intros net1 target1 b1 net2 target2 b2 A1 A2 A3 B1 B2 B3 E.
  apply Proof.MsgID.format_inj; [split; [exact A1|split; [exact A2|exact A3]]|split; [exact B1|split; [exact B2|exact B3]]|exact E].
Qed.
Print Assumptions C15_msgid_injective.

(** C15: an ID of another store type is rejected, and so is any ID of another
    version, whatever follows its header. *)
Theorem C15_msgid_rejects :
  forall valid net target b t,
    i64 net -> (N.of_nat (length target) < two64)%N -> body_ok b -> body_type b <> t ->
    parse_msgid valid (Some t) (format_msgid net target b) = None.
Proof.
  intros valid net target b t H1 H2 H3 Ht. destruct (valid target) eqn:Hv.
  - unfold format_msgid. rewrite Proof.MsgID.parse_format_gen;
      try assumption; try apply Proof.MsgID.type_number_u64; [|unfold u64, msgid_version, two64; lia].
    rewrite N.eqb_refl. cbn [negb].
    destruct (N.eqb_spec (type_number (body_type b)) (type_number t)) as [E|_]; [|reflexivity].
    apply Proof.MsgID.type_number_inj in E. congruence.
  - apply Proof.MsgID.parse_format_invalid; [split; [exact H1|split; [exact H2|exact H3]]|exact Hv].
Qed.
Print Assumptions C15_msgid_rejects.

Theorem C15_msgid_rejects_version :
  forall valid want version net target ty tail,
    i64 net -> (N.of_nat (length target) < two64)%N -> (version < two64)%N -> (ty < two64)%N ->
    version <> msgid_version ->
    parse_msgid valid want
      (b64_encode B64RawURL (write_uint version ++ write_int net ++ write_string target ++ write_uint ty ++ tail)) = None.
Proof.
  intros valid want version net target ty tail H1 H2 H3 H4 Hv.
  destruct (valid target) eqn:Ev.
  - pose proof (Proof.MsgID.parse_format_gen valid version ty net target want tail H1 H2 H3 H4 Ev) as E.
    unfold write_header in E. rewrite <- !app_assoc in E. rewrite E.
    destruct (N.eqb_spec version msgid_version); [contradiction|reflexivity].
  - unfold parse_msgid. rewrite b64_roundtrip. rewrite Proof.MsgID.read_write_uint by exact H3.
    rewrite Proof.MsgID.read_write_int by exact H1.
    rewrite Proof.MsgID.read_string_invalid by assumption. reflexivity.
Qed.
Print Assumptions C15_msgid_rejects_version.

(** A target that is not a valid string (an IRC target may be any bytes) gets an
    ID that the bouncer itself cannot decode. *)
Theorem C15_invalid_target_undecodable :
  forall valid target b,
    valid target = false -> (N.of_nat (length target) < two64)%N -> body_ok b ->
    exists net, i64 net /\ parse_msgid valid (Some (body_type b)) (format_msgid net target b) = None.
Proof.
  intros valid target b Hv Hl Hb. exists 1%Z.
  assert (i64 1) by (unfold i64, two63; lia). split; [assumption|].
  apply Proof.MsgID.parse_format_invalid; [split; [assumption|split; [exact Hl|exact Hb]]|exact Hv].
Qed.
Print Assumptions C15_invalid_target_undecodable.

Example C15_nonvacuous :
  format_msgid 3 (B "#soju") (BodyMemory 300) = B "AAYFI3NvanUBrAI" /\
  parse_msgid (fun _ => true) (Some TyMemory) (B "AAYFI3NvanUBrAI") = Some (3%Z, B "#soju", Some (BodyMemory 300)) /\
  parse_msgid (fun _ => true) (Some TyDB) (B "AAYFI3NvanUBrAI") = None /\
  parse_msgid (fun _ => true) (Some TyFS) (format_msgid (-5) (B "bob") (BodyFS 2024 2 29 (-1))) =
    Some ((-5)%Z, B "bob", Some (BodyFS 2024 2 29 (-1))).
Proof. repeat split; vm_compute; reflexivity. Qed.
