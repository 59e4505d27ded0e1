(** Property C37. *)
From Verif.Base Require Import Bytes.
From Verif.Model Require Import Identd.
From Verif.Spec Require Import Identd.
From Verif.Proof Require Identd.
From Coq Require Import ZArith.

Definition event_ok (e : event) : Prop :=
  match e with EReg c _ => is_conn c | ERem c => is_conn c | EQuery _ => True end.

(** C37: in any history of registrations, removals and queries, every query gets
    the identity in force for exactly that remote host and pair of ports, or
    an error that ends the dialogue. *)
Theorem C37_ident_replies : forall host es,
  Forall event_ok es -> answers host [] es (ident_run host [] true (map op_of es)).
Proof. intros host es H. exact (Proof.Identd.run_answers host es H [] [] Proof.Identd.tracks_empty). Qed.
Print Assumptions C37_ident_replies.

(** The specification determines the identity in force. *)
Theorem C37_identity_unique : forall host rp lp h o1 o2,
  identity host rp lp h o1 -> identity host rp lp h o2 -> o1 = o2.
Proof.
  intros host rp lp h o1 o2 H1. revert o2. induction H1; intros o2 H2; inversion H2; subst; try reflexivity; try contradiction; auto.
Qed.
Print Assumptions C37_identity_unique.

Example C37_nonvacuous :
  let c := Conn (B "2001:db8::1") 6697 (B "6697") (B "192.0.2.1") 40123 (B "40123") in
  is_conn c /\
  ident_run (B "2001:db8::1") [] true (map op_of [EReg c (B "alice"); EQuery (B " 40123 , 6697"); EQuery (B "40123,6697"); ERem c; EQuery (B "40123,6697"); EQuery (B "1,2")]) =
    [B " 40123 , 6697 : USERID : UNKNOWN : alice" ++ eol; B "40123,6697 : USERID : UNKNOWN : alice" ++ eol; B "40123,6697 : ERROR : NO-USER" ++ eol] /\
  ident_run (B "198.51.100.7") [] true (map op_of [EReg c (B "alice"); EQuery (B "40123,6697")]) = [B "40123,6697 : ERROR : NO-USER" ++ eol].
Proof.
  cbv zeta. split; [|split; vm_compute; reflexivity].
  assert (D : forall v s, (s <> [] /\ forallb is_digit s = true /\ v = digits_value s) -> decimal v s) by (intros v s H; apply Proof.Identd.decimal_iff; exact H).
  unfold is_conn, is_host. cbn [c_rhost c_rport c_rport_text c_lhost c_lport c_lport_text].
  repeat (split; [first [vm_compute; intuition discriminate | apply D; split; [discriminate|split; vm_compute; reflexivity]]|]).
  split; lia.
Qed.
