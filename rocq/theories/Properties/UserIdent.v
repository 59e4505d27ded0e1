(** C116: servers that ask are told whose connection it is, and nothing else. *)
From Verif.Base Require Import Bytes.
From Verif.Model Require Import Identd UserIdent.
From Verif.Spec Require Import Identd UserIdent.
From Verif.Proof Require Identd UserIdent.
From Coq Require Import ZArith NArith Lia.

(** A server that asks about a connection is told the ident of its user. Missing:
    connections from different addresses that share the port number (below). *)
Theorem C116_told_partial : forall sha s i l c line, (forall id, length (sha (block id)) = 32) ->
  reach sha apart s -> In (i, l) (s_live s) -> link_of l c -> is_query line (c_lport c) (c_rport c) ->
  asked s (c_rhost c) line = names line (user_ident sha (l_user l)).
Proof. intros sha s i l c line. exact (Proof.UserIdent.told sha s i l c line). Qed.
Print Assumptions C116_told_partial.

(** Whoever asks is told of nobody, or of a user who has a connection to them with just
    these ports at the moment: in all runs. *)
Theorem C116_only_live : forall sha s host line lp rp, reach sha anything s -> is_query line lp rp -> asked s host line = nobody line \/
  exists i l c, In (i, l) (s_live s) /\ link_of l c /\ concerns host rp lp c /\ asked s host line = names line (user_ident sha (l_user l)).
Proof. intros sha s host line lp rp. exact (Proof.UserIdent.only_live sha anything s host line lp rp). Qed.
Print Assumptions C116_only_live.

(** Different users have different idents, unless SHA-256 collides in its first half. *)
Theorem C116_distinct : forall sha a b, (- 2 ^ 63 <= a < 2 ^ 63)%Z -> (- 2 ^ 63 <= b < 2 ^ 63)%Z -> a <> b ->
  user_ident sha a <> user_ident sha b \/ (block a <> block b /\ firstn 16 (sha (block a)) = firstn 16 (sha (block b))).
Proof. intros sha a b. exact (Proof.UserIdent.distinct sha a b). Qed.
Print Assumptions C116_distinct.

(** Idents are 32 hexadecimal digits: what is sent is one line, and a valid reply. *)
Theorem C116_form : forall sha id, length (sha (block id)) = 32 -> length (user_ident sha id) = 32 /\ Forall lower_hex (user_ident sha id).
Proof. intros sha id. exact (Proof.UserIdent.form sha id). Qed.
Print Assumptions C116_form.

(** Nothing goes into an ident but the first half of the hash: accounts whose hashes begin
    alike, by whatever hash functions, have the same ident, whatever their numbers are. *)
Theorem C116_hashed : forall sha sha' a b, firstn 16 (sha (block a)) = firstn 16 (sha' (block b)) -> user_ident sha a = user_ident sha' b.
Proof. intros sha sha' a b E. unfold user_ident. rewrite E. reflexivity. Qed.
Print Assumptions C116_hashed.

Example C116_hashed_nonvacuous : user_ident (fun _ => repeat "z"%char 32) 1 = user_ident (fun s => repeat "z"%char 16 ++ s) 2.
Proof. apply C116_hashed. vm_compute. reflexivity. Qed.

(** Users 1 and 2 with addresses of their own (C42), and the same port. *)
Definition conn1 : conn := Conn (B "198.51.100.7") 6697 (B "6697") (B "192.0.2.1") 40123 (B "40123").
Definition conn2 : conn := Conn (B "198.51.100.7") 6697 (B "6697") (B "192.0.2.2") 40123 (B "40123").
Definition link1 : link := Link 1 (B "198.51.100.7:6697") (B "192.0.2.1:40123").
Definition link2 : link := Link 2 (B "198.51.100.7:6697") (B "192.0.2.2:40123").

Lemma conn_ok c : (amem "[" (c_rhost c) || amem "]" (c_rhost c) || amem "[" (c_lhost c) || amem "]" (c_lhost c)) = false ->
  c_rport_text c <> [] -> forallb is_digit (c_rport_text c) = true -> c_rport c = digits_value (c_rport_text c) ->
  c_lport_text c <> [] -> forallb is_digit (c_lport_text c) = true -> c_lport c = digits_value (c_lport_text c) ->
  (0 <= c_rport c < 65536)%Z -> (0 <= c_lport c < 65536)%Z -> is_conn c.
Proof.
  intros H R1 R2 R3 L1 L2 L3 RB LB. rewrite !orb_false_iff in H. destruct H as [[[H1 H2] H3] H4].
  assert (N : forall x h, amem x h = false -> ~ In x h) by (intros x h E K; apply amem_In in K; congruence).
  repeat split; try (apply N; assumption); try (apply Proof.Identd.decimal_iff; repeat split; assumption); lia.
Qed.

Lemma link1_ok : link_of link1 conn1.
Proof. split; [apply conn_ok; try reflexivity; try discriminate; cbn; lia|split; vm_compute; reflexivity]. Qed.
Lemma link2_ok : link_of link2 conn2.
Proof. split; [apply conn_ok; try reflexivity; try discriminate; cbn; lia|split; vm_compute; reflexivity]. Qed.
Lemma query_ok : is_query (B "40123, 6697") 40123 6697.
Proof. apply Proof.Identd.parse_query_iff. vm_compute. reflexivity. Qed.

(** The server asks about the connection of user 1, and is told user 2. *)
Theorem C116_shared_port_refuted : forall sha, (forall id, length (sha (block id)) = 32) -> exists s i l c line,
  reach sha anything s /\ In (i, l) (s_live s) /\ link_of l c /\ is_query line (c_lport c) (c_rport c) /\ l_user l = 1%Z /\
  asked s (c_rhost c) line = names line (user_ident sha 2).
Proof.
  intros sha S. exists (step sha (step sha init (Start 1 link1)) (Start 2 link2)), 1%N, link1, conn1, (B "40123, 6697").
  split; [|split; [right; left; reflexivity|split; [exact link1_ok|split; [exact query_ok|split; [reflexivity|]]]]].
  - apply r_step; [apply r_step; [apply r_init| |exact I]| |exact I].
    + split; [intros []|exists conn1; exact link1_ok].
    + split; [intros [K|[]]; discriminate K|exists conn2; exact link2_ok].
  - rewrite (Proof.UserIdent.asked_query _ _ _ 40123 6697 query_ok). cbn [step s_ident].
    rewrite (Proof.UserIdent.lookup_store _ _ link2 conn2 _ link2_ok). destruct (Proof.UserIdent.key_dec _ _) as [_|N]; [|destruct N; reflexivity].
    change (l_user link2) with 2%Z. destruct (Proof.UserIdent.form sha 2 (S 2%Z)) as [F _]. destruct (user_ident sha 2); [discriminate F|reflexivity].
Qed.
Print Assumptions C116_shared_port_refuted.

(** When user 2 is gone, the server is told that user 1 is nobody. *)
Theorem C116_forgotten_refuted : forall sha, exists s i l c line,
  reach sha anything s /\ In (i, l) (s_live s) /\ link_of l c /\ is_query line (c_lport c) (c_rport c) /\ asked s (c_rhost c) line = nobody line.
Proof.
  intros sha. exists (step sha (step sha (step sha init (Start 1 link1)) (Start 2 link2)) (Stop 2)), 1%N, link1, conn1, (B "40123, 6697").
  split; [|split; [left; reflexivity|split; [exact link1_ok|split; [exact query_ok|vm_compute; reflexivity]]]].
  apply r_step; [|exact I|exact I]. apply r_step; [apply r_step; [apply r_init| |exact I]| |exact I].
  - split; [intros []|exists conn1; exact link1_ok].
  - split; [intros [K|[]]; discriminate K|exists conn2; exact link2_ok].
Qed.
Print Assumptions C116_forgotten_refuted.

(** A run of one user, with something in place of SHA-256. *)
Example C116_nonvacuous :
  let sha := fun s => firstn 32 (map (fun c => ascii_of_N (code c + 171)) s) in
  (forall id, length (sha (block id)) = 32) /\
  reach sha apart (step sha init (Start 1 link1)) /\
  asked (step sha init (Start 1 link1)) (B "198.51.100.7") (B "40123, 6697")
    = B "40123, 6697 : USERID : UNKNOWN : acababababababababababababababab" ++ eol /\
  asked (step sha init (Start 1 link1)) (B "203.0.113.5") (B "40123, 6697") = B "40123, 6697 : ERROR : NO-USER" ++ eol /\
  user_ident sha 1 <> user_ident sha 2.
Proof.
  cbv zeta. split; [intros id; rewrite firstn_length, map_length; reflexivity|]. split; [|split; [vm_compute; reflexivity|split; [vm_compute; reflexivity|vm_compute; discriminate]]].
  apply r_step; [apply r_init|split; [intros []|exists conn1; exact link1_ok]|intros c _ i l' c' []].
Qed.
