From Verif.Base Require Import Bytes Base64.
From Verif.Model Require Import MsgID.

Lemma code_byte_of n : (n < 256)%N -> code (byte_of n) = n.
Proof. intros H. unfold code, byte_of. apply N_ascii_embedding. exact H. Qed.

Lemma uvarint_roundtrip fuel : forall n rest,
  (n < 128 ^ N.of_nat (S fuel))%N -> read_uvarint (S fuel) (write_uvarint (S fuel) n ++ rest) = Some (n, rest).
Proof.
  induction fuel as [|fuel IH]; intros n rest Hn.
  - change (128 ^ N.of_nat 1)%N with 128%N in Hn. cbn [write_uvarint].
    destruct (N.ltb_spec n 128); [|lia]. cbn [app read_uvarint].
    rewrite code_byte_of by lia. destruct (N.ltb_spec n 128); [reflexivity|lia].
  - remember (S fuel) as f eqn:Ef. cbn [write_uvarint]. destruct (N.ltb_spec n 128) as [Hlt|Hge].
    + cbn [app read_uvarint]. rewrite code_byte_of by lia.
      destruct (N.ltb_spec n 128); [reflexivity|lia].
    + cbn [app read_uvarint].
      assert (Hm : (n mod 128 < 128)%N) by (apply N.mod_lt; lia).
      pose proof (N.div_mod n 128 ltac:(lia)) as Hd.
      assert (Hq : (n / 128 < 128 ^ N.of_nat f)%N).
      { apply N.div_lt_upper_bound; [lia|]. rewrite Nat2N.inj_succ, N.pow_succ_r' in Hn. exact Hn. }
      set (r := (n mod 128)%N) in *. set (q := (n / 128)%N) in *. clearbody r q.
      rewrite code_byte_of by lia. destruct (N.ltb_spec (128 + r) 128) as [Hz|Hz]; [lia|].
      rewrite IH by exact Hq. f_equal. f_equal. lia.
Qed.

Lemma two64_lt : (two64 <= 128 ^ N.of_nat 10)%N.
Proof. vm_compute. discriminate. Qed.

Lemma read_write_uint n rest : u64 n -> read_uint (write_uint n ++ rest) = Some (n, rest).
Proof.
  intros H. unfold read_uint, write_uint. unfold u64 in H. rewrite (uvarint_roundtrip 9).
  - destruct (N.ltb_spec n two64); [reflexivity|lia].
  - eapply N.lt_le_trans; [exact H|exact two64_lt].
Qed.

Lemma zigzag_u64 z : i64 z -> u64 (zigzag z).
Proof. unfold i64, u64, zigzag, two63, two64. intros H. destruct (Z.leb_spec 0 z); lia. Qed.

Lemma unzigzag_zigzag z : unzigzag (zigzag z) = z.
Proof.
  unfold unzigzag, zigzag. destruct (Z.leb_spec 0 z) as [H|H].
  - replace (Z.to_N (2 * z)) with (2 * Z.to_N z)%N by lia.
    rewrite N.even_mul. cbn [N.even orb]. rewrite N.mul_comm, N.div_mul by lia. lia.
  - replace (Z.to_N (-2 * z - 1)) with (1 + 2 * Z.to_N (- z - 1))%N by lia.
    rewrite N.even_add_mul_2. cbn [N.even].
    rewrite (N.mul_comm 2), N.div_add by lia. change (1 / 2)%N with 0%N. lia.
Qed.

Lemma read_write_int z rest : i64 z -> read_int (write_int z ++ rest) = Some (z, rest).
Proof.
  intros H. unfold read_int, write_int. rewrite read_write_uint by (apply zigzag_u64; exact H).
  rewrite unzigzag_zigzag. reflexivity.
Qed.

Lemma read_write_string valid s rest :
  valid s = true -> u64 (N.of_nat (length s)) -> read_string valid (write_string s ++ rest) = Some (s, rest).
Proof.
  intros Hv Hl. unfold read_string, write_string. rewrite <- app_assoc, read_write_uint by exact Hl.
  rewrite app_length. destruct (N.ltb_spec (N.of_nat (length s + length rest)) (N.of_nat (length s))); [lia|].
  rewrite Nat2N.id, firstn_app, firstn_all, Nat.sub_diag. cbn [firstn]. rewrite app_nil_r, Hv.
  rewrite skipn_app, skipn_all, Nat.sub_diag. reflexivity.
Qed.

Lemma read_string_invalid valid s rest :
  valid s = false -> u64 (N.of_nat (length s)) -> read_string valid (write_string s ++ rest) = None.
Proof.
  intros Hv Hl. unfold read_string, write_string. rewrite <- app_assoc, read_write_uint by exact Hl.
  rewrite app_length. destruct (N.ltb_spec (N.of_nat (length s + length rest)) (N.of_nat (length s))); [lia|].
  rewrite Nat2N.id, firstn_app, firstn_all, Nat.sub_diag. cbn [firstn]. rewrite app_nil_r, Hv. reflexivity.
Qed.

Lemma type_number_u64 t : u64 (type_number t).
Proof. destruct t; unfold u64, two64; simpl; lia. Qed.

Lemma type_number_inj a b : type_number a = type_number b -> a = b.
Proof. destruct a, b; simpl; intros H; try reflexivity; discriminate. Qed.

Lemma read_write_body b : body_ok b -> read_body (body_type b) (write_body b) = Some b.
Proof.
  destruct b as [n|y m d off|n]; intros H; cbn [body_type write_body read_body].
  - rewrite <- (app_nil_r (write_uint n)), read_write_uint by exact H. reflexivity.
  - destruct H as (H1 & H2 & H3 & H4). rewrite read_write_int by exact H1. rewrite read_write_int by exact H2.
    rewrite read_write_int by exact H3. rewrite <- (app_nil_r (write_int off)), read_write_int by exact H4. reflexivity.
  - rewrite <- (app_nil_r (write_uint n)), read_write_uint by exact H. reflexivity.
Qed.

Definition msgid_ok (net : Z) (target : bytes) (b : msgid_body) : Prop :=
  i64 net /\ u64 (N.of_nat (length target)) /\ body_ok b.

Lemma parse_format_gen valid version ty net target want tail :
  i64 net -> u64 (N.of_nat (length target)) -> u64 version -> u64 ty -> valid target = true ->
  parse_msgid valid want (b64_encode B64RawURL (write_header version net target ty ++ tail)) =
  if negb (N.eqb version msgid_version) then None
  else match want with
    | None => Some (net, target, None)
    | Some t =>
        if negb (N.eqb ty (type_number t)) then None
        else match read_body t tail with
             | None => None
             | Some b => Some (net, target, Some b)
             end
    end.
Proof.
  intros H1 H2 H3 H4 Hv. unfold parse_msgid. rewrite b64_roundtrip. unfold write_header. rewrite <- !app_assoc.
  rewrite read_write_uint by exact H3. rewrite read_write_int by exact H1.
  rewrite read_write_string by assumption. rewrite read_write_uint by exact H4. reflexivity.
Qed.

Lemma parse_format valid net target b :
  msgid_ok net target b -> valid target = true ->
  parse_msgid valid (Some (body_type b)) (format_msgid net target b) = Some (net, target, Some b).
Proof.
  intros (H1 & H2 & H3) Hv. unfold format_msgid.
  rewrite parse_format_gen by (try assumption; try apply type_number_u64; unfold u64, msgid_version, two64; lia).
  rewrite !N.eqb_refl. cbn [negb]. rewrite read_write_body by exact H3. reflexivity.
Qed.

Lemma parse_format_invalid valid net target b want :
  msgid_ok net target b -> valid target = false ->
  parse_msgid valid want (format_msgid net target b) = None.
Proof.
  intros (H1 & H2 & H3) Hv. unfold format_msgid, parse_msgid. rewrite b64_roundtrip. unfold write_header.
  rewrite <- !app_assoc. rewrite read_write_uint by (unfold u64, msgid_version, two64; lia).
  rewrite read_write_int by exact H1. rewrite read_string_invalid by assumption. reflexivity.
Qed.

Lemma format_inj net1 target1 b1 net2 target2 b2 :
  msgid_ok net1 target1 b1 -> msgid_ok net2 target2 b2 ->
  format_msgid net1 target1 b1 = format_msgid net2 target2 b2 ->
  net1 = net2 /\ target1 = target2 /\ b1 = b2.
Proof.
  intros H1 H2 E.
  pose proof (parse_format (fun _ => true) _ _ _ H1 eq_refl) as P1.
  pose proof H2 as (A1 & A2 & A3).
  rewrite E in P1. unfold format_msgid in P1.
  rewrite parse_format_gen in P1
    by (try assumption; try reflexivity; try apply type_number_u64; unfold u64, msgid_version, two64; lia).
  rewrite N.eqb_refl in P1. cbn [negb] in P1.
  destruct (N.eqb_spec (type_number (body_type b2)) (type_number (body_type b1))) as [Et|]; [|discriminate].
  apply type_number_inj in Et. cbn [negb] in P1. rewrite <- Et, read_write_body in P1 by exact A3.
  injection P1 as -> -> ->. repeat split.
Qed.
