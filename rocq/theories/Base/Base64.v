(** RFC 4648 base64 as implemented by Go's encoding/base64 (an external
    library): standard and URL alphabets, with or without padding. Not soju
    code. *)
From Verif.Base Require Import Bytes.

Inductive b64 := B64Std | B64RawURL.

Definition alphabet (e : b64) : bytes :=
  B "ABCDEFGHIJKLMNOPQRSTUVWXYZabcdefghijklmnopqrstuvwxyz0123456789" ++
  match e with B64Std => B "+/" | B64RawURL => B "-_" end.

Definition padded (e : b64) : bool := match e with B64Std => true | B64RawURL => false end.

(** Six bits, most significant first. *)
Definition sextet : Type := bool * bool * bool * bool * bool * bool.

Definition bit (b : bool) : nat := if b then 1 else 0.

Definition sextet_nat (s : sextet) : nat :=
  let '(a, b, c, d, e, f) := s in
  32 * bit a + 16 * bit b + 8 * bit c + 4 * bit d + 2 * bit e + bit f.

Definition enc6 (e : b64) (s : sextet) : ascii := nth (sextet_nat s) (alphabet e) "="%char.

Definition all_bool : list bool := [false; true].

Definition all_sextets : list sextet :=
  flat_map (fun a => flat_map (fun b => flat_map (fun c => flat_map (fun d => flat_map (fun e =>
    map (fun f => (a, b, c, d, e, f)) all_bool) all_bool) all_bool) all_bool) all_bool) all_bool.

Definition dec6 (e : b64) (c : ascii) : option sextet :=
  find (fun s => aeqb (enc6 e s) c) all_sextets.

(** [Ascii b0 .. b7] has its least significant bit first. *)
Fixpoint b64_encode (e : b64) (s : bytes) : bytes :=
  match s with
  | [] => []
  | [Ascii a0 a1 a2 a3 a4 a5 a6 a7] =>
      enc6 e (a7, a6, a5, a4, a3, a2) :: enc6 e (a1, a0, false, false, false, false)
      :: (if padded e then B "==" else [])
  | [Ascii a0 a1 a2 a3 a4 a5 a6 a7; Ascii b0 b1 b2 b3 b4 b5 b6 b7] =>
      enc6 e (a7, a6, a5, a4, a3, a2) :: enc6 e (a1, a0, b7, b6, b5, b4)
      :: enc6 e (b3, b2, b1, b0, false, false)
      :: (if padded e then B "=" else [])
  | Ascii a0 a1 a2 a3 a4 a5 a6 a7 :: Ascii b0 b1 b2 b3 b4 b5 b6 b7
      :: Ascii c0 c1 c2 c3 c4 c5 c6 c7 :: s' =>
      enc6 e (a7, a6, a5, a4, a3, a2) :: enc6 e (a1, a0, b7, b6, b5, b4)
      :: enc6 e (b3, b2, b1, b0, c7, c6) :: enc6 e (c5, c4, c3, c2, c1, c0)
      :: b64_encode e s'
  end.

Definition dec_tail1 (s1 s2 : sextet) : bytes :=
  let '(a7, a6, a5, a4, a3, a2) := s1 in
  let '(a1, a0, _, _, _, _) := s2 in
  [Ascii a0 a1 a2 a3 a4 a5 a6 a7].

Definition dec_tail2 (s1 s2 s3 : sextet) : bytes :=
  let '(a7, a6, a5, a4, a3, a2) := s1 in
  let '(a1, a0, b7, b6, b5, b4) := s2 in
  let '(b3, b2, b1, b0, _, _) := s3 in
  [Ascii a0 a1 a2 a3 a4 a5 a6 a7; Ascii b0 b1 b2 b3 b4 b5 b6 b7].

Definition dec_quad (s1 s2 s3 s4 : sextet) : bytes :=
  let '(a7, a6, a5, a4, a3, a2) := s1 in
  let '(a1, a0, b7, b6, b5, b4) := s2 in
  let '(b3, b2, b1, b0, c7, c6) := s3 in
  let '(c5, c4, c3, c2, c1, c0) := s4 in
  [Ascii a0 a1 a2 a3 a4 a5 a6 a7; Ascii b0 b1 b2 b3 b4 b5 b6 b7; Ascii c0 c1 c2 c3 c4 c5 c6 c7].

Definition dec2 (e : b64) (a b : ascii) : option bytes :=
  match dec6 e a, dec6 e b with Some s1, Some s2 => Some (dec_tail1 s1 s2) | _, _ => None end.

Definition dec3 (e : b64) (a b c : ascii) : option bytes :=
  match dec6 e a, dec6 e b, dec6 e c with
  | Some s1, Some s2, Some s3 => Some (dec_tail2 s1 s2 s3)
  | _, _, _ => None
  end.

Fixpoint b64_decode_clean (e : b64) (s : bytes) : option bytes :=
  match s with
  | [] => Some []
  | a :: b :: c :: d :: s' =>
      match dec6 e a, dec6 e b, dec6 e c, dec6 e d with
      | Some s1, Some s2, Some s3, Some s4 =>
          match b64_decode_clean e s' with
          | Some r => Some (dec_quad s1 s2 s3 s4 ++ r)
          | None => None
          end
      | _, _, _, _ =>
          if padded e then
            match s' with
            | [] =>
                if aeqb d "=" then
                  if aeqb c "=" then dec2 e a b else dec3 e a b c
                else None
            | _ => None
            end
          else None
      end
  | [a; b; c] => if padded e then None else dec3 e a b c
  | [a; b] => if padded e then None else dec2 e a b
  | [_] => None
  end.

(** Go's decoder skips CR and LF. *)
Definition is_crlf (c : ascii) : bool := aeqb c "013" || aeqb c "010".

Definition b64_decode (e : b64) (s : bytes) : option bytes :=
  b64_decode_clean e (filter (fun c => negb (is_crlf c)) s).

(** ** Facts *)

Lemma all_sextets_complete s : In s all_sextets.
Proof.
  assert (H : forall b, In b all_bool) by (intros []; simpl; auto).
  destruct s as [[[[[a b] c] d] e] f]. unfold all_sextets.
  apply in_flat_map; exists a; split; [apply H|]. apply in_flat_map; exists b; split; [apply H|].
  apply in_flat_map; exists c; split; [apply H|]. apply in_flat_map; exists d; split; [apply H|].
  apply in_flat_map; exists e; split; [apply H|]. apply in_map_iff; exists f; split; [reflexivity|apply H].
Qed.

Lemma dec6_enc6 e s : dec6 e (enc6 e s) = Some s.
Proof. destruct e, s as [[[[[[] []] []] []] []] []]; vm_compute; reflexivity. Qed.

Lemma dec6_pad e : dec6 e "="%char = None.
Proof. destruct e; vm_compute; reflexivity. Qed.

Lemma enc6_In e s : In (enc6 e s) (alphabet e).
Proof.
  destruct e, s as [[[[[[] []] []] []] []] []]; apply amem_In; vm_compute; reflexivity.
Qed.

Lemma enc6_not_crlf e s : is_crlf (enc6 e s) = false.
Proof. destruct e, s as [[[[[[] []] []] []] []] []]; vm_compute; reflexivity. Qed.

Lemma enc6_not_pad e s : aeqb (enc6 e s) "=" = false.
Proof. destruct e, s as [[[[[[] []] []] []] []] []]; vm_compute; reflexivity. Qed.

Lemma list_ind3 {A} (P : list A -> Prop) :
  P [] -> (forall a, P [a]) -> (forall a b, P [a; b]) ->
  (forall a b c l, P l -> P (a :: b :: c :: l)) -> forall l, P l.
Proof.
  intros H0 H1 H2 H3.
  assert (G : forall l, P l /\ (forall a, P (a :: l)) /\ (forall a b, P (a :: b :: l))).
  { induction l as [|x l (I1 & I2 & I3)].
    - repeat split; auto.
    - split; [apply I2|]. split; [intros a; apply I3|]. intros a b. apply H3. exact I1. }
  intros l. apply G.
Qed.

Lemma b64_encode_clean e s : filter (fun c => negb (is_crlf c)) (b64_encode e s) = b64_encode e s.
Proof.
  induction s as [|a|a b|a b c s IH] using list_ind3; [reflexivity| | |].
  - destruct a. cbn [b64_encode filter]. rewrite !enc6_not_crlf. cbn [negb].
    destruct e; reflexivity.
  - destruct a, b. cbn [b64_encode filter]. rewrite !enc6_not_crlf. cbn [negb].
    destruct e; reflexivity.
  - destruct a, b, c. cbn [b64_encode filter]. rewrite !enc6_not_crlf. cbn [negb].
    rewrite IH. reflexivity.
Qed.

Lemma b64_roundtrip e s : b64_decode e (b64_encode e s) = Some s.
Proof.
  unfold b64_decode. rewrite b64_encode_clean.
  induction s as [|a|a b|a b c s IH] using list_ind3; [reflexivity| | |].
  - destruct a. cbn [b64_encode]. destruct e; cbn [padded app B list_ascii_of_string b64_decode_clean].
    + rewrite !dec6_enc6, dec6_pad, !aeqb_refl. unfold dec2. rewrite !dec6_enc6. reflexivity.
    + unfold dec2. rewrite !dec6_enc6. reflexivity.
  - destruct a, b. cbn [b64_encode]. destruct e; cbn [padded app B list_ascii_of_string b64_decode_clean].
    + rewrite !dec6_enc6, dec6_pad, aeqb_refl.
      rewrite enc6_not_pad. unfold dec3. rewrite !dec6_enc6. reflexivity.
    + unfold dec3. rewrite !dec6_enc6. reflexivity.
  - destruct a, b, c. cbn [b64_encode b64_decode_clean]. rewrite !dec6_enc6, IH. reflexivity.
Qed.

Lemma b64_inj e a b : b64_encode e a = b64_encode e b -> a = b.
Proof. intros H. pose proof (b64_roundtrip e a) as Ha. rewrite H, b64_roundtrip in Ha. congruence. Qed.

(** Every byte of an encoding is in the alphabet or is padding. *)
Lemma b64_encode_alphabet e s c :
  In c (b64_encode e s) -> In c (alphabet e) \/ (c = "="%char /\ padded e = true).
Proof.
  induction s as [|x|x y|x y z s IH] using list_ind3; [intros []| | |].
  - destruct x. cbn [b64_encode]. intros [<-|[<-|H]]; try (left; apply enc6_In).
    destruct e; simpl in H; [right|destruct H]. intuition.
  - destruct x, y. cbn [b64_encode]. intros [<-|[<-|[<-|H]]]; try (left; apply enc6_In).
    destruct e; simpl in H; [right|destruct H]. intuition.
  - destruct x, y, z. cbn [b64_encode]. intros [<-|[<-|[<-|[<-|H]]]]; try (left; apply enc6_In).
    apply IH. exact H.
Qed.

Lemma b64_encode_nil e s : b64_encode e s = [] -> s = [].
Proof.
  destruct s as [|[] [|[] [|[] s]]]; cbn [b64_encode]; intros H; [reflexivity| | |]; discriminate.
Qed.
