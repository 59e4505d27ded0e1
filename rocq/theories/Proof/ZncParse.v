(** Proofs about the parser of ZNC configuration files. *)
From Verif.Base Require Import Bytes.
From Verif.Model Require Import Glob Sql ZncImport.
From Verif.Model Require Words.
From Verif.Proof Require Import Postgres.
From Verif.Spec Require Import Sql Postgres ZncImport.
From Coq Require Import ZArith NArith Lia.

(** ** Characters *)

Section Chars.
Local Open Scope N_scope.

Lemma low6_octet x : x < 64 -> low6 (octet (128 + x)) = x.
Proof.
  intros H. unfold low6. rewrite code_octet by lia. replace (128 + x) with (x + 2 * 64) by lia.
  rewrite N.mod_add by discriminate. apply N.mod_small. exact H.
Qed.

Lemma tail_mod k m x : k <> 0 -> x < k -> (m * k + x) mod k = x.
Proof. intros K H. rewrite N.add_comm, N.mod_add by exact K. apply N.mod_small. exact H. Qed.

Lemma rune_encode c s : scalar c -> rune (encode c ++ s) = (c, s).
Proof.
  intros H. unfold encode.
  destruct (N.ltb_spec c 128) as [H1|H1]; [|destruct (N.ltb_spec c 2048) as [H2|H2]; [|destruct (N.ltb_spec c 65536) as [H3|H3]]].
  - cbn [app rune]. rewrite code_octet by lia. apply N.ltb_lt in H1. rewrite H1. reflexivity.
  - dm c 64. assert (B1 : 2 <= c / 64 < 32) by lia. cbn [app rune]. rewrite (code_octet (192 + _)) by lia.
    replace (192 + c / 64 <? 128) with false by (symmetry; apply N.ltb_ge; lia).
    assert (L : lead (192 + c / 64) = Some (1%nat, 128, 191)) by (unfold lead; leb_split; reflexivity).
    rewrite L. fold (cont (octet (128 + c mod 64))). rewrite cont_octet, low6_octet by lia.
    change 192 with (6 * 32). rewrite tail_mod by lia. f_equal. lia.
  - dm c 64. dm c 4096. dm (c / 64) 64.
    assert (D1 : c / 64 / 64 = c / 4096) by (rewrite N.div_div by discriminate; reflexivity). rewrite D1 in *.
    assert (B1 : c / 4096 < 16) by lia. cbn [app rune]. rewrite (code_octet (224 + _)) by lia.
    replace (224 + c / 4096 <? 128) with false by (symmetry; apply N.ltb_ge; lia).
    assert (L : exists lo hi, lead (224 + c / 4096) = Some (2%nat, lo, hi) /\ lo <= 128 + (c / 64) mod 64 <= hi).
    { unfold lead, scalar in *. leb_split; eexists; eexists; (split; [reflexivity|]); lia. }
    destruct L as (lo & hi & L & Hl). rewrite L, (cont_octet (c mod 64)) by lia.
    replace (within lo hi (octet (128 + (c / 64) mod 64))) with true.
    2:{ unfold within. rewrite code_octet by lia. symmetry. apply andb_true_intro. split; apply N.leb_le; lia. }
    cbn [andb]. rewrite !low6_octet by lia. change 224 with (14 * 16). rewrite tail_mod by lia. f_equal. lia.
  - dm c 64. dm c 4096. dm c 262144. dm (c / 64) 64. dm (c / 4096) 64.
    assert (D1 : c / 64 / 64 = c / 4096) by (rewrite N.div_div by discriminate; reflexivity). rewrite D1 in *.
    assert (D2 : c / 4096 / 64 = c / 262144) by (rewrite N.div_div by discriminate; reflexivity). rewrite D2 in *.
    assert (B1 : c / 262144 < 5) by (unfold scalar in H; lia). cbn [app rune]. rewrite (code_octet (240 + _)) by lia.
    replace (240 + c / 262144 <? 128) with false by (symmetry; apply N.ltb_ge; lia).
    assert (L : exists lo hi, lead (240 + c / 262144) = Some (3%nat, lo, hi) /\ lo <= 128 + (c / 4096) mod 64 <= hi).
    { unfold lead, scalar in *. leb_split; eexists; eexists; (split; [reflexivity|]); lia. }
    destruct L as (lo & hi & L & Hl). rewrite L, (cont_octet (c mod 64)), (cont_octet ((c / 64) mod 64)) by lia.
    replace (within lo hi (octet (128 + (c / 4096) mod 64))) with true.
    2:{ unfold within. rewrite code_octet by lia. symmetry. apply andb_true_intro. split; apply N.leb_le; lia. }
    cbn [andb]. rewrite !low6_octet by lia. change 240 with (30 * 8). rewrite tail_mod by lia. f_equal. lia.
Qed.

Lemma encode_cons c : scalar c -> exists a x, encode c = a :: x.
Proof. intros _. unfold encode. destruct (c <? 128); [|destruct (c <? 2048); [|destruct (c <? 65536)]]; eexists; eexists; reflexivity. Qed.

(** The bytes of a character: itself, or above ASCII. *)
Lemma encode_bytes c b : scalar c -> In b (encode c) -> code b = c \/ 128 <= code b.
Proof.
  intros H. unfold encode.
  destruct (N.ltb_spec c 128) as [H1|H1]; [|destruct (N.ltb_spec c 2048) as [H2|H2]; [|destruct (N.ltb_spec c 65536) as [H3|H3]]].
  - intros [<-|[]]. left. apply code_octet. lia.
  - dm c 64. assert (B1 : 2 <= c / 64 < 32) by lia. intros [<-|[<-|[]]]; right; rewrite code_octet; lia.
  - dm c 64. dm c 4096. dm (c / 64) 64. assert (B1 : c / 4096 < 16) by lia.
    intros [<-|[<-|[<-|[]]]]; right; rewrite code_octet; lia.
  - dm c 64. dm c 4096. dm c 262144. dm (c / 64) 64. dm (c / 4096) 64.
    assert (B1 : c / 262144 < 5) by (unfold scalar in H; lia).
    intros [<-|[<-|[<-|[<-|[]]]]]; right; rewrite code_octet; lia.
Qed.

Lemma not_in_text l b : (forall c, In c l -> scalar c) -> code b < 128 -> ~ In (code b) l -> ~ In b (write_text l).
Proof.
  intros Hl Hb Hn K. unfold write_text in K. apply in_flat_map in K. destruct K as (c & Hc & K).
  destruct (encode_bytes c b (Hl c Hc) K) as [E|E]; [|lia]. subst c. exact (Hn Hc).
Qed.
End Chars.

Open Scope nat_scope.

(** ** Reading *)

Lemma rune_shorter a s r t : rune (a :: s) = (r, t) -> length t <= length s.
Proof.
  unfold rune. destruct (_ <? 128)%N; [intros E; injection E as _ <-; lia|].
  assert (T : forall x : bytes, (65533%N, x) = (r, t) -> length t <= length x) by (intros x E; injection E as _ <-; lia).
  destruct (lead _) as [[[n lo] hi]|]; [|apply T].
  destruct n as [|[|[|[|n]]]]; try apply T; destruct s as [|d y]; try apply T.
  - destruct (within _ _ _); [intros E; injection E as _ <-; cbn; lia|apply T].
  - destruct y as [|e y]; [apply T|]. destruct (_ && _); [intros E; injection E as _ <-; cbn; lia|apply T].
  - destruct y as [|e y]; [apply T|]. destruct y as [|f y]; [apply T|]. destruct (_ && _); [intros E; injection E as _ <-; cbn; lia|apply T].
Qed.

Lemma skip_fuel f : forall g s, length s <= f -> length s <= g -> skip_space f s = skip_space g s.
Proof.
  induction f as [|f IH]; intros g s Hf Hg.
  - destruct s; [|cbn in Hf; lia]. destruct g; reflexivity.
  - destruct s as [|a s]; [destruct g; reflexivity|]. destruct g as [|g]; [cbn in Hg; lia|].
    cbn [skip_space]. destruct (rune (a :: s)) as [r t] eqn:E. pose proof (rune_shorter _ _ _ _ E) as L.
    destruct (Words.is_space r); [|reflexivity]. cbn [length] in Hf, Hg. apply IH; lia.
Qed.

Lemma skip_len f : forall s, length (skip_space f s) <= length s.
Proof.
  induction f as [|f IH]; intros s; [destruct s; cbn; lia|]. destruct s as [|a s]; [cbn; lia|]. cbn [skip_space].
  destruct (rune (a :: s)) as [r t] eqn:E. pose proof (rune_shorter _ _ _ _ E) as L. cbn [length].
  destruct (Words.is_space r); [|cbn; lia]. specialize (IH t). lia.
Qed.

Lemma skip_blank w s : (forall c, In c w -> blank c) -> skip_spaces (write_text w ++ s) = skip_spaces s.
Proof.
  unfold skip_spaces, write_text. induction w as [|c w IH]; intros Hw; [reflexivity|].
  destruct (Hw c (or_introl eq_refl)) as [Sc Wc]. cbn [flat_map]. rewrite <- app_assoc.
  pose proof (rune_encode c (flat_map encode w ++ s) Sc) as R. destruct (encode_cons c Sc) as (a & x & Ec).
  rewrite Ec in *. cbn [app length skip_space] in *. rewrite R, Wc.
  rewrite (skip_fuel _ (length (flat_map encode w ++ s))); [|rewrite !app_length; lia|lia].
  apply IH. intros y Hy. apply Hw. right. exact Hy.
Qed.

Lemma skip_solid c s : scalar c -> solid c -> skip_spaces (encode c ++ s) = encode c ++ s.
Proof.
  intros Sc Hs. pose proof (rune_encode c s Sc) as R. destruct (encode_cons c Sc) as (a & x & Ec).
  rewrite Ec in *. unfold skip_spaces. cbn [app length skip_space] in *. rewrite R. rewrite Hs. reflexivity.
Qed.

Lemma skip_ascii a s : (code a < 128)%N -> Words.is_space (code a) = false -> skip_spaces (a :: s) = a :: s.
Proof.
  intros Ha Hs. unfold skip_spaces. cbn [length skip_space rune]. apply N.ltb_lt in Ha. rewrite Ha, Hs. reflexivity.
Qed.

Lemma read_word_app d w s : ~ In d w -> ~ In nl w -> read_word d (w ++ d :: s) = Some (w, s).
Proof.
  induction w as [|a w IH]; intros Hd Hn; cbn [app read_word].
  - rewrite aeqb_refl. reflexivity.
  - destruct (aeqb_spec a d) as [->|Ed]; [exfalso; apply Hd; left; reflexivity|].
    destruct (aeqb_spec a nl) as [->|En]; [exfalso; apply Hn; left; reflexivity|].
    rewrite IH; [reflexivity| |]; intros K; [apply Hd|apply Hn]; right; exact K.
Qed.

Lemma read_word_len d s : forall w t, read_word d s = Some (w, t) -> length t < length s.
Proof.
  induction s as [|a s IH]; intros w t E; cbn [read_word] in E; [discriminate|].
  destruct (aeqb a d); [injection E as _ <-; cbn; lia|]. destruct (aeqb a nl); [discriminate|].
  destruct (read_word d s) as [[w1 t1]|]; [|discriminate]. injection E as _ <-. specialize (IH _ _ eq_refl). cbn. lia.
Qed.

Lemma skip_comment_app t s : ~ In nl t -> skip_comment (t ++ nl :: s) = s.
Proof.
  induction t as [|a t IH]; intros Hn; cbn [app skip_comment]; [rewrite aeqb_refl; reflexivity|].
  destruct (aeqb_spec a nl) as [->|En]; [exfalso; apply Hn; left; reflexivity|]. apply IH. intros K. apply Hn. right. exact K.
Qed.

Lemma skip_comment_len s : length (skip_comment s) <= length s.
Proof. induction s as [|a s IH]; cbn [skip_comment]; [lia|]. destruct (aeqb a nl); cbn; lia. Qed.

(** ** Trimming *)

Definition point (c : N) : N * bytes := (c, encode c).

Lemma runes_text l : forall f, (forall c, In c l -> scalar c) -> length l <= f -> runes f (write_text l) = map point l.
Proof.
  unfold write_text. induction l as [|c l IH]; intros f Hl Hf; [destruct f; reflexivity|].
  destruct f as [|f]; [cbn in Hf; lia|]. pose proof (Hl c (or_introl eq_refl)) as Sc. cbn [flat_map map].
  pose proof (rune_encode c (flat_map encode l) Sc) as R. destruct (encode_cons c Sc) as (a & x & Ec).
  assert (F : firstn (length (encode c ++ flat_map encode l) - length (flat_map encode l)) (encode c ++ flat_map encode l) = encode c).
  { rewrite app_length. replace (_ + _ - _) with (length (encode c) + 0) by lia. rewrite firstn_app_2. cbn [firstn]. apply app_nil_r. }
  assert (U : runes (S f) (encode c ++ flat_map encode l) =
    (c, firstn (length (encode c ++ flat_map encode l) - length (flat_map encode l)) (encode c ++ flat_map encode l)) :: runes f (flat_map encode l)).
  { rewrite Ec in *. cbn [app runes] in *. rewrite R. reflexivity. }
  rewrite U, F. unfold point at 1. f_equal. apply IH; [intros y Hy; apply Hl; right; exact Hy|]. cbn in Hf. lia.
Qed.

Lemma text_len l : (forall c, In c l -> scalar c) -> length l <= length (write_text l).
Proof.
  unfold write_text. induction l as [|c l IH]; intros Hl; [cbn; lia|]. cbn [flat_map length].
  destruct (encode_cons c (Hl c (or_introl eq_refl))) as (a & x & Ec). rewrite Ec, app_length. cbn [length].
  specialize (IH (fun y Hy => Hl y (or_intror Hy))). lia.
Qed.

Lemma points_text l : (forall c, In c l -> scalar c) -> points (write_text l) = map point l.
Proof. intros H. apply runes_text; [exact H|]. apply text_len. exact H. Qed.

Lemma drop_blank p l : (forall c, In c p -> Words.is_space c = true) -> drop_space (map point p ++ l) = drop_space l.
Proof.
  induction p as [|c p IH]; intros H; [reflexivity|]. cbn [map app drop_space]. unfold point at 1. cbn [fst].
  rewrite (H c (or_introl eq_refl)). apply IH. intros y Hy. apply H. right. exact Hy.
Qed.

Lemma flat_point l : flat_map snd (map point l) = write_text l.
Proof. unfold write_text. induction l as [|c l IH]; [reflexivity|]. cbn. rewrite IH. reflexivity. Qed.

Lemma drop_solid c l : solid c -> drop_space (point c :: l) = point c :: l.
Proof. intros H. cbn [drop_space]. unfold point at 1. cbn [fst]. rewrite H. reflexivity. Qed.

Lemma trim_text p v q : trimmed v -> (forall c, In c (p ++ v ++ q) -> scalar c) ->
  (forall c, In c p -> Words.is_space c = true) -> (forall c, In c q -> Words.is_space c = true) ->
  trim (write_text (p ++ v ++ q)) = write_text v.
Proof.
  intros Hv Hs Hp Hq. unfold trim. rewrite (points_text _ Hs), map_app, (drop_blank p _ Hp).
  assert (Hq' : forall c, In c (rev q) -> Words.is_space c = true) by (intros c Hc; apply Hq, in_rev, Hc).
  destruct Hv as [->|(a & m & b & [[-> Sa]|[-> [Sa Sb]]])].
  - cbn [app]. rewrite <- (app_nil_r (map point q)), (drop_blank q _ Hq). reflexivity.
  - cbn [app map]. rewrite (drop_solid a _ Sa). cbn [rev]. rewrite <- map_rev, (drop_blank _ _ Hq'), (drop_solid a _ Sa). exact (flat_point [a]).
  - cbn [app map]. rewrite (drop_solid a _ Sa).
    replace (rev (point a :: map point ((m ++ [b]) ++ q))) with (map point (rev q) ++ point b :: rev (map point (a :: m))).
    2:{ change (point a :: map point ((m ++ [b]) ++ q)) with (map point (a :: (m ++ [b]) ++ q)). rewrite <- !map_rev.
        cbn [rev]. rewrite !rev_app_distr. cbn [rev app]. rewrite <- !app_assoc, !map_app. reflexivity. }
    rewrite (drop_blank _ _ Hq'), (drop_solid b _ Sb). cbn [rev]. rewrite rev_involutive.
    rewrite <- flat_point. f_equal. cbn [map app]. rewrite map_app. reflexivity.
Qed.

(** ** The loop *)

Lemma key_value_len s k v t : key_value s = Some (k, v, t) -> length t < length s.
Proof.
  unfold key_value. destruct (read_word "=" s) as [[k1 s1]|] eqn:E1; [|discriminate].
  destruct (read_word nl s1) as [[v1 s2]|] eqn:E2; [|discriminate]. intros E. injection E as _ _ <-.
  apply read_word_len in E1. apply read_word_len in E2. lia.
Qed.
Lemma header_len s k v t : header s = Some (k, v, t) -> length t < length s.
Proof.
  unfold header. destruct (read_word " " s) as [[k1 s1]|] eqn:E1; [|discriminate].
  destruct (read_word ">" s1) as [[v1 s2]|] eqn:E2; [|discriminate]. intros E. injection E as _ _ <-.
  apply read_word_len in E1. apply read_word_len in E2. lia.
Qed.
Lemma footer_len s w t : footer s = Some (w, t) -> length t < length s.
Proof.
  unfold footer. destruct s as [|a [|b s]]; try discriminate. destruct (_ && _); [|discriminate].
  intros E. apply read_word_len in E. cbn. lia.
Qed.

Lemma body_len f : forall s vs ks vs' ks' t, body f s vs ks = Some (vs', ks', t) -> length t <= length s.
Proof.
  induction f as [|f IH]; intros s vs ks vs' ks' t E; [discriminate|]. cbn [body] in E.
  pose proof (skip_len (length s) s) as L. fold (skip_spaces s) in L.
  destruct (skip_spaces s) as [|a [|b u]] eqn:Es; [injection E as _ _ <-; exact L|injection E as _ _ <-; exact L|].
  destruct (aeqb a "<").
  - destruct (aeqb b "/"); [injection E as _ _ <-; exact L|].
    destruct (header (b :: u)) as [[[typ name] s1]|] eqn:Eh; [|discriminate].
    destruct (body f s1 [] []) as [[[vs1 ks1] s2]|] eqn:Eb; [|discriminate].
    destruct (footer s2) as [[typ' s3]|] eqn:Ef; [|discriminate]. destruct (beqb typ' typ); [|discriminate].
    apply header_len in Eh. apply footer_len in Ef. apply IH in Eb. apply IH in E. cbn [length] in *. lia.
  - destruct (_ && _).
    + apply IH in E. pose proof (skip_comment_len u). cbn [length] in *. lia.
    + destruct (key_value (a :: b :: u)) as [[[k v] s1]|] eqn:Ek; [|discriminate]. apply key_value_len in Ek. apply IH in E. lia.
Qed.

(** Any fuel above the length gives the result. *)
Lemma body_fuel f : forall s vs ks r, body f s vs ks = Some r -> forall g, length s < g -> body g s vs ks = Some r.
Proof.
  induction f as [|f IH]; intros s vs ks r E g Hg; [discriminate|]. destruct g as [|g]; [lia|]. cbn [body] in E |- *.
  pose proof (skip_len (length s) s) as L. fold (skip_spaces s) in L.
  destruct (skip_spaces s) as [|a [|b u]] eqn:Es; [exact E|exact E|].
  destruct (aeqb a "<").
  - destruct (aeqb b "/"); [exact E|].
    destruct (header (b :: u)) as [[[typ name] s1]|] eqn:Eh; [|discriminate].
    destruct (body f s1 [] []) as [[[vs1 ks1] s2]|] eqn:Eb; [|discriminate].
    pose proof (header_len _ _ _ _ Eh) as Lh. pose proof (body_len _ _ _ _ _ _ _ Eb) as Lb. cbn [length] in *.
    rewrite (IH _ _ _ _ Eb g) by lia.
    destruct (footer s2) as [[typ' s3]|] eqn:Ef; [|discriminate]. apply footer_len in Ef.
    destruct (beqb typ' typ); [|discriminate]. apply IH; [exact E|lia].
  - destruct (_ && _).
    + pose proof (skip_comment_len u). apply IH; [exact E|]. cbn [length] in *. lia.
    + destruct (key_value (a :: b :: u)) as [[[k v] s1]|] eqn:Ek; [|discriminate]. apply key_value_len in Ek.
      apply IH; [exact E|]. lia.
Qed.

Lemma body_any f s vs ks r : body f s vs ks = Some r -> body (S (length s)) s vs ks = Some r.
Proof. intros E. exact (body_fuel f s vs ks r E (S (length s)) (Nat.lt_succ_diag_r _)). Qed.

Lemma body_more f s vs ks r g : body f s vs ks = Some r -> f <= g -> body g s vs ks = Some r.
Proof.
  revert g s vs ks r. induction f as [|f IH]; intros g s vs ks r E Hg; [discriminate|]. destruct g as [|g]; [lia|]. cbn [body] in E |- *.
  destruct (skip_spaces s) as [|a [|b u]]; [exact E|exact E|].
  destruct (aeqb a "<").
  - destruct (aeqb b "/"); [exact E|]. destruct (header (b :: u)) as [[[typ name] s1]|]; [|discriminate].
    destruct (body f s1 [] []) as [[[vs1 ks1] s2]|] eqn:Eb; [|discriminate]. rewrite (IH g _ _ _ _ Eb) by lia.
    destruct (footer s2) as [[typ' s3]|]; [|discriminate]. destruct (beqb typ' typ); [|discriminate]. apply IH; [exact E|lia].
  - destruct (_ && _); [apply IH; [exact E|lia]|].
    destruct (key_value (a :: b :: u)) as [[[k v] s1]|]; [|discriminate]. apply IH; [exact E|lia].
Qed.

Lemma newline_nl : newline = [nl].
Proof. reflexivity. Qed.

Lemma in_nl c : In (code c) [10]%N -> c = nl.
Proof. intros [E|[]]. unfold code in E. rewrite <- (ascii_N_embedding c), <- E. reflexivity. Qed.

Lemma scalars_app (p q : list N) : (forall c, In c p -> scalar c) -> (forall c, In c q -> scalar c) -> forall c, In c (p ++ q) -> scalar c.
Proof. intros Hp Hq c Hc. apply in_app_or in Hc. destruct Hc; auto. Qed.

Lemma space_eq : forall c, Words.is_space c = true -> c <> 61%N.
Proof. intros c H ->. discriminate. Qed.

Lemma trimmed_hd k : k <> [] -> trimmed k -> exists c k', k = c :: k' /\ solid c.
Proof. intros Hn [->|(a & m & b & [[-> Sa]|[-> [Sa _]]])]; [congruence| |]; eauto. Qed.

Lemma code_eq a b : code a = code b -> a = b.
Proof. unfold code. intros E. rewrite <- (ascii_N_embedding a), <- (ascii_N_embedding b), E. reflexivity. Qed.

Lemma body_print L : good L -> forall s vs ks f r,
  body f s (vs ++ settings L) (ks ++ sections L) = Some r -> exists g, body g (print L ++ s) vs ks = Some r.
Proof.
  induction L as [|w L IH|t L IH|k p1 p2 v p3 L IH|typ name I IHI L IH]; intros G s vs ks f r E; cbn [print settings sections good] in *.
  - rewrite !app_nil_r in E. exists f. exact E.
  - destruct G as [Gw G]. destruct (IH G s vs ks f r E) as [g Eg]. exists g. rewrite <- app_assoc.
    destruct g as [|g]; [discriminate|]. cbn [body] in Eg |- *. rewrite (skip_blank _ _ Gw). exact Eg.
  - destruct G as [Gt G]. destruct (IH G s vs ks f r E) as [g Eg]. exists (S g). cbn [body]. rewrite <- !app_assoc.
    change (B "//") with ["/"%char; "/"%char]. cbn [app]. rewrite skip_ascii by reflexivity.
    change (aeqb "/" "<") with false. change (aeqb "/" "/" && aeqb "/" "/") with true. cbn iota.
    rewrite newline_nl. cbn [app]. rewrite skip_comment_app by exact Gt. exact Eg.
  - destruct G as (Gk & Gv & Gp & G).
    destruct (IH G s (vs ++ [(write_text k, write_text v)]) ks f r) as [g Eg]; [rewrite <- app_assoc; exact E|].
    exists (S g). destruct Gk as (Kn & Kt & Kc & K1 & K2). destruct Gv as [Vt Vc].
    assert (P1 : forall c, In c p1 -> inline c) by (intros c Hc; apply Gp, in_or_app; left; exact Hc).
    assert (P2 : forall c, In c p2 -> inline c) by (intros c Hc; apply Gp, in_or_app; right; apply in_or_app; left; exact Hc).
    assert (P3 : forall c, In c p3 -> inline c) by (intros c Hc; apply Gp, in_or_app; right; apply in_or_app; right; exact Hc).
    assert (S1 : forall c, In c (k ++ p1) -> scalar c).
    { apply scalars_app; [intros c Hc; apply (Kc c Hc)|intros c Hc; apply (P1 c Hc)]. }
    assert (S2 : forall c, In c (p2 ++ v ++ p3) -> scalar c).
    { apply scalars_app; [intros c Hc; apply (P2 c Hc)|]. apply scalars_app; [intros c Hc; apply (Vc c Hc)|intros c Hc; apply (P3 c Hc)]. }
    assert (KV : key_value (write_text (k ++ p1) ++ B "=" ++ write_text (p2 ++ v ++ p3) ++ newline ++ print L ++ s) =
                 Some (write_text k, write_text v, print L ++ s)).
    { unfold key_value. change (B "=") with ["="%char]. rewrite newline_nl. cbn [app].
      rewrite read_word_app.
      - rewrite read_word_app.
        + rewrite (trim_text p2 v p3 Vt S2 (fun c Hc => proj1 (proj2 (P2 c Hc))) (fun c Hc => proj1 (proj2 (P3 c Hc)))).
          pose proof (trim_text [] k p1 Kt S1 (fun c Hc => match Hc with end) (fun c Hc => proj1 (proj2 (P1 c Hc)))) as Tk. cbn [app] in Tk. rewrite Tk. reflexivity.
        + apply not_in_text; [exact S2|reflexivity|]. intros K. apply in_app_or in K. destruct K as [K|K]; [exact (proj2 (proj2 (P2 _ K)) eq_refl)|].
          apply in_app_or in K. destruct K as [K|K]; [exact (proj2 (Vc _ K) eq_refl)|exact (proj2 (proj2 (P3 _ K)) eq_refl)].
        + apply not_in_text; [exact S2|reflexivity|]. intros K. apply in_app_or in K. destruct K as [K|K]; [exact (proj2 (proj2 (P2 _ K)) eq_refl)|].
          apply in_app_or in K. destruct K as [K|K]; [exact (proj2 (Vc _ K) eq_refl)|exact (proj2 (proj2 (P3 _ K)) eq_refl)].
      - apply not_in_text; [exact S1|reflexivity|]. intros K. apply in_app_or in K. destruct K as [K|K]; [exact (proj2 (proj2 (Kc _ K)) eq_refl)|].
        exact (space_eq _ (proj1 (proj2 (P1 _ K))) eq_refl).
      - apply not_in_text; [exact S1|reflexivity|]. intros K. apply in_app_or in K. destruct K as [K|K]; [exact (proj1 (proj2 (Kc _ K)) eq_refl)|].
        exact (proj2 (proj2 (P1 _ K)) eq_refl). }
    rewrite <- !app_assoc.
    set (whole := write_text (k ++ p1) ++ B "=" ++ write_text (p2 ++ v ++ p3) ++ newline ++ print L ++ s) in *.
    destruct (trimmed_hd k Kn Kt) as (c & k' & -> & Sc).
    assert (Scc : scalar c) by (apply S1; left; reflexivity).
    assert (Sk : skip_spaces whole = whole).
    { assert (W : whole = encode c ++ write_text (k' ++ p1) ++ B "=" ++ write_text (p2 ++ v ++ p3) ++ newline ++ print L ++ s).
      { unfold whole. cbn [app]. unfold write_text at 1. cbn [flat_map]. rewrite <- app_assoc. reflexivity. }
      rewrite W. apply skip_solid; assumption. }
    assert (Hw : exists a b u, whole = a :: b :: u /\ aeqb a "<" = false /\ aeqb a "/" && aeqb b "/" = false).
    { assert (N60 : c <> 60%N) by (intros ->; apply K1; reflexivity).
      destruct (encode_cons c Scc) as (a & x & Ec).
      assert (Ha : code a = c \/ (128 <= code a)%N) by (apply encode_bytes; [exact Scc|rewrite Ec; left; reflexivity]).
      assert (A1 : aeqb a "<" = false).
      { apply aeqb_neq. intros ->. destruct Ha as [Ha|Ha]; [apply N60; symmetry; exact Ha|apply Ha; reflexivity]. }
      assert (T : exists b u, x ++ write_text (k' ++ p1) ++ B "=" ++ write_text (p2 ++ v ++ p3) ++ newline ++ print L ++ s = b :: u /\
                  (a = "/"%char -> b <> "/"%char)).
      { destruct x as [|b x].
        - destruct k' as [|c' k'].
          + destruct p1 as [|c' p1].
            * eexists. eexists. split; [reflexivity|]. intros _. discriminate.
            * assert (Sc' : scalar c') by (apply P1; left; reflexivity). destruct (encode_cons c' Sc') as (b & y & Eb).
              exists b. eexists. split; [cbn [app]; unfold write_text at 1; cbn [flat_map]; rewrite Eb; reflexivity|].
              intros _ ->. destruct (encode_bytes c' "/" Sc') as [K|K]; [rewrite Eb; left; reflexivity| |apply K; reflexivity].
              destruct (P1 c' (or_introl eq_refl)) as (_ & W & _). rewrite <- K in W. discriminate.
          + assert (Sc' : scalar c') by (apply S1; right; left; reflexivity). destruct (encode_cons c' Sc') as (b & y & Eb).
            exists b. eexists. split; [cbn [app]; unfold write_text at 1; cbn [flat_map]; rewrite Eb; reflexivity|].
            intros -> ->. destruct (encode_bytes c' "/" Sc') as [K|K]; [rewrite Eb; left; reflexivity| |apply K; reflexivity].
            destruct Ha as [Ha|Ha]; [|apply Ha; reflexivity]. apply (K2 k'). rewrite <- Ha, <- K. reflexivity.
        - exists b. eexists. split; [reflexivity|]. intros -> ->.
          destruct (encode_bytes c "/" Scc) as [K|K]; [rewrite Ec; left; reflexivity| |apply K; reflexivity].
          change (code "/") with 47%N in K. subst c. discriminate Ec. }
      destruct T as (b & u & Eu & Hb). exists a, b, u. split.
      - unfold whole. cbn [app]. unfold write_text at 1. cbn [flat_map]. fold (write_text (k' ++ p1)). rewrite Ec, <- app_assoc. cbn [app]. f_equal. exact Eu.
      - split; [exact A1|]. destruct (aeqb_spec a "/") as [Ea|Ea]; [|reflexivity]. cbn [andb]. apply aeqb_neq. exact (Hb Ea). }
    destruct Hw as (a & b & u & Ew & A1 & A2). cbn [body]. rewrite Sk.
    rewrite Ew in KV |- *. rewrite A1, A2, KV. exact Eg.
  - destruct G as (Gt & G0 & Gn & GI & G).
    destruct (IH G s vs (ks ++ [Znc typ name (settings I) (sections I)]) f r) as [g Eg]; [rewrite <- app_assoc; exact E|].
    destruct (IHI GI (B "</" ++ typ ++ B ">" ++ print L ++ s) [] [] 1
      (settings I, sections I, B "</" ++ typ ++ B ">" ++ print L ++ s)) as [h Eh].
    { cbn [body]. change (B "</") with ["<"%char; "/"%char]. cbn [app]. rewrite skip_ascii by reflexivity. reflexivity. }
    exists (S (Nat.max g h)). cbn [body]. rewrite <- !app_assoc. change (B "<" ++ typ ++ B " " ++ name ++ B ">" ++ print I ++ B "</" ++ typ ++ B ">" ++ print L ++ s)
      with ("<"%char :: typ ++ B " " ++ name ++ B ">" ++ print I ++ B "</" ++ typ ++ B ">" ++ print L ++ s).
    rewrite skip_ascii by reflexivity.
    assert (T1 : ~ In " "%char typ) by (intros K; apply (Gt _ K); left; reflexivity).
    assert (T2 : ~ In nl typ) by (intros K; apply (Gt _ K); right; right; left; reflexivity).
    assert (T3 : ~ In ">"%char typ) by (intros K; apply (Gt _ K); right; left; reflexivity).
    assert (N1 : ~ In ">"%char name) by (intros K; apply (Gn _ K); left; reflexivity).
    assert (N2 : ~ In nl name) by (intros K; apply (Gn _ K); right; left; reflexivity).
    assert (H : header (typ ++ B " " ++ name ++ B ">" ++ print I ++ B "</" ++ typ ++ B ">" ++ print L ++ s) =
                Some (typ, name, print I ++ B "</" ++ typ ++ B ">" ++ print L ++ s)).
    { unfold header. change (B " ") with [" "%char]. change (B ">" ++ print I ++ ?x) with (">"%char :: print I ++ x).
      cbn [app]. rewrite read_word_app by assumption.
      rewrite (read_word_app ">" name) by assumption. reflexivity. }
    assert (F : footer (B "</" ++ typ ++ B ">" ++ print L ++ s) = Some (typ, print L ++ s)).
    { change (footer (B "</" ++ typ ++ B ">" ++ print L ++ s)) with (read_word ">" (typ ++ ">"%char :: print L ++ s)).
      apply read_word_app; assumption. }
    assert (Hd : exists b u, typ ++ B " " ++ name ++ B ">" ++ print I ++ B "</" ++ typ ++ B ">" ++ print L ++ s = b :: u /\ b <> "/"%char).
    { destruct typ as [|b typ']; [eexists; eexists; split; [reflexivity|discriminate]|]. exists b. eexists. split; [reflexivity|].
      intros ->. apply G0. reflexivity. }
    destruct Hd as (b & u & Eu & Hb). rewrite Eu in H |- *. change (aeqb "<" "<") with true. cbn iota. apply aeqb_neq in Hb. rewrite Hb, H.
    rewrite (body_more _ _ _ _ _ (Nat.max g h) Eh) by lia. rewrite F, beqb_refl.
    exact (body_more _ _ _ _ _ (Nat.max g h) Eg (Nat.le_max_l _ _)).
Qed.

Lemma parse_print L : good L -> parse (print L) = Some (Znc [] [] (settings L) (sections L)).
Proof.
  intros G. destruct (body_print L G [] [] [] 1 (settings L, sections L, []) eq_refl) as [g Eg]. rewrite app_nil_r in Eg.
  unfold parse. rewrite (body_any _ _ _ _ _ Eg). reflexivity.
Qed.

(** What follows a footer without header is not read. *)
Lemma parse_footer L s : good L -> parse (print L ++ B "</" ++ s) = Some (Znc [] [] (settings L) (sections L)).
Proof.
  intros G. destruct (body_print L G (B "</" ++ s) [] [] 1 (settings L, sections L, B "</" ++ s)) as [g Eg].
  { cbn [body]. change (B "</") with ["<"%char; "/"%char]. cbn [app]. rewrite skip_ascii by reflexivity. reflexivity. }
  unfold parse. rewrite (body_any _ _ _ _ _ Eg). reflexivity.
Qed.
