(** Proofs for Properties/Endpoint.v. *)
From Coq Require Import ZArith Lia.
From Verif.Base Require Import Bytes.
From Verif.Model Require Import SourceAddr IPAddr Networks Endpoint.
From Verif.Model Require Addr Push Identd.
From Verif.Proof Require Addr Push IPAddr SourceAddr.
From Verif.Spec Require Import SourceAddr IPAddr Endpoint.
From Verif.Spec Require Push.
Open Scope N_scope.

(** ** Ranges *)
Definition top4 (b : N) : bool :=
  eqb (N.land b 240 =? 224) ((224 <=? b) && (b <=? 239)) && eqb (N.land b 240 =? 16) ((16 <=? b) && (b <=? 31)) &&
  eqb (N.land b 254 =? 252) ((252 <=? b) && (b <=? 253)).
Lemma top4_all : forallb top4 (map N.of_nat (seq 0 256)) = true.
Proof. vm_compute. reflexivity. Qed.
Lemma top4_ok b : b < 256 -> top4 b = true.
Proof.
  intros H. pose proof top4_all as A. rewrite forallb_forall in A. apply A. rewrite <- (N2Nat.id b). apply in_map, in_seq. lia.
Qed.
Lemma land_multi b : b < 256 -> (N.land b 240 =? 224) = ((224 <=? b) && (b <=? 239)).
Proof. intros H. pose proof (top4_ok b H) as T. unfold top4 in T. apply andb_prop in T as [T _]. apply andb_prop in T as [T _]. apply eqb_prop, T. Qed.
Lemma land_priv b : b < 256 -> (N.land b 240 =? 16) = ((16 <=? b) && (b <=? 31)).
Proof. intros H. pose proof (top4_ok b H) as T. unfold top4 in T. apply andb_prop in T as [T _]. apply andb_prop in T as [_ T]. apply eqb_prop, T. Qed.
Lemma land_ula b : b < 256 -> (N.land b 254 =? 252) = ((252 <=? b) && (b <=? 253)).
Proof. intros H. pose proof (top4_ok b H) as T. unfold top4 in T. apply andb_prop in T as [_ T]. apply eqb_prop, T. Qed.

Definition withinb (t : list (list N * list N)) (a : list N) : bool :=
  existsb (fun p => (number_of (fst p) <=? number_of a) && (number_of a <=? number_of (snd p))) t.
Lemma withinb_iff t a : withinb t a = true <-> within t a.
Proof.
  unfold withinb, within, from_to. rewrite existsb_exists. split.
  - intros ([lo hi] & I & H). cbn [fst snd] in H. apply andb_prop in H as [H1 H2]. apply N.leb_le in H1, H2. eauto.
  - intros (lo & hi & I & H1 & H2). exists (lo, hi). split; [exact I|]. cbn [fst snd]. apply andb_true_intro. rewrite !N.leb_le. auto.
Qed.

Definition refused (a : ip) : bool := is_loopback a || is_multicast a || is_private a.

Lemma number4 a b c d : number_of [a; b; c; d] = 281470681743360 + (a * 16777216 + b * 65536 + c * 256 + d).
Proof. unfold number_of. cbn [length Nat.eqb mapped app addr_num]. change (2 ^ (8 * N.of_nat 15)) with (2 ^ 120). simpl N.of_nat. simpl N.mul at 1. cbn -[N.mul N.add]. lia. Qed.

Ltac by_range := apply eq_true_iff_eq; rewrite ?orb_true_iff, ?andb_true_iff, ?N.eqb_eq, ?N.leb_le; (intuition lia).
Lemma ranges4 a b c d : a < 256 -> b < 256 -> c < 256 -> d < 256 -> refused [a; b; c; d] = withinb inner [a; b; c; d].
Proof.
  intros A B' C D. unfold refused, is_loopback, is_multicast, is_private, to4. cbn [length Nat.eqb]. cbn [byte_at nth].
  rewrite land_multi, land_priv by assumption. unfold withinb, inner. cbn [existsb fst snd]. rewrite !number4.
  repeat match goal with |- context [number_of ?x] => let v := eval vm_compute in (number_of x) in change (number_of x) with v end.
  set (x := 281470681743360 + (a * 16777216 + b * 65536 + c * 256 + d)).
  assert (X : x = 281470681743360 + (a * 16777216 + b * 65536 + c * 256 + d)) by reflexivity. clearbody x.
  apply eq_true_iff_eq. rewrite ?orb_true_iff, ?andb_true_iff, ?N.eqb_eq, ?N.leb_le.
  split; [|intros H].
  - intros [[H|H]|[[H|H]|H]].
    + left. lia.
    + do 6 right. left. lia.
    + do 2 right. left. lia.
    + do 3 right. left. lia.
    + do 4 right. left. lia.
  - destruct H as [H|[H|[H|[H|[H|[H|[H|[H|H]]]]]]]]; try (exfalso; lia).
    + left. left. lia.
    + right. left. left. lia.
    + right. left. right. lia.
    + right. right. lia.
    + left. right. lia.
Qed.

Lemma addr_app a b : addr_num (a ++ b) = addr_num a * 2 ^ (8 * N.of_nat (length b)) + addr_num b.
Proof.
  induction a as [|x a IH]; [reflexivity|]. cbn [app addr_num length]. rewrite IH, app_length.
  replace (8 * N.of_nat (length a + length b)) with (8 * N.of_nat (length a) + 8 * N.of_nat (length b)) by lia.
  rewrite N.pow_add_r. lia.
Qed.
Lemma addr_inj a : forall b, Forall (fun x => x < 256) a -> Forall (fun x => x < 256) b -> length a = length b -> addr_num a = addr_num b -> a = b.
Proof.
  induction a as [|x a IH]; intros [|y b] Ha Hb L E; try discriminate L; [reflexivity|].
  inversion Ha as [|? ? Hx Ha']; subst. inversion Hb as [|? ? Hy Hb']; subst. cbn [addr_num] in E. cbn [length] in L. apply eq_add_S in L.
  pose proof (Proof.SourceAddr.addr_lt a Ha') as La. pose proof (Proof.SourceAddr.addr_lt b Hb') as Lb. rewrite L in E, La.
  set (k := 2 ^ (8 * N.of_nat (length b))) in *. assert (x = y) by nia. subst y. f_equal. apply IH; auto. lia.
Qed.

Lemma len4 (q : list N) : length q = 4%nat -> exists a b c d, q = [a; b; c; d].
Proof. destruct q as [|a [|b [|c [|d [|]]]]]; try discriminate. intros _. repeat eexists. Qed.

Lemma ranges a : an_address a -> (refused a = true <-> within inner a).
Proof.
  intros [[L|L] F].
  - destruct (len4 a L) as (x & y & z & t & ->). inversion F as [|? ? F1 F']; subst. inversion F' as [|? ? F2 F'']; subst.
    inversion F'' as [|? ? F3 F3']; subst. inversion F3' as [|? ? F4 ?]; subst. rewrite ranges4 by assumption. apply withinb_iff.
  - destruct (Proof.IPAddr.to4_16 a L) as [(q & E & T & Lq)|[N' T]].
    + assert (E1 : refused a = refused q).
      { unfold refused, is_loopback, is_multicast, is_private. rewrite T. unfold to4. rewrite Lq. reflexivity. }
      assert (E2 : number_of a = number_of q). { unfold number_of. rewrite L, Lq, E. reflexivity. }
      assert (Fq : Forall (fun b => b < 256) q) by (rewrite E in F; apply Forall_app in F; tauto).
      assert (E3 : withinb inner a = withinb inner q) by (unfold withinb; rewrite E2; reflexivity).
      rewrite E1, <- withinb_iff, E3. clear - Lq Fq. destruct (len4 q Lq) as (x & y & z & t & ->).
      inversion Fq as [|? ? F1 F']; subst. inversion F' as [|? ? F2 F'']; subst.
      inversion F'' as [|? ? F3 F3']; subst. inversion F3' as [|? ? F4 ?]; subst. rewrite ranges4 by assumption. tauto.
    + assert (Hn : number_of a = addr_num a) by (unfold number_of; rewrite L; reflexivity).
      destruct a as [|x r] eqn:Ea; [discriminate|]. inversion F as [|? ? Fx Fr]; subst. cbn [length] in L. apply eq_add_S in L.
      pose proof (Proof.SourceAddr.addr_lt r Fr) as Lr. cbn [addr_num] in Hn. rewrite L in Hn, Lr.
      change (8 * N.of_nat 15) with 120 in Hn, Lr.
      assert (E1 : refused (x :: r) = list_eqb (x :: r) (repeat 0 15 ++ [1]) || (x =? 255) || ((252 <=? x) && (x <=? 253))).
      { unfold refused, is_loopback, is_multicast, is_private. rewrite T. cbn [length]. rewrite L. cbn [Nat.eqb andb byte_at nth].
        rewrite land_ula by assumption. reflexivity. }
      assert (M : ~ 281470681743360 <= number_of (x :: r) <= 281474976710655).
      { intros H. apply N'. exists (skipn 12 (x :: r)). rewrite <- (firstn_skipn 12 (x :: r)) at 1. f_equal.
        assert (L12 : length (firstn 12 (x :: r)) = 12%nat) by (rewrite firstn_length; cbn [length]; rewrite L; reflexivity).
        assert (L4 : length (skipn 12 (x :: r)) = 4%nat) by (rewrite skipn_length; cbn [length]; rewrite L; reflexivity).
        assert (F12 : Forall (fun b => b < 256) (firstn 12 (x :: r))) by (apply Forall_forall; intros b I; rewrite Forall_forall in F; apply F; rewrite <- (firstn_skipn 12 (x :: r)); apply in_or_app; auto).
        assert (F4 : Forall (fun b => b < 256) (skipn 12 (x :: r))) by (apply Forall_forall; intros b I; rewrite Forall_forall in F; apply F; rewrite <- (firstn_skipn 12 (x :: r)); apply in_or_app; auto).
        apply addr_inj; [exact F12|repeat constructor|exact L12|].
        assert (E : number_of (x :: r) = addr_num (firstn 12 (x :: r)) * 4294967296 + addr_num (skipn 12 (x :: r))).
        { unfold number_of. cbn [length]. rewrite L. cbn [Nat.eqb]. rewrite <- (firstn_skipn 12 (x :: r)) at 1. rewrite addr_app, L4. reflexivity. }
        pose proof (Proof.SourceAddr.addr_lt _ F4) as L4'. rewrite L4 in L4'. change (2 ^ (8 * N.of_nat 4)) with 4294967296 in L4'.
        change (addr_num mapped) with 65535. lia. }
      rewrite E1, <- withinb_iff. unfold withinb, inner. cbn [existsb fst snd].
      assert (One : number_of (x :: r) = 1 <-> (x :: r) = repeat 0 15 ++ [1]).
      { split; [|intros ->; reflexivity]. intros H. apply addr_inj; [exact F|repeat constructor|cbn [length]; rewrite L; reflexivity|].
        unfold number_of in H. cbn [length] in H. rewrite L in H. cbn [Nat.eqb] in H. rewrite H. reflexivity. }
      rewrite ?orb_true_iff, Proof.IPAddr.list_eqb_iff, <- One, ?andb_true_iff, ?N.eqb_eq, ?N.leb_le.
      repeat match goal with |- context [number_of ?y] => lazymatch y with x :: r => fail | _ => let v := eval vm_compute in (number_of y) in change (number_of y) with v end end.
      set (n := number_of (x :: r)) in *. clearbody n. set (k := addr_num r) in *. clearbody k.
      change (2 ^ 120) with 1329227995784915872903807060280344576 in *. split.
      * intros [[H|H]|H]; [right; left; lia|do 7 right; left; lia|do 5 right; left; lia].
      * intros [H|[H|[H|[H|[H|[H|[H|[H|H]]]]]]]]; try (exfalso; lia).
        -- left. left. lia.
        -- right. lia.
        -- left. right. lia.
Qed.

(** ** Lookups *)
Lemma lookup_addresses w h l a : addresses w -> lookup w h = Some l -> In a l -> an_address a.
Proof.
  intros Hw. unfold lookup.
  set (found := match parse_literal h with Some a => Some [a] | None => _ end).
  assert (F : forall l', found = Some l' -> Forall an_address l').
  { intros l'. unfold found. destruct (parse_literal h) as [x|] eqn:E.
    - intros H. injection H as <-. constructor; [|constructor]. unfold parse_literal in E.
      destruct (addr_family h) as [[|]|]; [| |discriminate].
      + apply Proof.IPAddr.v4_sound in E. split; [left; eapply Proof.IPAddr.text4_len; eauto|eapply Proof.IPAddr.text4_bytes; eauto].
      + assert (G : exists s, parse_v6 s = Some x) by (destruct (cut_on "%" h) as [b [[|z1 z]|]]; [discriminate|eauto|eauto]).
        destruct G as [s G]. apply Proof.IPAddr.v6_sound in G. apply Proof.IPAddr.text6_address in G. destruct G. split; auto.
    - destruct (negb (beqb h []) && forallb name_char h); [|discriminate].
      destruct (dns w h) as [[|y ys]|] eqn:Ed; try discriminate. intros H. injection H as <-. apply Forall_forall. intros b I. eapply Hw; eauto. }
  intros H I. destruct found as [l0|] eqn:Ef; [|discriminate]. specialize (F l0 eq_refl).
  assert (G : l = l0 \/ l = l0 ++ [[0; 0; 0; 0]]).
  { destruct l0 as [|x [|y l0]]; [injection H as <-; auto| |injection H as <-; auto]. destruct (list_eqb x _); injection H as <-; auto. }
  rewrite Forall_forall in F. destruct G as [-> | ->]; [auto|]. apply in_app_or in I as [I|[<-|[]]]; [auto|].
  split; [left; reflexivity|repeat constructor].
Qed.
Lemma lookup_nonempty w h l : lookup w h = Some l -> l <> [].
Proof.
  unfold lookup. destruct (parse_literal h) as [x|]; [destruct (list_eqb x _); intros H; injection H as <-; discriminate|].
  destruct (negb (beqb h []) && forallb name_char h); [|discriminate].
  destruct (dns w h) as [[|y [|z ys]]|]; try discriminate; [|intros H; injection H as <-; discriminate].
  destruct (list_eqb y _); intros H; injection H as <-; discriminate.
Qed.
Lemma lookup_same w w' h : (forall x, dns w x = dns w' x) -> lookup w h = lookup w' h.
Proof. intros E. unfold lookup. rewrite E. reflexivity. Qed.

Lemma sane_iff w ep : addresses w -> sane w ep = true <->
  exists u l, Addr.parse_url ep = Some u /\ u_scheme u = B "https" /\ lookup w (u_host u) = Some l /\ Forall (fun a => ~ within inner a) l.
Proof.
  intros Hw. unfold sane. split.
  - destruct (Addr.parse_url ep) as [u|]; [|discriminate]. destruct (beqb (u_scheme u) (B "https")) eqn:E; [|discriminate]. cbn [negb].
    apply beqb_eq in E. destruct (lookup w (u_host u)) as [l|] eqn:El; [|discriminate]. intros H. exists u, l.
    split; [reflexivity|]. split; [exact E|]. split; [exact El|]. apply Forall_forall. intros a I W.
    rewrite forallb_forall in H. specialize (H a I). apply negb_true_iff in H.
    assert (refused a = true) by (apply ranges; [eapply lookup_addresses; eauto|exact W]). unfold refused in H0. congruence.
  - intros (u & l & -> & -> & E & F). rewrite beqb_refl. cbn [negb]. rewrite E. apply forallb_forall. intros a I.
    apply negb_true_iff. destruct (is_loopback a || is_multicast a || is_private a) eqn:R; [|reflexivity]. exfalso.
    rewrite Forall_forall in F. apply (F a I). apply ranges; [eapply lookup_addresses; eauto|exact R].
Qed.

(** ** The authority of a URL *)
Lemma unescape_no_colon s h : Addr.un_host s = Some h -> ~ In ":"%char s -> ~ In ":"%char h.
Proof.
  unfold Addr.un_host. revert h.
  assert (G : forall n s, (length s <= n)%nat -> forall h, Addr.unescape Addr.host_char (fun a b => (8 <=? Addr.hexval a) || Addr.is25 a b) s = Some h -> ~ In ":"%char s -> ~ In ":"%char h).
  { induction n as [|n IH]; intros [|c s'] L h; cbn [Addr.unescape]; try (intros H _; injection H as <-; auto).
    - cbn in L. lia.
    - cbn [length] in L. intros H N'. destruct (aeqb c "%") eqn:Ec.
      + destruct s' as [|a [|b s2]]; try discriminate. destruct (is_hex a && is_hex b && _) eqn:Eh; [|discriminate].
        destruct (Addr.unescape _ _ s2) as [h2|] eqn:E2; [|discriminate]. cbn [option_map] in H. injection H as <-.
        intros [I|I]; [|revert I; eapply IH; [|exact E2|]; [cbn [length] in L; lia|intros J; apply N'; right; right; right; exact J]].
        apply andb_prop in Eh as [Eh Ex]. apply andb_prop in Eh as [Ha Hb].
        pose proof (Proof.IPAddr.hexval_lt a Ha) as La. pose proof (Proof.IPAddr.hexval_lt b Hb) as Lb.
        apply (f_equal code) in I. unfold code in I. rewrite N_ascii_embedding in I by lia. change (N_of_ascii ":") with 58 in I.
        apply orb_prop in Ex as [Ex|Ex]; [apply N.leb_le in Ex; lia|]. unfold Addr.is25 in Ex. apply andb_prop in Ex as [X1 X2].
        apply aeqb_eq in X1, X2. subst. vm_compute in I. discriminate.
      + destruct (Addr.host_char c); [|discriminate]. destruct (Addr.unescape _ _ s') as [h2|] eqn:E2; [|discriminate].
        cbn [option_map] in H. injection H as <-. intros [I|I]; [apply N'; left; exact I|]. revert I. eapply IH; [|exact E2|]; [lia|].
        intros J. apply N'. right. exact J. }
  intros h. apply (G (length s) s (Nat.le_refl _)).
Qed.
Lemma un_host_bracket s h : Addr.un_host (("["%char) :: s) = Some h -> exists r, h = "["%char :: r.
Proof.
  unfold Addr.un_host. cbn [Addr.unescape]. change (aeqb "[" "%") with false. cbn [negb]. change (Addr.host_char "[") with true. cbv iota.
  destruct (Addr.unescape _ _ s); [|discriminate]. cbn [option_map]. intros H. injection H as <-. eauto.
Qed.
Lemma cut25_app s a b : Addr.cut25 s = Some (a, b) -> s = a ++ b.
Proof.
  revert a b. induction s as [|c s IH]; intros a b; cbn [Addr.cut25].
  - change (has_prefix [] (B "%25")) with false. discriminate.
  - destruct (has_prefix (c :: s) (B "%25")); [intros H; injection H as <- <-; reflexivity|].
    destruct (Addr.cut25 s) as [[x y]|]; [|discriminate]. cbn [option_map]. intros H. injection H as <- <-.
    cbn [app]. f_equal. apply IH. reflexivity.
Qed.
Lemma parse_host_kind a h : Addr.parse_host a = Some h -> ~ In ":"%char a -> ~ In ":"%char h \/ exists r, h = "["%char :: r.
Proof.
  unfold Addr.parse_host. intros H N'. destruct (has_prefix a (B "[")) eqn:P.
  - right. apply has_prefix_iff in P as [r P]. change (B "[") with ["["%char] in P. cbn [app] in P. subst a.
    destruct (Identd.cut_last "]" ("["%char :: r)) as [[pre port]|] eqn:Ec; [|discriminate].
    destruct (negb (Addr.valid_port port)); [discriminate|]. apply Proof.Addr.cut_last_some in Ec as [Ec _].
    destruct (Addr.cut25 pre) as [[x z]|] eqn:E25; [|eapply un_host_bracket; exact H].
    unfold Addr.opt_app in H. destruct (Addr.un_host x) as [hx|] eqn:Ex; [|discriminate].
    destruct (match Addr.un_zone z with Some _ => _ | None => None end) as [t|] eqn:Et; [|discriminate]. injection H as <-.
    pose proof E25 as E25'. apply cut25_app in E25. subst pre. destruct x as [|c x].
    + cbn [app] in E25', Ec. exfalso. destruct z as [|c z]; [cbn in E25'; discriminate|]. cbn [app] in Ec. injection Ec as <- _.
      cbn [Addr.cut25] in E25'. change (has_prefix ("["%char :: z) (B "%25")) with false in E25'. cbv iota in E25'.
      destruct (Addr.cut25 z) as [[? ?]|]; discriminate.
    + cbn [app] in Ec. injection Ec as <- _. destruct (un_host_bracket _ _ Ex) as [r' ->]. cbn [app]. eauto.
  - left. rewrite Proof.Addr.cut_last_none in H by exact N'. eapply unescape_no_colon; eauto.
Qed.
Lemma parse_authority_kind a us h : Addr.parse_authority a = Some (us, h) -> ~ In ":"%char a -> ~ In ":"%char h \/ exists r, h = "["%char :: r.
Proof.
  unfold Addr.parse_authority. intros H N'. destruct (Identd.cut_last "@" a) as [[user host]|] eqn:Ec.
  - apply Proof.Addr.cut_last_some in Ec as [-> _]. destruct (Addr.parse_host host) as [h'|] eqn:Ep; [|discriminate].
    assert (h' = h).
    { destruct (negb _); [discriminate|]. destruct (cut_on ":" user) as [x [p|]]; destruct (Addr.un_path x); try discriminate; [|congruence].
      destruct (Addr.un_path p); [congruence|discriminate]. }
    subst h'. eapply parse_host_kind; [exact Ep|]. intros I. apply N', in_or_app. right. right. exact I.
  - destruct (Addr.parse_host a) as [h'|] eqn:Ep; [|discriminate]. injection H as <- <-. eapply parse_host_kind; eauto.
Qed.

Lemma first_stop (f : ascii -> bool) a : forall b r t, a ++ r = b ++ t ->
  (forall c, In c a -> f c = false) -> (forall c, In c b -> f c = false) ->
  (forall c x, r = c :: x -> f c = true) -> (forall c x, t = c :: x -> f c = true) -> a = b.
Proof.
  induction a as [|c a IH]; intros [|d b] r t E Ha Hb Hr Ht; cbn [app] in E.
  - reflexivity.
  - specialize (Hr d (b ++ t) E). rewrite Hb in Hr by (left; reflexivity). discriminate.
  - specialize (Ht c (a ++ r) (eq_sym E)). rewrite Ha in Ht by (left; reflexivity). discriminate.
  - injection E as <- E. f_equal. apply (IH b r t E); auto; intros x I; [apply Ha|apply Hb]; right; exact I.
Qed.

Lemma url_kind ep u : colonless ep -> Addr.parse_url ep = Some u -> u_scheme u <> [] ->
  ~ In ":"%char (u_host u) \/ exists r, u_host u = "["%char :: r.
Proof.
  intros C H Hne. destruct C as [scheme auth rest Hs Ha Hstop Hrest]. unfold Addr.parse_url in H.
  set (raw := scheme ++ B "://" ++ auth ++ rest) in *.
  pose proof (cut_on_spec "#" raw) as Sp. destruct (cut_on "#" raw) as [a frag].
  assert (Hraw : exists t, raw = a ++ t /\ ~ In "#"%char a /\ forall c x, t = c :: x -> ends_authority c = true).
  { destruct frag as [f|]; destruct Sp as [E N'].
    - exists ("#"%char :: f). split; [exact E|]. split; [exact N'|]. intros c x X. injection X as <- _. reflexivity.
    - exists []. rewrite app_nil_r. split; [exact E|]. split; [congruence|]. discriminate. }
  clear Sp. destruct Hraw as (t & Hraw & Nh & Ht).
  assert (G : exists x, Addr.parse_nofrag a = Some x /\ u_scheme x = u_scheme u /\ u_host x = u_host u).
  { destruct (Addr.parse_nofrag a) as [x|]; [|discriminate]. exists x. split; [reflexivity|].
    destruct (of_null frag) as [|c f]; [injection H as <-; auto|]. destruct (Addr.un_path (c :: f)); [|discriminate]. injection H as <-. auto. }
  destruct G as (x & G & Ex & Eh). clear H. rewrite <- Eh. rewrite <- Ex in Hne. clear u Ex Eh. unfold Addr.parse_nofrag in G.
  destruct (existsb Addr.is_ctl a); [discriminate|]. destruct (beqb a (B "*")); [injection G as <-; cbn in Hne; congruence|].
  destruct (Addr.get_scheme a) as [[sch rest0]|] eqn:Eg; [|discriminate].
  unfold Addr.get_scheme in Eg. pose proof (cut_on_spec ":" a) as Sp. destruct (cut_on ":" a) as [pre [t0|]].
  2:{ assert (X : Some (@nil ascii, a) = Some (sch, rest0)) by (destruct pre; exact Eg). injection X as <- <-. exfalso. clear - G Hne Sp.
      destruct (cut_on "?" a) as [rest' q]. change (to_lower []) with (@nil ascii) in G. rewrite beqb_refl, andb_false_r in G.
      destruct (negb (has_prefix rest' (B "/")) && amem ":" (fst (cut_on "/" rest'))); [discriminate|].
      match type of G with (if ?c then _ else _) = _ => destruct c end.
      - destruct (cut_on "/" (skipn 2 rest')) as [au path]. destruct (Addr.parse_authority au) as [[us h]|]; [|discriminate].
        destruct (Addr.un_path _); [|discriminate]. injection G as <-. apply Hne. reflexivity.
      - destruct (Addr.un_path rest'); [|discriminate]. injection G as <-. apply Hne. reflexivity. }
  destruct pre as [|c0 pre]; [discriminate|]. destruct Sp as [Ea Np].
  destruct (Addr.is_letter c0 && _).
  2:{ injection Eg as <- <-. exfalso. clear - G Hne.
      destruct (cut_on "?" a) as [rest' q]. change (to_lower []) with (@nil ascii) in G. rewrite beqb_refl, andb_false_r in G.
      destruct (negb (has_prefix rest' (B "/")) && amem ":" (fst (cut_on "/" rest'))); [discriminate|].
      match type of G with (if ?c then _ else _) = _ => destruct c end.
      - destruct (cut_on "/" (skipn 2 rest')) as [au path]. destruct (Addr.parse_authority au) as [[us h]|]; [|discriminate].
        destruct (Addr.un_path _); [|discriminate]. injection G as <-. apply Hne. reflexivity.
      - destruct (Addr.un_path rest'); [|discriminate]. injection G as <-. apply Hne. reflexivity. }
  injection Eg as <- <-.
  (* the text after the scheme *)
  assert (R : scheme = c0 :: pre /\ B "//" ++ auth ++ rest = t0 ++ t).
  { unfold raw in Hraw. rewrite Ea, <- app_assoc in Hraw. cbn [app] in Hraw.
    assert (X : cut_on ":" (scheme ++ ":"%char :: (B "//" ++ auth ++ rest)) = (scheme, Some (B "//" ++ auth ++ rest))) by (apply cut_on_app; exact Hs).
    assert (Y : cut_on ":" ((c0 :: pre) ++ ":"%char :: (t0 ++ t)) = (c0 :: pre, Some (t0 ++ t))) by (apply cut_on_app; exact Np).
    change (scheme ++ ":"%char :: (B "//" ++ auth ++ rest)) with (scheme ++ B "://" ++ auth ++ rest) in X.
    cbn [app] in Y. rewrite Hraw, Y in X. injection X as -> X. split; [reflexivity|]. symmetry. exact X. }
  destruct R as [_ R]. assert (Nh0 : ~ In "#"%char t0) by (intros I; apply Nh; rewrite Ea; apply in_or_app; right; right; exact I).
  clear - R Nh0 Ht G Ha Hstop Hrest. pose proof (cut_on_spec "?" t0) as Sp. destruct (cut_on "?" t0) as [rest' q].
  assert (Q : exists t1, t0 = rest' ++ t1 /\ ~ In "?"%char rest' /\ forall c x, t1 = c :: x -> ends_authority c = true).
  { destruct q as [q|]; destruct Sp as [E N'].
    - exists ("?"%char :: q). split; [exact E|]. split; [exact N'|]. intros c y X. injection X as <- _. reflexivity.
    - exists []. rewrite app_nil_r. split; [exact E|]. split; [congruence|]. discriminate. }
  clear Sp. destruct Q as (t1 & -> & Nq & Ht1).
  destruct (negb (has_prefix rest' (B "/")) && negb _); [injection G as <-; left; intros []|].
  destruct (negb (has_prefix rest' (B "/")) && amem ":" (fst (cut_on "/" rest'))); [discriminate|].
  destruct (has_prefix rest' (B "//")) eqn:P2.
  2:{ rewrite andb_false_r in G. destruct (Addr.un_path rest'); [|discriminate]. injection G as <-. left. intros []. }
  apply has_prefix_iff in P2 as [r2 ->]. change (skipn 2 (B "//" ++ r2)) with r2 in G.
  match type of G with (if ?c then _ else _) = _ => destruct c end.
  2:{ destruct (Addr.un_path _); [|discriminate]. injection G as <-. left. intros []. }
  pose proof (cut_on_spec "/" r2) as Sp. destruct (cut_on "/" r2) as [au path].
  assert (Q : exists t2, r2 = au ++ t2 /\ ~ In "/"%char au /\ forall c x, t2 = c :: x -> ends_authority c = true).
  { destruct path as [p|]; destruct Sp as [E N'].
    - exists ("/"%char :: p). split; [exact E|]. split; [exact N'|]. intros c y X. injection X as <- _. reflexivity.
    - exists []. rewrite app_nil_r. split; [exact E|]. split; [congruence|]. discriminate. }
  clear Sp. destruct Q as (t2 & -> & Ns & Ht2).
  rewrite <- !app_assoc in R. apply app_inv_head in R.
  assert (Eau : auth = au).
  { refine (first_stop ends_authority auth au rest (t2 ++ t1 ++ t) _ Hstop _ Hrest _).
    - rewrite R. reflexivity.
    - intros c I. unfold ends_authority. destruct (amem c (B "/?#")) eqn:E; [|reflexivity]. exfalso. apply amem_In in E.
      destruct E as [<-|[<-|[<-|[]]]]; [apply Ns, I| |].
      + apply Nq. apply in_or_app. right. apply in_or_app. left. exact I.
      + apply Nh0. apply in_or_app. left. apply in_or_app. right. apply in_or_app. left. exact I.
    - intros c y X. destruct t2 as [|? t2]; [|injection X as <- _; eapply Ht2; reflexivity].
      destruct t1 as [|? t1]; [|injection X as <- _; eapply Ht1; reflexivity]. eapply Ht. exact X. }
  subst au. destruct (Addr.parse_authority auth) as [[us h]|] eqn:Ep; [|discriminate].
  destruct (Addr.un_path _); [|discriminate]. injection G as <-. cbn [u_host]. eapply parse_authority_kind; eauto.
Qed.

Lemma literal_bracket r : parse_literal ("["%char :: r) = None.
Proof.
  unfold parse_literal. destruct (addr_family ("["%char :: r)) as [[|]|]; [reflexivity| |reflexivity].
  assert (G : forall s, parse_v6 ("["%char :: s) = None) by reflexivity.
  destruct (cut_on "%" ("["%char :: r)) as [b z] eqn:E. cbn [cut_on] in E. change (aeqb "[" "%") with false in E. cbv iota in E.
  destruct (cut_on "%" r) as [b' z']. injection E as <- <-. destruct z' as [[|]|]; auto.
Qed.
Lemma lookup_bracket w r : lookup w ("["%char :: r) = None.
Proof. unfold lookup. rewrite literal_bracket. cbn [forallb]. change (name_char "[") with false. rewrite andb_false_r. reflexivity. Qed.

Lemma split_plain h : ~ In ":"%char h -> (forall r, h <> "["%char :: r) -> split_host h = (h, []).
Proof.
  intros N' Nb. unfold split_host. rewrite Proof.Addr.cut_last_none by exact N'. destruct h as [|c r]; [reflexivity|].
  destruct (aeqb c "[") eqn:E; [apply aeqb_eq in E; subst c; exfalso; eapply Nb; reflexivity|]. reflexivity.
Qed.

Lemma not_redirect code : ~ sends_on code -> is_redirect code = false.
Proof.
  intros N'. unfold is_redirect. destruct (existsb _ _) eqn:E; [|reflexivity]. exfalso. apply N'. apply existsb_exists in E as (x & I & E).
  apply N.eqb_eq in E. subst x. exact I.
Qed.

(** A request to an endpoint that was checked. *)
Lemma request_safe w w' ep : addresses w -> (forall h, dns w h = dns w' h) -> no_redirects w' -> colonless ep -> sane w ep = true ->
  Forall elsewhere (snd (request w' ep)).
Proof.
  intros Hw Hd Hr Hc Hs. apply sane_iff in Hs; [|exact Hw]. destruct Hs as (u & l & Ep & Es & El & F).
  unfold request. rewrite Ep. cbn [fetch].
  assert (K : ~ In ":"%char (u_host u) \/ exists r, u_host u = "["%char :: r) by (eapply url_kind; eauto; rewrite Es; discriminate).
  assert (Nb : forall r, u_host u <> "["%char :: r) by (intros r E; rewrite E, lookup_bracket in El; discriminate).
  destruct K as [K|[r K]]; [|exfalso; eapply Nb; exact K].
  unfold target. rewrite (split_plain _ K Nb), Es, beqb_refl. rewrite <- (lookup_same w w' _ Hd), El.
  assert (G : Forall elsewhere [Conn true (u_host u) (B "443") l]).
  { constructor; [|constructor]. split; [reflexivity|]. split; [reflexivity|]. split; [eapply lookup_nonempty; exact El|exact F]. }
  destruct (answer w' true (u_host u) (B "443")) as [[code loc]|] eqn:Ea; [|exact G].
  rewrite (not_redirect code) by (eapply Hr; exact Ea). exact G.
Qed.

Lemma fetch_tls w n u k r : u_scheme u = B "https" -> snd (fetch w n u) = k :: r -> k_tls k = true.
Proof.
  intros Es. destruct n as [|n]; [discriminate|]. cbn [fetch]. unfold target. rewrite Es, beqb_refl. destruct (split_host (u_host u)) as [h p].
  destruct (lookup w h); [|discriminate]. set (port := match p with [] => _ | _ => p end).
  destruct (answer w true h port) as [[code loc]|]; [|cbn [snd]; intros H; injection H as <- _; reflexivity].
  destruct (is_redirect code && negb (beqb loc [])); [|cbn [snd]; intros H; injection H as <- _; reflexivity].
  destruct (Addr.parse_url loc) as [u'|]; [|cbn [snd]; intros H; injection H as <- _; reflexivity].
  destruct (fetch w n u') as [r' c]. cbn [snd]. intros H. injection H as <- _. reflexivity.
Qed.
Lemma request_tls w ep u k r : Addr.parse_url ep = Some u -> u_scheme u = B "https" -> snd (request w ep) = k :: r -> k_tls k = true.
Proof. intros Ep Es. unfold request. rewrite Ep. apply fetch_tls, Es. Qed.

(** ** Runs *)
Section Runs.
  Variable serial : bool.
  Variable vapid : bytes.
  Variable parse_tags : bytes -> list (bytes * bytes).
  Variable cm : N -> N -> bytes -> bytes.
  Variable time_text : Z -> bytes.
  Notation wstep := (Push.wstep serial vapid parse_tags cm time_text).
  Notation step := (step serial vapid parse_tags cm time_text).
  Notation run := (run serial vapid parse_tags cm time_text).

  Definition inv (P : bytes -> Prop) (s : Push.wst) : Prop :=
    (forall x, In x (Push.w_subs s) -> P (Push.u_end x)) /\
    (forall j todo x, In j (Push.w_jobs s) -> Push.j_todo j = Some todo -> In x todo -> P (Push.u_end x)).

  Lemma inv_less P s s' : inv P s -> (forall x, In x (Push.w_subs s') -> In x (Push.w_subs s)) ->
    (forall j, In j (Push.w_jobs s') -> In j (Push.w_jobs s)) -> inv P s'.
  Proof. intros [H1 H2] S J. split; [auto|]. intros j todo x I. apply H2. auto. Qed.

  Lemma inv_broadcast P s u n m : inv P s -> inv P (fst (Push.broadcast s u n m)) /\ forall ep, ~ requesting (snd (Push.broadcast s u n m)) ep.
  Proof.
    intros [H1 H2]. split.
    - split; [exact H1|]. intros j todo x I E. cbn [Push.broadcast fst Push.w_jobs] in I. apply in_app_or in I as [I|[<-|[]]]; [eauto|discriminate E].
    - intros ep (x & [<-|[]] & H). exact H.
  Qed.
  Lemma inv_targets P s l : inv P s -> inv P (Push.with_targets s l).
  Proof. intros H. eapply inv_less; [exact H|auto|auto]. Qed.
  Lemma inv_marks P s l : inv P s -> inv P (Push.with_marks s l).
  Proof. intros H. eapply inv_less; [exact H|auto|auto]. Qed.

  Lemma inv_register P s u n ep keys now check test : inv P s -> (check = true -> P ep) ->
    inv P (fst (Push.register_sub serial vapid parse_tags s u n ep keys now check test)) /\
    forall e, requesting (snd (Push.register_sub serial vapid parse_tags s u n ep keys now check test)) e -> P e.
  Proof.
    intros I Hc. unfold Push.register_sub.
    assert (Q : forall m e, requesting [Push.OReply u n m] e -> P e) by (intros m e (x & [<-|[]] & []); tauto).
    destruct (Push.tag _ _) as [a|]; [|split; [exact I|cbn [snd]; apply Q]].
    destruct (Push.tag _ _) as [p|]; [|split; [exact I|cbn [snd]; apply Q]].
    destruct (Nat.ltb _ _); [split; [exact I|cbn [snd]; apply Q]|].
    match goal with |- context [if ?c then _ else _] => destruct c end; [|split; [exact I|cbn [snd]; apply Q]].
    destruct check; cbn [negb]; [|split; [exact I|cbn [snd]; apply Q]]. specialize (Hc eq_refl).
    assert (Q' : forall a p m e, requesting [Push.OTest ep a p; Push.OReply u n m] e -> P e).
    { intros a' p' m e (x & [<-|[<-|[]]] & H); [subst; exact Hc|destruct H]. }
    destruct test; cbn [fst snd]; try (split; [exact I|apply Q']). split; [|apply Q'].
    destruct I as [I1 I2]. destruct (Push.find_sub _ ep) as [o|].
    - split; [|exact I2]. intros x J. cbn [Push.update_row Push.with_subs Push.w_subs] in J. apply in_map_iff in J as (y & <- & J).
      specialize (I1 y J). destruct (N.eqb _ _); exact I1.
    - split; [|exact I2]. intros x J. cbn [Push.insert_row Push.with_subs Push.w_subs] in J. apply in_app_or in J as [J|[<-|[]]]; [auto|exact Hc].
  Qed.

  Lemma inv_step P s e : inv P s -> (forall u n cap ep r now test, e = Push.WCommand u n cap (B "REGISTER" :: ep :: r) now true test -> P ep) ->
    inv P (fst (wstep s e)) /\ forall ep, requesting (snd (wstep s e)) ep -> P ep.
  Proof.
    intros I Hr. assert (Q : forall o ep, requesting [o] ep -> (exists u n m, o = Push.OReply u n m) -> P ep) by (intros o ep (x & [<-|[]] & H) (u & n & m & ->); destruct H).
    assert (Q0 : forall ep, requesting [] ep -> P ep) by (intros ep (x & [] & _)).
    destruct e as [u n cap ps now check test|u n m self direct hl ch b tm|u n m ours joined saved|u n target ts now|u n target|u n|u n|k|k now r]; cbn [Push.wstep].
    - unfold Push.command. destruct cap; cbn [negb]; [|split; [exact I|intros ep H; eapply Q; eauto]].
      destruct ps as [|sub r]; [split; [exact I|intros ep H; eapply Q; eauto]|]. destruct (beqb sub (B "REGISTER")) eqn:E.
      + destruct r as [|ep [|keys r]]; try (split; [exact I|intros ep' H; eapply Q; eauto]). apply beqb_eq in E. subst sub.
        apply inv_register; [exact I|]. intros ->. eapply Hr. reflexivity.
      + destruct (beqb sub (B "UNREGISTER")); [|split; [exact I|intros ep' H; eapply Q; eauto]].
        destruct r as [|ep r]; [split; [exact I|intros ep' H; eapply Q; eauto]|]. unfold Push.unregister_sub. cbn [fst snd].
        split; [|intros ep' H; eapply Q; eauto]. destruct (Push.find_sub _ _); [|exact I].
        eapply inv_less; [exact I| |auto]. intros x J. cbn [Push.delete_row Push.with_subs Push.w_subs] in J. apply filter_In in J. tauto.
    - unfold Push.on_text. match goal with |- context [if ?c then _ else _] => destruct c end; [|split; [exact I|exact Q0]].
      destruct (inv_broadcast P s u n m I) as [A C]. destruct (Push.broadcast s u n m) as [s1 o]. cbn [fst snd] in *.
      split; [destruct tm; [apply inv_targets|]; exact A|]. intros ep H. exfalso. eapply C, H.
    - unfold Push.on_invite. match goal with |- context [if ?c then _ else _] => destruct c end; [|split; [exact I|exact Q0]].
      destruct (inv_broadcast P s u n m I) as [A C]. split; [exact A|]. intros ep H. exfalso. eapply C, H.
    - unfold Push.on_mark. cbv zeta. match goal with |- context [if ?c then _ else (s, [])] => destruct c end; [|split; [exact I|exact Q0]].
      destruct (Push.tget (Push.w_targets _) _ _ _); [|split; [apply inv_marks, I|exact Q0]].
      match goal with |- context [Push.broadcast ?s' u n ?m] => assert (I' : inv P s') by (destruct (Z.ltb _ _); [|apply inv_targets]; apply inv_marks, I);
        destruct (inv_broadcast P s' u n m I') as [A C] end.
      split; [exact A|]. intros ep H. exfalso. eapply C, H.
    - split; [apply inv_targets, I|exact Q0].
    - split; [apply inv_targets, I|exact Q0].
    - split; [|exact Q0]. eapply inv_less; [exact I| |auto]. intros x J. cbn [fst Push.w_subs] in J. apply filter_In in J. tauto.
    - destruct (Push.find_job s k) as [[k' u n m [todo|]]|]; [split; [exact I|exact Q0]| |split; [exact I|exact Q0]].
      cbn [fst snd]. destruct I as [I1 I2]. split; [|intros ep (x & [<-|[]] & [])]. split; [exact I1|].
      intros j todo x J E X. cbn [Push.with_jobs Push.w_jobs] in J. unfold Push.set_job in J. apply in_map_iff in J as (j0 & <- & J).
      destruct (N.eqb (Push.j_id j0) k); [|eauto]. cbn [Push.j_todo] in E. injection E as <-. apply I1. unfold Push.rows in X. apply filter_In in X. tauto.
    - unfold Push.on_send. destruct (Push.find_job s k) as [[k' u n m [[|x todo]|]]|] eqn:Ej; try (split; [exact I|exact Q0]).
      + split; [|exact Q0]. eapply inv_less; [exact I|auto|]. intros j J. cbn [fst Push.with_jobs Push.w_jobs] in J. unfold Push.end_job in J. apply filter_In in J. tauto.
      + apply Proof.Push.find_job_some in Ej as [Ij _]. pose proof I as [I1 I2].
        assert (A : inv P (Push.with_jobs s (Push.set_job s k todo))).
        { split; [exact I1|]. intros j todo' y J E Y. cbn [Push.with_jobs Push.w_jobs] in J. unfold Push.set_job in J. apply in_map_iff in J as (j0 & <- & J).
          destruct (N.eqb (Push.j_id j0) k); [|eauto]. cbn [Push.j_todo] in E. injection E as <-. eapply I2; [exact Ij|reflexivity|]. right. exact Y. }
        assert (D : forall i, inv P (Push.delete_row (Push.with_jobs s (Push.set_job s k todo)) i)).
        { intros i. eapply inv_less; [exact A| |auto]. intros y J. cbn [Push.delete_row Push.with_subs Push.w_subs] in J. apply filter_In in J. tauto. }
        assert (X : P (Push.u_end x)) by (eapply I2; [exact Ij|reflexivity|left; reflexivity]).
        destruct (beqb (Push.u_vapid x) vapid); cbn [fst snd].
        * split; [destruct r; [exact A|apply D|destruct (Z.ltb _ _); [apply D|exact A]]|]. intros ep (y & [<-|[]] & <-). exact X.
        * split; [destruct (Z.ltb _ _); [apply D|exact A]|exact Q0].
  Qed.

  (** What an event of this model does. *)
  Definition vouches (P : bytes -> Prop) (e : ev) : Prop := forall ep, registering (e_push e) ep -> sane (e_check e) ep = true -> P ep.
  Lemma step_inv P s e : inv P s -> vouches P e -> inv P (fst (step s e)) /\ forall ep, requesting (fst (snd (step s e))) ep -> P ep.
  Proof.
    intros I V. unfold Endpoint.step.
    assert (G := inv_step P s (settle s (e_push e) (e_check e) (e_request e)) I). destruct (wstep s _) as [s1 o]. cbn [fst snd] in *. apply G.
    intros u n cap ep r now test E. apply V.
    - destruct (e_push e) as [u' n' cap' ps now' check' test'|?|?|?|?|?|?|?|k now' r']; cbn [settle] in E; try discriminate E.
      + destruct ps as [|sub [|ep' r']]; try discriminate E. injection E as -> -> -> -> -> -> -> _ _. cbn. auto.
      + destruct (Push.find_job s k) as [[? ? ? ? [[|]|]]|]; discriminate E.
    - destruct (e_push e) as [u' n' cap' ps now' check' test'|?|?|?|?|?|?|?|k now' r']; cbn [settle] in E; try discriminate E.
      + destruct ps as [|sub [|ep' r']]; try discriminate E. injection E as _ _ _ _ -> _ _ H _. exact H.
      + destruct (Push.find_job s k) as [[? ? ? ? [[|]|]]|]; discriminate E.
  Qed.

  Lemma run_inv P l : forall s s' t, run l s = (s', t) -> inv P s -> Forall (vouches P) l ->
    inv P s' /\ forall e o c ep, In (e, (o, c)) t -> requesting o ep -> P ep.
  Proof.
    induction l as [|e l IH]; intros s s' t H I V.
    - injection H as <- <-. split; [exact I|]. intros e o c ep [].
    - cbn [Endpoint.run] in H. apply Forall_cons_iff in V as [V1 V]. destruct (step_inv P s e I V1) as [I1 Q].
      destruct (step s e) as [s1 o]. cbn [fst snd] in *. destruct (run l s1) as [s2 t2] eqn:E. injection H as <- <-.
      destruct (IH s1 s2 t2 E I1 V) as [I2 Q2]. split; [exact I2|]. intros e' o' c' ep [X|X]; [|eauto].
      injection X as <- ->. cbn [fst] in Q. apply Q.
  Qed.
  Lemma run_events l : forall s s' t, run l s = (s', t) -> map fst t = l.
  Proof.
    induction l as [|e l IH]; intros s s' t H; [injection H as _ <-; reflexivity|]. cbn [Endpoint.run] in H.
    destruct (step s e) as [s1 o]. destruct (run l s1) as [s2 t2] eqn:E. injection H as _ <-. cbn [map fst]. f_equal. eauto.
  Qed.
  Lemma run_prefix l : forall s s' t1 t2, run l s = (s', t1 ++ t2) -> exists s1, run (map fst t1) s = (s1, t1).
  Proof.
    induction l as [|e l IH]; intros s s' t1 t2 H.
    - injection H as _ H. symmetry in H. apply app_eq_nil in H as [-> ->]. exists s. reflexivity.
    - cbn [Endpoint.run] in H. destruct t1 as [|x t1]; [exists s; reflexivity|]. cbn [app map] in *.
      destruct (step s e) as [s1 o] eqn:Es. destruct (run l s1) as [s2 t] eqn:E. injection H as _ <- H. subst t.
      destruct (IH s1 s2 t1 t2 E) as [s3 R]. exists s3. cbn [fst Endpoint.run]. rewrite Es, R. reflexivity.
  Qed.
  Lemma run_conns l : forall s s' t e o c, run l s = (s', t) -> In (e, (o, c)) t -> c = flat_map (connections (e_request e)) o.
  Proof.
    induction l as [|e0 l IH]; intros s s' t e o c H I.
    - injection H as _ <-. destruct I.
    - cbn [Endpoint.run] in H. unfold Endpoint.step in H. destruct (wstep s _) as [s1 o1]. destruct (run l s1) as [s2 t2] eqn:E.
      injection H as _ <-. destruct I as [I|I]; [injection I as <- <- <-; reflexivity|eauto].
  Qed.
  Lemma conn_of w o k : In k (flat_map (connections w) o) -> exists ep, requesting o ep /\ In k (snd (request w ep)).
  Proof.
    intros I. apply in_flat_map in I as (x & I & J). destruct x; cbn [connections] in J; try destruct J; eexists; (split; [|exact J]); eexists; split; [exact I|reflexivity|exact I|reflexivity].
  Qed.
  Lemma inv_new P : inv P Push.new_wst.
  Proof. split; [intros x []|intros j todo x []]. Qed.

  Theorem always_checked l s t1 e o c t2 ep : Forall (fun e => addresses (e_check e)) l ->
    run l Push.new_wst = (s, t1 ++ (e, (o, c)) :: t2) -> requesting o ep ->
    (exists e', In e' (map fst t1 ++ [e]) /\ registering (e_push e') ep /\ checked (e_check e') ep) /\
    (forall k r, snd (request (e_request e) ep) = k :: r -> k_tls k = true).
  Proof.
    intros W R Q. assert (Ev := run_events _ _ _ _ R).
    assert (R' : exists s1, run (map fst (t1 ++ [(e, (o, c))])) Push.new_wst = (s1, t1 ++ [(e, (o, c))])).
    { eapply run_prefix. rewrite <- app_assoc. exact R. }
    destruct R' as [s1 R']. rewrite map_app in R'. cbn [map fst] in R'.
    assert (G : exists e', In e' (map fst t1 ++ [e]) /\ registering (e_push e') ep /\ checked (e_check e') ep).
    { refine (proj2 (run_inv (fun ep => exists e', In e' (map fst t1 ++ [e]) /\ registering (e_push e') ep /\ checked (e_check e') ep) _ _ _ _ R' (inv_new _) _) e o c ep _ Q).
      - apply Forall_forall. intros e' I ep' Hr Hs. exists e'. split; [exact I|]. split; [exact Hr|]. apply sane_iff; [|exact Hs].
        rewrite Forall_forall in W. apply W. rewrite <- Ev, map_app. cbn [map fst]. apply in_app_or in I as [I|[<-|[]]]; apply in_or_app; [left; exact I|right; left; reflexivity].
      - apply in_or_app. right. left. reflexivity. }
    split; [exact G|]. intros k r E. destruct G as (e' & _ & _ & (u & l0 & Ep & Es & _)). eapply request_tls; eauto.
  Qed.

  Theorem outside D l s t e o c : (forall h l a, D h = Some l -> In a l -> an_address a) ->
    Forall (fun e => (forall h, dns (e_check e) h = D h) /\ (forall h, dns (e_request e) h = D h) /\ no_redirects (e_request e) /\
      forall ep, registering (e_push e) ep -> colonless ep) l ->
    run l Push.new_wst = (s, t) -> In (e, (o, c)) t -> Forall elsewhere c.
  Proof.
    intros HD W R I. rewrite (run_conns _ _ _ _ _ _ _ R I). apply Forall_forall. intros k K. apply conn_of in K as (ep & Q & K).
    assert (Ie : In e l). { rewrite <- (run_events _ _ _ _ R). change e with (fst (e, (o, c))). apply in_map, I. }
    pose (w0 := World D (fun _ _ _ => None)).
    assert (P : sane w0 ep = true /\ colonless ep).
    { refine (proj2 (run_inv (fun ep => sane w0 ep = true /\ colonless ep) _ _ _ _ R (inv_new _) _) e o c ep I Q).
      apply Forall_forall. intros e' I' ep' Hr Hs. rewrite Forall_forall in W. destruct (W e' I') as (W1 & _ & _ & W4).
      split; [|apply W4, Hr]. unfold sane in *. destruct (Addr.parse_url ep') as [u|]; [|discriminate].
      destruct (negb _); [discriminate|]. rewrite <- (lookup_same (e_check e') w0 (u_host u)) by exact W1. exact Hs. }
    destruct P as [P1 P2]. rewrite Forall_forall in W. destruct (W e Ie) as (_ & W2 & W3 & _).
    assert (F : Forall elsewhere (snd (request (e_request e) ep))).
    { apply (request_safe w0); [exact HD|intros h; symmetry; apply W2|exact W3|exact P2|exact P1]. }
    rewrite Forall_forall in F. apply F, K.
  Qed.

  (** ** An endpoint that works is accepted *)
  Lemma settle_asks s e w1 w2 o u n ep : Spec.Push.asks parse_tags u n ep (settle s e w1 w2, o) = Spec.Push.asks parse_tags u n ep (e, o).
  Proof.
    destruct e as [u' n' cap ps now check test|?|?|?|?|?|?|?|k now r]; try reflexivity.
    - destruct ps as [|sub [|ep' r]]; reflexivity.
    - cbn [settle]. destruct (Push.find_job s k) as [[? ? ? ? [[|]|]]|]; reflexivity.
  Qed.
  Lemma run_push l : forall s s' t, run l s = (s', t) -> exists t', Push.wrun serial vapid parse_tags cm time_text (map fst t') s = (s', t') /\
    Forall2 (fun x y => forall u n ep, Spec.Push.asks parse_tags u n ep x = Spec.Push.asks parse_tags u n ep y) (seen t) t'.
  Proof.
    induction l as [|e l IH]; intros s s' t H.
    - injection H as <- <-. exists []. split; [reflexivity|constructor].
    - cbn [Endpoint.run] in H. unfold Endpoint.step in H. destruct (wstep s (settle s (e_push e) (e_check e) (e_request e))) as [s1 o] eqn:Es.
      destruct (run l s1) as [s2 t2] eqn:E. injection H as <- <-. destruct (IH s1 s2 t2 E) as (t' & R & F).
      exists ((settle s (e_push e) (e_check e) (e_request e), o) :: t'). split.
      + cbn [map fst Push.wrun]. rewrite Es, R. reflexivity.
      + constructor; [|exact F]. intros u n ep. cbn [fst snd]. symmetry. apply settle_asks.
  Qed.
  Lemma registered_same t t' u n ep : Forall2 (fun x y => forall u n ep, Spec.Push.asks parse_tags u n ep x = Spec.Push.asks parse_tags u n ep y) t t' ->
    Spec.Push.registered parse_tags t u n ep = Spec.Push.registered parse_tags t' u n ep.
  Proof.
    intros F. unfold Spec.Push.registered. set (f := fun cur p => _).
    assert (G : forall acc, fold_left f t acc = fold_left f t' acc); [|apply G].
    induction F as [|x y t t' E F IH]; intros acc; [reflexivity|]. cbn [fold_left]. unfold f at 2 4. rewrite E. apply IH.
  Qed.

  Lemma name_facts c : In c (B "abcdefghijklmnopqrstuvwxyzABCDEFGHIJKLMNOPQRSTUVWXYZ0123456789-._") ->
    name_char c = true /\ Addr.host_char c = true /\ Addr.is_ctl c = false /\ amem c (B "%/?#@:[]") = false.
  Proof.
    intros I. assert (G : forallb (fun c => name_char c && Addr.host_char c && negb (Addr.is_ctl c) && negb (amem c (B "%/?#@:[]"))) (B "abcdefghijklmnopqrstuvwxyzABCDEFGHIJKLMNOPQRSTUVWXYZ0123456789-._") = true) by (vm_compute; reflexivity).
    rewrite forallb_forall in G. specialize (G c I). rewrite !andb_true_iff, !negb_true_iff in G. tauto.
  Qed.
  Lemma name_nin h c : host_name h -> In c (B "%/?#@:[]") -> ~ In c h.
  Proof. intros [_ H] I J. destruct (name_facts c (H c J)) as (_ & _ & _ & X). apply amem_In in I. congruence. Qed.

  Lemma parse_endpoint h p : host_name h -> (forall c, In c p -> Addr.is_ctl c = false /\ ~ In c (B "?#%")) ->
    Addr.parse_url (B "https://" ++ h ++ B "/" ++ p) = Some (Url (B "https") false [] [] h (B "/" ++ p)).
  Proof.
    intros Hh Hp. pose proof Hh as [Hne Hc].
    assert (Np : forall c, In c (B "?#%") -> ~ In c p) by (intros c I J; destruct (Hp c J) as [_ X]; exact (X I)).
    assert (All : forall c, In c (B "?#") -> ~ In c (B "https://" ++ h ++ B "/" ++ p)).
    { intros c I J. apply in_app_or in J as [J|J]; [vm_compute in I, J; intuition congruence|].
      apply in_app_or in J as [J|J]; [revert J; apply name_nin; [exact Hh|vm_compute in I |- *; tauto]|].
      destruct J as [J|J]; [vm_compute in I; intuition congruence|]. revert J. apply Np. vm_compute in I |- *. tauto. }
    unfold Addr.parse_url. rewrite cut_on_nosep by (apply All; right; left; reflexivity).
    unfold Addr.parse_nofrag.
    assert (C : existsb Addr.is_ctl (B "https://" ++ h ++ B "/" ++ p) = false).
    { destruct (existsb _ _) eqn:E; [|reflexivity]. apply existsb_exists in E as (c & I & E). exfalso.
      apply in_app_or in I as [I|I].
      - assert (X : forallb (fun c => negb (Addr.is_ctl c)) (B "https://") = true) by reflexivity. rewrite forallb_forall in X. specialize (X c I). rewrite E in X. discriminate.
      - apply in_app_or in I as [I|[<-|I]]; [destruct (name_facts c (Hc c I)) as (_ & _ & X & _); congruence|discriminate E|destruct (Hp c I); congruence]. }
    rewrite C. change (beqb (B "https://" ++ h ++ B "/" ++ p) (B "*")) with false. cbv iota.
    assert (G : Addr.get_scheme (B "https://" ++ h ++ B "/" ++ p) = Some (B "https", B "//" ++ h ++ B "/" ++ p)).
    { unfold Addr.get_scheme. change (B "https://" ++ h ++ B "/" ++ p) with (B "https" ++ ":"%char :: (B "//" ++ h ++ B "/" ++ p)).
      rewrite cut_on_app by (vm_compute; intuition congruence). reflexivity. }
    rewrite G. change (to_lower (B "https")) with (B "https"). rewrite cut_on_nosep.
    2:{ intros J. apply (All "?"%char (or_introl eq_refl)). change (B "https://" ++ h ++ B "/" ++ p) with (B "https:" ++ (B "//" ++ h ++ B "/" ++ p)). apply in_or_app. right. exact J. }
    cbn [of_null]. change (has_prefix (B "//" ++ h ++ B "/" ++ p) (B "/")) with true. change (has_prefix (B "//" ++ h ++ B "/" ++ p) (B "//")) with true.
    change (beqb (B "https") []) with false. cbn [negb andb orb]. change (skipn 2 (B "//" ++ h ++ B "/" ++ p)) with (h ++ "/"%char :: p).
    rewrite cut_on_app by (apply name_nin; [exact Hh|vm_compute; tauto]).
    unfold Addr.parse_authority. rewrite Proof.Addr.cut_last_none by (apply name_nin; [exact Hh|vm_compute; tauto]).
    assert (PH : Addr.parse_host h = Some h).
    { unfold Addr.parse_host. destruct (has_prefix h (B "[")) eqn:P.
      - apply has_prefix_iff in P as [r ->]. exfalso. apply (name_nin _ "["%char Hh); [vm_compute; tauto|left; reflexivity].
      - rewrite Proof.Addr.cut_last_none by (apply name_nin; [exact Hh|vm_compute; tauto]). apply Proof.Addr.unescape_plain. intros c I.
        destruct (name_facts c (Hc c I)) as (_ & X & _ & Y). split; [exact X|]. intros ->. discriminate Y. }
    rewrite PH. cbn [option_map].
    assert (UP : Addr.un_path (B "/" ++ p) = Some (B "/" ++ p)).
    { apply Proof.Addr.unescape_plain. intros c I. split; [reflexivity|]. intros ->. destruct I as [I|I]; [discriminate I|]. apply Np in I; [exact I|vm_compute; tauto]. }
    rewrite UP. reflexivity.
  Qed.

  Lemma lookup_known w h l : known w h l -> exists l', lookup w h = Some l' /\ (l' = l \/ l' = l ++ [[0; 0; 0; 0]]).
  Proof.
    intros (Hh & N4 & D & Ne). unfold lookup. assert (E : parse_literal h = None).
    { unfold parse_literal. destruct (addr_family h) as [[|]|] eqn:F; [| |reflexivity].
      - destruct (parse_v4 h) as [a|] eqn:P; [|reflexivity]. exfalso. apply (N4 a). apply Proof.IPAddr.v4_sound, P.
      - exfalso. apply (name_nin h ":"%char Hh); [vm_compute; tauto|]. clear - F. induction h as [|c h IH]; [discriminate|]. cbn [addr_family] in F.
        destruct (aeqb c "."); [discriminate|]. destruct (aeqb c ":") eqn:E; [apply aeqb_eq in E; left; exact E|].
        destruct (aeqb c "%"); [discriminate|]. right. apply IH, F. }
    rewrite E. assert (B1 : beqb h [] = false) by (destruct Hh as [X _]; destruct h; [congruence|reflexivity]).
    assert (B2 : forallb name_char h = true) by (apply forallb_forall; intros c I; apply (name_facts c (proj2 Hh c I))).
    rewrite B1, B2, D. cbn [negb andb]. destruct l as [|x [|y l]]; [congruence| |exists (x :: y :: l); auto].
    destruct (list_eqb x _); eexists; (split; [reflexivity|]); auto.
  Qed.

  Theorem usable l s t u n h p text r a k now w1 w2 l1 l2 code loc b1 b2 :
    run l Push.new_wst = (s, t) -> Spec.Push.keys_of parse_tags text = Some (a, k) ->
    (forall ends, NoDup ends -> (forall x, In x ends -> Spec.Push.registered parse_tags (seen t) u n x <> None) -> (length ends <= 25)%nat) ->
    (forall c, In c p -> Addr.is_ctl c = false /\ ~ In c (B "?#%")) ->
    addresses w1 -> known w1 h l1 -> Forall (fun a => ~ within inner a) l1 ->
    known w2 h l2 -> answer w2 true h (B "443") = Some (code, loc) -> 200 <= code < 300 ->
    Spec.Push.granted (fst (snd (step s (Ev (Push.WCommand u n true (B "REGISTER" :: (B "https://" ++ h ++ B "/" ++ p) :: text :: r) now b1 b2) w1 w2)))) = true.
  Proof.
    intros R K Few Hp Wa K1 F1 K2 An Co. destruct (run_push _ _ _ _ R) as (t' & R' & A).
    assert (Hh : host_name h) by (destruct K1; assumption). pose proof (parse_endpoint h p Hh Hp) as PE.
    set (ep := B "https://" ++ h ++ B "/" ++ p) in *.
    assert (Sa : sane w1 ep = true).
    { apply sane_iff; [exact Wa|]. destruct (lookup_known w1 h l1 K1) as (l' & L & [-> | ->]); eexists; eexists; (split; [exact PE|]);
      (split; [reflexivity|]); (split; [exact L|]); [exact F1|]. apply Forall_app. split; [exact F1|]. constructor; [|constructor].
      rewrite <- withinb_iff. vm_compute. discriminate. }
    assert (Re : result (fst (request w2 ep)) = Push.WOk).
    { unfold request. rewrite PE. cbn [fetch]. unfold target. cbn [u_host u_scheme].
      rewrite split_plain; [|apply name_nin; [exact Hh|vm_compute; tauto]|intros x E; apply (name_nin _ "["%char Hh); [vm_compute; tauto|rewrite E; left; reflexivity]].
      rewrite beqb_refl. destruct (lookup_known w2 h l2 K2) as (l' & L & _). rewrite L. rewrite An.
      rewrite not_redirect by (intros I; vm_compute in I; intuition (subst; lia)). cbn [andb fst result].
      destruct (N.eqb_spec code 404) as [->|_]; [lia|]. assert (D : code / 100 = 2) by (symmetry; apply (N.div_unique code 100 2 (code - 200)); lia).
      rewrite D. reflexivity. }
    unfold Endpoint.step. cbn [e_push e_check e_request settle]. rewrite Sa, Re.
    pose proof (Proof.Push.accepted serial vapid parse_tags cm time_text _ s t' u n ep text r a k now R' K) as G.
    destruct (wstep s (Push.WCommand u n true (B "REGISTER" :: ep :: text :: r) now true Push.WOk)) as [s1 o]. cbn [fst snd] in *. apply G.
    intros ends Nd H. apply Few; [exact Nd|]. intros x I. rewrite (registered_same _ _ u n x A). auto.
  Qed.
End Runs.
