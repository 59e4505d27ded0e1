(** Proofs about addresses of networks. *)
From Verif.Base Require Import Bytes.
From Verif.Model Require Import Networks Addr.
From Verif.Spec Require Import Addr.
From Verif.Model Require Identd.
From Verif.Proof Require Networks.
From Coq Require Import Permutation.

Lemma nIn_amem c l : ~ In c l -> amem c l = false.
Proof. intros H. apply amem_nIn. exact H. Qed.

Lemma cut_last_none c s : ~ In c s -> Identd.cut_last c s = None.
Proof.
  induction s as [|x s IH]; intros H; [reflexivity|]. cbn [Identd.cut_last]. rewrite IH by (intros X; apply H; right; exact X).
  destruct (aeqb_spec x c) as [->|]; [exfalso; apply H; left; reflexivity|reflexivity].
Qed.
Lemma cut_last_app c a b : ~ In c b -> Identd.cut_last c (a ++ c :: b) = Some (a, b).
Proof.
  intros H. induction a as [|x a IH]; cbn [app Identd.cut_last].
  - rewrite cut_last_none by exact H. rewrite (proj2 (aeqb_eq c c) eq_refl). reflexivity.
  - rewrite IH. reflexivity.
Qed.
Lemma cut_last_some c s a b : Identd.cut_last c s = Some (a, b) -> s = a ++ c :: b /\ ~ In c b.
Proof.
  revert a b. induction s as [|x s IH]; intros a b H; [discriminate|]. cbn [Identd.cut_last] in H.
  destruct (Identd.cut_last c s) as [[a' b']|] eqn:E.
  - injection H as <- <-. destruct (IH a' b' eq_refl) as [-> N]. split; [reflexivity|exact N].
  - destruct (aeqb_spec x c) as [->|]; [|discriminate]. injection H as <- <-. split; [reflexivity|].
    intros X. clear - E X. induction s as [|y s IH]; [destruct X|]. cbn [Identd.cut_last] in E.
    destruct (Identd.cut_last c s) as [[? ?]|]; [discriminate|]. destruct X as [->|X]; [|auto].
    rewrite (proj2 (aeqb_eq c c) eq_refl) in E. discriminate.
Qed.

Lemma split_colon s h p : Identd.split_host_port s = Some (h, p) ->
  ~ In ":"%char p /\ ((s = h ++ B ":" ++ p) \/ s = B "[" ++ h ++ B "]:" ++ p).
Proof.
  unfold Identd.split_host_port. destruct (Identd.cut_last ":" s) as [[a b]|] eqn:E; [|discriminate].
  apply cut_last_some in E. destruct E as [E N].
  assert (G : (if amem ":" a || amem "[" s || amem "]" s then None else Some (a, b)) = Some (h, p) ->
    ~ In ":"%char p /\ (s = h ++ B ":" ++ p \/ s = B "[" ++ h ++ B "]:" ++ p)).
  { destruct (_ || _); [discriminate|]. intros X. injection X as <- <-. split; [exact N|]. left. exact E. }
  destruct s as [|c rest]; [exact G|].
  destruct (ascii_dec c "[") as [->|Hc].
  - clear G. destruct (cut_on "]" rest) as [x [y|]] eqn:Ec; [|discriminate].
    destruct y as [|d q]; [discriminate|]. destruct (ascii_dec d ":") as [->|Hd].
    + destruct (beqb q b && negb (amem "[" rest) && negb (amem "]" (":"%char :: q))) eqn:Eb; [|discriminate].
      intros X. injection X as <- <-. split; [exact N|]. right. pose proof (cut_on_spec "]" rest) as S. rewrite Ec in S. destruct S as [S _].
      apply andb_true_iff in Eb. destruct Eb as [Eb _]. apply andb_true_iff in Eb. destruct Eb as [Eb _]. apply beqb_eq in Eb. subst q.
      rewrite S. reflexivity.
    + intros X. exfalso. clear - X Hd. destruct d as [[] [] [] [] [] [] [] []]; try discriminate. apply Hd. reflexivity.
  - intros X. apply G. clear - X Hc. destruct c as [[] [] [] [] [] [] [] []]; try exact X. contradiction.
Qed.

(** *** Characters *)
Definition simple (c : ascii) : bool := amem c (B "abcdefghijklmnopqrstuvwxyzABCDEFGHIJKLMNOPQRSTUVWXYZ0123456789-._:[]").
Definition plain (c : ascii) : bool := host_char c && negb (aeqb c "%" || aeqb c "/" || aeqb c "?" || aeqb c "#" || aeqb c "@" || is_ctl c).
Lemma simple_plain c : implb (simple c) (plain c) = true.
Proof. apply (byte_forall (fun c => implb (simple c) (plain c))). vm_compute. reflexivity. Qed.
Lemma name_simple c : In c (B "abcdefghijklmnopqrstuvwxyzABCDEFGHIJKLMNOPQRSTUVWXYZ0123456789-._") ->
  simple c = true /\ c <> ":"%char /\ c <> "["%char /\ c <> "]"%char.
Proof.
  intros H. apply amem_In in H. revert H.
  assert (G : forall c, implb (amem c (B "abcdefghijklmnopqrstuvwxyzABCDEFGHIJKLMNOPQRSTUVWXYZ0123456789-._"))
    (simple c && negb (aeqb c ":" || aeqb c "[" || aeqb c "]")) = true) by (apply byte_forall; vm_compute; reflexivity).
  intros H. specialize (G c). rewrite H in G. cbn [implb] in G. apply andb_true_iff in G. destruct G as [G1 G2].
  split; [exact G1|]. repeat split; intros ->; vm_compute in G2; discriminate.
Qed.
Lemma six_simple c : In c (B "0123456789abcdefABCDEF:.") -> simple c = true /\ c <> "["%char /\ c <> "]"%char.
Proof.
  intros H. apply amem_In in H. revert H.
  assert (G : forall c, implb (amem c (B "0123456789abcdefABCDEF:.")) (simple c && negb (aeqb c "[" || aeqb c "]")) = true)
    by (apply byte_forall; vm_compute; reflexivity).
  intros H. specialize (G c). rewrite H in G. cbn [implb] in G. apply andb_true_iff in G. destruct G as [G1 G2].
  split; [exact G1|]. repeat split; intros ->; vm_compute in G2; discriminate.
Qed.
Lemma digit_simple c : In c (B "0123456789") -> simple c = true /\ is_digit c = true /\ c <> ":"%char /\ c <> "["%char /\ c <> "]"%char.
Proof.
  intros H. apply amem_In in H. revert H.
  assert (G : forall c, implb (amem c (B "0123456789")) (simple c && is_digit c && negb (aeqb c ":" || aeqb c "[" || aeqb c "]")) = true)
    by (apply byte_forall; vm_compute; reflexivity).
  intros H. specialize (G c). rewrite H in G. cbn [implb] in G. apply andb_true_iff in G. destruct G as [G1 G2].
  apply andb_true_iff in G1. destruct G1 as [G0 G1].
  split; [exact G0|]. split; [exact G1|]. repeat split; intros ->; vm_compute in G2; discriminate.
Qed.

Definition simples (s : bytes) : Prop := forall c, In c s -> simple c = true.
Lemma simples_app a b : simples a -> simples b -> simples (a ++ b).
Proof. intros Ha Hb c Hc. apply in_app_iff in Hc. destruct Hc; auto. Qed.
Lemma simple_facts c : simple c = true ->
  host_char c = true /\ c <> "%"%char /\ c <> "/"%char /\ c <> "?"%char /\ c <> "#"%char /\ c <> "@"%char /\ is_ctl c = false.
Proof.
  intros H. pose proof (simple_plain c) as G. rewrite H in G. cbn [implb] in G. unfold plain in G.
  apply andb_true_iff in G. destruct G as [G1 G2]. apply negb_true_iff in G2. repeat (apply orb_false_iff in G2; destruct G2 as [G2 ?]).
  split; [exact G1|]. repeat (split; [apply aeqb_neq; assumption|]). assumption.
Qed.
Lemma simples_nin s x : simples s -> (x = "%"%char \/ x = "/"%char \/ x = "?"%char \/ x = "#"%char \/ x = "@"%char) -> ~ In x s.
Proof.
  intros H Hx Hin. destruct (simple_facts x (H x Hin)) as (_ & A1 & A2 & A3 & A4 & A5 & _). intuition.
Qed.
Lemma simples_ctl s : simples s -> existsb is_ctl s = false.
Proof.
  intros H. destruct (existsb is_ctl s) eqn:E; [|reflexivity]. apply existsb_exists in E. destruct E as (c & Hc & E).
  destruct (simple_facts c (H c Hc)) as (_ & _ & _ & _ & _ & _ & X). congruence.
Qed.

Lemma unescape_plain any esc s : (forall c, In c s -> any c = true /\ c <> "%"%char) -> unescape any esc s = Some s.
Proof.
  induction s as [|c s IH]; intros H; [reflexivity|]. cbn [unescape]. destruct (H c (or_introl eq_refl)) as [H1 H2].
  apply aeqb_neq in H2. rewrite H2, H1, IH; [reflexivity|]. intros d Hd. apply H. right. exact Hd.
Qed.
Lemma un_host_simple s : simples s -> un_host s = Some s.
Proof. intros H. apply unescape_plain. intros c Hc. destruct (simple_facts c (H c Hc)) as (A & B & _). auto. Qed.
Lemma cut25_none s : ~ In "%"%char s -> cut25 s = None.
Proof.
  induction s as [|c s IH]; intros H; [reflexivity|]. cbn [cut25].
  destruct (has_prefix (c :: s) (B "%25")) eqn:E.
  - apply has_prefix_iff in E. destruct E as [x E]. injection E as -> _. exfalso. apply H. left. reflexivity.
  - rewrite IH; [reflexivity|]. intros X. apply H. right. exact X.
Qed.

(** *** Host and port *)
Definition auth (w : bytes) (po : option bytes) : bytes := match po with None => w | Some p => w ++ B ":" ++ p end.
Definition optp (po : option bytes) : Prop := match po with None => True | Some p => port_number p end.

Lemma host_simple w h : host_of w h -> simples w.
Proof.
  intros [x [_ H]|x [_ H]].
  - intros c Hc. apply (name_simple c), H, Hc.
  - apply simples_app; [|apply simples_app]; intros c Hc.
    + destruct Hc as [<-|[]]. vm_compute. reflexivity.
    + apply (six_simple c), H, Hc.
    + destruct Hc as [<-|[]]. vm_compute. reflexivity.
Qed.
Lemma port_simple p : port_number p -> simples p /\ forallb is_digit p = true /\ ~ In ":"%char p /\ ~ In "["%char p /\ ~ In "]"%char p.
Proof.
  intros [_ H]. split; [intros c Hc; apply (digit_simple c), H, Hc|]. split; [|repeat split; intros Hc; destruct (digit_simple _ (H _ Hc)) as (_ & _ & X & Y & Z); contradiction].
  apply forallb_forall. intros c Hc. apply (digit_simple c), H, Hc.
Qed.
Lemma auth_simple w h po : host_of w h -> optp po -> simples (auth w po).
Proof.
  intros Hw Hp. pose proof (host_simple w h Hw) as S. destruct po as [p|]; [|exact S]. apply simples_app; [exact S|].
  apply simples_app; [|apply port_simple, Hp]. intros c [<-|[]]. vm_compute. reflexivity.
Qed.
Lemma auth_parse w h po : host_of w h -> optp po -> parse_host (auth w po) = Some (auth w po).
Proof.
  intros Hw Hp. pose proof (auth_simple w h po Hw Hp) as S. pose proof (un_host_simple _ S) as U. unfold parse_host.
  destruct Hw as [x [Hx H]|x [Hx H]].
  - assert (Hb : has_prefix (auth x po) (B "[") = false).
    { destruct (has_prefix (auth x po) (B "[")) eqn:E; [|reflexivity]. apply has_prefix_iff in E. destruct E as [y E].
      destruct x as [|c x]; [contradiction|]. assert (c = "["%char) by (destruct po; injection E; auto). subst c.
      destruct (name_simple _ (H _ (or_introl eq_refl))) as (_ & _ & X & _). contradiction. }
    rewrite Hb. assert (Hn : ~ In ":"%char x) by (intros Hc; destruct (name_simple _ (H _ Hc)) as (_ & X & _); contradiction).
    destruct po as [p|]; cbn [auth] in *.
    + destruct (port_simple p Hp) as (_ & D & N & _). rewrite (cut_last_app ":" x p N : Identd.cut_last ":" (x ++ B ":" ++ p) = _). rewrite D. exact U.
    + rewrite (cut_last_none ":" x Hn). exact U.
  - set (w := B "[" ++ x ++ B "]") in *.
    assert (Hb : has_prefix (auth w po) (B "[") = true) by (apply has_prefix_iff; destruct po; eexists; reflexivity).
    rewrite Hb.
    set (tl := match po with None => [] | Some p => B ":" ++ p end).
    assert (E : auth w po = (B "[" ++ x) ++ "]"%char :: tl).
    { subst w tl. destruct po; cbn [auth]; [rewrite <- !app_assoc; reflexivity|]. rewrite <- app_assoc. reflexivity. }
    assert (Ht : valid_port tl = true /\ ~ In "]"%char tl).
    { subst tl. destruct po as [p|]; [|split; [reflexivity|intros []]]. destruct (port_simple p Hp) as (_ & D & _ & _ & N). split; [exact D|].
      intros [X|X]; [discriminate|contradiction]. }
    rewrite E in U |- *. rewrite (cut_last_app "]" (B "[" ++ x) tl) by apply Ht. rewrite (proj1 Ht). cbn [negb].
    rewrite cut25_none; [exact U|]. intros Hc. assert (In "%"%char (auth w po)) by (rewrite E; apply in_app_iff; left; exact Hc).
    destruct (simple_facts _ (S _ H0)) as (_ & X & _). contradiction.
Qed.
Lemma not_bracket (A : Type) c (x y : A) : c <> "["%char -> match c with "["%char => x | _ => y end = y.
Proof. intros H. destruct c as [[] [] [] [] [] [] [] []]; try reflexivity. contradiction. Qed.
Lemma auth_split w h po : host_of w h -> optp po ->
  Identd.split_host_port (auth w po) = match po with Some p => Some (h, p) | None => None end.
Proof.
  intros Hw Hp. unfold Identd.split_host_port. destruct Hw as [x [Hx H]|x [Hx H]].
  - assert (Hn : ~ In ":"%char x) by (intros Hc; destruct (name_simple _ (H _ Hc)) as (_ & X & _); contradiction).
    destruct po as [p|]; cbn [auth] in *.
    + destruct (port_simple p Hp) as (_ & D & N & N2 & N3). rewrite (cut_last_app ":" x p N : Identd.cut_last ":" (x ++ B ":" ++ p) = _).
      destruct x as [|c x]; [contradiction|]. destruct (name_simple _ (H _ (or_introl eq_refl))) as (_ & _ & X & _).
      cbn [app]. rewrite not_bracket by exact X.
      rewrite (nIn_amem ":" (c :: x) Hn).
      assert (G : forall y, y = "["%char \/ y = "]"%char -> amem y (c :: x ++ B ":" ++ p) = false).
      { intros y Hy. apply nIn_amem. change (c :: x ++ B ":" ++ p) with ((c :: x) ++ B ":" ++ p). intros Hc. apply in_app_iff in Hc. destruct Hc as [Hc|Hc].
        - destruct (name_simple _ (H _ Hc)) as (_ & _ & Y & Z). destruct Hy; contradiction.
        - apply in_app_iff in Hc. destruct Hc as [[Hc|[]]|Hc]; [destruct Hy; subst; discriminate|]. destruct Hy; subst; contradiction. }
      rewrite !G by auto. reflexivity.
    + rewrite (cut_last_none ":" x Hn). reflexivity.
  - assert (Hb : ~ In "]"%char x /\ ~ In "["%char x).
    { split; intros Hc; destruct (six_simple _ (H _ Hc)) as (_ & X & Y); contradiction. }
    destruct po as [p|]; cbn [auth].
    + destruct (port_simple p Hp) as (_ & D & N & N2 & N3).
      assert (E : (B "[" ++ x ++ B "]") ++ B ":" ++ p = (B "[" ++ x ++ B "]") ++ ":"%char :: p) by reflexivity.
      rewrite E, (cut_last_app ":" _ p N). change (B "[" ++ x ++ B "]") with ("["%char :: x ++ B "]"). cbn [app].
      rewrite <- app_assoc. cbn [app]. change (B "]" ++ ":"%char :: p) with ("]"%char :: ":"%char :: p).
      rewrite (cut_on_app "]" x (":"%char :: p)) by apply Hb. rewrite beqb_refl. cbn [andb].
      rewrite nIn_amem, nIn_amem; [reflexivity| |].
      * intros [X|X]; [discriminate|contradiction].
      * intros Hc. apply in_app_iff in Hc. destruct Hc as [Hc|[Hc|[Hc|Hc]]]; try discriminate; [apply Hb in Hc; exact Hc|contradiction].
    + destruct (Identd.cut_last ":" (B "[" ++ x ++ B "]")) as [[a b]|]; [|reflexivity].
      assert (X : cut_on "]" (x ++ B "]") = (x, Some [])) by (apply (cut_on_app "]" x []), Hb).
      change (B "[" ++ x ++ B "]") with ("["%char :: x ++ B "]"). cbv iota beta. rewrite X. reflexivity.
Qed.

(** *** URLs *)
Lemma contains_app a b sub : has_prefix b sub = true -> contains sub (a ++ b) = true.
Proof.
  intros H. induction a as [|c a IH]; cbn [app].
  - destruct b; cbn [contains]; rewrite H; reflexivity.
  - cbn [contains]. rewrite IH. apply orb_true_r.
Qed.
Lemma contains_none s : ~ In "/"%char s -> contains (B "://") s = false.
Proof.
  induction s as [|c s IH]; intros H; [reflexivity|]. cbn [contains].
  destruct (has_prefix (c :: s) (B "://")) eqn:E.
  - apply has_prefix_iff in E. destruct E as [y E]. exfalso. apply H. rewrite E. right. left. reflexivity.
  - cbn [orb]. apply IH. intros X. apply H. right. exact X.
Qed.

Lemma parse_simple sch a : sch = B "ircs" \/ sch = B "irc+insecure" -> simples a ->
  parse_url (sch ++ B "://" ++ a) = option_map (fun h => Url sch false [] [] h []) (parse_host a).
Proof.
  intros Hs Ha. unfold parse_url.
  assert (N : forall x, x = "/"%char \/ x = "?"%char \/ x = "#"%char \/ x = "@"%char -> ~ In x a) by (intros x Hx; apply simples_nin; [exact Ha|tauto]).
  rewrite cut_on_nosep.
  2:{ intros Hc. apply in_app_iff in Hc. destruct Hc as [Hc|Hc].
      - destruct Hs as [-> | ->]; vm_compute in Hc; repeat (destruct Hc as [Hc|Hc]; [discriminate|]); exact Hc.
      - apply in_app_iff in Hc. destruct Hc as [Hc|Hc]; [vm_compute in Hc; repeat (destruct Hc as [Hc|Hc]; [discriminate|]); exact Hc|]. apply N in Hc; auto. }
  unfold parse_nofrag. rewrite !existsb_app, (simples_ctl a Ha).
  assert (E1 : existsb is_ctl sch || (existsb is_ctl (B "://") || false) = false) by (destruct Hs as [-> | ->]; reflexivity).
  rewrite E1.
  assert (E2 : beqb (sch ++ B "://" ++ a) (B "*") = false) by (destruct Hs as [-> | ->]; reflexivity). rewrite E2.
  assert (E3 : get_scheme (sch ++ B "://" ++ a) = Some (sch, B "//" ++ a)).
  { unfold get_scheme. change (B "://" ++ a) with (":"%char :: B "//" ++ a). rewrite cut_on_app; [destruct Hs as [-> | ->]; reflexivity|].
    destruct Hs as [-> | ->]; intros Hc; vm_compute in Hc; repeat (destruct Hc as [Hc|Hc]; [discriminate|]); exact Hc. }
  rewrite E3. cbv iota beta.
  assert (E4 : to_lower sch = sch) by (destruct Hs as [-> | ->]; reflexivity). rewrite E4.
  rewrite cut_on_nosep.
  2:{ intros Hc. destruct Hc as [Hc|[Hc|Hc]]; try discriminate. apply N in Hc; auto. }
  cbv iota beta. cbn [of_null].
  assert (E5 : has_prefix (B "//" ++ a) (B "/") = true) by reflexivity.
  assert (E6 : has_prefix (B "//" ++ a) (B "//") = true) by reflexivity.
  assert (E7 : beqb sch [] = false) by (destruct Hs as [-> | ->]; reflexivity).
  rewrite E5, E6, E7. cbn [negb andb orb].
  change (skipn 2 (B "//" ++ a)) with a. rewrite cut_on_nosep by (apply N; auto). cbv iota beta.
  unfold parse_authority. rewrite cut_last_none by (apply N; auto).
  destruct (parse_host a); reflexivity.
Qed.

Lemma net_url_written b a r : written b a (n_addr r) -> simples a -> a <> [] ->
  net_url parse_url r = option_map (fun h => Url (if b then B "ircs" else B "irc+insecure") false [] [] h []) (parse_host a).
Proof.
  intros Hw Hs Hn. unfold net_url.
  assert (E : (if contains (B "://") (n_addr r) then n_addr r else B "ircs://" ++ n_addr r) = (if b then B "ircs" else B "irc+insecure") ++ B "://" ++ a).
  { destruct Hw as [a|a|a].
    - rewrite contains_none by (apply simples_nin; [exact Hs|tauto]). reflexivity.
    - change (B "ircs://" ++ a) with (B "ircs" ++ B "://" ++ a). rewrite (contains_app (B "ircs") (B "://" ++ a) (B "://")) by reflexivity. reflexivity.
    - change (B "irc+insecure://" ++ a) with (B "irc+insecure" ++ B "://" ++ a).
      rewrite (contains_app (B "irc+insecure") (B "://" ++ a) (B "://")) by reflexivity. reflexivity. }
  rewrite E, parse_simple; [|destruct b; auto|exact Hs]. destruct (parse_host a) as [h|]; [|reflexivity]. cbn [option_map u_scheme].
  destruct b; reflexivity.
Qed.

Section Connect.
  Variable key_ok : bytes -> bool.

  Definition default_port (b : bool) : bytes := if b then B "6697" else B "6667".
  Lemma dial b w h po r : written b (auth w po) (n_addr r) -> host_of w h -> optp po -> n_mech r <> EXTERNAL ->
    connect key_ok r =
      let addr := w ++ B ":" ++ match po with Some p => p | None => default_port b end in
      if b then PTls addr (match po with Some _ => h | None => w end) None (n_certfp r) else PPlain addr.
  Proof.
    intros Hw Hh Hp Hm. unfold connect.
    pose proof (auth_simple w h po Hh Hp) as S.
    rewrite (net_url_written b (auth w po) r Hw S).
    2:{ destruct Hh as [x [X _]|x _]; destruct po; cbn [auth]; intros E; try (destruct x; [contradiction|discriminate]); discriminate. }
    rewrite (auth_parse w h po Hh Hp). cbn [option_map u_scheme u_host]. rewrite (auth_split w h po Hh Hp).
    apply beqb_neq in Hm. rewrite Hm.
    destruct b, po as [p|]; reflexivity.
  Qed.

  Lemma dial_cert b w h po r : written b (auth w po) (n_addr r) -> host_of w h -> optp po ->
    n_mech r = EXTERNAL -> n_cert r <> [] -> n_key r <> [] -> key_ok (n_key r) = true ->
    connect key_ok r =
      let addr := w ++ B ":" ++ match po with Some p => p | None => default_port b end in
      if b then PTls addr (match po with Some _ => h | None => w end) (Some (n_cert r)) (n_certfp r) else PPlain addr.
  Proof.
    intros Hw Hh Hp Hm Hc Hk Hok. unfold connect.
    pose proof (auth_simple w h po Hh Hp) as S.
    rewrite (net_url_written b (auth w po) r Hw S).
    2:{ destruct Hh as [x [X _]|x _]; destruct po; cbn [auth]; intros E; try (destruct x; [contradiction|discriminate]); discriminate. }
    rewrite (auth_parse w h po Hh Hp). cbn [option_map u_scheme u_host]. rewrite (auth_split w h po Hh Hp).
    rewrite Hm, Hok. apply beqb_neq in Hc, Hk. rewrite Hc, Hk.
    destruct b, po as [p|]; reflexivity.
  Qed.

  Lemma dial_unix r p : n_addr r = B "unix://" ++ p \/ n_addr r = B "irc+unix://" ++ p -> socket_path p -> connect key_ok r = PUnix p.
  Proof.
    intros Ha (q & -> & Hq).
    assert (Nq : forall c, In c q -> simple c = true \/ c = "/"%char).
    { intros c Hc. specialize (Hq c Hc). change (B "abcdefghijklmnopqrstuvwxyzABCDEFGHIJKLMNOPQRSTUVWXYZ0123456789-._/") with
        (B "abcdefghijklmnopqrstuvwxyzABCDEFGHIJKLMNOPQRSTUVWXYZ0123456789-._" ++ B "/") in Hq.
      apply in_app_iff in Hq. destruct Hq as [Hq|[Hq|[]]]; [|auto]. left. apply name_simple, Hq. }
    assert (Nx : forall x, x = "?"%char \/ x = "#"%char \/ x = "%"%char -> ~ In x q).
    { intros x Hx Hc. destruct (Nq x Hc) as [X|X].
      - destruct (simple_facts x X) as (_ & A1 & _ & A3 & A4 & _). intuition.
      - subst. intuition discriminate. }
    assert (Hctl : existsb is_ctl q = false).
    { destruct (existsb is_ctl q) eqn:E; [|reflexivity]. apply existsb_exists in E. destruct E as (c & Hc & E).
      destruct (Nq c Hc) as [X| ->]; [|discriminate]. destruct (simple_facts c X) as (_ & _ & _ & _ & _ & _ & Y). congruence. }
    assert (G : forall sch, sch = B "unix" \/ sch = B "irc+unix" -> n_addr r = sch ++ B ":///" ++ q -> connect key_ok r = PUnix (B "/" ++ q)).
    { intros sch Hs E. unfold connect, net_url. rewrite E.
      rewrite (contains_app sch (B ":///" ++ q) (B "://")) by reflexivity.
      unfold parse_url. rewrite cut_on_nosep.
      2:{ intros Hc. apply in_app_iff in Hc. destruct Hc as [Hc|Hc].
          - destruct Hs as [-> | ->]; vm_compute in Hc; repeat (destruct Hc as [Hc|Hc]; [discriminate|]); exact Hc.
          - apply in_app_iff in Hc. destruct Hc as [Hc|Hc]; [vm_compute in Hc; repeat (destruct Hc as [Hc|Hc]; [discriminate|]); exact Hc|]. apply Nx in Hc; auto. }
      unfold parse_nofrag. rewrite !existsb_app, Hctl.
      assert (E1 : existsb is_ctl sch || (existsb is_ctl (B ":///") || false) = false) by (destruct Hs as [-> | ->]; reflexivity).
      rewrite E1.
      assert (E2 : beqb (sch ++ B ":///" ++ q) (B "*") = false) by (destruct Hs as [-> | ->]; reflexivity). rewrite E2.
      assert (E3 : get_scheme (sch ++ B ":///" ++ q) = Some (sch, B "///" ++ q)).
      { unfold get_scheme. change (B ":///" ++ q) with (":"%char :: B "///" ++ q). rewrite cut_on_app; [destruct Hs as [-> | ->]; reflexivity|].
        destruct Hs as [-> | ->]; intros Hc; vm_compute in Hc; repeat (destruct Hc as [Hc|Hc]; [discriminate|]); exact Hc. }
      rewrite E3. cbv iota beta.
      assert (E4 : to_lower sch = sch) by (destruct Hs as [-> | ->]; reflexivity). rewrite E4.
      rewrite cut_on_nosep.
      2:{ intros Hc. destruct Hc as [Hc|[Hc|[Hc|Hc]]]; try discriminate. apply Nx in Hc; auto. }
      cbv iota beta. cbn [of_null].
      assert (E5 : has_prefix (B "///" ++ q) (B "/") = true) by reflexivity.
      assert (E6 : has_prefix (B "///" ++ q) (B "//") = true) by reflexivity.
      assert (E7 : beqb sch [] = false) by (destruct Hs as [-> | ->]; reflexivity).
      rewrite E5, E6, E7. cbn [negb andb orb].
      change (skipn 2 (B "///" ++ q)) with ([] ++ "/"%char :: q). rewrite cut_on_app by (intros []). cbv iota beta.
      change (parse_authority []) with (Some (false, @nil ascii)).
      assert (Hu : un_path (B "/" ++ q) = Some (B "/" ++ q)).
      { apply unescape_plain. intros c [<-|Hc]; [split; [reflexivity|discriminate]|]. split; [reflexivity|]. intros ->. apply Nx in Hc; auto. }
      rewrite Hu. destruct Hs as [-> | ->]; reflexivity. }
    destruct Ha as [E|E]; [apply (G (B "unix")); auto|apply (G (B "irc+unix")); auto].
  Qed.

  (** *** Schemes *)
  Lemma scheme_parse raw u : parse_url raw = Some u -> u_scheme u <> [] -> exists s, scheme raw s /\ to_lower s = u_scheme u.
  Proof.
    unfold parse_url. pose proof (cut_on_spec "#" raw) as Sp. destruct (cut_on "#" raw) as [a frag].
    assert (Hraw : exists t, raw = a ++ t) by (destruct frag as [f|]; destruct Sp as [-> _]; [eexists; reflexivity|exists []; rewrite app_nil_r; reflexivity]).
    clear Sp. intros H Hne.
    assert (G : exists x, parse_nofrag a = Some x /\ u_scheme x = u_scheme u).
    { destruct (parse_nofrag a) as [x|]; [|discriminate]. exists x. split; [reflexivity|].
      destruct (of_null frag) as [|c f]; [congruence|]. destruct (un_path (c :: f)); [|discriminate]. injection H as <-. reflexivity. }
    destruct G as (x & G & Ex). clear H. unfold parse_nofrag in G.
    destruct (existsb is_ctl a); [discriminate|]. destruct (beqb a (B "*")); [injection G as <-; cbn in Ex; congruence|].
    destruct (get_scheme a) as [[sch rest]|] eqn:Eg; [|discriminate].
    assert (Es : to_lower sch = u_scheme x).
    { destruct (cut_on "?" rest) as [rest' q].
      destruct (negb (has_prefix rest' (B "/")) && negb (beqb (to_lower sch) [])); [injection G as <-; reflexivity|].
      destruct (negb (has_prefix rest' (B "/")) && amem ":" (fst (cut_on "/" rest'))); [discriminate|].
      match type of G with (if ?c then _ else _) = _ => destruct c end.
      - destruct (cut_on "/" (skipn 2 rest')) as [au path]. destruct (parse_authority au) as [[us h]|]; [|discriminate].
        destruct (un_path _); [|discriminate]. injection G as <-. reflexivity.
      - destruct (un_path rest'); [|discriminate]. injection G as <-. reflexivity. }
    unfold get_scheme in Eg. pose proof (cut_on_spec ":" a) as Sp. destruct (cut_on ":" a) as [pre [t|]].
    - destruct pre as [|c pre]; [discriminate|]. destruct (is_letter c && _).
      + injection Eg as <- <-. exists (c :: pre). split; [|congruence]. destruct Hraw as [t' ->]. destruct Sp as [-> Sp].
        exists (t ++ t'). split; [rewrite <- app_assoc; reflexivity|exact Sp].
      + injection Eg as <- <-. cbn in Es. congruence.
    - assert (X : Some (@nil ascii, a) = Some (sch, rest)) by (destruct pre; exact Eg). injection X as <- <-. cbn in Es. congruence.
  Qed.
  Lemma scheme_unique a s s' : scheme a s -> scheme a s' -> s = s'.
  Proof.
    intros (t & E & N) (t' & E' & N'). assert (X : cut_on ":" a = (s, Some t)) by (rewrite E; apply cut_on_app, N).
    assert (Y : cut_on ":" a = (s', Some t')) by (rewrite E'; apply cut_on_app, N'). congruence.
  Qed.
  Lemma net_scheme r u : net_url parse_url r = Some u -> u_scheme u <> [] ->
    (contains (B "://") (n_addr r) = false /\ u_scheme u = B "ircs") \/ exists s, scheme (n_addr r) s /\ to_lower s = u_scheme u.
  Proof.
    unfold net_url. destruct (contains (B "://") (n_addr r)) eqn:Ec.
    - intros H Hne. right. destruct (parse_url (n_addr r)) as [x|] eqn:Ep; [|discriminate].
      assert (Ex : u_scheme x = u_scheme u) by (injection H as <-; destruct (unix_scheme (u_scheme x)); reflexivity).
      destruct (scheme_parse _ _ Ep) as (s & A & B'); [congruence|]. exists s. split; [exact A|congruence].
    - intros H Hne. left. split; [reflexivity|]. destruct (parse_url (B "ircs://" ++ n_addr r)) as [x|] eqn:Ep; [|discriminate].
      assert (Ex : u_scheme x = u_scheme u) by (injection H as <-; destruct (unix_scheme (u_scheme x)); reflexivity).
      destruct (scheme_parse _ _ Ep) as (s & A & B'); [congruence|].
      assert (s = B "ircs").
      { apply (scheme_unique _ _ _ A). exists (B "//" ++ n_addr r). split; [reflexivity|].
        intros Hc; vm_compute in Hc; repeat (destruct Hc as [Hc|Hc]; [discriminate|]); exact Hc. }
      subst s. rewrite <- Ex, <- B'. reflexivity.
  Qed.

  Lemma plain_asked r a : connect key_ok r = PPlain a -> exists s, scheme (n_addr r) s /\ to_lower s = B "irc+insecure".
  Proof.
    unfold connect. destruct (net_url parse_url r) as [u|] eqn:E; [|discriminate].
    destruct (beqb_spec (u_scheme u) (B "ircs")) as [E1|E1].
    - destruct (match Identd.split_host_port (u_host u) with Some (h, _) => _ | None => _ end).
      destruct (beqb _ _); [destruct (_ || _)|]; discriminate.
    - destruct (beqb_spec (u_scheme u) (B "irc+insecure")) as [E2|E2].
      + intros _. destruct (net_scheme r u E) as [[_ X]|(s & A & B')]; [rewrite E2; discriminate|congruence|]. exists s. split; [exact A|congruence].
      + destruct (unix_scheme _); discriminate.
  Qed.
  Lemma unix_asked r p : connect key_ok r = PUnix p -> exists s, scheme (n_addr r) s /\ (to_lower s = B "unix" \/ to_lower s = B "irc+unix").
  Proof.
    unfold connect. destruct (net_url parse_url r) as [u|] eqn:E; [|discriminate].
    destruct (beqb_spec (u_scheme u) (B "ircs")) as [E1|E1].
    - destruct (match Identd.split_host_port (u_host u) with Some (h, _) => _ | None => _ end).
      destruct (beqb _ _); [destruct (_ || _)|]; discriminate.
    - destruct (beqb_spec (u_scheme u) (B "irc+insecure")) as [E2|E2].
      + destruct (Identd.split_host_port (u_host u)); discriminate.
      + destruct (unix_scheme (u_scheme u)) eqn:E3; [|discriminate]. intros _.
        unfold unix_scheme in E3. apply orb_true_iff in E3.
        assert (X : u_scheme u = B "unix" \/ u_scheme u = B "irc+unix") by (destruct E3 as [X|X]; apply beqb_eq in X; auto).
        destruct (net_scheme r u E) as [[_ Y]|(s & A & B')].
        * destruct X as [-> | ->]; discriminate.
        * congruence.
        * exists s. split; [exact A|]. rewrite B'. exact X.
  Qed.

  Lemma right_name r addr server cert pin h p :
    connect key_ok r = PTls addr server cert pin -> Identd.split_host_port addr = Some (h, p) ->
    pin = n_certfp r /\ (server = h \/ server = B "[" ++ h ++ B "]").
  Proof.
    unfold connect. destruct (net_url parse_url r) as [u|]; [|discriminate].
    destruct (beqb (u_scheme u) (B "ircs")).
    2:{ destruct (beqb _ _); [destruct (Identd.split_host_port (u_host u)); discriminate|]. destruct (unix_scheme _); discriminate. }
    assert (G : forall a s, match Identd.split_host_port (u_host u) with
                | Some (h0, _) => (u_host u, h0) | None => (u_host u ++ B ":6697", u_host u) end = (a, s) ->
              Identd.split_host_port a = Some (h, p) -> s = h \/ s = B "[" ++ h ++ B "]").
    { intros a s. destruct (Identd.split_host_port (u_host u)) as [[h0 p0]|] eqn:E.
      - intros X. injection X as <- <-. rewrite E. intros X. injection X as -> _. auto.
      - intros X. injection X as <- <-. intros X. apply split_colon in X. destruct X as [N [X|X]].
        + left. assert (Y : Identd.cut_last ":" (u_host u ++ ":"%char :: B "6697") = Some (u_host u, B "6697")).
          { apply cut_last_app. intros Hc; vm_compute in Hc; repeat (destruct Hc as [Hc|Hc]; [discriminate|]); exact Hc. }
          assert (Z : Identd.cut_last ":" (h ++ ":"%char :: p) = Some (h, p)) by (apply cut_last_app, N).
          assert (W : Some (u_host u, B "6697") = Some (h, p)) by (rewrite <- Y, <- Z; f_equal; exact X). congruence.
        + right. assert (Y : Identd.cut_last ":" (u_host u ++ ":"%char :: B "6697") = Some (u_host u, B "6697")).
          { apply cut_last_app. intros Hc; vm_compute in Hc; repeat (destruct Hc as [Hc|Hc]; [discriminate|]); exact Hc. }
          assert (Z : Identd.cut_last ":" ((B "[" ++ h ++ B "]") ++ ":"%char :: p) = Some (B "[" ++ h ++ B "]", p)) by (apply cut_last_app, N).
          assert (V : B "[" ++ h ++ B "]:" ++ p = (B "[" ++ h ++ B "]") ++ ":"%char :: p) by (rewrite <- !app_assoc; reflexivity).
          assert (W : Some (u_host u, B "6697") = Some (B "[" ++ h ++ B "]", p)) by (rewrite <- Y, <- Z; f_equal; rewrite <- V; exact X). congruence. }
    destruct (match Identd.split_host_port (u_host u) with Some (h0, _) => _ | None => _ end) as [a s].
    specialize (G a s eq_refl).
    destruct (beqb (n_mech r) EXTERNAL); [destruct (_ || _); [discriminate|]|]; intros X; injection X as <- <- <- <-; auto.
  Qed.

  (** *** Attributes *)
  Lemma shown_written b h po r : written b (auth h po) (n_addr r) -> host_name h -> optp po ->
    shown r = (Some h, po, Some (if b then B "1" else B "0")).
  Proof.
    intros Hw Hh Hp. unfold shown, addr_attrs. pose proof (HName h Hh) as Ho.
    pose proof (auth_simple h h po Ho Hp) as S. rewrite (net_url_written b (auth h po) r Hw S).
    2:{ destruct Hh as [X _]. destruct po; cbn [auth]; destruct h; try contradiction; discriminate. }
    rewrite (auth_parse h h po Ho Hp). cbn [option_map u_scheme u_host]. rewrite (auth_split h h po Ho Hp).
    destruct b, po; reflexivity.
  Qed.
  Definition tls_of (o : option bytes) : bool := negb (beqb (of_null o) (B "0")).
  Lemma addr_from_written h po tls r : host_name h -> port_attr po ->
    written (tls_of tls) (auth h (null (of_null po))) (addr_from (Some h) po tls) /\ addr_from (Some h) po tls <> [] /\
    (n_addr r = addr_from (Some h) po tls -> shown r = (Some h, null (of_null po), Some (if tls_of tls then B "1" else B "0"))).
  Proof.
    intros Hh Hp.
    assert (W : written (tls_of tls) (auth h (null (of_null po))) (addr_from (Some h) po tls) /\ addr_from (Some h) po tls <> []).
    { unfold addr_from, tls_of. cbn [of_null]. destruct Hh as [Hh _]. destruct h as [|c h]; [contradiction|].
      destruct (beqb (of_null tls) (B "0")); cbn [negb]; destruct po as [[|d p]|]; cbn [of_null null auth]; split; try discriminate; constructor. }
    destruct W as [W N]. split; [exact W|]. split; [exact N|]. intros E. apply (shown_written (tls_of tls)); [rewrite E; exact W|exact Hh|].
    destruct po as [[|d p]|]; cbn [of_null null optp]; auto.
  Qed.

  Definition other (a : attrs) (r r' : netrec) : Prop :=
    n_id r' = n_id r /\ n_name r' = dflt (a_name a) (n_name r) /\ n_nick r' = dflt (a_nick a) (n_nick r) /\
    n_username r' = dflt (a_username a) (n_username r) /\ n_realname r' = dflt (a_realname a) (n_realname r) /\
    n_pass r' = dflt (a_pass a) (n_pass r) /\ n_certfp r' = n_certfp r /\ n_cmds r' = n_cmds r /\
    n_mech r' = n_mech r /\ n_autoaway r' = n_autoaway r /\ n_enabled r' = n_enabled r.

  Lemma change_address a r h p0 t0 h0 :
    a_unknown a = false -> is_some (a_host a) || is_some (a_port a) || is_some (a_tls a) = true ->
    shown r = (Some h0, p0, t0) -> h = dflt (a_host a) h0 -> host_name h -> port_attr (or_else (a_port a) p0) ->
    exists r', attrs_update parse_url Identd.split_host_port a r = Some r' /\ other a r r' /\
      written (tls_of (or_else (a_tls a) t0)) (auth h (null (of_null (or_else (a_port a) p0)))) (n_addr r') /\
      shown r' = (Some h, null (of_null (or_else (a_port a) p0)), Some (if tls_of (or_else (a_tls a) t0) then B "1" else B "0")).
  Proof.
    intros Hu Hs Hr Eh Hh Hp. unfold attrs_update. rewrite Hu. unfold shown in Hr. rewrite Hr, Hs. cbv iota beta.
    assert (E : or_else (a_host a) (Some h0) = Some h) by (subst h; destruct (a_host a); reflexivity). rewrite E.
    set (r1 := upd (a_pass a) set_pass _).
    destruct (addr_from_written h (or_else (a_port a) p0) (or_else (a_tls a) t0) (set_addr (addr_from (Some h) (or_else (a_port a) p0) (or_else (a_tls a) t0)) r1) Hh Hp) as (W & N & Sh).
    destruct (addr_from (Some h) (or_else (a_port a) p0) (or_else (a_tls a) t0)) as [|c addr] eqn:Ea; [contradiction|].
    eexists. split; [reflexivity|]. split; [|split; [exact W|apply Sh; reflexivity]].
    subst r1. unfold other. destruct (a_pass a), (a_realname a), (a_username a), (a_nick a), (a_name a); cbn; repeat (split; [reflexivity|]); reflexivity.
  Qed.
  Lemma change_other a r : a_unknown a = false -> is_some (a_host a) || is_some (a_port a) || is_some (a_tls a) = false ->
    exists r', attrs_update parse_url Identd.split_host_port a r = Some r' /\ other a r r' /\ n_addr r' = n_addr r.
  Proof.
    intros Hu Hs. unfold attrs_update. rewrite Hu, Hs. destruct (addr_attrs _ _ r) as [[h p] t].
    eexists. split; [reflexivity|]. unfold other.
    destruct (a_pass a), (a_realname a), (a_username a), (a_nick a), (a_name a); cbn; repeat split; reflexivity.
  Qed.
End Connect.

(** *** Commands of clients *)
Section Bouncer.
  Variables (config_max : Z) (key_ok : bytes -> bool).

  Definition kept (r' r : netrec) : Prop :=
    n_id r' = n_id r /\ n_name r' = n_name r /\ n_addr r' = n_addr r /\ n_username r' = n_username r /\
    n_pass r' = n_pass r /\ n_certfp r' = n_certfp r /\ n_cmds r' = n_cmds r /\
    n_mech r' = n_mech r /\ n_autoaway r' = n_autoaway r /\ n_enabled r' = n_enabled r.
  Lemma kept_trans a b c : kept a b -> kept b c -> kept a c.
  Proof.
    unfold kept. intros (A1&A2&A3&A4&A5&A6&A7&A8&A9&A10) (B1&B2&B3&B4&B5&B6&B7&B8&B9&B10).
    repeat (split; [congruence|]). congruence.
  Qed.
  Lemma wipe_kept u r : kept (wipe_defaults u r) r.
  Proof. unfold wipe_defaults. destruct (beqb (n_nick r) _); destruct (beqb (n_realname _) _); unfold kept; repeat (split; [reflexivity|]); reflexivity. Qed.
  Lemma norm_kept u r : kept (Networks.norm_defaults u r) r.
  Proof. unfold Networks.norm_defaults. destruct (beqb (n_nick r) _); destruct (beqb (n_realname _) _); unfold kept; repeat (split; [reflexivity|]); reflexivity. Qed.
  Lemma mutate_kept r : kept (store_mutate r) r.
  Proof. unfold store_mutate. destruct (beqb _ _); unfold kept; repeat (split; [reflexivity|]); reflexivity. Qed.

  Lemma mutate_nick r : n_nick (store_mutate r) = n_nick r.
  Proof. unfold store_mutate. destruct (beqb _ _); reflexivity. Qed.
  Lemma wipe_nick u r : n_nick (wipe_defaults u r) = if beqb (n_nick r) (us_username u) then [] else n_nick r.
  Proof. unfold wipe_defaults. destruct (beqb (n_nick r) _); destruct (beqb (n_realname _) _); reflexivity. Qed.
  Lemma norm_nick u r : n_nick (Networks.norm_defaults u r) = if beqb (n_nick r) (us_nick u) then [] else n_nick r.
  Proof. unfold Networks.norm_defaults. destruct (beqb (n_nick r) _); destruct (beqb (n_realname _) _); reflexivity. Qed.

  Lemma nick_asked u u' r r' k : us_nick u' = us_nick u -> us_username u' = us_username u ->
    n_nick r = k -> k <> [] -> k <> us_username u \/ us_nick u = [] \/ us_nick u = us_username u ->
    n_nick r' = n_nick (wipe_defaults u r) \/ n_nick r' = n_nick (Networks.norm_defaults u (wipe_defaults u r)) -> nick_on u' r' = k.
  Proof.
    intros En Eu Ek Hk Hd Hr. unfold nick_on. rewrite En, Eu. rewrite norm_nick, !wipe_nick, Ek in Hr.
    destruct (beqb_spec k (us_username u)) as [E1|E1].
    - assert (Hr' : n_nick r' = []) by (destruct Hr as [Hr|Hr]; [exact Hr|]; destruct (beqb [] (us_nick u)); exact Hr).
      rewrite Hr'. destruct Hd as [Hd|[Hd|Hd]]; [contradiction| |].
      + rewrite Hd. symmetry. exact E1.
      + rewrite Hd. destruct (us_username u); [exact (eq_sym E1)|exact (eq_sym E1)].
    - destruct Hr as [Hr|Hr].
      + rewrite Hr. destruct k; [contradiction|reflexivity].
      + destruct (beqb_spec k (us_nick u)) as [E2|E2]; rewrite Hr.
        * destruct (us_nick u); [contradiction|congruence].
        * destruct k; [contradiction|reflexivity].
  Qed.

  Lemma changed u id a io u' n : Networks.inv u -> get_network_by_id (us_nets u) id = Some n ->
    bnc_change parse_url Identd.split_host_port config_max u id a io = Some u' ->
    exists r x, attrs_update parse_url Identd.split_host_port a n = Some r /\ In x (us_nets u') /\ kept x r /\
      (n_nick x = n_nick (wipe_defaults u r) \/ n_nick x = n_nick (Networks.norm_defaults u (wipe_defaults u r))) /\
      us_nick u' = us_nick u /\ us_username u' = us_username u /\
      (forall y, n_id y <> id -> In y (us_nets u') <-> In y (us_nets u)).
  Proof.
    intros I G H. unfold bnc_change in H. rewrite G in H.
    destruct (attrs_update _ _ a n) as [r|] eqn:Ea; [|discriminate].
    destruct (Networks.update_some _ _ _ _ _ _ _ I H) as (n1 & r' & G1 & R & _ & U & _).
    exists r, r'. split; [reflexivity|].
    destruct (Networks.remove_perm _ _ _ G) as [P Id].
    destruct (Networks.attrs_id _ _ _ _ _ Ea) as [E1 _].
    assert (E2 : n_id (wipe_defaults u r) = id) by (rewrite (proj1 (wipe_kept u r)); congruence).
    rewrite E2 in U.
    assert (K : kept r' r) by (subst r'; eapply kept_trans; [apply mutate_kept|]; eapply kept_trans; [apply norm_kept|apply wipe_kept]).
    split; [subst u'; cbn [with_nets us_nets]; rewrite Networks.add_perm; left; reflexivity|]. split; [exact K|].
    split; [right; subst r'; apply mutate_nick|]. split; [subst u'; reflexivity|]. split; [subst u'; reflexivity|].
    intros y Hy. subst u'. cbn [with_nets us_nets]. rewrite Networks.add_perm.
    assert (X0 : In y (us_nets u) <-> In y (n :: remove_network id (us_nets u))).
    { split; apply Permutation_in; [exact P|symmetry; exact P]. }
    rewrite X0. cbn [In].
    assert (n_id r' = id) by (rewrite (proj1 K); congruence). split; (intros [X|X]; [congruence|right; exact X]).
  Qed.
  Lemma added u nick a nid io u' :
    bnc_add parse_url Identd.split_host_port config_max u nick a nid io = Some u' ->
    exists r x, attrs_update parse_url Identd.split_host_port a (set_nick nick (new_network [])) = Some r /\ In x (us_nets u') /\ kept x (set_id nid r) /\
      (n_nick x = n_nick (wipe_defaults u r) \/ n_nick x = n_nick (Networks.norm_defaults u (wipe_defaults u r))) /\
      us_nick u' = us_nick u /\ us_username u' = us_username u /\
      (forall y, y <> x -> In y (us_nets u') <-> In y (us_nets u)).
  Proof.
    intros H. unfold bnc_add in H.
    destruct (attrs_update _ _ a _) as [r|] eqn:Ea; [|discriminate].
    destruct (Networks.attrs_id _ _ _ _ _ Ea) as [E1 _].
    assert (E2 : n_id (wipe_defaults u r) = 0%Z) by (rewrite (proj1 (wipe_kept u r)), E1; reflexivity).
    destruct (Networks.create_some _ _ _ _ _ _ _ _ E2 H) as (r' & R & _ & U & _).
    exists r, r'. split; [reflexivity|].
    split; [subst u'; cbn [with_nets us_nets]; rewrite Networks.add_perm; left; reflexivity|].
    split.
    { subst r'. assert (K : kept (store_mutate (wipe_defaults u r)) r) by (eapply kept_trans; [apply mutate_kept|apply wipe_kept]).
      unfold kept in *. tauto. }
    split; [left; subst r'; cbn [set_id n_nick]; apply mutate_nick|]. split; [subst u'; reflexivity|]. split; [subst u'; reflexivity|].
    intros y Hy. subst u'. cbn [with_nets us_nets]. rewrite Networks.add_perm. cbn [In]. split; [intros [X|X]; [congruence|exact X]|auto].
  Qed.

  Lemma null_of (o : option bytes) : null (of_null o) = match o with None | Some [] => None | Some p => Some p end.
  Proof. destruct o as [[|c p]|]; reflexivity. Qed.
  Lemma asks_of o b : asks_tls o b -> tls_of o = b.
  Proof.
    intros [A1 A2]. unfold tls_of. destruct b.
    - destruct (beqb_spec (of_null o) (B "0")) as [E|E]; [|reflexivity]. destruct o as [t|]; [|discriminate]. cbn [of_null] in E. subst t.
      specialize (A2 eq_refl). discriminate.
    - rewrite (A1 eq_refl). reflexivity.
  Qed.
  Lemma kept_shown x r : n_addr x = n_addr r -> shown x = shown r.
  Proof. intros E. unfold shown, addr_attrs, net_url. rewrite E. reflexivity. Qed.

  Lemma end_to_end a n r x h0 p0 t0 b :
    attrs_update parse_url Identd.split_host_port a n = Some r -> n_addr x = n_addr r -> n_mech x = n_mech r -> n_certfp x = n_certfp r ->
    a_unknown a = false -> is_some (a_host a) || is_some (a_port a) || is_some (a_tls a) = true ->
    shown n = (Some h0, p0, t0) -> host_name (dflt (a_host a) h0) -> port_attr (or_else (a_port a) p0) ->
    asks_tls (or_else (a_tls a) t0) b -> n_mech n <> EXTERNAL ->
    let h := dflt (a_host a) h0 in let p := or_else (a_port a) p0 in
    connect key_ok x = (if b then PTls (endpoint b h p) h None (n_certfp n) else PPlain (endpoint b h p)) /\
    shown x = (Some h, match p with None | Some [] => None | Some q => Some q end, Some (if b then B "1" else B "0")).
  Proof.
    intros Ea Xa Xm Xc Hu Hs Hn Hh Hp Ht Hm h p.
    destruct (change_address a n h p0 t0 h0 Hu Hs Hn eq_refl Hh Hp) as (r1 & E1 & O & W & Sh).
    rewrite Ea in E1. injection E1 as <-. apply asks_of in Ht. rewrite Ht in W, Sh. rewrite null_of in W, Sh. fold p in W, Sh.
    split; [|rewrite (kept_shown _ _ Xa); exact Sh].
    assert (Hop : optp (match p with None | Some [] => None | Some q => Some q end)) by (subst p; destruct (or_else (a_port a) p0) as [[|c q]|]; exact Hp).
    unfold other in O.
    rewrite (dial key_ok b h h (match p with None | Some [] => None | Some q => Some q end) x); [|rewrite Xa; exact W|constructor; exact Hh|exact Hop|rewrite Xm; intuition congruence].
    replace (n_certfp x) with (n_certfp n) by intuition congruence.
    unfold endpoint, default_port. destruct p as [[|c q]|]; reflexivity.
  Qed.
End Bouncer.

(** *** Fingerprints *)
Lemma pin_exact sha256 sha512 algo d certs : certs <> [] -> (algo = B "sha-256" \/ algo = B "sha-512") -> ~ In ":"%char algo ->
  pin_check sha256 sha512 (algo ++ B ":" ++ d) certs = Some (existsb (fun c => beqb (if beqb algo (B "sha-512") then sha512 c else sha256 c) d) certs).
Proof.
  intros Hc Ha N. unfold pin_check. destruct certs as [|x certs]; [contradiction|].
  change (algo ++ B ":" ++ d) with (algo ++ ":"%char :: d). rewrite cut_on_app by exact N.
  destruct Ha as [-> | ->]; reflexivity.
Qed.

Lemma attrs_nick a n r k : attrs_update parse_url Identd.split_host_port a n = Some r -> a_nick a = Some k -> n_nick r = k.
Proof.
  unfold attrs_update. destruct (a_unknown a); [discriminate|]. destruct (addr_attrs _ _ n) as [[h p] t]. intros H E. rewrite E in H.
  set (r1 := upd (a_pass a) set_pass _) in H.
  assert (N : n_nick r1 = k) by (subst r1; destruct (a_pass a), (a_realname a), (a_username a), (a_name a); reflexivity).
  destruct (is_some _ || is_some _ || is_some _); [|injection H as <-; exact N].
  destruct (addr_from _ _ _); [discriminate|]. injection H as <-. exact N.
Qed.

Lemma pin sha256 sha512 chain_ok s t server certs : norm_certfp s = Some t -> t <> [] ->
  verify sha256 sha512 chain_ok t server certs <> None /\
  (verify sha256 sha512 chain_ok t server certs = Some true <->
   exists c, In c certs /\ (t = B "sha-256:" ++ sha256 c \/ t = B "sha-512:" ++ sha512 c)).
Proof.
  intros H Hne. destruct (Networks.certfp_out s t H) as [_ [[_ X]|X]]; [contradiction|].
  set (d := to_lower _) in X. clearbody d. unfold verify. apply beqb_neq in Hne. rewrite Hne.
  destruct certs as [|c certs]; [split; [discriminate|]; split; [discriminate|]; intros (c & [] & _)|].
  assert (NC : forall algo, algo = B "sha-256" \/ algo = B "sha-512" -> ~ In ":"%char algo).
  { intros algo [-> | ->] Hc; vm_compute in Hc; repeat (destruct Hc as [Hc|Hc]; [discriminate|]); exact Hc. }
  destruct X as [[_ ->]|[_ ->]].
  - change (B "sha-256:" ++ d) with (B "sha-256" ++ B ":" ++ d).
    rewrite (pin_exact sha256 sha512 (B "sha-256") d (c :: certs)); [|discriminate|auto|apply NC; auto].
    split; [discriminate|]. change (beqb (B "sha-256") (B "sha-512")) with false. cbv iota.
    split.
    + intros E. injection E as E. change (existsb (fun c => beqb (sha256 c) d) (c :: certs) = true) in E.
      apply existsb_exists in E. destruct E as (x & Hx & E). apply beqb_eq in E. exists x. split; [exact Hx|]. left. rewrite E. reflexivity.
    + intros (x & Hx & [E|E]); [|discriminate E]. apply (app_inv_head (B "sha-256:")) in E. f_equal. apply existsb_exists. exists x. split; [exact Hx|].
      apply beqb_eq. symmetry. exact E.
  - change (B "sha-512:" ++ d) with (B "sha-512" ++ B ":" ++ d).
    rewrite (pin_exact sha256 sha512 (B "sha-512") d (c :: certs)); [|discriminate|auto|apply NC; auto].
    split; [discriminate|]. rewrite beqb_refl. cbv iota.
    split.
    + intros E. injection E as E. change (existsb (fun c => beqb (sha512 c) d) (c :: certs) = true) in E.
      apply existsb_exists in E. destruct E as (x & Hx & E). apply beqb_eq in E. exists x. split; [exact Hx|]. right. rewrite E. reflexivity.
    + intros (x & Hx & [E|E]); [discriminate E|]. apply (app_inv_head (B "sha-512:")) in E. f_equal. apply existsb_exists. exists x. split; [exact Hx|].
      apply beqb_eq. symmetry. exact E.
Qed.
