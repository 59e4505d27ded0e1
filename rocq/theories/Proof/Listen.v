(** Proofs about listening sockets and the addresses of clients. *)
From Coq Require Import NArith Lia.
From Verif.Base Require Import Bytes.
From Verif.Model Require Import Networks Addr IPAddr Listen.
From Verif.Model Require Identd.
From Verif.Proof Require Addr Identd IPAddr.
From Verif.Spec Require Import IPAddr Listen.
From Verif.Spec Require Addr.

(** ** Host and port of a text *)
Lemma flat_not s c : flat s -> In c (B ":[]") -> ~ In c s.
Proof. intros H I X. exact (H c X I). Qed.
Lemma unb_not s c : unbracketed s -> In c (B "[]") -> ~ In c s.
Proof. intros H I X. exact (H c X I). Qed.
Lemma amem_no c s : ~ In c s -> amem c s = false.
Proof. apply Proof.Addr.nIn_amem. Qed.
Lemma amem_no' c s : amem c s = false -> ~ In c s.
Proof. intros H X. apply amem_In in X. congruence. Qed.

Lemma sock_split t h : sock_text t h -> exists p, Identd.split_host_port t = Some (h, p).
Proof.
  intros [host port Hh Hp|host port Hh Hp]; exists port; unfold Identd.split_host_port.
  - assert (Np : ~ In ":"%char port) by (apply (flat_not _ _ Hp); left; reflexivity).
    rewrite (Proof.Addr.cut_last_app ":" host port Np : Identd.cut_last ":" (host ++ B ":" ++ port) = _).
    assert (M : forall c, In c (B "[]") -> amem c (host ++ B ":" ++ port) = false).
    { intros c Hc. apply amem_no. intros X. apply in_app_iff in X. destruct X as [X|[X|X]].
      - apply (flat_not _ c Hh) in X; [exact X|right; exact Hc].
      - subst c. destruct Hc as [Hc|[Hc|[]]]; discriminate Hc.
      - apply (flat_not _ c Hp) in X; [exact X|right; exact Hc]. }
    rewrite (amem_no ":" host) by (apply (flat_not _ _ Hh); left; reflexivity).
    rewrite (M "["%char) by (left; reflexivity). rewrite (M "]"%char) by (right; left; reflexivity). cbn [orb].
    destruct (host ++ B ":" ++ port) as [|c r] eqn:E; [reflexivity|]. apply Proof.Addr.not_bracket.
    intros ->. specialize (M "["%char (or_introl eq_refl)). discriminate M.
  - assert (Np : ~ In ":"%char port) by (apply (flat_not _ _ Hp); left; reflexivity).
    change (B "[" ++ host ++ B "]:" ++ port) with ("["%char :: (host ++ "]"%char :: ":"%char :: port)).
    pose proof (Proof.Addr.cut_last_app ":" ("["%char :: host ++ ["]"%char]) port Np) as C. cbn [app] in C. rewrite <- app_assoc in C. cbn [app] in C.
    rewrite C. rewrite cut_on_app by (apply (unb_not _ _ Hh); right; left; reflexivity). rewrite beqb_refl. cbn [andb].
    rewrite amem_no, amem_no; [reflexivity| |].
    + intros [X|X]; [discriminate X|]. apply (flat_not _ _ Hp) in X; [exact X|right; right; left; reflexivity].
    + intros X. apply in_app_iff in X. destruct X as [X|[X|[X|X]]]; try discriminate X.
      * apply (unb_not _ _ Hh) in X; [exact X|left; reflexivity].
      * apply (flat_not _ _ Hp) in X; [exact X|right; left; reflexivity].
Qed.
Lemma split_sock t h p : Identd.split_host_port t = Some (h, p) -> sock_text t h.
Proof.
  unfold Identd.split_host_port. destruct (Identd.cut_last ":" t) as [[a b]|] eqn:E; [|discriminate].
  apply Proof.Addr.cut_last_some in E. destruct E as [E N].
  assert (G : (if amem ":" a || amem "[" t || amem "]" t then None else Some (a, b)) = Some (h, p) -> sock_text t h).
  { destruct (amem ":" a) eqn:E1; [discriminate|]. destruct (amem "[" t) eqn:E2; [discriminate|]. destruct (amem "]" t) eqn:E3; [discriminate|].
    intros X. injection X as <- <-. rewrite E. apply amem_no' in E1, E2, E3. rewrite E in E2, E3. apply (SockPlain a b); intros c Hc [X|[X|[X|[]]]]; subst c.
    - contradiction. - apply E2, in_app_iff; left; exact Hc. - apply E3, in_app_iff; left; exact Hc.
    - contradiction. - apply E2, in_app_iff; right; right; exact Hc. - apply E3, in_app_iff; right; right; exact Hc. }
  destruct t as [|c rest]; [exact G|].
  destruct (ascii_dec c "[") as [->|Hc].
  - clear G. destruct (cut_on "]" rest) as [x [y|]] eqn:Ec; [|discriminate].
    destruct y as [|d q]; [discriminate|]. destruct (ascii_dec d ":") as [->|Hd].
    + destruct (beqb q b && negb (amem "[" rest) && negb (amem "]" (":"%char :: q))) eqn:Eb; [|discriminate].
      intros X. injection X as <- <-. pose proof (cut_on_spec "]" rest) as S. rewrite Ec in S. destruct S as [S N1].
      apply andb_true_iff in Eb. destruct Eb as [Eb N3]. apply andb_true_iff in Eb. destruct Eb as [Eb N2]. apply beqb_eq in Eb. subst q.
      apply negb_true_iff in N2, N3. apply amem_no' in N2, N3. rewrite S in N2.
      rewrite S. apply (SockBracket x b).
      * intros c Hc [X|[X|[]]]; subst c; [apply N2, in_app_iff; left; exact Hc|contradiction].
      * intros c Hc [X|[X|[X|[]]]]; subst c; [contradiction|apply N2, in_app_iff; right; right; right; exact Hc|apply N3; right; exact Hc].
    + intros X. exfalso. clear - X Hd. destruct d as [[] [] [] [] [] [] [] []]; try discriminate. apply Hd. reflexivity.
  - intros X. apply G. clear - X Hc. destruct c as [[] [] [] [] [] [] [] []]; try exact X. contradiction.
Qed.

(** ** Proxies *)
Lemma proxy_iff cfg set remote : load_proxies cfg = Some set ->
  is_proxy set remote = true <-> exists host a, sock_text remote host /\ denotes host a /\ trusted cfg a.
Proof.
  intros L. unfold is_proxy. split.
  - destruct (Identd.split_host_port remote) as [[host p]|] eqn:E; [|discriminate]. destruct (parse_ip host) as [a|] eqn:P; [|discriminate].
    intros C. exists host, a. apply Proof.IPAddr.parse_ip_iff in P. split; [eapply split_sock; exact E|]. split; [exact P|].
    eapply Proof.IPAddr.proxies_contain; [exact L|eapply Proof.IPAddr.denotes_address; exact P|exact C].
  - intros (host & a & S & D & T). destruct (sock_split _ _ S) as [p ->]. pose proof (proj2 (Proof.IPAddr.parse_ip_iff _ _) D) as P. rewrite P.
    eapply Proof.IPAddr.proxies_contain; [exact L|eapply Proof.IPAddr.denotes_address; exact D|exact T].
Qed.

Lemma untrusted starred cfg set remote h : load_proxies cfg = Some set ->
  (forall host a, sock_text remote host -> denotes host a -> ~ trusted cfg a) -> ws_remote starred set remote h = remote.
Proof.
  intros L N. unfold ws_remote. destruct (is_proxy set remote) eqn:P; [|reflexivity]. apply (proxy_iff cfg) in P; [|exact L].
  destruct P as (host & a & S & D & T). destruct (N host a S D T).
Qed.
Lemma untrusted_proto cfg set a t hdr : load_proxies cfg = Some set -> address a -> ~ trusted cfg a -> proto_remote set (PTcp a t) hdr = t.
Proof.
  intros L A N. unfold proto_remote. destruct (set_contains set a) eqn:C; [|reflexivity]. destruct N. eapply Proof.IPAddr.proxies_contain; eassumption.
Qed.
Lemma trusted_proto cfg set a t hdr : load_proxies cfg = Some set -> address a -> trusted cfg a -> proto_remote set (PTcp a t) (Some hdr) = hdr.
Proof.
  intros L A N. unfold proto_remote. assert (C : set_contains set a = true) by (eapply Proof.IPAddr.proxies_contain; eassumption). rewrite C. reflexivity.
Qed.

(** ** The header *)
Lemma token_iff c : In c token_chars <-> token_char c = true.
Proof.
  assert (A : forall c, Bool.eqb (amem c token_chars) (token_char c) = true) by (apply byte_forall; vm_compute; reflexivity).
  specialize (A c). apply eqb_prop in A. rewrite <- amem_In, A. reflexivity.
Qed.
Lemma consume_token_app t r : Forall (fun c => In c token_chars) t -> match r with [] => True | c :: _ => token_char c = false end ->
  consume_token (t ++ r) = (t, r).
Proof.
  intros T R. induction T as [|c t Hc Ht IH]; cbn [app consume_token].
  - destruct r as [|c r]; [reflexivity|]. cbn [consume_token]. rewrite R. reflexivity.
  - apply token_iff in Hc. rewrite Hc, IH. reflexivity.
Qed.
Lemma quoted_escape v r : ~ In "013"%char v -> ~ In "010"%char v -> quoted (flat_map escape v ++ """"%char :: r) = Some (v, r).
Proof.
  intros N1 N2. induction v as [|c v IH]; [reflexivity|]. cbn [flat_map]. unfold escape at 1. specialize (IH (fun X => N1 (or_intror X)) (fun X => N2 (or_intror X))).
  destruct (aeqb c """" || aeqb c "\") eqn:E.
  - cbn [app quoted]. change (aeqb "\" """") with false. change (aeqb "\" "\") with true. cbn iota.
    assert (T : tspecial c = true).
    { apply orb_true_iff in E. destruct E as [E|E]; apply aeqb_eq in E; subst c; reflexivity. }
    rewrite T. cbn [andb]. cbn iota. rewrite IH. reflexivity.
  - apply orb_false_iff in E. destruct E as [E1 E2]. cbn [app quoted]. rewrite E1, E2. cbn [andb].
    assert (C : aeqb c "013" || aeqb c "010" = false).
    { apply orb_false_iff. split; apply aeqb_neq; intros ->; [apply N1|apply N2]; left; reflexivity. }
    destruct (flat_map escape v ++ """"%char :: r) as [|d w] eqn:W; [destruct (flat_map escape v); discriminate W|].
    rewrite C, IH. reflexivity.
Qed.
Lemma token_ws c : token_char c = true -> Identd.is_ws c = false /\ c <> ";"%char /\ c <> "="%char /\ c <> """"%char.
Proof.
  assert (A : forall c, implb (token_char c) (negb (Identd.is_ws c || amem c (B ";=") || aeqb c """")) = true) by (apply byte_forall; vm_compute; reflexivity).
  specialize (A c). intros T. rewrite T in A. cbn [implb] in A. apply negb_true_iff, orb_false_iff in A. destruct A as [A A3].
  apply orb_false_iff in A. destruct A as [A1 A2]. split; [exact A1|]. apply amem_no' in A2. apply aeqb_neq in A3.
  repeat split; [| |exact A3]; intros ->; apply A2; [left|right; left]; reflexivity.
Qed.
Lemma value_consumed t v r : value_text t v -> match r with [] => True | c :: _ => token_char c = false end ->
  consume_value (t ++ r) = (v, r) /\ Identd.trim_left (t ++ r) = t ++ r /\ t <> [].
Proof.
  intros [w [Nw T]|w N1 N2] R.
  - destruct w as [|c w]; [congruence|]. inversion T as [|? ? Hc Hw]; subst. pose proof (proj1 (token_iff c) Hc) as Tc. destruct (token_ws c Tc) as (W & _ & _ & Q).
    split; [|split; [|discriminate]].
    + rewrite <- (consume_token_app (c :: w) r T R). cbn [app consume_value]. apply aeqb_neq in Q. rewrite Q. reflexivity.
    + cbn [app]. apply Proof.Identd.trim_left_stop. exact W.
  - unfold quote. cbn [app]. rewrite <- app_assoc. split; [|split; [|discriminate]].
    + cbn [consume_value]. change (aeqb """" """") with true. cbn iota. change ([""""%char] ++ r) with (""""%char :: r). rewrite quoted_escape by assumption. reflexivity.
    + apply Proof.Identd.trim_left_stop. reflexivity.
Qed.
Lemma param_consumed k t v r w : token k -> value_text t v -> match r with [] => True | c :: _ => token_char c = false end ->
  forallb Identd.is_ws w = true -> consume_param (B ";" ++ w ++ k ++ B "=" ++ t ++ r) = Some (to_lower k, v, r).
Proof.
  intros [Nk Tk] V R W. unfold consume_param. change (B ";" ++ w ++ k ++ B "=" ++ t ++ r) with (";"%char :: (w ++ k ++ B "=" ++ t ++ r)).
  rewrite Proof.Identd.trim_left_stop by reflexivity. change (negb (aeqb ";" ";")) with false. cbn iota.
  assert (E : Identd.trim_left (w ++ k ++ B "=" ++ t ++ r) = k ++ B "=" ++ t ++ r).
  { induction w as [|c w IH].
    - destruct k as [|c k]; [congruence|]. inversion Tk as [|? ? Hc _]; subst. apply token_iff in Hc. cbn [app]. apply Proof.Identd.trim_left_stop. apply (token_ws c Hc).
    - cbn [forallb] in W. apply andb_true_iff in W. destruct W as [Wc Ww]. cbn [app Identd.trim_left]. rewrite Wc. apply IH. exact Ww. }
  rewrite E. rewrite (consume_token_app k (B "=" ++ t ++ r)) by (exact Tk || reflexivity).
  assert (Ek : beqb k [] = false) by (apply beqb_neq; exact Nk). rewrite Ek.
  change (B "=" ++ t ++ r) with ("="%char :: (t ++ r)). rewrite Proof.Identd.trim_left_stop by reflexivity.
  change (negb (aeqb "=" "=")) with false. cbn iota. cbv zeta. destruct (value_consumed t v r V R) as (C & T & Nt). rewrite T, C.
  destruct (beqb v [] && beqb r (t ++ r)) eqn:B2; [|reflexivity]. apply andb_true_iff in B2. destruct B2 as [_ B2]. apply beqb_eq in B2.
  exfalso. assert (L : length r = length (t ++ r)) by congruence. rewrite app_length in L. destruct t; [congruence|cbn [length] in L; lia].
Qed.

Lemma assoc_in k l v : assoc k l = Some v -> In (k, v) l.
Proof.
  induction l as [|[a x] l IH]; [discriminate|]. cbn [assoc]. destruct (beqb_spec a k) as [->|].
  - intros E. injection E as ->. left. reflexivity.
  - intros E. right. apply IH. exact E.
Qed.
Lemma assoc_none k l : assoc k l = None <-> ~ In k (map fst l).
Proof.
  induction l as [|[a x] l IH]; cbn [assoc map fst]; [split; [intros _ []|reflexivity]|]. destruct (beqb_spec a k) as [->|N].
  - split; [discriminate|intros H; destruct H; left; reflexivity].
  - rewrite IH. split; [intros H [X|X]; [contradiction|exact (H X)]|intros H X; apply H; right; exact X].
Qed.
Lemma assoc_nodup k l v : NoDup (map fst l) -> In (k, v) l -> assoc k l = Some v.
Proof.
  induction l as [|[a x] l IH]; intros N I; [destruct I|]. cbn [map fst] in N. inversion N as [|? ? Na Nl]; subst. cbn [assoc]. destruct I as [E|I].
  - injection E as -> ->. rewrite beqb_refl. reflexivity.
  - destruct (beqb_spec a k) as [->|]; [|apply IH; assumption]. exfalso. apply Na. apply in_map_iff. exists (k, v). auto.
Qed.

Definition lower_names (l : list (bytes * bytes)) : list (bytes * bytes) := map (fun p => (to_lower (fst p), snd p)) l.
Lemma media_forwarded s l : forwarded_text s l -> forall fuel acc w, (length (B ";" ++ w ++ s) < fuel)%nat -> forallb Identd.is_ws w = true ->
  NoDup (map fst acc ++ map fst (lower_names l)) ->
  media_params fuel (B ";" ++ w ++ s) acc = Some (acc ++ lower_names l).
Proof.
  induction 1 as [k t v Tk V|k t v s l Tk V F IH]; intros fuel acc w L W N; (destruct fuel as [|fuel]; [cbn in L; lia|]); cbn [media_params];
    change (B ";") with [";"%char]; cbn [app]; rewrite Proof.Identd.trim_left_stop by reflexivity; cbv iota.
  - pose proof (param_consumed k t v [] w Tk V I W) as C. rewrite app_nil_r in C. change (B ";" ++ w ++ k ++ B "=" ++ t) with (";"%char :: w ++ k ++ B "=" ++ t) in C.
    rewrite C. rewrite (proj2 (assoc_none (to_lower k) acc)).
    + destruct fuel; reflexivity.
    + intros X. cbn [lower_names map fst] in N. apply NoDup_remove_2 in N. apply N. apply in_app_iff. left. exact X.
  - pose proof (param_consumed k t v (B ";" ++ s) w Tk V eq_refl W) as C.
    change (B ";") with [";"%char] in C; cbn [app] in C.
    rewrite C. rewrite (proj2 (assoc_none (to_lower k) acc)).
    + specialize (IH fuel (acc ++ [(to_lower k, v)]) []). change (B ";") with [";"%char] in IH; cbn [app] in IH. rewrite IH; [rewrite <- app_assoc; reflexivity| |reflexivity|].
      * change (B ";") with [";"%char] in L. cbn [app length] in L. rewrite !app_length in L. cbn [length] in L |- *. lia.
      * rewrite map_app, <- app_assoc. exact N.
    + intros X. cbn [lower_names map fst] in N. apply NoDup_remove_2 in N. apply N. apply in_app_iff. left. exact X.
Qed.

Lemma names_lower l : map fst (lower_names l) = map (fun p => to_lower (fst p)) l.
Proof. unfold lower_names. rewrite map_map. reflexivity. Qed.
Lemma forwarded starred h s l v : (forall k, starred k [] = None) ->
  get h (B "Forwarded") = s -> forwarded_text s l -> once l -> (forall k x, In (k, x) l -> ~ In "*"%char k) ->
  named (B "for") l v -> forwarded_for starred h = v.
Proof.
  intros St G F O N (k & Ik & Ek). unfold forwarded_for. rewrite G.
  assert (M : media_param starred (B "for") (B "; " ++ s) = v).
  { unfold media_param. change (B "; " ++ s) with (B ";" ++ B " " ++ s). rewrite (media_forwarded s l F); [|cbn [length]; lia|reflexivity|rewrite names_lower; exact O].
    cbn [app]. assert (E : filter (fun p => amem "*" (fst p)) (lower_names l) = []).
    { assert (Q : forall q, In q (lower_names l) -> amem "*" (fst q) = false).
      { intros q Hq. apply in_map_iff in Hq. destruct Hq as ((a, x) & <- & Ha). cbn [fst]. apply amem_no. intros X. apply (N a x Ha).
        unfold to_lower in X. apply in_map_iff in X. destruct X as (c & Ec & Hc).
        assert (A : forall c, implb (aeqb (lower_byte c) "*") (aeqb c "*") = true) by (apply byte_forall; vm_compute; reflexivity).
        specialize (A c). rewrite Ec in A. cbn [implb] in A. change (aeqb "*" "*") with true in A. apply aeqb_eq in A. subst c. exact Hc. }
      clear - Q. induction (lower_names l) as [|q r IH]; [reflexivity|]. cbn [filter]. rewrite (Q q (or_introl eq_refl)). apply IH. intros x Hx. apply Q. right. exact Hx. }
    rewrite E, St. rewrite (assoc_nodup (B "for") (lower_names l) v); [reflexivity|rewrite names_lower; exact O|].
    apply in_map_iff. exists (k, v). split; [cbn [fst snd]; rewrite Ek; reflexivity|exact Ik]. }
  destruct s as [|c s]; [exfalso|exact M]. inversion F as [k0 t v0 [Hk _] _ E|k0 t v0 s0 l0 [Hk _] _ _ E]; destruct k0; congruence || discriminate E.
Qed.
Lemma trusted_forwarded starred cfg set remote host a h f : load_proxies cfg = Some set ->
  sock_text remote host -> denotes host a -> trusted cfg a -> forwarded_for starred h = f -> f <> [] -> ws_remote starred set remote h = f.
Proof.
  intros L S D T E N. unfold ws_remote. assert (P : is_proxy set remote = true) by (apply (proxy_iff cfg); [exact L|exists host, a; auto]).
  rewrite P, E. destruct f; [congruence|reflexivity].
Qed.
Lemma xforwarded starred h f : assoc (B "Forwarded") h = None -> assoc (B "X-Forwarded-For") h = Some f -> forwarded_for starred h = f.
Proof. intros A E. unfold forwarded_for, get. rewrite A, E. reflexivity. Qed.

(** ** The host of the client *)
Lemma host_port t h : sock_text t h -> client_host t = h.
Proof. intros S. unfold client_host. destruct (sock_split t h S) as [p ->]. reflexivity. Qed.

Notation colons s := (count_occ ascii_dec s ":"%char).
Lemma colons_none s : ~ In ":"%char s -> colons s = 0%nat.
Proof. apply count_occ_not_In. Qed.
Lemma hexs_colons d : forallb Networks.is_hex d = true -> colons d = 0%nat.
Proof.
  intros H. apply colons_none. intros X. rewrite forallb_forall in H. specialize (H _ X). discriminate H.
Qed.
Lemma group_colons d n : group d n -> colons d = 0%nat.
Proof. intros G. apply Proof.IPAddr.group_iff in G. apply hexs_colons. apply G. Qed.
Lemma groups_colons s l : groups s l -> length l = (2 * S (colons s))%nat.
Proof.
  induction 1 as [d n G|d n s l G Gs IH].
  - rewrite (group_colons d n G). reflexivity.
  - rewrite !count_occ_app, (group_colons d n G). cbn [length]. rewrite IH. change (colons (B ":")) with 1%nat. lia.
Qed.
Lemma dec_colons n : colons (dec n) = 0%nat.
Proof.
  apply colons_none, dec_notin. reflexivity.
Qed.
Lemma text4_colons s a : text4 s a -> colons s = 0%nat.
Proof. intros [a0 b c d _ _ _ _]. rewrite !count_occ_app, !dec_colons. reflexivity. Qed.
Lemma tail_colons s l : tail6 s l -> length l = 16%nat -> (2 <= colons s)%nat.
Proof.
  intros [s0 l0 G|s0 l0 F|s0 l0 s4 l4 G F] L.
  - pose proof (groups_colons _ _ G). lia.
  - pose proof (Proof.IPAddr.text4_len _ _ F). lia.
  - pose proof (groups_colons _ _ G). pose proof (Proof.IPAddr.text4_len _ _ F). rewrite app_length in L. rewrite !count_occ_app. change (colons (B ":")) with 1%nat. lia.
Qed.
Lemma text6_colons s a : text6 s a -> (2 <= colons s)%nat.
Proof.
  intros [s0 l T L|s0 l z s' l' G T L|z s' l' T L|s0 l z G L|].
  - exact (tail_colons s0 l T L).
  - rewrite !count_occ_app. change (colons (B "::")) with 2%nat. lia.
  - rewrite !count_occ_app. change (colons (B "::")) with 2%nat. lia.
  - rewrite !count_occ_app. change (colons (B "::")) with 2%nat. lia.
  - vm_compute. lia.
Qed.
Lemma flat_colons s : flat s -> colons s = 0%nat.
Proof. intros F. apply colons_none. apply (flat_not _ _ F). left. reflexivity. Qed.
Lemma denotes_whole s a : denotes s a -> forall h, ~ sock_text s h.
Proof.
  intros D h S.
  assert (P : forallb Proof.IPAddr.plain s = true).
  { destruct D as [s a T|s a T]; [exact (Proof.IPAddr.text4_plain s a T)|exact (Proof.IPAddr.text6_plain s a T)]. }
  destruct S as [host port Fh Fp|host port Fh Fp].
  - assert (C : colons (host ++ B ":" ++ port) = 1%nat) by (rewrite !count_occ_app, (flat_colons host Fh), (flat_colons port Fp); reflexivity).
    remember (host ++ B ":" ++ port) as t. destruct D as [t a T|t a T].
    + rewrite (text4_colons t a T) in C. discriminate C.
    + pose proof (text6_colons t a T). lia.
  - apply (Proof.IPAddr.plain_notin _ "["%char) in P; [|reflexivity]. apply P. left. reflexivity.
Qed.
Lemma host_alone s a : denotes s a -> client_host s = s.
Proof.
  intros D. unfold client_host. destruct (Identd.split_host_port s) as [[h p]|] eqn:E; [|reflexivity].
  destruct (denotes_whole s a D h (split_sock s h p E)).
Qed.

(** ** Listeners *)
Lemma lit_neq (c : ascii) (s t : bytes) : c :: s = t -> match t with d :: _ => aeqb c d = true | [] => False end.
Proof. intros <-. apply aeqb_eq. reflexivity. Qed.

Definition uri_of (listen : bytes) : bytes := if contains (B ":/") listen then listen else B "//" ++ listen.
Lemma uri_says listen u : parse_url (uri_of listen) = Some u -> u_scheme u <> [] -> hd_error (u_scheme u) <> Some "/"%char -> says listen (u_scheme u).
Proof.
  intros P Ne Hd. destruct (Proof.Addr.scheme_parse _ _ P Ne) as (s & S & E). unfold uri_of in S. destruct (contains (B ":/") listen).
  - exists s. auto.
  - exfalso. destruct S as (r & S & _). destruct s as [|c s]; [discriminate S|]. injection S as <- _. apply Hd. rewrite <- E. reflexivity.
Qed.

Lemma digits_flat p : forallb is_digit p = true -> flat p.
Proof.
  intros D c Hc X. rewrite forallb_forall in D. specialize (D c Hc). destruct X as [<-|[<-|[<-|[]]]]; discriminate D.
Qed.
Lemma hostname_local h : url_hostname h = local_host ->
  h = local_host \/ h = B "[localhost]" \/ exists p, flat p /\ (h = local_host ++ B ":" ++ p \/ h = B "[localhost]" ++ B ":" ++ p).
Proof.
  unfold url_hostname. set (b := match Identd.cut_last ":" h with Some (x, p) => if forallb is_digit p then x else h | None => h end).
  assert (Hb : h = b \/ exists p, flat p /\ h = b ++ B ":" ++ p).
  { subst b. destruct (Identd.cut_last ":" h) as [[x p]|] eqn:E; [|auto]. destruct (forallb is_digit p) eqn:D; [|auto]. right.
    apply Proof.Addr.cut_last_some in E. destruct E as [E N]. exists p. split; [apply digits_flat, D|exact E]. }
  intros H. assert (G : b = local_host \/ b = B "[localhost]").
  { clear Hb. destruct b as [|c r]; [left; exact H|]. destruct (aeqb_spec c "[") as [->|]; [|left; exact H].
    destruct (Identd.cut_last "]" r) as [[x [|y p]]|] eqn:E; try (left; exact H). right. subst x.
    apply Proof.Addr.cut_last_some in E. destruct E as [-> _]. reflexivity. }
  clearbody b. destruct Hb as [->|(p & N & ->)]; destruct G as [-> | ->]; auto; right; right; exists p; auto.
Qed.
Lemma flat_colon p : flat p -> ~ In ":"%char p.
Proof. intros F. apply (flat_not _ _ F). left. reflexivity. Qed.
Lemma local_flat : flat local_host.
Proof. intros c Hc X. revert Hc. destruct X as [<-|[<-|[<-|[]]]]; vm_compute; intuition discriminate. Qed.
Lemma sock_local h : sock_text h local_host -> local_addr h.
Proof.
  intros S. remember local_host as x. destruct S as [host port _ Fp|host port _ Fp]; subst host; exists port; (split; [apply flat_colon, Fp|]); [left|right]; reflexivity.
Qed.
Lemma with_port_local h d : url_hostname h = local_host -> flat d -> local_addr (with_port h d).
Proof.
  intros H N. destruct (hostname_local h H) as [-> |[-> |(p & Np & Hp)]].
  - exists d. split; [apply flat_colon, N|]. left. reflexivity.
  - exists d. split; [apply flat_colon, N|]. right. reflexivity.
  - assert (S : sock_text h local_host).
    { destruct Hp as [-> | ->]; [apply SockPlain; [exact local_flat|exact Np]|]. apply (SockBracket local_host p); [|exact Np].
      intros c Hc X. apply (local_flat c Hc). right. exact X. }
    unfold with_port. destruct (sock_split h _ S) as [q ->]. apply sock_local, S.
Qed.
Lemma port_flat : flat (B "6667") /\ flat (B "http").
Proof. split; intros c Hc X; revert Hc; destruct X as [<-|[<-|[<-|[]]]]; vm_compute; intuition discriminate. Qed.

(** One case for each scheme. *)
Inductive opened (tls : bool) (u : url) : listener -> Prop :=
| OIrcs : u_scheme u = B "ircs" \/ u_scheme u = [] -> tls = true -> opened tls u (Listener (STls (with_port (u_host u) (B "6697"))) HIrc true)
| OIrc : u_scheme u = B "irc" -> url_hostname (u_host u) = local_host -> opened tls u (Listener (SPlain (with_port (u_host u) (B "6667"))) HIrc true)
| OIrcI : u_scheme u = B "irc+insecure" -> opened tls u (Listener (SPlain (with_port (u_host u) (B "6667"))) HIrc true)
| OUnix : u_scheme u = B "unix" -> opened tls u (Listener (SUnix (u_host u ++ u_path u) (u_path u) mode775 false) HIrc true)
| OAdmin p : u_scheme u = B "unix+admin" -> p = match u_host u ++ u_path u with [] => admin_path | p => p end ->
    opened tls u (Listener (SUnix p p mode600 true) HAdmin true)
| OWss : u_scheme u = B "wss" -> tls = true -> opened tls u (Listener (STls (with_port (u_host u) (B "https"))) HWs false)
| OWs : u_scheme u = B "ws" -> url_hostname (u_host u) = local_host -> opened tls u (Listener (SPlain (with_port (u_host u) (B "http"))) HWs false)
| OWsI : u_scheme u = B "ws+insecure" -> opened tls u (Listener (SPlain (with_port (u_host u) (B "http"))) HWs false)
| OWsU : u_scheme u = B "ws+unix" -> opened tls u (Listener (SUnix (u_path u) (u_path u) mode775 false) HWs false)
| OIdent : u_scheme u = B "ident" -> opened tls u (Listener (SPlain (with_port (u_host u) (B "113"))) HIdent true)
| OProm hd : u_scheme u = B "http+prometheus" /\ hd = HMetrics \/ u_scheme u = B "http+pprof" /\ hd = HPprof -> sock_text (u_host u) local_host ->
    opened tls u (Listener (SPlain (u_host u)) hd false)
| OHttps : u_scheme u = B "https" -> tls = true -> opened tls u (Listener (STls (with_port (u_host u) (B "https"))) HHttp false)
| OHttp : u_scheme u = B "http" -> url_hostname (u_host u) = local_host -> opened tls u (Listener (SPlain (with_port (u_host u) (B "http"))) HHttp false)
| OHttpI : u_scheme u = B "http+insecure" -> opened tls u (Listener (SPlain (with_port (u_host u) (B "http"))) HHttp false)
| OHttpU : u_scheme u = B "http+unix" -> opened tls u (Listener (SUnix (u_path u) (u_path u) mode775 false) HHttp false).

Lemma listen_opened tls listen l : listen_on tls listen = Some l -> exists u, parse_url (uri_of listen) = Some u /\ opened tls u l.
Proof.
  unfold listen_on. fold (uri_of listen). destruct (parse_url (uri_of listen)) as [u|]; [|discriminate]. intros H. exists u. split; [reflexivity|]. unfold listen_url in H.
  cbv zeta in H.
  destruct (beqb_spec (u_scheme u) (B "ircs")) as [E1|N1]; [|destruct (beqb_spec (u_scheme u) (B "")) as [E1|N1']]; cbn [orb] in H.
  1,2: destruct tls; [|discriminate]; injection H as <-; apply OIrcs; auto.
  destruct (beqb_spec (u_scheme u) (B "irc")) as [E|N2]; cbn [andb orb] in H.
  { destruct (beqb_spec (url_hostname (u_host u)) local_host) as [L|]; [|discriminate]. cbn [negb] in H. injection H as <-. apply OIrc; assumption. }
  destruct (beqb_spec (u_scheme u) (B "irc+insecure")) as [E|N3]; [injection H as <-; apply OIrcI; assumption|].
  destruct (beqb_spec (u_scheme u) (B "unix")) as [E|N4]; [injection H as <-; apply OUnix; assumption|].
  destruct (beqb_spec (u_scheme u) (B "unix+admin")) as [E|N5]; [injection H as <-; apply OAdmin; [assumption|reflexivity]|].
  destruct (beqb_spec (u_scheme u) (B "wss")) as [E|N6]; [destruct tls; [|discriminate]; injection H as <-; apply OWss; auto|].
  destruct (beqb_spec (u_scheme u) (B "ws")) as [E|N7]; cbn [andb orb] in H.
  { destruct (beqb_spec (url_hostname (u_host u)) local_host) as [L|]; [|discriminate]. cbn [negb] in H. injection H as <-. apply OWs; assumption. }
  destruct (beqb_spec (u_scheme u) (B "ws+insecure")) as [E|N8]; [injection H as <-; apply OWsI; assumption|].
  destruct (beqb_spec (u_scheme u) (B "ws+unix")) as [E|N9]; [injection H as <-; apply OWsU; assumption|].
  destruct (beqb_spec (u_scheme u) (B "ident")) as [E|N10]; [injection H as <-; apply OIdent; assumption|].
  destruct (beqb_spec (u_scheme u) (B "http+prometheus")) as [E|N11]; [|destruct (beqb_spec (u_scheme u) (B "http+pprof")) as [E|N12]]; cbn [orb] in H.
  1,2: destruct (Identd.split_host_port (u_host u)) as [[h p]|] eqn:S; [|discriminate]; destruct (beqb_spec h local_host) as [->|]; [|discriminate];
    injection H as <-; apply split_sock in S; apply OProm; auto.
  destruct (beqb_spec (u_scheme u) (B "https")) as [E|N13]; [destruct tls; [|discriminate]; injection H as <-; apply OHttps; auto|].
  destruct (beqb_spec (u_scheme u) (B "http")) as [E|N14]; cbn [andb orb] in H.
  { destruct (beqb_spec (url_hostname (u_host u)) local_host) as [L|]; [|discriminate]. cbn [negb] in H. injection H as <-. apply OHttp; assumption. }
  destruct (beqb_spec (u_scheme u) (B "http+insecure")) as [E|N15]; [injection H as <-; apply OHttpI; assumption|].
  destruct (beqb_spec (u_scheme u) (B "http+unix")) as [E|N16]; [injection H as <-; apply OHttpU; assumption|discriminate].
Qed.
Lemma says_lit listen u sch : parse_url (uri_of listen) = Some u -> u_scheme u = sch -> sch <> [] -> hd_error sch <> Some "/"%char -> says listen sch.
Proof. intros P <- A N. apply uri_says; assumption. Qed.

Lemma plain_tcp tls listen l addr : listen_on tls listen = Some l -> l_sock l = SPlain addr ->
  local_addr addr \/ says listen (B "irc+insecure") \/ says listen (B "ws+insecure") \/ says listen (B "http+insecure") \/
  (says listen (B "ident") /\ l_handler l = HIdent).
Proof.
  intros H E. destruct (listen_opened tls listen l H) as (u & P & O).
  destruct O; cbn [l_sock] in E; try discriminate E; injection E as <-.
  - left. apply with_port_local; [assumption|apply port_flat].
  - right; left. apply (says_lit listen u); [assumption|assumption|discriminate|discriminate].
  - left. apply with_port_local; [assumption|apply port_flat].
  - right; right; left. apply (says_lit listen u); [assumption|assumption|discriminate|discriminate].
  - right; right; right; right. split; [|reflexivity]. apply (says_lit listen u); [assumption|assumption|discriminate|discriminate].
  - left. apply sock_local. assumption.
  - left. apply with_port_local; [assumption|apply port_flat].
  - right; right; right; left. apply (says_lit listen u); [assumption|assumption|discriminate|discriminate].
Qed.
Lemma admin_only tls listen l : listen_on tls listen = Some l -> l_handler l = HAdmin ->
  says listen (B "unix+admin") /\ exists p, l_sock l = SUnix p p 384 true.
Proof.
  intros H E. destruct (listen_opened tls listen l H) as (u & P & O).
  destruct O as [| | | |p E1 E2| | | | | |hd Hh| | | |]; try discriminate E.
  - split; [apply (says_lit listen u); [assumption|assumption|discriminate|discriminate]|]. exists p. reflexivity.
  - cbn [l_handler] in E. subst hd. destruct Hh as [[_ X]|[_ X]]; discriminate X.
Qed.
Lemma debug_only tls listen l : listen_on tls listen = Some l -> l_handler l = HMetrics \/ l_handler l = HPprof ->
  exists addr, l_sock l = SPlain addr /\ local_addr addr.
Proof.
  intros H E. destruct (listen_opened tls listen l H) as (u & P & O).
  destruct O as [| | | | | | | | | |hd Hh S| | | |]; try (destruct E; discriminate).
  exists (u_host u). split; [reflexivity|]. apply sock_local. assumption.
Qed.
Lemma tls_known tls listen l addr : listen_on tls listen = Some l -> l_sock l = STls addr -> tls = true.
Proof.
  intros H E. destruct (listen_opened tls listen l H) as (u & P & O). destruct O; cbn [l_sock] in E; try discriminate E; assumption.
Qed.

(** The scheme of a text that says it. *)
Lemma contains_nil s : contains [] s = true.
Proof. destruct s; reflexivity. Qed.
Lemma lower_letter c : is_letter (lower_byte c) = is_letter c.
Proof.
  assert (A : forall c, Bool.eqb (is_letter (lower_byte c)) (is_letter c) = true) by (apply byte_forall; vm_compute; reflexivity).
  apply eqb_prop, A.
Qed.
Lemma letters_lower s : forallb is_letter (to_lower s) = forallb is_letter s.
Proof. induction s as [|c s IH]; [reflexivity|]. cbn [to_lower map forallb]. fold (to_lower s). rewrite lower_letter, IH. reflexivity. Qed.
Lemma nofrag_scheme raw x sch rest : parse_nofrag raw = Some x -> get_scheme raw = Some (sch, rest) -> sch <> [] -> u_scheme x = to_lower sch.
Proof.
  unfold parse_nofrag. destruct (existsb is_ctl raw); [discriminate|].
  destruct (beqb_spec raw (B "*")) as [->|]; [intros _ E; injection E as <- _; congruence|].
  intros G E. rewrite E in G. intros _.
  destruct (cut_on "?" rest) as [rest' q].
  destruct (negb (has_prefix rest' (B "/")) && negb (beqb (to_lower sch) [])); [injection G as <-; reflexivity|].
  destruct (negb (has_prefix rest' (B "/")) && amem ":" (fst (cut_on "/" rest'))); [discriminate|].
  match type of G with (if ?c then _ else _) = _ => destruct c end.
  - destruct (cut_on "/" (skipn 2 rest')) as [au path]. destruct (parse_authority au) as [[us h]|]; [|discriminate].
    destruct (un_path _); [|discriminate]. injection G as <-. reflexivity.
  - destruct (un_path rest'); [|discriminate]. injection G as <-. reflexivity.
Qed.
Lemma letters_nin s c : forallb is_letter s = true -> is_letter c = false -> ~ In c s.
Proof. intros F E X. rewrite forallb_forall in F. specialize (F c X). congruence. Qed.
Lemma scheme_is raw u sch : parse_url raw = Some u -> says raw sch -> sch <> [] -> forallb is_letter sch = true -> u_scheme u = sch.
Proof.
  intros P (s & (rest & -> & N) & <-) Ne F. rewrite letters_lower in F. unfold parse_url in P. change (B ":" ++ rest) with (":"%char :: rest) in P.
  pose proof (cut_on_spec "#" (s ++ ":"%char :: rest)) as C. destruct (cut_on "#" (s ++ ":"%char :: rest)) as [a frag].
  assert (X : exists r, a = s ++ ":"%char :: r).
  { destruct frag as [f|]; destruct C as [C Nh]; [|exists rest; symmetry; exact C].
    assert (Nf : ~ In "#"%char s) by (apply letters_nin; [exact F|reflexivity]).
    clear - C Nf. revert a C. induction s as [|c s IH]; intros a C.
    - destruct a as [|d a]; [discriminate C|]. injection C as <- _. exists a. reflexivity.
    - destruct a as [|d a]; [cbn [app] in C; injection C as -> _; destruct Nf; left; reflexivity|]. injection C as <- C.
      destruct (IH (fun X => Nf (or_intror X)) a C) as [r ->]. exists r. reflexivity. }
  destruct X as [r ->]. destruct (parse_nofrag (s ++ ":"%char :: r)) as [x|] eqn:E; [|discriminate].
  assert (Ex : u_scheme u = u_scheme x).
  { destruct (of_null frag) as [|c f]; [injection P as <-; reflexivity|]. destruct (un_path (c :: f)); [|discriminate]. injection P as <-. reflexivity. }
  rewrite Ex. apply (nofrag_scheme _ _ s r E).
  - unfold get_scheme. rewrite cut_on_app by exact N. destruct s as [|c s]; [cbn in Ne; congruence|]. cbn [forallb] in F. apply andb_true_iff in F. destruct F as [F1 F2].
    rewrite F1. cbn [andb]. assert (G : forallb (fun c0 => alnum c0 || amem c0 (B "+-.")) s = true).
    { apply forallb_forall. intros d Hd. rewrite forallb_forall in F2. unfold alnum. rewrite (F2 d Hd). reflexivity. }
    rewrite G. reflexivity.
  - destruct s; [cbn in Ne; congruence|discriminate].
Qed.
Lemma tls_said tls listen l : listen_on tls listen = Some l -> says listen (B "ircs") \/ says listen (B "wss") \/ says listen (B "https") ->
  tls = true /\ exists addr, l_sock l = STls addr.
Proof.
  intros H S. destruct (listen_opened tls listen l H) as (u & P & O).
  assert (E : u_scheme u = B "ircs" \/ u_scheme u = B "wss" \/ u_scheme u = B "https" \/ u_scheme u = []).
  { unfold uri_of in P. destruct (contains (B ":/") listen).
    - destruct S as [S|[S|S]]; [left|right; left|right; right; left]; apply (scheme_is listen u _ P S); discriminate || reflexivity.
    - right; right; right. destruct (u_scheme u) as [|c r] eqn:Eu; [reflexivity|exfalso].
      destruct (Proof.Addr.scheme_parse _ _ P) as (s & (q & Eq & _) & El); [congruence|]. rewrite Eu in El.
      destruct s as [|d s]; [discriminate Eq|]. injection Eq as <- Eq. cbn [to_lower map] in El. injection El as <- _.
      destruct O; repeat match goal with X : _ \/ _ |- _ => destruct X | X : _ /\ _ |- _ => destruct X end;
        match goal with X : u_scheme u = _ |- _ => rewrite X in Eu; discriminate Eu end. }
  destruct O as [Hs T|Hs|Hs|Hs|? Hs|Hs T|Hs|Hs|Hs|Hs|? Hs|Hs T|Hs|Hs|Hs];
    try (split; [assumption|eexists; reflexivity]); exfalso;
    try (rewrite Hs in E; destruct E as [E|[E|[E|E]]]; discriminate E).
  destruct Hs as [[Hs _]|[Hs _]]; rewrite Hs in E; destruct E as [E|[E|[E|E]]]; discriminate E.
Qed.

Lemma open_all_iff tls l ls : open_all tls l = Some ls <-> Forall2 (fun s x => listen_on tls s = Some x) l ls.
Proof.
  revert ls. induction l as [|s l IH]; intros ls; cbn [open_all].
  - split; [intros E; injection E as <-; constructor|intros F; inversion F; reflexivity].
  - destruct (listen_on tls s) as [x|] eqn:E; [|split; [discriminate|intros F; inversion F; congruence]].
    destruct (open_all tls l) as [ys|]; split.
    + intros X. injection X as <-. constructor; [exact E|]. apply IH. reflexivity.
    + intros F. inversion F as [|? y ? ys' Ey Fy]; subst. apply IH in Fy. congruence.
    + discriminate.
    + intros F. inversion F as [|? y ? ys' Ey Fy]; subst. apply IH in Fy. discriminate.
Qed.

(** ** Documented texts *)
Definition lows (s : bytes) : bool := forallb (fun c => amem c (B "abcdefghijklmnopqrstuvwxyz+")) s.
Definition sch_ok (s : bytes) : bool := match s with [] => false | c :: r => amem c (B "abcdefghijklmnopqrstuvwxyz") && lows r end.
(** A path of an URI, if there is one. *)
Definition path_ok (p : bytes) : Prop := p = [] \/ Spec.Addr.socket_path p.

Lemma path_chars p c : path_ok p -> In c p -> Proof.Addr.simple c = true \/ c = "/"%char.
Proof.
  intros [-> |(q & -> & Hq)] Hc; [destruct Hc|]. destruct Hc as [<-|Hc]; [auto|]. specialize (Hq c Hc).
  change (B "abcdefghijklmnopqrstuvwxyzABCDEFGHIJKLMNOPQRSTUVWXYZ0123456789-._/") with
    (B "abcdefghijklmnopqrstuvwxyzABCDEFGHIJKLMNOPQRSTUVWXYZ0123456789-._" ++ B "/") in Hq.
  apply in_app_iff in Hq. destruct Hq as [Hq|[Hq|[]]]; [|auto]. left. apply Proof.Addr.name_simple, Hq.
Qed.
Lemma path_nin p x : path_ok p -> (x = "?"%char \/ x = "#"%char \/ x = "%"%char) -> ~ In x p.
Proof.
  intros P Hx Hc. destruct (path_chars p x P Hc) as [X|X].
  - destruct (Proof.Addr.simple_facts x X) as (_ & A1 & _ & A3 & A4 & _). intuition.
  - subst. intuition discriminate.
Qed.
Lemma path_ctl p : path_ok p -> existsb is_ctl p = false.
Proof.
  intros P. destruct (existsb is_ctl p) eqn:E; [|reflexivity]. apply existsb_exists in E. destruct E as (c & Hc & E).
  destruct (path_chars p c P Hc) as [X| ->]; [|discriminate]. destruct (Proof.Addr.simple_facts c X) as (_ & _ & _ & _ & _ & _ & Y). congruence.
Qed.
Lemma path_un p : path_ok p -> un_path p = Some p.
Proof. intros P. apply Proof.Addr.unescape_plain. intros c Hc. split; [reflexivity|]. intros ->. apply (path_nin p "%") in Hc; auto. Qed.
Lemma path_cut a p : Proof.Addr.simples a -> path_ok p ->
  match cut_on "/" (a ++ p) with (x, None) => (x, @nil ascii) | (x, Some r) => (x, B "/" ++ r) end = (a, p).
Proof.
  intros Sa [-> |(q & -> & _)].
  - rewrite app_nil_r, cut_on_nosep; [reflexivity|]. apply Proof.Addr.simples_nin; auto.
  - change (B "/" ++ q) with ("/"%char :: q). rewrite cut_on_app; [reflexivity|]. apply Proof.Addr.simples_nin; auto.
Qed.
Lemma parse_after raw sch a p : get_scheme raw = Some (sch, B "//" ++ a ++ p) -> existsb is_ctl raw = false -> raw <> B "*" -> ~ In "#"%char raw ->
  to_lower sch = sch -> Proof.Addr.simples a -> path_ok p -> (sch <> [] \/ p = []) ->
  parse_url raw = option_map (fun h => Url sch false [] [] h p) (parse_host a).
Proof.
  intros G C Ns Nh L Sa P Q. unfold parse_url. rewrite cut_on_nosep by exact Nh. unfold parse_nofrag. rewrite C.
  rewrite (proj2 (beqb_neq raw (B "*")) Ns), G. cbv iota beta. rewrite L. rewrite cut_on_nosep.
  2:{ intros [Hc|[Hc|Hc]]; try discriminate Hc. apply (in_app_or a p) in Hc. destruct Hc as [Hc|Hc].
      - apply (Proof.Addr.simples_nin a "?" Sa) in Hc; auto.
      - apply (path_nin p "?" P) in Hc; auto. }
  cbv iota beta. cbn [of_null].
  assert (E5 : has_prefix (B "//" ++ a ++ p) (B "/") = true) by reflexivity.
  assert (E6 : has_prefix (B "//" ++ a ++ p) (B "//") = true) by reflexivity. rewrite E5, E6. cbn [negb andb].
  assert (E7 : negb (beqb sch []) || negb (has_prefix (B "//" ++ a ++ p) (B "///")) = true).
  { destruct Q as [Q| ->]; [rewrite (proj2 (beqb_neq sch []) Q); reflexivity|]. apply orb_true_iff. right. apply negb_true_iff.
    destruct (has_prefix (B "//" ++ a ++ []) (B "///")) eqn:E; [|reflexivity]. exfalso. apply has_prefix_iff in E. destruct E as [r E]. injection E as E.
    rewrite app_nil_r in E. apply (Proof.Addr.simples_nin a "/" Sa); [auto|]. rewrite E. left. reflexivity. }
  rewrite E7. cbn [andb]. change (skipn 2 (B "//" ++ a ++ p)) with (a ++ p). pose proof (path_cut a p Sa P) as K.
  destruct (cut_on "/" (a ++ p)) as [x y]. assert (K1 : x = a /\ match y with None => [] | Some z => B "/" ++ z end = p) by (destruct y; injection K as <- <-; auto).
  destruct K1 as [-> K1]. rewrite K1, (path_un p P). unfold parse_authority. rewrite Proof.Addr.cut_last_none by (apply Proof.Addr.simples_nin; auto).
  destruct (parse_host a); reflexivity.
Qed.
Lemma lows_facts s : lows s = true -> to_lower s = s /\ existsb is_ctl s = false /\ ~ In ":"%char s /\ ~ In "#"%char s /\
  forallb (fun c => alnum c || amem c (B "+-.")) s = true.
Proof.
  intros H. unfold lows in H. rewrite forallb_forall in H.
  assert (A : forall c, implb (amem c (B "abcdefghijklmnopqrstuvwxyz+")) (aeqb (lower_byte c) c && negb (is_ctl c) && (alnum c || amem c (B "+-."))) = true)
    by (apply byte_forall; vm_compute; reflexivity).
  assert (A' : forall c, In c s -> lower_byte c = c /\ is_ctl c = false /\ alnum c || amem c (B "+-.") = true).
  { intros c Hc. specialize (A c). rewrite (H c Hc) in A. cbn [implb] in A. apply andb_true_iff in A. destruct A as [A A3]. apply andb_true_iff in A. destruct A as [A1 A2].
    apply aeqb_eq in A1. apply negb_true_iff in A2. auto. }
  split; [|split; [|split; [|split]]].
  - unfold to_lower. transitivity (map (fun c : ascii => c) s); [|apply map_id]. apply map_ext_in. intros c Hc. apply (A' c Hc).
  - destruct (existsb is_ctl s) eqn:E; [|reflexivity]. apply existsb_exists in E. destruct E as (c & Hc & E). destruct (A' c Hc) as (_ & X & _). congruence.
  - intros X. specialize (H _ X). discriminate H.
  - intros X. specialize (H _ X). discriminate H.
  - apply forallb_forall. intros c Hc. apply (A' c Hc).
Qed.
Lemma sch_lows s : sch_ok s = true -> lows s = true /\ s <> [] /\ match s with c :: _ => is_letter c = true | [] => False end.
Proof.
  destruct s as [|c s]; [discriminate|]. cbn [sch_ok]. intros H. apply andb_true_iff in H. destruct H as [H1 H2].
  assert (A : forall c, implb (amem c (B "abcdefghijklmnopqrstuvwxyz")) (amem c (B "abcdefghijklmnopqrstuvwxyz+") && is_letter c) = true)
    by (apply byte_forall; vm_compute; reflexivity).
  specialize (A c). rewrite H1 in A. cbn [implb] in A. apply andb_true_iff in A. destruct A as [A1 A2]. split; [|split; [discriminate|exact A2]].
  unfold lows. cbn [forallb]. rewrite A1. exact H2.
Qed.
Lemma parse_gen sch a p : sch_ok sch = true -> Proof.Addr.simples a -> path_ok p ->
  parse_url (sch ++ B "://" ++ a ++ p) = option_map (fun h => Url sch false [] [] h p) (parse_host a).
Proof.
  intros K Sa P. destruct (sch_lows sch K) as (Lo & Ne & Hl). destruct (lows_facts sch Lo) as (L & Ct & Nc & Nh & Al).
  apply parse_after; auto.
  - unfold get_scheme. change (B "://" ++ a ++ p) with (":"%char :: B "//" ++ a ++ p). rewrite cut_on_app by exact Nc.
    destruct sch as [|c r]; [congruence|]. cbn [forallb] in Al. apply andb_true_iff in Al. destruct Al as [_ Al]. rewrite Hl, Al. reflexivity.
  - rewrite !existsb_app, Ct, (Proof.Addr.simples_ctl a Sa), (path_ctl p P). reflexivity.
  - intros E. destruct sch as [|c [|d r]]; [congruence|discriminate E|discriminate E].
  - intros X. apply in_app_iff in X. destruct X as [X|X]; [exact (Nh X)|]. apply in_app_iff in X. destruct X as [X|X].
    + revert X. vm_compute. intuition discriminate.
    + apply in_app_iff in X. destruct X as [X|X]; [apply (Proof.Addr.simples_nin a "#" Sa) in X; auto|apply (path_nin p "#" P) in X; auto].
Qed.
Lemma parse_bare a : Proof.Addr.simples a -> parse_url (B "//" ++ a) = option_map (fun h => Url [] false [] [] h []) (parse_host a).
Proof.
  intros Sa. apply parse_after; auto.
  - rewrite app_nil_r. unfold get_scheme. pose proof (cut_on_spec ":" (B "//" ++ a)) as C. destruct (cut_on ":" (B "//" ++ a)) as [x [y|]]; destruct C as [C N].
    + destruct x as [|c x]; [discriminate C|]. injection C as <- C. reflexivity.
    + subst x. reflexivity.
  - rewrite existsb_app, (Proof.Addr.simples_ctl a Sa). reflexivity.
  - discriminate.
  - intros [X|[X|X]]; try discriminate X. exact (Proof.Addr.simples_nin a "#" Sa (or_intror (or_intror (or_intror (or_introl eq_refl)))) X).
  - left. reflexivity.
Qed.


Lemma port_ok po p : port_opt po -> po = Some p -> Spec.Addr.port_number p.
Proof. intros H ->. exact H. Qed.
Lemma any_auth w po : anywhere w -> port_opt po ->
  Proof.Addr.simples (authority w po) /\ parse_host (authority w po) = Some (authority w po) /\
  forall d, with_port (authority w po) d = socket_addr w po d.
Proof.
  intros [-> |[h H]] P.
  - destruct po as [p|].
    + destruct (Proof.Addr.port_simple p P) as (S & D & N & N1 & N2).
      assert (Sc : Proof.Addr.simples (authority [] (Some p))) by (intros c [<-|Hc]; [reflexivity|apply S, Hc]).
      split; [exact Sc|split].
      * unfold parse_host. cbn [authority app]. assert (E : has_prefix (B ":" ++ p) (B "[") = false) by reflexivity. rewrite E.
        rewrite (Proof.Addr.cut_last_app ":" [] p N : Identd.cut_last ":" (B ":" ++ p) = Some ([], p)), D. apply Proof.Addr.un_host_simple. exact Sc.
      * intros d. unfold with_port. destruct (sock_split (authority [] (Some p)) []) as [q ->]; [|reflexivity].
        apply (SockPlain [] p); [intros c []|]. intros c Hc [X|[X|[X|[]]]]; subst c; contradiction.
    + split; [intros c []|]. split; reflexivity.
  - split; [exact (Proof.Addr.auth_simple w h po H P)|]. split; [exact (Proof.Addr.auth_parse w h po H P)|].
    intros d. unfold with_port. pose proof (Proof.Addr.auth_split w h po H P) as S. unfold Proof.Addr.auth in S. fold (authority w po) in S. rewrite S.
    destruct po; [reflexivity|]. reflexivity.
Qed.
Lemma listen_gen tls sch a p : sch_ok sch = true -> Proof.Addr.simples a -> parse_host a = Some a -> path_ok p ->
  listen_on tls (sch ++ B "://" ++ a ++ p) = listen_url tls (Url sch false [] [] a p).
Proof.
  intros K Sa Ph P. unfold listen_on. rewrite (Proof.Addr.contains_app sch (B "://" ++ a ++ p) (B ":/")) by reflexivity.
  rewrite (parse_gen sch a p K Sa P), Ph. reflexivity.
Qed.
Lemma listen_tcp tls sch t h d w po : In (sch, (t, h, d)) tcp_table -> (t = true -> tls = true) -> anywhere w -> port_opt po ->
  listen_on tls (sch ++ B "://" ++ authority w po) =
  Some (Listener (if t then STls (socket_addr w po d) else SPlain (socket_addr w po d)) h (reads h)).
Proof.
  intros I T W P. destruct (any_auth w po W P) as (Sa & Ph & Wp).
  assert (K : sch_ok sch = true).
  { assert (A : forallb (fun x => sch_ok (fst x)) tcp_table = true) by reflexivity. rewrite forallb_forall in A. exact (A _ I). }
  pose proof (listen_gen tls sch (authority w po) [] K Sa Ph (or_introl eq_refl)) as L. rewrite app_nil_r in L. rewrite L. clear L K Sa Ph.
  assert (G : listen_url tls (Url sch false [] [] (authority w po) []) = Some (Listener (if t then STls (with_port (authority w po) d) else SPlain (with_port (authority w po) d)) h (reads h))).
  { generalize (authority w po). intros a.
    unfold tcp_table in I. destruct t; [specialize (T eq_refl); subst tls|clear T];
      repeat (destruct I as [I|I]; [try discriminate I; injection I as <- <- <-; reflexivity|]); destruct I. }
  rewrite G, Wp. reflexivity.
Qed.
Lemma listen_bare w po : anywhere w -> port_opt po -> listen_on true (authority w po) = Some (Listener (STls (socket_addr w po (B "6697"))) HIrc true).
Proof.
  intros W P. destruct (any_auth w po W P) as (Sa & Ph & Wp). unfold listen_on.
  assert (C : contains (B ":/") (authority w po) = false).
  { assert (G : forall s, ~ In "/"%char s -> contains (B ":/") s = false).
    { induction s as [|c s IH]; intros H; [reflexivity|]. cbn [contains].
      destruct (has_prefix (c :: s) (B ":/")) eqn:E; [apply has_prefix_iff in E; destruct E as [y E]; exfalso; apply H; rewrite E; right; left; reflexivity|].
      cbn [orb]. apply IH. intros X. apply H. right. exact X. }
    apply G. apply Proof.Addr.simples_nin; auto. }
  rewrite C, (parse_bare _ Sa), Ph. cbn [option_map]. rewrite <- Wp. reflexivity.
Qed.
Lemma local_name : Spec.Addr.host_of local_host local_host.
Proof.
  apply Spec.Addr.HName. split; [discriminate|]. intros c Hc. apply amem_In.
  assert (A : forallb (fun c => amem c (B "abcdefghijklmnopqrstuvwxyzABCDEFGHIJKLMNOPQRSTUVWXYZ0123456789-._")) local_host = true) by reflexivity.
  rewrite forallb_forall in A. exact (A c Hc).
Qed.
Lemma local_hostname po : port_opt po -> url_hostname (authority local_host po) = local_host.
Proof.
  intros P. destruct po as [p|]; [|reflexivity]. destruct (Proof.Addr.port_simple p P) as (S & D & N & N1 & N2). unfold url_hostname. cbn [authority].
  change (local_host ++ B ":" ++ p) with (local_host ++ ":"%char :: p). rewrite Proof.Addr.cut_last_app by exact N. rewrite D. reflexivity.
Qed.
Lemma listen_local tls sch h d po : In (sch, (h, d)) local_table -> port_opt po ->
  listen_on tls (sch ++ B "://" ++ authority (B "localhost") po) = Some (Listener (SPlain (socket_addr (B "localhost") po d)) h (reads h)).
Proof.
  intros I P. change (B "localhost") with local_host. destruct (any_auth local_host po (or_intror (ex_intro _ _ local_name)) P) as (Sa & Ph & Wp).
  pose proof (local_hostname po P) as U. revert Sa Ph U Wp. generalize (authority local_host po). intros a Sa Ph U Wp.
  assert (K : sch_ok sch = true).
  { assert (A : forallb (fun x => sch_ok (fst x)) local_table = true) by reflexivity. rewrite forallb_forall in A. exact (A _ I). }
  pose proof (listen_gen tls sch a [] K Sa Ph (or_introl eq_refl)) as L. rewrite app_nil_r in L. rewrite L, <- Wp. clear - I U.
  unfold listen_url. cbn [u_scheme u_host]. rewrite U, beqb_refl.
  repeat (destruct I as [I|I]; [injection I as <- <- <-; reflexivity|]); destruct I.
Qed.
Lemma listen_debug tls (sch : bytes) h p : In (sch, h) [(B "http+prometheus", HMetrics); (B "http+pprof", HPprof)] -> Spec.Addr.port_number p ->
  listen_on tls (sch ++ B "://" ++ authority (B "localhost") (Some p)) = Some (Listener (SPlain (authority (B "localhost") (Some p))) h false).
Proof.
  intros I P. change (B "localhost") with local_host. destruct (any_auth local_host (Some p) (or_intror (ex_intro _ _ local_name)) P) as (Sa & Ph & _).
  pose proof (Proof.Addr.auth_split local_host local_host (Some p) local_name P) as S. unfold Proof.Addr.auth in S. fold (authority local_host (Some p)) in S.
  revert Sa Ph S. generalize (authority local_host (Some p)). intros a Sa Ph S.
  assert (K : sch_ok sch = true) by (destruct I as [I|[I|[]]]; injection I as <- _; reflexivity).
  pose proof (listen_gen tls sch a [] K Sa Ph (or_introl eq_refl)) as L. rewrite app_nil_r in L. rewrite L. clear - I S.
  unfold listen_url. cbn [u_scheme u_host]. rewrite S, beqb_refl. destruct I as [I|[I|[]]]; injection I as <- <-; reflexivity.
Qed.
Lemma listen_unix tls sch h m p : In (sch, (h, m)) unix_table -> Spec.Addr.socket_path p ->
  exists fatal, listen_on tls (sch ++ B "://" ++ p) = Some (Listener (SUnix p p m fatal) h (reads h)).
Proof.
  intros I P.
  assert (K : sch_ok sch = true).
  { assert (A : forallb (fun x => sch_ok (fst x)) unix_table = true) by reflexivity. rewrite forallb_forall in A. exact (A _ I). }
  assert (S0 : Proof.Addr.simples []) by (intros c []).
  pose proof (listen_gen tls sch [] p K S0 eq_refl (or_intror P)) as L. cbn [app] in L. rewrite L. destruct P as (q & -> & _). clear - I.
  repeat (destruct I as [I|I]; [injection I as <- <- <-; eexists; reflexivity|]); destruct I.
Qed.
