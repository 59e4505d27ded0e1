(** Proofs about uploads over HTTP. *)
From Verif.Base Require Import Bytes Base64 Path.
From Verif.Model Require Import Upload UploadHttp.
From Verif.Proof Require Upload LogPath.
From Verif.Spec Require Import Upload UploadHttp.
From Coq Require Import Lia NArith.

(** ** Percent encoding *)
Lemma unescape_byte c s : unescape (escape_byte c ++ s) = match unescape s with Some r => Some (c :: r) | None => None end.
Proof.
  assert (H : plain_byte c = true /\ aeqb c "%" = false \/
    plain_byte c = false /\ hex_value (hex_digit (code c / 16)) = Some (code c / 16)%N /\
      hex_value (hex_digit (N.modulo (code c) 16)) = Some (N.modulo (code c) 16)
      /\ ascii_of_N (16 * (code c / 16) + N.modulo (code c) 16) = c).
  { destruct c as [b0 b1 b2 b3 b4 b5 b6 b7]. destruct b0, b1, b2, b3, b4, b5, b6, b7; vm_compute; auto. }
  unfold escape_byte. destruct H as [[-> H]|(-> & H1 & H2 & H3)].
  - cbn [app unescape]. rewrite H. reflexivity.
  - cbn [app unescape]. rewrite H1, H2. change (aeqb "%" "%") with true. cbv iota.
    destruct (unescape s); [|reflexivity]. rewrite H3. reflexivity.
Qed.
Lemma unescape_app a b : forall x, unescape a = Some x ->
  unescape (a ++ b) = match unescape b with Some r => Some (x ++ r) | None => None end.
Proof.
  remember (length a) as n eqn:En. revert a En. induction n as [n IH] using lt_wf_ind. intros a En x.
  destruct a as [|c a].
  - intros [= <-]. cbn [app]. destruct (unescape b); reflexivity.
  - cbn [app unescape]. destruct (aeqb c "%").
    + destruct a as [|h1 [|h2 a]]; try discriminate. cbn [app].
      destruct (hex_value h1), (hex_value h2); try discriminate.
      destruct (unescape a) as [r|] eqn:E; [|discriminate]. intros [= <-].
      rewrite (IH (length a) ltac:(subst; cbn [length]; lia) a eq_refl r E). destruct (unescape b); reflexivity.
    + destruct (unescape a) as [r|] eqn:E; [|discriminate]. intros [= <-].
      rewrite (IH (length a) ltac:(subst; cbn [length]; lia) a eq_refl r E). destruct (unescape b); reflexivity.
Qed.
Lemma unescape_escape s t : unescape (path_escape s ++ t) = match unescape t with Some r => Some (s ++ r) | None => None end.
Proof.
  induction s as [|c s IH]; [cbn; destruct (unescape t); reflexivity|].
  unfold path_escape. cbn [flat_map]. rewrite <- app_assoc, unescape_byte. fold (path_escape s). rewrite IH.
  destruct (unescape t); reflexivity.
Qed.
Lemma escape_no c s : plain_byte c = false -> c <> "%"%char -> (forall n, hex_digit n <> c) -> ~ In c (path_escape s).
Proof.
  intros Hp Hc Hh H. unfold path_escape in H. apply in_flat_map in H as (x & _ & H). unfold escape_byte in H.
  destruct (plain_byte x) eqn:E.
  - destruct H as [ <-|[]]. congruence.
  - destruct H as [H|[H|[H|[]]]]; [congruence|apply (Hh _ H)|apply (Hh _ H)].
Qed.
Lemma escape_keeps c s : plain_byte c = true -> c <> "%"%char -> (forall n, hex_digit n <> c) -> ~ In c s -> ~ In c (path_escape s).
Proof.
  intros Hp Hc Hh Hs H. unfold path_escape in H. apply in_flat_map in H as (x & Hx & H). unfold escape_byte in H.
  destruct (plain_byte x) eqn:E.
  - destruct H as [ <-|[]]. exact (Hs Hx).
  - destruct H as [H|[H|[H|[]]]]; [congruence|apply (Hh _ H)|apply (Hh _ H)].
Qed.
Lemma hex_digit_not c : ~ In c (B "0123456789ABCDEF") -> forall n, hex_digit n <> c.
Proof.
  intros H n E. unfold hex_digit in E. destruct (Nat.lt_ge_cases (N.to_nat n) 16) as [L|L].
  - apply H. rewrite <- E. apply nth_In. exact L.
  - rewrite nth_overflow in E by exact L. subst c. apply H. left. reflexivity.
Qed.
Lemma cut_on_none c s : ~ In c s -> cut_on c s = (s, None).
Proof.
  induction s as [|x s IH]; intros H; [reflexivity|]. cbn [cut_on].
  destruct (aeqb x c) eqn:E.
  - apply aeqb_eq in E. subst x. exfalso. apply H. left. reflexivity.
  - rewrite IH; [reflexivity|]. intros Hc. apply H. right. exact Hc.
Qed.
Lemma escape_dot s : path_escape s = B "." -> s = B ".".
Proof.
  destruct s as [|c s]; [discriminate|]. unfold path_escape. cbn [flat_map]. unfold escape_byte at 1.
  destruct (plain_byte c) eqn:E; cbn [app]; intros H; [|discriminate].
  injection H as -> H. destruct s as [|d s]; [reflexivity|]. cbn [flat_map] in H. unfold escape_byte in H. destruct (plain_byte d); discriminate.
Qed.
Lemma escape_dots s : path_escape s = B ".." -> s = B "..".
Proof.
  destruct s as [|c s]; [discriminate|]. unfold path_escape. cbn [flat_map]. unfold escape_byte at 1.
  destruct (plain_byte c) eqn:E; cbn [app]; intros H; [|discriminate].
  injection H as -> H. change (B "..") with ("."%char :: B "."). f_equal. apply (escape_dot s). exact H.
Qed.

(** The link of a file of a user with an ordinary name. *)
Lemma location_ok user name :
  safe_name user -> ~ In ":"%char user ->
  exists l, location (path_escape user) (path_escape name) = Some l /\ unescape l = Some (B "/uploads/" ++ user ++ B "/" ++ name).
Proof.
  intros (Hn & Hd & Hdd & _) Hc. unfold location.
  rewrite cut_on_none.
  2:{ apply escape_keeps; [reflexivity|discriminate|apply hex_digit_not; cbn; intuition discriminate|exact Hc]. }
  destruct (path_escape user) as [|x r] eqn:E.
  { destruct user as [|c user]; [congruence|]. unfold path_escape in E. cbn [flat_map] in E. unfold escape_byte in E. destruct (plain_byte c); discriminate. }
  rewrite <- E. replace (beqb (path_escape user) (B ".")) with false.
  2:{ symmetry. apply beqb_neq. intros E'. apply escape_dot in E'. contradiction. }
  replace (beqb (path_escape user) (B "..")) with false.
  2:{ symmetry. apply beqb_neq. intros E'. apply escape_dots in E'. contradiction. }
  eexists. split; [reflexivity|].
  rewrite (unescape_app (B "/uploads/") _ (B "/uploads/") eq_refl), unescape_escape, (unescape_app (B "/") _ (B "/") eq_refl).
  rewrite <- (app_nil_r (path_escape name)), unescape_escape. cbn [unescape]. rewrite app_nil_r. reflexivity.
Qed.

(** ** Files and prefixes *)
Lemma take_all n s : (N.of_nat (length s) <= n)%N -> take n s = s.
Proof.
  revert n. induction s as [|c s IH]; intros n H; [reflexivity|]. cbn [take]. cbn [length] in H.
  destruct (N.eqb_spec n 0) as [->|Hn]; [lia|]. rewrite IH by lia. reflexivity.
Qed.
Lemma take_app n a b : (N.of_nat (length a) <= n)%N -> take n (a ++ b) = a ++ take (n - N.of_nat (length a)) b.
Proof.
  revert n. induction a as [|c a IH]; intros n H.
  - cbn. f_equal. lia.
  - cbn [app take]. cbn [length] in H. destruct (N.eqb_spec n 0) as [->|Hn]; [lia|]. rewrite IH by lia. cbn [length]. do 2 f_equal. f_equal. lia.
Qed.
Lemma take_long n a b : (n <= N.of_nat (length a))%N -> take n (a ++ b) = take n a.
Proof.
  revert n. induction a as [|c a IH]; intros n H.
  - replace n with 0%N by (cbn in H; lia). destruct b; reflexivity.
  - cbn [app take]. cbn [length] in H. destruct (N.eqb_spec n 0) as [->|Hn]; [reflexivity|]. rewrite IH by lia. reflexivity.
Qed.
Lemma file_get_In l p c : NoDup (map fst l) -> In (p, c) l <-> file_get l p = Some c.
Proof.
  induction l as [|[q d] l IH]; cbn [map fst file_get]; intros Hd.
  - split; [intros []|discriminate].
  - inversion Hd as [|? ? Hn Hd']; subst. destruct (beqb_spec q p) as [E|Hne].
    + subst q. split.
      * intros [[= ->]|H]; [reflexivity|]. exfalso. apply Hn. apply in_map_iff. exists (p, c). auto.
      * intros [= ->]. left. reflexivity.
    + rewrite <- IH by exact Hd'. split; [intros [[= E1 E2]|H]; [congruence|exact H]|intros H; right; exact H].
Qed.
Lemma file_get_none l p : file_get l p = None <-> ~ In p (map fst l).
Proof.
  induction l as [|[q d] l IH]; cbn [map fst file_get]; [split; [intros _ []|reflexivity]|].
  destruct (beqb_spec q p) as [E|Hne].
  - split; [discriminate|]. intros H. exfalso. apply H. left. exact E.
  - rewrite IH. split; [intros H [E|H']; [congruence|exact (H H')]|]. intros H H'. apply H. right. exact H'.
Qed.
Lemma append_spec l p c : NoDup (map fst l) ->
  file_append l p c = map (fun x => if beqb (fst x) p then (fst x, snd x ++ c) else x) l.
Proof.
  induction l as [|[q d] l IH]; cbn [map fst snd file_append]; intros Hd; [reflexivity|].
  inversion Hd as [|? ? Hn Hd']; subst. destruct (beqb_spec q p) as [E|Hne].
  - f_equal. rewrite <- (map_id l) at 1. apply map_ext_in. intros [r e] Hr. cbn [fst snd].
    destruct (beqb_spec r p) as [E'|_]; [|reflexivity]. exfalso. apply Hn. subst. apply in_map_iff. exists (p, e). auto.
  - rewrite IH by exact Hd'. reflexivity.
Qed.
Lemma append_fst l p c : map fst (file_append l p c) = map fst l.
Proof. induction l as [|[q d] l IH]; [reflexivity|]. cbn [file_append]. destruct (beqb q p); cbn [map fst]; [reflexivity|]. f_equal. exact IH. Qed.
Lemma append_get l p c q : file_get (file_append l p c) q =
  match file_get l q with Some d => Some (if beqb p q then d ++ c else d) | None => None end.
Proof.
  induction l as [|[r d] l IH]; [reflexivity|]. cbn [file_append].
  destruct (beqb_spec r p) as [E|Hne]; cbn [file_get]; destruct (beqb_spec r q) as [E'|Hne'].
  - destruct (beqb_spec p q); [reflexivity|congruence].
  - destruct (file_get l q); [|reflexivity]. destruct (beqb_spec p q); [congruence|reflexivity].
  - destruct (beqb_spec p q); [congruence|reflexivity].
  - exact IH.
Qed.

Lemma take_firstn n s : take n s = firstn (N.to_nat n) s.
Proof.
  revert n. induction s as [|c s IH]; intros n; cbn [take]; [symmetry; apply firstn_nil|].
  destruct (N.eqb_spec n 0) as [->|Hn]; [reflexivity|].
  rewrite IH. replace (N.to_nat n) with (S (N.to_nat (N.pred n))) by lia. reflexivity.
Qed.

(** ** Names *)
Lemma two_place root user n : safe_name user -> safe_name n -> path_join [path_join [root; user]; n] = place (clean root) [user; n].
Proof.
  intros Hu Hn.
  assert (E1 : path_join [root; user] = place (clean root) [user]) by (apply path_join_safe; [discriminate|constructor; [exact Hu|constructor]]).
  rewrite E1. rewrite path_join_safe by (discriminate || (constructor; [exact Hn|constructor])).
  rewrite LogPath.clean_place by (discriminate || (constructor; [exact Hu|constructor])).
  rewrite LogPath.place_app by (discriminate || (constructor; [exact Hu|constructor])). reflexivity.
Qed.
Lemma clean_slash s : s <> [] -> clean (s ++ B "/") = clean s.
Proof.
  intros Hs. unfold clean. rewrite (is_rooted_app s (B "/") Hs).
  assert (E : clean_comps (s ++ B "/") = clean_comps s).
  { unfold clean_comps. rewrite (is_rooted_app s (B "/") Hs). change (s ++ B "/") with (s ++ "/"%char :: []).
    rewrite split_on_app2, fold_left_app. reflexivity. }
  rewrite E. reflexivity.
Qed.
Lemma join_slash dir n : n <> [] -> path_join [dir; n ++ B "/"] = path_join [dir; n].
Proof.
  intros Hn. unfold path_join. destruct n as [|c n]; [congruence|]. cbn [filter app nonempty]. destruct dir as [|d dir]; cbn [nonempty join].
  - apply (clean_slash (c :: n)). discriminate.
  - change (c :: n ++ B "/") with ((c :: n) ++ B "/"). rewrite !app_assoc. apply clean_slash. discriminate.
Qed.
Lemma drop_slashes_last s : forall c r, drop_slashes s = r ++ [c] -> c <> "/"%char.
Proof.
  induction s as [|x s IH]; intros c r H; [destruct r; discriminate|]. cbn [drop_slashes] in H.
  destruct (drop_slashes s) as [|y l] eqn:E.
  - destruct (aeqb x "/") eqn:Ex; [destruct r; discriminate|]. destruct r as [|? [|? ?]]; try discriminate. injection H as <-.
    intros ->. discriminate.
  - destruct r as [|z r]; [discriminate|]. injection H as _ H. apply (IH c r). exact H.
Qed.
Lemma path_base_slash s : path_base s = B "/" \/ ~ In "/"%char (path_base s).
Proof.
  unfold path_base. destruct s as [|c s]; [right; cbn; intuition discriminate|].
  destruct (drop_slashes (c :: s)) as [|x l] eqn:E; [left; reflexivity|]. right.
  pose proof (split_on_elems "/" (x :: l)) as H. set (w := split_on "/" (x :: l)) in *.
  destruct w as [|y w]; [intros []|]. rewrite Forall_forall in H. apply H.
  assert (G : forall (d : bytes) (a : list bytes) (z : bytes), In (last (z :: a) d) (z :: a)).
  { intros d a. induction a as [|z' a IH]; intros z; [left; reflexivity|]. right. apply (IH z'). }
  apply G.
Qed.

Lemma NoDup_app_snoc {X} (l : list X) x : NoDup l -> ~ In x l -> NoDup (l ++ [x]).
Proof.
  intros Hd Hn. induction Hd as [|y l Hy Hd IH]; [constructor; [intros []|constructor]|]. cbn [app]. constructor.
  - intros H. apply in_app_or in H as [H|[H|[]]]; [exact (Hy H)|]. subst. apply Hn. left. reflexivity.
  - apply IH. intros H. apply Hn. right. exact H.
Qed.
Lemma NoDup_app_remove_l {X} (a b : list X) : NoDup (a ++ b) -> NoDup b.
Proof. induction a as [|x a IH]; [auto|]. cbn [app]. intros H. inversion H; subst. apply IH. assumption. Qed.
Lemma NoDup_app_disj {X} (a b : list X) : NoDup (a ++ b) -> forall x, In x a -> In x b -> False.
Proof.
  induction a as [|y a IH]; cbn [app]; intros Hd x Ha Hb; [destruct Ha|]. inversion Hd as [|? ? Hn Hd']; subst.
  destruct Ha as [->|Ha]; [apply Hn; apply in_or_app; right; exact Hb|eapply IH; eauto].
Qed.

Section Uploads.
  Variable enabled : bool.
  Variable root : bytes.
  Variable limit : N.
  Variable origins : list bytes.
  Variable url_host : bytes -> option bytes.
  Variable matches : bytes -> bytes -> bool.
  Variable parse_media : bytes -> option (bytes * list (bytes * bytes)).
  Variable format_media : bytes -> bytes -> bytes.
  Variable type_by_ext : bytes -> bytes.
  Variable exts_by_type : bytes -> list bytes.
  Variable detect : bytes -> bytes.
  Hypothesis exts_plain : forall mt x, In x (exts_by_type mt) -> ~ In "/"%char x.

  Local Notation step := (step enabled root limit origins url_host matches parse_media format_media type_by_ext exts_by_type detect).
  Local Notation serve := (serve enabled root limit origins url_host matches parse_media format_media type_by_ext exts_by_type detect).
  Local Notation exec := (exec enabled root limit origins url_host matches parse_media format_media type_by_ext exts_by_type detect).
  Local Notation store := (store root limit parse_media exts_by_type).
  Local Notation fetch := (fetch root parse_media format_media type_by_ext detect).
  Local Notation set_cors := (set_cors origins url_host matches).
  Local Notation permitted := (permitted origins url_host matches).
  Local Notation upload_type := (upload_type parse_media).
  Local Notation upload_base := (upload_base parse_media).
  Local Notation upload_suffix := (upload_suffix exts_by_type).

  Lemma suffix_plain orig mt : ~ In "/"%char (upload_suffix orig mt).
  Proof.
    unfold UploadHttp.upload_suffix. destruct (path_ext orig); [|intros []]. destruct mt as [|c mt]; [intros []|].
    destruct (find (fun p => beqb (fst p) (c :: mt)) primary_exts) as [[k v]|] eqn:E.
    - apply find_some in E as [E _]. cbn in E.
      repeat (destruct E as [E|E]; [injection E as <- <-; cbn; intuition discriminate|]). destruct E.
    - destruct (exts_by_type (c :: mt)) as [|x [|? ?]] eqn:Ee; try (intros []; fail).
      apply (exts_plain (c :: mt)). rewrite Ee. left. reflexivity.
  Qed.

  (** *** Origins and credentials *)
  Lemma cors_permitted q : snd (set_cors q) = true <-> permitted q.
  Proof.
    unfold UploadHttp.set_cors, UploadHttp.permitted. destruct (q_origin q) as [|c o]; [split; [left; reflexivity|reflexivity]|].
    destruct (url_host (c :: o)) as [h|].
    - destruct (beqb (to_lower h) (to_lower (q_host q)) || existsb (fun p => matches p h) origins) eqn:E; cbn [snd].
      + split; [|reflexivity]. intros _. right. exists h. split; [reflexivity|]. apply orb_true_iff in E as [E|E].
        * left. apply beqb_eq. exact E.
        * right. apply existsb_exists in E. exact E.
      + split; [discriminate|]. apply orb_false_iff in E as [E1 E2]. intros [H|(h' & [= <-] & [H|(p & Hp & Hm)])].
        * discriminate.
        * rewrite H, beqb_refl in E1. discriminate.
        * exfalso. assert (X : existsb (fun p => matches p h) origins = true) by (apply existsb_exists; eauto). congruence.
    - split; [discriminate|]. intros [H|(h & H & _)]; discriminate.
  Qed.

  Lemma cut_on_spec c s a b : cut_on c s = (a, b) -> ~ In c a /\ match b with Some r => s = a ++ c :: r | None => s = a end.
  Proof.
    revert a b. induction s as [|x s IH]; cbn [cut_on]; intros a b.
    - intros [= <- <-]. split; [intros []|reflexivity].
    - destruct (aeqb x c) eqn:E.
      + intros [= <- <-]. apply aeqb_eq in E. subst x. split; [intros []|reflexivity].
      + destruct (cut_on c s) as [a' b']. intros [= <- <-]. destruct (IH _ _ eq_refl) as [H1 H2]. apply aeqb_neq in E.
        split; [intros [H|H]; [congruence|exact (H1 H)]|]. destruct b' as [r|]; rewrite H2; reflexivity.
  Qed.
  Lemma authorize_sound e q user : authorize e q = inl user -> authorised e q user.
  Proof.
    unfold authorize, authorised. destruct (q_authz q) as [|c h] eqn:Eh; [discriminate|]. rewrite <- Eh in *. clear Eh c h.
    destruct (cut_on " " (q_authz q)) as [scheme param] eqn:Ec. destruct (cut_on_spec _ _ _ _ Ec) as [Hs Hq].
    destruct (beqb (to_lower scheme) (B "basic")) eqn:Eb.
    - apply beqb_eq in Eb. destruct (e_plain e) as [check|]; [|discriminate].
      destruct (basic_auth (q_authz q)) as [[u p]|] eqn:Ea; [|discriminate].
      destruct (check u p) eqn:Ek; [|discriminate]. intros [= <-].
      unfold basic_auth in Ea. destruct (beqb (to_lower (firstn 6 (q_authz q))) (B "basic ")) eqn:Ef; [|discriminate]. apply beqb_eq in Ef.
      destruct (b64_decode B64Std (skipn 6 (q_authz q))) as [s|] eqn:Ed; [|discriminate].
      destruct (cut_on ":" s) as [u' [p'|]] eqn:E2; [|discriminate]. injection Ea as -> ->.
      destruct (cut_on_spec _ _ _ _ E2) as [Hu H2]. subst s.
      assert (L : length scheme = 5).
      { unfold to_lower in Eb. apply (f_equal (@length ascii)) in Eb. rewrite map_length in Eb. exact Eb. }
      destruct param as [rest|].
      2:{ exfalso. rewrite Hq in Ef. apply (f_equal (@length ascii)) in Ef. unfold to_lower in Ef. rewrite map_length, firstn_all2 in Ef by lia.
          cbn in Ef. lia. }
      exists scheme, rest. split; [left; exact Hq|]. split; [exact Hs|]. left. split; [exact Eb|].
      exists check, p. split; [reflexivity|]. split; [exact Hu|]. split; [|exact Ek].
      rewrite Hq in Ed. replace (skipn 6 (scheme ++ " "%char :: rest)) with rest in Ed; [exact Ed|].
      destruct scheme as [|c1 [|c2 [|c3 [|c4 [|c5 [|? ?]]]]]]; try discriminate. reflexivity.
    - destruct (beqb (to_lower scheme) (B "bearer")) eqn:E2; [|discriminate]. apply beqb_eq in E2.
      destruct (e_bearer e) as [check|]; [|discriminate]. destruct (check _) as [u|] eqn:Ek; [|discriminate]. intros [= <-].
      exists scheme, (match param with Some p => p | None => [] end). split.
      + destruct param; [left; exact Hq|right; split; [exact Hq|reflexivity]].
      + split; [exact Hs|]. right. split; [exact E2|]. exists check. split; [reflexivity|exact Ek].
  Qed.

  Lemma authorize_code e q code : authorize e q = inr code -> In code [400; 401; 403]%N.
  Proof.
    unfold authorize. destruct (q_authz q) as [|c h]; [intros [= <-]; cbn; auto|].
    destruct (cut_on " " (c :: h)) as [scheme param]. destruct (beqb (to_lower scheme) (B "basic")).
    - destruct (e_plain e) as [check|]; [|intros [= <-]; cbn; auto].
      destruct (basic_auth (c :: h)) as [[u p]|]; [|intros [= <-]; cbn; auto].
      destruct (check u p); [discriminate|]. intros [= <-]; cbn; auto.
    - destruct (beqb (to_lower scheme) (B "bearer")); [|intros [= <-]; cbn; auto].
      destruct (e_bearer e) as [check|]; [|intros [= <-]; cbn; auto].
      destruct (check _); [discriminate|]. intros [= <-]; cbn; auto.
  Qed.

  (** *** Bodies *)
  Lemma receive_snoc id l e : fold_left (receive id) (l ++ [e]) Unknown = receive id (fold_left (receive id) l Unknown) e.
  Proof. rewrite fold_left_app. reflexivity. Qed.
  Lemma ids_snoc l e : request_ids (l ++ [e]) = request_ids l ++ match e with Request id _ _ => [id] | _ => [] end.
  Proof. unfold request_ids. rewrite flat_map_app. cbn [flat_map]. rewrite app_nil_r. reflexivity. Qed.
  Lemma ids_In l id q e : In (Request id q e) l -> In id (request_ids l).
  Proof. intros H. unfold request_ids. apply in_flat_map. exists (Request id q e). split; [exact H|left; reflexivity]. Qed.
  Lemma unknown id l : ~ In id (request_ids l) -> fold_left (receive id) l Unknown = Unknown.
  Proof.
    induction l as [|e l IH] using rev_ind; [reflexivity|]. rewrite receive_snoc, ids_snoc. intros H.
    rewrite IH by (intros H'; apply H; apply in_or_app; left; exact H').
    destruct e; try reflexivity. cbn [receive]. destruct (N.eqb_spec id0 id) as [->|]; [|reflexivity].
    exfalso. apply H. apply in_or_app. right. left. reflexivity.
  Qed.

  (** *** The invariant *)
  Definition accepted (q : request) (e : env) (user orig suffix p : bytes) : Prop :=
    enabled = true /\ q_method q = B "POST" /\ q_path q = B "/uploads" /\ permitted q /\ authorised e q user /\
    (exists mt, upload_type q = inl mt /\ upload_base q = Some orig /\ suffix = upload_suffix orig mt) /\
    ~ (orig = B "/" /\ suffix <> []) /\
    (match q_length q with Some n => n <= limit | None => True end)%N /\
    exists t, In t (e_tokens e) /\ p = path_join [path_join [root; user]; upload_name t orig suffix].

  Definition grown (l : list ev) (s : st) (x : N * (bytes * bytes)) : Prop :=
    let '(id, (p, c)) := x in
    (exists q e user orig suffix, In (Request id q e) l /\ accepted q e user orig suffix p) /\
    c = take limit (received id l) /\
    ((exists j, In j (h_jobs s) /\ j_id j = id /\ j_path j = p) \/
     (exists b, fold_left (receive id) l Unknown = Ended b) \/
     (exists b, fold_left (receive id) l Unknown = Coming b /\ (limit < N.of_nat (length b))%N)).
  Definition running (l : list ev) (s : st) (news : list (N * (bytes * bytes))) (j : job) : Prop :=
    exists q e orig suffix b, In (Request (j_id j) q e) l /\ accepted q e (j_user j) orig suffix (j_path j) /\
      fold_left (receive (j_id j)) l Unknown = Coming b /\ (N.of_nat (length b) + j_left j = limit)%N /\
      In (j_id j, (j_path j, b)) news /\ j_headers j = csp :: fst (set_cors q).

  Record inv (files : list (bytes * bytes)) (l : list ev) (s : st) (news : list (N * (bytes * bytes))) : Prop := Inv {
    i_files : h_files s = files ++ map snd news;
    i_paths : NoDup (map fst (h_files s));
    i_ids : NoDup (map fst news);
    i_news : Forall (grown l s) news;
    i_jobs : Forall (running l s news) (h_jobs s);
    i_jids : NoDup (map j_id (h_jobs s))
  }.

  Lemma nodup_fst {X Y} (l : list (X * Y)) a b c : NoDup (map fst l) -> In (a, b) l -> In (a, c) l -> b = c.
  Proof.
    induction l as [|[x y] l IH]; cbn [map fst]; intros Hd H1 H2; [destruct H1|].
    inversion Hd as [|? ? Hn Hd']; subst. destruct H1 as [[= -> ->]|H1], H2 as [[= E1]|H2].
    - exact E1.
    - exfalso. apply Hn. apply in_map_iff. exists (a, c). auto.
    - subst. exfalso. apply Hn. apply in_map_iff. exists (a, b). auto.
    - apply IH; assumption.
  Qed.
  Lemma nodup_snd {X Y} (l : list (X * Y)) a b c : NoDup (map snd l) -> In (a, c) l -> In (b, c) l -> a = b.
  Proof.
    induction l as [|[x y] l IH]; cbn [map snd]; intros Hd H1 H2; [destruct H1|].
    inversion Hd as [|? ? Hn Hd']; subst. destruct H1 as [[= -> ->]|H1], H2 as [[= E1]|H2].
    - exact E1.
    - exfalso. apply Hn. apply in_map_iff. exists (b, c). auto.
    - subst. exfalso. apply Hn. apply in_map_iff. exists (a, c). auto.
    - apply IH; assumption.
  Qed.

  Lemma grown_closed l e s s' id p c :
    (exists b, fold_left (receive id) l Unknown = Ended b) \/
    (exists b, fold_left (receive id) l Unknown = Coming b /\ (limit < N.of_nat (length b))%N) ->
    grown l s (id, (p, c)) -> grown (l ++ [e]) s' (id, (p, c)).
  Proof.
    intros Hc ((q & en & user & orig & suffix & Hin & Ha) & -> & _). split; [|].
    { exists q, en, user, orig, suffix. split; [apply in_or_app; left; exact Hin|exact Ha]. }
    unfold received. rewrite receive_snoc. destruct Hc as [(b & E)|(b & E & Hl)]; rewrite E.
    - assert (X : receive id (Ended b) e = Ended b) by (destruct e; reflexivity). rewrite X.
      split; [reflexivity|]. right. left. eauto.
    - destruct e as [i ? ?|i chunk|i ok|i|]; cbn [receive]; try (destruct (N.eqb i id)).
      all: split; [try reflexivity|right; eauto].
      + rewrite take_long; [reflexivity|lia].
      + right. eexists. split; [reflexivity|]. rewrite app_length. lia.
  Qed.
  Lemma grown_active l e s s' id p c :
    receive id (fold_left (receive id) l Unknown) e = fold_left (receive id) l Unknown ->
    (exists j, In j (h_jobs s') /\ j_id j = id /\ j_path j = p) ->
    grown l s (id, (p, c)) -> grown (l ++ [e]) s' (id, (p, c)).
  Proof.
    intros Hr Hj ((q & en & user & orig & suffix & Hin & Ha) & -> & _). split; [|split].
    - exists q, en, user, orig, suffix. split; [apply in_or_app; left; exact Hin|exact Ha].
    - unfold received. rewrite receive_snoc, Hr. reflexivity.
    - left. exact Hj.
  Qed.
  Lemma running_keep l e s s' news news' j :
    receive (j_id j) (fold_left (receive (j_id j)) l Unknown) e = fold_left (receive (j_id j)) l Unknown ->
    (forall b, In (j_id j, (j_path j, b)) news -> In (j_id j, (j_path j, b)) news') ->
    running l s news j -> running (l ++ [e]) s' news' j.
  Proof.
    intros Hr Hn (q & en & orig & suffix & b & Hin & Ha & Hb & Hl & Hf & Hh).
    exists q, en, orig, suffix, b. split; [apply in_or_app; left; exact Hin|]. split; [exact Ha|].
    split; [rewrite receive_snoc, Hr; exact Hb|]. split; [exact Hl|]. split; [apply Hn; exact Hf|exact Hh].
  Qed.

  (* an event that is about the request [i] only *)
  Definition about (e : ev) : option N :=
    match e with Request id _ _ => Some id | Data id _ => Some id | Eof id _ => Some id | Broken id => Some id | Reboot => None end.
  Lemma receive_other id b e i : about e = Some i -> i <> id -> receive id b e = b.
  Proof. intros H Hne. destruct e; try discriminate; injection H as ->; cbn [receive]; destruct b; try reflexivity; rewrite (proj2 (N.eqb_neq i id) Hne); reflexivity. Qed.

  Lemma the_job_spec s id : match the_job s id with
    | Some j => In j (h_jobs s) /\ j_id j = id
    | None => forall j, In j (h_jobs s) -> j_id j <> id end.
  Proof.
    unfold the_job. destruct (find _ _) as [j|] eqn:E.
    - apply find_some in E as [H1 H2]. apply N.eqb_eq in H2. auto.
    - intros j Hj Hne. apply (find_none _ _ E) in Hj. rewrite Hne, N.eqb_refl in Hj. discriminate.
  Qed.

  (* nothing happens to the files, and the jobs left are those of other requests *)
  Lemma inv_keep files l s news e jobs :
    inv files l s news ->
    (forall j, In j (h_jobs s) -> In j jobs \/
       exists b, fold_left (receive (j_id j)) (l ++ [e]) Unknown = Ended b /\ fold_left (receive (j_id j)) l Unknown = Coming b) ->
    (forall j, In j jobs -> In j (h_jobs s) /\ receive (j_id j) (fold_left (receive (j_id j)) l Unknown) e = fold_left (receive (j_id j)) l Unknown) ->
    NoDup (map j_id jobs) ->
    inv files (l ++ [e]) (St (h_files s) jobs) news.
  Proof.
    intros [If Ip Ii In_ Ij Ijd] H1 H2 Hd. constructor; cbn [h_files h_jobs]; try assumption.
    - rewrite Forall_forall in In_ |- *. intros [id [p c]] Hx. pose proof (In_ _ Hx) as G.
      destruct G as (G1 & G2 & [(j & Hj & E1 & E2)|G3]).
      + destruct (H1 j Hj) as [Hj'|(b & Eb & Eb')].
        * apply (grown_active l e s); [subst id; apply (H2 j Hj')|exists j; auto|]. repeat split; try assumption. left. eauto.
        * destruct G1 as (q & en & user & orig & suffix & Hin & Ha). subst id. split; [|split].
          -- exists q, en, user, orig, suffix. split; [apply in_or_app; left; exact Hin|exact Ha].
          -- rewrite G2. unfold received. rewrite Eb, Eb'. reflexivity.
          -- right. left. eauto.
      + apply (grown_closed l e s); [exact G3|]. repeat split; try assumption. right. exact G3.
    - rewrite Forall_forall in Ij |- *. intros j Hj. destruct (H2 j Hj) as [Hj' Hr].
      apply (running_keep l e s _ news); [exact Hr|auto|]. apply Ij. exact Hj'.
  Qed.

  Lemma nodup_map_filter {X Y} (f : X -> Y) (g : X -> bool) l : NoDup (map f l) -> NoDup (map f (filter g l)).
  Proof.
    induction l as [|x l IH]; cbn [map filter]; intros H; [constructor|]. inversion H as [|? ? Hn Hd]; subst.
    destruct (g x); [|apply IH; exact Hd]. cbn [map]. constructor; [|apply IH; exact Hd].
    intros Hi. apply Hn. apply in_map_iff in Hi as (y & E & Hy). apply filter_In in Hy as [Hy _]. apply in_map_iff. eauto.
  Qed.

  (* the job of the request ends *)
  Lemma inv_end files l s news e id :
    inv files l s news -> about e = Some id -> (forall q en, e <> Request id q en) -> (forall c, e <> Data id c) ->
    inv files (l ++ [e]) (St (h_files s) (drop_job s id)) news.
  Proof.
    intros I Ha Hr Hd. apply (inv_keep _ _ _ _ _ _ I).
    - intros j Hj. destruct (N.eq_dec (j_id j) id) as [E|Hne].
      + right. pose proof (i_jobs _ _ _ _ I) as Ij. rewrite Forall_forall in Ij.
        destruct (Ij j Hj) as (q & en & orig & suffix & b & _ & _ & Hb & _). exists b. rewrite receive_snoc, Hb. split; [|reflexivity].
        destruct e as [i ? ?|i c|i ok|i|]; try discriminate; injection Ha as ->; subst id; cbn [receive]; try (rewrite N.eqb_refl; reflexivity).
        * exfalso. eapply Hr. reflexivity.
        * exfalso. eapply Hd. reflexivity.
      + left. unfold drop_job. apply filter_In. split; [exact Hj|]. apply negb_true_iff, N.eqb_neq. exact Hne.
    - intros j Hj. unfold drop_job in Hj. apply filter_In in Hj as [Hj Hn]. split; [exact Hj|].
      apply negb_true_iff, N.eqb_neq in Hn. apply (receive_other _ _ _ id Ha). congruence.
    - unfold drop_job. apply nodup_map_filter. apply (i_jids _ _ _ _ I).
  Qed.
  (* an event of a request without a job *)
  Lemma inv_none files l s news e id :
    inv files l s news -> about e = Some id -> (forall j, In j (h_jobs s) -> j_id j <> id) ->
    inv files (l ++ [e]) s news.
  Proof.
    intros I Ha Hj. replace s with (St (h_files s) (h_jobs s)) at 1 by (destruct s; reflexivity).
    apply (inv_keep _ _ _ _ _ _ I); [auto| |apply (i_jids _ _ _ _ I)].
    intros j Hin. split; [exact Hin|]. apply (receive_other _ _ _ id Ha). intros E. apply (Hj j Hin). congruence.
  Qed.

  Lemma jobs_known files l s news j : inv files l s news -> In j (h_jobs s) -> In (j_id j) (request_ids l).
  Proof.
    intros I Hj. pose proof (i_jobs _ _ _ _ I) as Ij. rewrite Forall_forall in Ij.
    destruct (Ij j Hj) as (q & en & orig & suffix & b & Hin & _). apply (ids_In _ _ _ _ Hin).
  Qed.
  Lemma news_known files l s news x : inv files l s news -> In x news -> In (fst x) (request_ids l).
  Proof.
    intros I Hx. pose proof (i_news _ _ _ _ I) as Ij. rewrite Forall_forall in Ij. specialize (Ij x Hx).
    destruct x as [id [p c]]. destruct Ij as ((q & en & user & orig & suffix & Hin & _) & _). apply (ids_In _ _ _ _ Hin).
  Qed.

  (* an upload starts *)
  Lemma inv_start files l s news id q en user orig suffix p :
    inv files l s news -> ~ In id (request_ids l) -> accepted q en user orig suffix p -> file_get (h_files s) p = None ->
    inv files (l ++ [Request id q en]) (St (h_files s ++ [(p, [])]) (h_jobs s ++ [Job id p user limit (csp :: fst (set_cors q))])) (news ++ [(id, (p, []))]).
  Proof.
    intros I Hid Ha Hp. pose proof I as [If Ip Ii In_ Ij Ijd].
    assert (R : receive id (fold_left (receive id) l Unknown) (Request id q en) = Coming []).
    { rewrite unknown by exact Hid. cbn [receive]. rewrite N.eqb_refl. reflexivity. }
    assert (Inew : In (Request id q en) (l ++ [Request id q en])) by (apply in_or_app; right; left; reflexivity).
    constructor; cbn [h_files h_jobs].
    - rewrite If, map_app, app_assoc. reflexivity.
    - rewrite map_app. apply NoDup_app_snoc; [exact Ip|]. apply file_get_none. exact Hp.
    - rewrite map_app. apply NoDup_app_snoc; [exact Ii|]. intros H. apply in_map_iff in H as (x & E & Hx). apply Hid. change (fst x = id) in E. rewrite <- E. apply (news_known _ _ _ _ _ I Hx).
    - apply Forall_app. split.
      + rewrite Forall_forall in In_ |- *. intros [i [p' c]] Hx. pose proof (In_ _ Hx) as G.
        destruct G as (G1 & G2 & [(j & Hj & E1 & E2)|G3]).
        * apply (grown_active l _ s).
          -- apply (receive_other _ _ (Request id q en) id eq_refl). intros E. apply Hid. rewrite E. apply (news_known _ _ _ _ _ I Hx).
          -- exists j. split; [cbn [h_jobs]; apply in_or_app; left; exact Hj|auto].
          -- repeat split; try assumption. left. eauto.
        * apply (grown_closed l _ s); [exact G3|]. repeat split; try assumption. right. exact G3.
      + constructor; [|constructor]. split; [|split].
        * exists q, en, user, orig, suffix. auto.
        * unfold received. rewrite receive_snoc, R. reflexivity.
        * left. eexists. split; [cbn [h_jobs]; apply in_or_app; right; left; reflexivity|auto].
    - apply Forall_app. split.
      + rewrite Forall_forall in Ij |- *. intros j Hj. apply (running_keep l _ s _ news).
        * apply (receive_other _ _ (Request id q en) id eq_refl). intros E. apply Hid. rewrite E. apply (jobs_known _ _ _ _ _ I Hj).
        * intros b Hb. apply in_or_app. left. exact Hb.
        * apply Ij. exact Hj.
      + constructor; [|constructor]. exists q, en, orig, suffix, []. cbn [j_id j_path j_user j_left j_headers].
        split; [exact Inew|]. split; [exact Ha|]. split; [rewrite receive_snoc; exact R|]. split; [reflexivity|].
        split; [apply in_or_app; right; left; reflexivity|reflexivity].
    - rewrite map_app. apply NoDup_app_snoc; [exact Ijd|]. intros H. apply in_map_iff in H as (x & E & Hx). apply Hid.
      change (j_id x = id) in E. rewrite <- E. apply (jobs_known _ _ _ _ _ I Hx).
  Qed.

  Definition grow (p t : bytes) (x : bytes * bytes) : bytes * bytes := if beqb (fst x) p then (fst x, snd x ++ t) else x.

  (* a piece of a body *)
  Lemma inv_data files l s news id chunk j :
    inv files l s news -> In j (h_jobs s) -> j_id j = id ->
    let fs := file_append (h_files s) (j_path j) (take (j_left j) chunk) in
    let news' := map (fun x => (fst x, grow (j_path j) (take (j_left j) chunk) (snd x))) news in
    let n := N.of_nat (length chunk) in
    inv files (l ++ [Data id chunk])
      (if N.ltb (j_left j) n then St fs (drop_job s id)
       else St fs (map (fun i => if N.eqb (j_id i) id then with_left i (j_left j - n) else i) (h_jobs s))) news'.
  Proof.
    intros I Hj <- fs news' n. pose proof I as [If Ip Ii In_ Ij Ijd].
    rewrite Forall_forall in Ij. destruct (Ij j Hj) as (q & en & orig & suffix & b & Hin & Ha & Hb & Hl & Hf & Hh).
    assert (Pn : forall x, In x news -> fst (snd x) = j_path j -> x = (j_id j, (j_path j, b))).
    { intros [i [p c]] Hx Ep. cbn [fst snd] in Ep. subst p.
      assert (N2 : NoDup (map fst (map snd news))) by (rewrite If, map_app in Ip; eapply NoDup_app_remove_l; exact Ip).
      assert (Ec : c = b).
      { apply (nodup_fst (map snd news) (j_path j)); [exact N2| |]; apply in_map_iff; eexists; split; [|exact Hx| |exact Hf]; reflexivity. }
      subst c. f_equal. apply (nodup_snd news i (j_id j) (j_path j, b)); [|exact Hx|exact Hf].
      apply (NoDup_map_inv fst). exact N2. }
    assert (Hfiles : fs = files ++ map snd news').
    { unfold fs. rewrite append_spec by exact Ip. rewrite If, map_app. f_equal.
      - rewrite <- (map_id files) at 2. apply map_ext_in. intros [p c] Hx. cbn [fst snd].
        destruct (beqb_spec p (j_path j)) as [E|_]; [|reflexivity]. exfalso. rewrite If, map_app in Ip. subst p.
        apply (NoDup_app_disj _ _ Ip (j_path j)).
        + apply in_map_iff. exists (j_path j, c). auto.
        + rewrite map_map. apply in_map_iff. exists (j_id j, (j_path j, b)). auto.
      - unfold news'. rewrite !map_map. apply map_ext. intros x. reflexivity. }
    assert (Hrecv : fold_left (receive (j_id j)) (l ++ [Data (j_id j) chunk]) Unknown = Coming (b ++ chunk)).
    { rewrite receive_snoc, Hb. cbn [receive]. rewrite N.eqb_refl. reflexivity. }
    assert (Hgrow : In (j_id j, (j_path j, b ++ take (j_left j) chunk)) news').
    { unfold news'. apply in_map_iff. exists (j_id j, (j_path j, b)). split; [|exact Hf]. unfold grow. cbn [fst snd]. rewrite beqb_refl. reflexivity. }
    assert (Hother : forall i p c, In (i, (p, c)) news -> i <> j_id j -> In (i, (p, c)) news').
    { intros i p c Hx Hne. unfold news'. apply in_map_iff. exists (i, (p, c)). split; [|exact Hx]. unfold grow. cbn [fst snd].
      destruct (beqb_spec p (j_path j)) as [E|_]; [|reflexivity]. pose proof (Pn _ Hx E) as X. injection X as -> _ _. congruence. }
    set (s' := if N.ltb (j_left j) n then _ else _).
    assert (Fs : h_files s' = fs) by (unfold s'; destruct (N.ltb _ _); reflexivity).
    assert (Jk : forall i, In i (h_jobs s) -> j_id i <> j_id j -> In i (h_jobs s')).
    { intros i Hi Hne. unfold s'. destruct (N.ltb _ _); cbn [h_jobs].
      - unfold drop_job. apply filter_In. split; [exact Hi|]. apply negb_true_iff, N.eqb_neq. exact Hne.
      - apply in_map_iff. exists i. rewrite (proj2 (N.eqb_neq _ _) Hne). auto. }
    assert (Take : take limit (b ++ chunk) = b ++ take (j_left j) chunk).
    { rewrite take_app by lia. do 2 f_equal. lia. }
    constructor.
    - rewrite Fs. exact Hfiles.
    - rewrite Fs. unfold fs. rewrite append_fst. exact Ip.
    - unfold news'. rewrite map_map. cbn [fst]. exact Ii.
    - rewrite Forall_forall in In_ |- *. intros x Hx. unfold news' in Hx. apply in_map_iff in Hx as ([i [p c]] & <- & Hx). cbn [fst snd].
      pose proof (In_ _ Hx) as G. unfold grow. cbn [fst snd]. destruct (beqb_spec p (j_path j)) as [E|Hne].
      + pose proof (Pn _ Hx E) as X. injection X as -> -> ->. destruct G as ((q' & en' & u' & o' & s'' & Hin' & Ha') & _).
        split; [|split].
        * exists q', en', u', o', s''. split; [apply in_or_app; left; exact Hin'|exact Ha'].
        * unfold received. rewrite Hrecv. symmetry. exact Take.
        * unfold s'. destruct (N.ltb_spec (j_left j) n) as [L|L].
          -- right. right. eexists. split; [exact Hrecv|]. rewrite app_length. unfold n in L. lia.
          -- left. exists (with_left j (j_left j - n)). cbn [h_jobs]. split; [|auto]. apply in_map_iff. exists j. rewrite N.eqb_refl. auto.
      + assert (Hi : i <> j_id j).
        { intros ->. apply Hne. assert (X : (p, c) = (j_path j, b)) by (apply (nodup_fst news (j_id j)); assumption). congruence. }
        destruct G as (G1 & G2 & [(k & Hk & E1 & E2)|G3]).
        * apply (grown_active l _ s).
          -- apply (receive_other _ _ (Data (j_id j) chunk) (j_id j) eq_refl). congruence.
          -- exists k. split; [apply Jk; [exact Hk|congruence]|auto].
          -- repeat split; try assumption. left. eauto.
        * apply (grown_closed l _ s); [exact G3|]. repeat split; try assumption. right. exact G3.
    - rewrite Forall_forall. intros k Hk.
      assert (Other : In k (h_jobs s) -> j_id k <> j_id j -> running (l ++ [Data (j_id j) chunk]) s' news' k).
      { intros Hk' Hne. apply (running_keep l _ s _ news).
        - apply (receive_other _ _ (Data (j_id j) chunk) (j_id j) eq_refl). congruence.
        - intros c Hc. apply Hother; [exact Hc|exact Hne].
        - apply Ij. exact Hk'. }
      unfold s' in Hk. destruct (N.ltb_spec (j_left j) n) as [L|L]; cbn [h_jobs] in Hk.
      + unfold drop_job in Hk. apply filter_In in Hk as [Hk Hn]. apply negb_true_iff, N.eqb_neq in Hn. apply Other; assumption.
      + apply in_map_iff in Hk as (i & E & Hi). destruct (N.eqb_spec (j_id i) (j_id j)) as [Ei|Ei].
        * assert (i = j).
          { clear -Hi Hj Ei Ijd. induction (h_jobs s) as [|x r IH]; [destruct Hi|]. cbn [map] in Ijd. inversion Ijd as [|? ? Hn Hd]; subst.
            destruct Hi as [->|Hi], Hj as [->|Hj]; try reflexivity.
            - exfalso. apply Hn. rewrite Ei. apply in_map. exact Hj.
            - exfalso. apply Hn. rewrite <- Ei. apply in_map. exact Hi.
            - apply IH; assumption. }
          subst i k. exists q, en, orig, suffix, (b ++ chunk). cbn [with_left j_id j_path j_user j_left j_headers].
          split; [apply in_or_app; left; exact Hin|]. split; [exact Ha|]. split; [exact Hrecv|].
          split; [rewrite app_length; unfold n in *; lia|]. split; [|exact Hh].
          replace (b ++ chunk) with (b ++ take (j_left j) chunk); [exact Hgrow|]. f_equal. apply take_all. exact L.
        * subst k. apply Other; assumption.
    - unfold s'. destruct (N.ltb _ _); cbn [h_jobs].
      + unfold drop_job. apply nodup_map_filter. exact Ijd.
      + rewrite map_map. replace (map (fun x => j_id (if N.eqb (j_id x) (j_id j) then with_left x (j_left j - n) else x)) (h_jobs s)) with (map j_id (h_jobs s)); [exact Ijd|].
        apply map_ext. intros x. destruct (N.eqb _ _); reflexivity.
  Qed.

  (** *** Steps *)
  Lemma store_cases s hs id q e s' outs :
    store s hs id q e = (s', outs) -> enabled = true -> q_method q = B "POST" -> permitted q ->
    (s' = s /\ exists code xs text, outs = [(id, error (hs ++ xs) code text)] /\ code <> 201%N /\ code <> 200%N /\
        forall h, In h xs -> fst h = B "Connection" \/ fst h = B "Upload-Limit") \/
    exists user orig suffix p, outs = [] /\ accepted q e user orig suffix p /\ file_get (h_files s) p = None /\
      s' = St (h_files s ++ [(p, [])]) (h_jobs s ++ [Job id p user limit hs]).
  Proof.
    unfold UploadHttp.store. intros H He Hm Hp.
    assert (L : forall code text, code <> 201%N -> code <> 200%N -> (s, [(id, error hs code text)]) = (s', outs) ->
      s' = s /\ exists code xs text, outs = [(id, error (hs ++ xs) code text)] /\ code <> 201%N /\ code <> 200%N /\
        forall h, In h xs -> fst h = B "Connection" \/ fst h = B "Upload-Limit").
    { intros code text H1 H2 [= <- <-]. split; [reflexivity|]. exists code, [], text. rewrite app_nil_r. repeat split; [exact H1|exact H2|intros h []]. }
    destruct (beqb (q_path q) (B "/uploads")) eqn:Ep; cbn [negb] in H; [|left; (eapply L; [| |exact H]; discriminate)].
    apply beqb_eq in Ep. destruct (authorize e q) as [user|code] eqn:Ea.
    2:{ left. apply authorize_code in Ea. eapply L; [| |exact H]; intros ->; cbn in Ea; intuition discriminate. }
    destruct (upload_type q) as [mt|code] eqn:Et.
    2:{ left. apply (L code (B "Content-Type")); [| |exact H]; intros ->; unfold UploadHttp.upload_type in Et; destruct (q_ctype q); try discriminate;
        destruct (parse_media _) as [[? ?]|]; try discriminate; destruct (bmem _ _); discriminate. }
    destruct (upload_base q) as [orig|] eqn:Eb; [|left; (eapply L; [| |exact H]; discriminate)].
    destruct (match q_length q with Some n => N.ltb limit n | None => false end) eqn:El.
    { left. injection H as <- <-. split; [reflexivity|]. unfold too_large. do 3 eexists. split; [reflexivity|].
      split; [discriminate|]. split; [discriminate|]. intros h [ <-|[ <-|[]]]; auto. }
    cbv zeta in H. destruct (negb (e_mkdir e && e_open e) || beqb orig (B "/") && nonempty (upload_suffix orig mt)) eqn:Eo;
      [left; (eapply L; [| |exact H]; discriminate)|].
    destruct (store_upload _ root user orig (upload_suffix orig mt) (e_tokens e)) as [p|] eqn:Es;
      [|left; (eapply L; [| |exact H]; discriminate)].
    right. injection H as <- <-. exists user, orig, (upload_suffix orig mt), p. split; [reflexivity|].
    unfold store_upload in Es. apply Upload.pick_file_spec in Es as (Ex & tk & Ht & ->).
    split; [|split; [destruct (file_get _ _); [discriminate|reflexivity]|reflexivity]].
    split; [exact He|]. split; [exact Hm|]. split; [exact Ep|]. split; [exact Hp|]. split; [apply authorize_sound; exact Ea|].
    split; [exists mt; auto|]. split.
    { intros [E1 E2]. apply orb_false_iff in Eo as [_ Eo]. rewrite E1 in Eo at 1. rewrite beqb_refl in Eo.
      destruct (upload_suffix orig mt); [congruence|discriminate]. }
    split; [destruct (q_length q); [apply N.ltb_ge; exact El|exact I]|].
    exists tk. split; [|reflexivity]. rewrite <- (firstn_skipn 100 (e_tokens e)). apply in_or_app. left. exact Ht.
  Qed.

  Definition harmless_answer (s : st) (q : request) (r : response) : Prop :=
    (exists xs, p_headers r = (csp :: fst (set_cors q)) ++ xs /\
       forall h, In h xs -> In (fst h) [B "Connection"; B "Upload-Limit"; B "Content-Type"; B "X-Content-Type-Options"; B "Content-Disposition"; B "Location"]) .

  Lemma serve_cases s id q e s' outs :
    serve s id q e = (s', outs) ->
    (s' = s /\ exists r, outs = [(id, r)] /\ p_code r <> 201%N /\ harmless_answer s q r /\
       (p_code r = 200%N -> enabled = true /\ permitted q /\ r = fetch s (csp :: fst (set_cors q)) q)) \/
    exists user orig suffix p, outs = [] /\ accepted q e user orig suffix p /\ file_get (h_files s) p = None /\
      s' = St (h_files s ++ [(p, [])]) (h_jobs s ++ [Job id p user limit (csp :: fst (set_cors q))]).
  Proof.
    unfold UploadHttp.serve. pose proof (cors_permitted q) as Hc. destruct (set_cors q) as [hs ok] eqn:Es. cbn [snd fst] in *.
    assert (L : forall code text, code <> 201%N -> code <> 200%N -> (s, [(id, error (csp :: hs) code text)]) = (s', outs) ->
      s' = s /\ exists r, outs = [(id, r)] /\ p_code r <> 201%N /\ harmless_answer s q r /\
       (p_code r = 200%N -> enabled = true /\ permitted q /\ r = fetch s (csp :: hs) q)).
    { intros code text H1 H2 [= <- <-]. split; [reflexivity|]. eexists. split; [reflexivity|]. split; [exact H1|].
      split; [|intros E; exfalso; exact (H2 E)]. eexists. split; [rewrite Es; reflexivity|]. intros h [ <-|[ <-|[]]]; cbn [fst In]; auto 8. }
    intros H. destruct ok; cbn [negb] in H; [|left; apply (L 403%N _ ltac:(discriminate) ltac:(discriminate) H)].
    destruct enabled eqn:Een; cbn [negb] in H; [|left; apply (L 404%N _ ltac:(discriminate) ltac:(discriminate) H)].
    assert (Hp : permitted q) by (apply Hc; reflexivity).
    destruct (beqb (q_method q) (B "OPTIONS")).
    { left. injection H as <- <-. split; [reflexivity|]. eexists. split; [reflexivity|]. split; [discriminate|].
      split; [|intros E; discriminate E]. exists []. split; [rewrite app_nil_r, Es; reflexivity|intros h []]. }
    destruct (beqb (q_method q) (B "HEAD") || beqb (q_method q) (B "GET")).
    { left. injection H as <- <-. split; [reflexivity|]. eexists. split; [reflexivity|].
      assert (X : p_code (fetch s (csp :: hs) q) <> 201%N /\ harmless_answer s q (fetch s (csp :: hs) q)).
      { unfold UploadHttp.fetch. destruct (fetch_name (q_path q)) as [f|].
        - destruct (file_get _ _) as [c|].
          + split; [discriminate|]. eexists. split; [rewrite Es; reflexivity|]. intros h Hh. apply in_app_or in Hh as [Hh|[ <-|[]]]; [|cbn [fst In]; auto 8].
            destruct (match type_by_ext _ with [] => _ | _ => _ end); [destruct Hh|]. destruct Hh as [ <-|[]]. cbn [fst In]; auto 8.
          + split; [discriminate|]. exists []. split; [rewrite app_nil_r, Es; reflexivity|intros h []].
        - split; [discriminate|]. eexists. split; [rewrite Es; reflexivity|]. intros h [ <-|[ <-|[]]]; cbn [fst In]; auto 8. }
      destruct X as [X1 X2]. split; [exact X1|]. split; [exact X2|]. intros _. auto. }
    destruct (beqb (q_method q) (B "POST")) eqn:Em; [|left; apply (L 405%N _ ltac:(discriminate) ltac:(discriminate) H)].
    apply beqb_eq in Em. destruct (store_cases _ _ _ _ _ _ _ H Een Em Hp) as [(E & code & xs & text & Eo & H1 & H2 & H3)|(user & orig & suffix & p & Eo & Ha & Hg & Es')].
    - left. split; [exact E|]. eexists. split; [exact Eo|]. split; [exact H1|]. split; [|intros E'; exfalso; exact (H2 E')].
      exists (xs ++ [(B "Content-Type", B "text/plain; charset=utf-8"); (B "X-Content-Type-Options", B "nosniff")]).
      split; [cbn [p_headers error]; rewrite <- app_assoc, Es; reflexivity|].
      intros h Hh. apply in_app_or in Hh as [Hh|[ <-|[ <-|[]]]]; [|cbn [fst In]; auto 8|cbn [fst In]; auto 8].
      destruct (H3 h Hh) as [-> | ->]; cbn [In]; auto 8.
    - right. exists user, orig, suffix, p. auto.
  Qed.

  Lemma inv_step files l s news e :
    inv files l s news -> NoDup (request_ids (l ++ [e])) -> exists news', inv files (l ++ [e]) (fst (step s e)) news'.
  Proof.
    intros I Hd. rewrite ids_snoc in Hd. destruct e as [id q en|id chunk|id closed|id|]; cbn [UploadHttp.step].
    - assert (Hid : ~ In id (request_ids l)).
      { intros H. apply (NoDup_app_disj _ _ Hd id H). left. reflexivity. }
      destruct (serve s id q en) as [s' outs] eqn:E. cbn [fst].
      destruct (serve_cases _ _ _ _ _ _ E) as [(-> & _)|(user & orig & suffix & p & _ & Ha & Hg & ->)].
      + exists news. apply (inv_none _ _ _ _ (Request id q en) id I eq_refl). intros j Hj E'. apply Hid. rewrite <- E'. apply (jobs_known _ _ _ _ _ I Hj).
      + eexists. apply (inv_start _ _ _ _ _ _ _ _ _ _ _ I Hid Ha Hg).
    - pose proof (the_job_spec s id) as Hj. destruct (the_job s id) as [j|].
      + destruct Hj as [Hj E]. pose proof (inv_data _ _ _ _ _ chunk _ I Hj E) as X. cbv zeta in X. eexists.
        destruct (N.ltb _ _); exact X.
      + exists news. apply (inv_none _ _ _ _ (Data id chunk) id I eq_refl Hj).
    - pose proof (the_job_spec s id) as Hj. exists news. destruct (the_job s id) as [j|]; cbn [fst].
      + apply (inv_end _ _ _ _ (Eof id closed) id I eq_refl); discriminate.
      + apply (inv_none _ _ _ _ (Eof id closed) id I eq_refl Hj).
    - pose proof (the_job_spec s id) as Hj. exists news. destruct (the_job s id) as [j|]; cbn [fst].
      + apply (inv_end _ _ _ _ (Broken id) id I eq_refl); discriminate.
      + apply (inv_none _ _ _ _ (Broken id) id I eq_refl Hj).
    - exists news. apply (inv_keep _ _ _ _ _ [] I); [|intros j []|constructor].
      intros j Hj. right. pose proof (i_jobs _ _ _ _ I) as Ij. rewrite Forall_forall in Ij.
      destruct (Ij j Hj) as (q & en & orig & suffix & b & _ & _ & Hb & _). exists b. rewrite receive_snoc, Hb. split; reflexivity.
  Qed.
  Lemma exec_snoc files l e : exec files (l ++ [e]) = fst (step (exec files l) e).
  Proof. unfold UploadHttp.exec. rewrite fold_left_app. reflexivity. Qed.
  Lemma inv_exec files l : NoDup (map fst files) -> NoDup (request_ids l) -> exists news, inv files l (exec files l) news.
  Proof.
    intros Hf. induction l as [|e l IH] using rev_ind; intros Hd.
    - exists []. constructor; cbn; try constructor. + rewrite app_nil_r. reflexivity. + exact Hf.
    - assert (Hd' : NoDup (request_ids l)).
      { rewrite ids_snoc in Hd. clear -Hd. revert Hd. generalize (match e with Request id _ _ => [id] | _ => [] end). intros x. induction (request_ids l) as [|y r IH]; [constructor|].
        cbn [app]. intros H. inversion H as [|? ? Hn Hd]; subst. constructor; [intros Hi; apply Hn; apply in_or_app; left; exact Hi|apply IH; exact Hd]. }
      destruct (IH Hd') as [news I]. destruct (inv_step _ _ _ _ _ I Hd) as [news' I']. exists news'. rewrite exec_snoc. exact I'.
  Qed.

  (** *** What follows *)
  Lemma base_cases q orig : upload_base q = Some orig -> orig = B "/" \/ ~ In "/"%char orig.
  Proof.
    unfold UploadHttp.upload_base. destruct (q_cdisp q) as [|c d]; [intros [= <-]; right; intros []|].
    destruct (parse_media (c :: d)) as [[x params]|]; [|discriminate]. intros [= <-]. apply path_base_slash.
  Qed.
  Lemma accepted_place q e user orig suffix p : accepted q e user orig suffix p -> tokens_ok (e_tokens e) -> safe_name user ->
    exists tk name, In tk (e_tokens e) /\ safe_name name /\ p = place (clean root) [user; name] /\
      (~ In "/"%char orig -> name = upload_name tk orig suffix).
  Proof.
    intros (_ & _ & _ & _ & _ & (mt & _ & Hb & Hs) & Hsl & _ & tk & Ht & ->) Hok Hu.
    unfold tokens_ok in Hok. rewrite Forall_forall in Hok. destruct (Hok tk Ht) as [T1 T2].
    pose proof (suffix_plain orig mt) as Hp. rewrite <- Hs in Hp.
    destruct (base_cases _ _ Hb) as [Eo|Ho].
    - assert (Es : suffix = []) by (destruct suffix; [reflexivity|exfalso; apply Hsl; split; [exact Eo|discriminate]]).
      exists tk, (tk ++ B "-"). split; [exact Ht|].
      assert (Hn : safe_name (tk ++ B "-")).
      { pose proof (Upload.upload_name_safe tk [] (B "-") T1 T2 ltac:(intros []) ltac:(cbn; intuition discriminate)) as X.
        exact X. }
      split; [exact Hn|]. split; [|intros H; exfalso; apply H; rewrite Eo; left; reflexivity].
      rewrite <- two_place by assumption. rewrite <- (join_slash _ (tk ++ B "-")) by apply Hn.
      f_equal. rewrite Es, Eo. unfold upload_name. rewrite <- app_assoc. reflexivity.
    - exists tk, (upload_name tk orig suffix). split; [exact Ht|].
      assert (Hn : safe_name (upload_name tk orig suffix)) by (apply Upload.upload_name_safe; assumption).
      split; [exact Hn|]. split; [apply two_place; assumption|reflexivity].
  Qed.

  Lemma stored files l : NoDup (map fst files) -> NoDup (request_ids l) ->
    exists news, h_files (exec files l) = files ++ map snd news /\ NoDup (map fst news) /\
      forall id p c, In (id, (p, c)) news ->
        exists q e user, In (Request id q e) l /\ q_method q = B "POST" /\ q_path q = B "/uploads" /\ permitted q /\
          authorised e q user /\ c = firstn (N.to_nat limit) (received id l) /\
          (tokens_ok (e_tokens e) -> safe_name user -> exists name, safe_name name /\ p = place (clean root) [user; name]).
  Proof.
    intros Hf Hd. destruct (inv_exec files l Hf Hd) as [news I]. exists news.
    split; [apply (i_files _ _ _ _ I)|]. split; [apply (i_ids _ _ _ _ I)|].
    intros id p c Hx. pose proof (i_news _ _ _ _ I) as G. rewrite Forall_forall in G.
    destruct (G _ Hx) as ((q & e & user & orig & suffix & Hin & Ha) & Hc & _). exists q, e, user.
    pose proof Ha as (_ & Hm & Hp & Hpe & Hau & _). split; [exact Hin|]. split; [exact Hm|]. split; [exact Hp|].
    split; [exact Hpe|]. split; [exact Hau|]. split; [rewrite Hc; apply take_firstn|].
    intros Ht Hu. destruct (accepted_place _ _ _ _ _ _ Ha Ht Hu) as (tk & name & _ & Hn & Ep & _). exists name. auto.
  Qed.

  (* a file that nobody writes stays as it is *)
  Definition settled (s : st) (p b : bytes) : Prop :=
    file_get (h_files s) p = Some b /\ forall j, In j (h_jobs s) -> j_path j <> p.
  Lemma file_get_app l m p b : file_get l p = Some b -> file_get (l ++ m) p = Some b.
  Proof. induction l as [|[q d] l IH]; [discriminate|]. cbn [app file_get]. destruct (beqb q p); auto. Qed.
  Lemma settled_step s e p b : settled s p b -> settled (fst (step s e)) p b.
  Proof.
    intros [Hg Hj]. destruct e as [id q en|id chunk|id closed|id|]; cbn [UploadHttp.step].
    - destruct (serve s id q en) as [s' outs] eqn:E. cbn [fst].
      destruct (serve_cases _ _ _ _ _ _ E) as [(-> & _)|(user & orig & suffix & p' & _ & _ & Hn & ->)]; [split; assumption|].
      split; cbn [h_files h_jobs]; [apply file_get_app; exact Hg|].
      intros j Hin. apply in_app_or in Hin as [Hin|[ <-|[]]]; [apply Hj; exact Hin|]. cbn [j_path]. congruence.
    - pose proof (the_job_spec s id) as Hi. destruct (the_job s id) as [j|]; [|split; assumption].
      destruct Hi as [Hi _]. pose proof (Hj j Hi) as Hne.
      assert (G : file_get (file_append (h_files s) (j_path j) (take (j_left j) chunk)) p = Some b).
      { rewrite append_get, Hg. destruct (beqb_spec (j_path j) p); [contradiction|reflexivity]. }
      destruct (N.ltb _ _); cbn [fst]; split; cbn [h_files h_jobs]; try exact G.
      + intros k Hk. unfold drop_job in Hk. apply filter_In in Hk as [Hk _]. apply Hj. exact Hk.
      + intros k Hk. apply in_map_iff in Hk as (i & <- & Hk). destruct (N.eqb _ _); [exact (Hj i Hk)|exact (Hj i Hk)].
    - destruct (the_job s id); [|split; assumption]. split; [exact Hg|]. intros k Hk. cbn [fst h_jobs] in Hk. unfold drop_job in Hk. apply filter_In in Hk as [Hk _]. apply Hj. exact Hk.
    - destruct (the_job s id); [|split; assumption]. split; [exact Hg|]. intros k Hk. cbn [fst h_jobs] in Hk. unfold drop_job in Hk. apply filter_In in Hk as [Hk _]. apply Hj. exact Hk.
    - split; [exact Hg|intros k []].
  Qed.
  Lemma settled_run l s p b : settled s p b -> settled (fold_left (fun s e => fst (step s e)) l s) p b.
  Proof. revert s. induction l as [|e l IH]; intros s H; [exact H|]. cbn [fold_left]. apply IH. apply settled_step. exact H. Qed.

  Lemma header_other r hs xs name :
    p_headers r = hs ++ xs -> (forall h, In h xs -> fst h <> name) -> header r name = map snd (filter (fun h => beqb (fst h) name) hs).
  Proof.
    intros E H. unfold header. rewrite E, filter_app. replace (filter (fun h => beqb (fst h) name) xs) with (@nil (bytes * bytes)); [rewrite app_nil_r; reflexivity|].
    clear E. symmetry. induction xs as [|x xs IH]; [reflexivity|]. cbn [filter]. rewrite (proj2 (beqb_neq _ _) (H x (or_introl eq_refl))). apply IH.
    intros h Hh. apply H. right. exact Hh.
  Qed.

  (* the header fields of every answer *)
  Lemma answers files l e id r : NoDup (map fst files) -> NoDup (request_ids (l ++ [e])) ->
    In (id, r) (snd (step (exec files l) e)) ->
    exists q en, In (Request id q en) (l ++ [e]) /\ harmless_answer (exec files l) q r.
  Proof.
    intros Hf Hd H. assert (Hd' : NoDup (request_ids l)).
    { rewrite ids_snoc in Hd. clear -Hd. revert Hd. generalize (match e with Request id _ _ => [id] | _ => [] end). intros x. induction (request_ids l) as [|y r IH]; [constructor|].
      cbn [app]. intros H. inversion H as [|? ? Hn Hd]; subst. constructor; [intros Hi; apply Hn; apply in_or_app; left; exact Hi|apply IH; exact Hd]. }
    destruct (inv_exec files l Hf Hd') as [news I]. pose proof (i_jobs _ _ _ _ I) as Ij. rewrite Forall_forall in Ij.
    set (s := exec files l) in *.
    assert (J : forall j, In j (h_jobs s) -> exists q en, In (Request (j_id j) q en) (l ++ [e]) /\ j_headers j = csp :: fst (set_cors q)).
    { intros j Hj. destruct (Ij j Hj) as (q & en & orig & suffix & b & Hin & _ & _ & _ & _ & Hh). exists q, en. split; [apply in_or_app; left; exact Hin|exact Hh]. }
    destruct e as [i q en|i chunk|i closed|i|]; cbn [UploadHttp.step] in H.
    - destruct (serve s i q en) as [s' outs] eqn:E. cbn [snd] in H.
      destruct (serve_cases _ _ _ _ _ _ E) as [(_ & r' & -> & _ & Ha & _)|(user & orig & suffix & p & -> & _)]; [|destruct H].
      destruct H as [[= <- <-]|[]]. exists q, en. split; [apply in_or_app; right; left; reflexivity|exact Ha].
    - pose proof (the_job_spec s i) as Hj. destruct (the_job s i) as [j|]; [|destruct H]. destruct Hj as [Hj Ei].
      destruct (N.ltb _ _); [|destruct H]. destruct H as [[= <- <-]|[]]. destruct (J j Hj) as (q & en & Hin & Hh). exists q, en. subst i. split; [exact Hin|].
      eexists. split; [cbn [p_headers too_large error]; rewrite Hh, <- app_assoc; reflexivity|].
      intros h [ <-|[ <-|[ <-|[ <-|[]]]]]; cbn [fst In]; auto 8.
    - pose proof (the_job_spec s i) as Hj. destruct (the_job s i) as [j|]; [|destruct H]. destruct Hj as [Hj Ei].
      destruct H as [[= <- <-]|[]]. destruct (J j Hj) as (q & en & Hin & Hh). exists q, en. subst i. split; [exact Hin|].
      destruct (if closed then _ else _) as [loc|].
      + eexists. split; [cbn [p_headers]; rewrite Hh; reflexivity|]. intros h [ <-|[]]; cbn [fst In]; auto 8.
      + eexists. split; [cbn [p_headers error]; rewrite Hh; reflexivity|]. intros h [ <-|[ <-|[]]]; cbn [fst In]; auto 8.
    - pose proof (the_job_spec s i) as Hj. destruct (the_job s i) as [j|]; [|destruct H]. destruct Hj as [Hj Ei].
      destruct H as [[= <- <-]|[]]. destruct (J j Hj) as (q & en & Hin & Hh). exists q, en. subst i. split; [exact Hin|].
      eexists. split; [cbn [p_headers error]; rewrite Hh; reflexivity|]. intros h [ <-|[ <-|[]]]; cbn [fst In]; auto 8.
    - destruct H.
  Qed.
  Lemma headers files l e id r : NoDup (map fst files) -> NoDup (request_ids (l ++ [e])) ->
    In (id, r) (snd (step (exec files l) e)) ->
    exists q en, In (Request id q en) (l ++ [e]) /\
      header r (B "Content-Security-Policy") = [B "sandbox; default-src 'none'; script-src 'none'; media-src 'self';"] /\
      (header r (B "Access-Control-Allow-Origin") = [] \/
       header r (B "Access-Control-Allow-Origin") = [q_origin q] /\ q_origin q <> [] /\ permitted q).
  Proof.
    intros Hf Hd H. destruct (answers _ _ _ _ _ Hf Hd H) as (q & en & Hin & xs & E & Hx). exists q, en. split; [exact Hin|].
    assert (Hn : forall name, ~ In name [B "Connection"; B "Upload-Limit"; B "Content-Type"; B "X-Content-Type-Options"; B "Content-Disposition"; B "Location"] ->
      header r name = map snd (filter (fun h => beqb (fst h) name) (csp :: fst (set_cors q)))).
    { intros name Hname. apply (header_other r _ xs); [exact E|]. intros h Hh E'. apply Hname. rewrite <- E'. apply Hx. exact Hh. }
    assert (Hk : forall name, bmem name [B "Connection"; B "Upload-Limit"; B "Content-Type"; B "X-Content-Type-Options"; B "Content-Disposition"; B "Location"] = false ->
      header r name = map snd (filter (fun h => beqb (fst h) name) (csp :: fst (set_cors q)))).
    { intros name Hname. apply Hn. intros H'. unfold bmem in Hname. assert (X : existsb (beqb name) [B "Connection"; B "Upload-Limit"; B "Content-Type"; B "X-Content-Type-Options"; B "Content-Disposition"; B "Location"] = true); [|congruence].
      apply existsb_exists. exists name. split; [exact H'|apply beqb_refl]. }
    rewrite !Hk by reflexivity. pose proof (cors_permitted q) as Hc. unfold UploadHttp.set_cors in *.
    destruct (q_origin q) as [|c o]; [split; [reflexivity|left; reflexivity]|].
    destruct (url_host (c :: o)) as [h|]; [|split; [reflexivity|left; reflexivity]].
    destruct (beqb (to_lower h) (to_lower (q_host q)) || existsb (fun p => matches p h) origins); [|split; [reflexivity|left; reflexivity]].
    split; [reflexivity|right]. split; [reflexivity|]. split; [discriminate|]. apply Hc. reflexivity.
  Qed.

  (* a foreign page *)
  Lemma foreign id q en : ~ permitted q -> exists r, (forall s, step s (Request id q en) = (s, [(id, r)])) /\ p_code r = 403%N /\
    header r (B "Access-Control-Allow-Origin") = [].
  Proof.
    intros Hp. pose proof (cors_permitted q) as Hc. destruct (set_cors q) as [hs ok] eqn:Es. cbn [snd] in Hc.
    destruct ok; [exfalso; apply Hp; apply Hc; reflexivity|]. exists (error (csp :: hs) 403 (B "unauthorized Origin")).
    split; [|split; [reflexivity|]].
    - intros s. cbn [UploadHttp.step]. unfold UploadHttp.serve. rewrite Es. reflexivity.
    - unfold UploadHttp.set_cors in Es. destruct (q_origin q) as [|c o]; [discriminate|].
      destruct (url_host (c :: o)) as [h|]; [|injection Es as <-; reflexivity].
      destruct (beqb (to_lower h) (to_lower (q_host q)) || existsb (fun p => matches p h) origins); [discriminate|injection Es as <-; reflexivity].
  Qed.

  (* a request that is answered at once *)
  Lemma at_once s id q en : snd (step s (Request id q en)) <> [] -> fst (step s (Request id q en)) = s.
  Proof.
    cbn [UploadHttp.step]. destruct (serve s id q en) as [s' outs] eqn:E. cbn [fst snd]. intros H.
    destruct (serve_cases _ _ _ _ _ _ E) as [(-> & _)|(user & orig & suffix & p & -> & _)]; [reflexivity|congruence].
  Qed.

  (* a file is served *)
  Lemma download s q en id path c :
    enabled = true -> permitted q -> q_method q = B "GET" -> fetch_path root (q_path q) = Some path -> file_get (h_files s) path = Some c ->
    exists f r mode, fetch_name (q_path q) = Some f /\ step s (Request id q en) = (s, [(id, r)]) /\ p_code r = 200%N /\ p_body r = c /\
      header r (B "Content-Disposition") = [format_media mode (shown_name f)].
  Proof.
    intros He Hp Hm Hf Hg. cbn [UploadHttp.step]. unfold UploadHttp.serve. apply cors_permitted in Hp.
    destruct (set_cors q) as [hs ok] eqn:Es. cbn [snd] in Hp. subst ok. cbn [negb]. rewrite He, Hm. cbn [negb].
    change (beqb (B "GET") (B "OPTIONS")) with false. change (beqb (B "GET") (B "HEAD")) with false. change (beqb (B "GET") (B "GET")) with true. cbn [orb].
    unfold fetch_path in Hf. destruct (fetch_name (q_path q)) as [f|] eqn:Ef; [|discriminate]. injection Hf as Hf.
    exists f. eexists. eexists. split; [reflexivity|]. split; [reflexivity|].
    unfold UploadHttp.fetch. rewrite Ef, Hf, Hg. split; [reflexivity|]. split; [cbn [p_body]; rewrite Hm; reflexivity|].
    unfold header. cbn [p_headers]. rewrite !filter_app, !map_app.
    set (ct := match type_by_ext _ with [] => _ | _ => _ end).
    assert (X : filter (fun h : bytes * bytes => beqb (fst h) (B "Content-Disposition")) (csp :: hs) = [] /\
       filter (fun h : bytes * bytes => beqb (fst h) (B "Content-Disposition")) (match ct with [] => [] | _ :: _ => [(B "Content-Type", ct)] end) = []).
    { split; [|destruct ct; reflexivity]. unfold UploadHttp.set_cors in Es. destruct (q_origin q) as [|c0 o]; [injection Es as <-; reflexivity|].
      destruct (url_host (c0 :: o)) as [h|]; [|discriminate].
      destruct (beqb (to_lower h) (to_lower (q_host q)) || existsb (fun p => matches p h) origins); [injection Es as <-; reflexivity|discriminate]. }
    destruct X as [X1 X2]. rewrite X1, X2. reflexivity.
  Qed.

  Lemma drop_slashes_plain s : ~ In "/"%char s -> drop_slashes s = s.
  Proof.
    induction s as [|c s IH]; intros H; [reflexivity|]. cbn [drop_slashes]. rewrite IH by (intros H'; apply H; right; exact H').
    destruct s; [|reflexivity]. rewrite (proj2 (aeqb_neq c "/")); [reflexivity|]. intros ->. apply H. left. reflexivity.
  Qed.
  Lemma path_base_plain n : n <> [] -> ~ In "/"%char n -> path_base n = n.
  Proof.
    intros Hn Hs. unfold path_base. rewrite drop_slashes_plain by exact Hs. destruct n as [|c n]; [congruence|].
    rewrite split_on_nosep by exact Hs. reflexivity.
  Qed.
  Lemma al_get_named params n : named params n -> al_get params (B "filename") = n.
  Proof.
    intros (a & b & -> & Ha). unfold al_get. induction a as [|[k v] a IH].
    - cbn [app find fst]. change (beqb (B "filename") (B "filename")) with true. reflexivity.
    - cbn [app find fst]. destruct (beqb_spec k (B "filename")) as [E|_]; [exfalso; apply Ha; left; exact E|].
      apply IH. intros H. apply Ha. right. exact H.
  Qed.
  Lemma ext_dot s : ~ In "/"%char s -> In "."%char s -> forall acc, ext_rev (rev s) acc <> [].
  Proof.
    intros Hs Hd. assert (Hd' : In "."%char (rev s)) by (apply in_rev in Hd; exact Hd).
    assert (Hs' : ~ In "/"%char (rev s)) by (intros H; apply Hs; apply in_rev; exact H). clear Hs Hd. induction (rev s) as [|c l IH]; intros acc; [destruct Hd'|].
    cbn [ext_rev]. rewrite (proj2 (aeqb_neq c "/")) by (intros ->; apply Hs'; left; reflexivity).
    destruct (aeqb c ".") eqn:E; [discriminate|]. apply IH.
    - destruct Hd' as [H|H]; [subst; discriminate|exact H].
    - intros H. apply Hs'. right. exact H.
  Qed.

  Lemma fetch_two u n : safe_name u -> safe_name n -> fetch_name (B "/uploads/" ++ u ++ B "/" ++ n) = Some (u ++ B "/" ++ n).
  Proof.
    intros Hu Hn. unfold fetch_name.
    assert (P : has_prefix (B "/uploads/" ++ u ++ B "/" ++ n) (B "/uploads/") = true) by (apply has_prefix_iff; eexists; reflexivity).
    rewrite P. rewrite skipn_app, skipn_all, Nat.sub_diag. cbn [app skipn].
    pose proof (Upload.load_path_names (B "/") [u; n] ltac:(discriminate) (Forall_cons _ Hu (Forall_cons _ Hn (Forall_nil _)))) as E. unfold load_path in E.
    cbn [join] in E. rewrite E. change (place (clean (B "/")) [u; n]) with (B "/" ++ u ++ B "/" ++ n).
    change (match B "/" ++ ?x with [] => [] | _ :: l => l end) with x.
    destruct (u ++ B "/" ++ n) eqn:Ej; [|reflexivity]. destruct u; [destruct Hu; congruence|discriminate].
  Qed.

  Lemma uploaded files l e id r :
    NoDup (map fst files) -> NoDup (request_ids (l ++ [e])) ->
    In (id, r) (snd (step (exec files l) e)) -> p_code r = 201%N ->
    exists q en user, In (Request id q en) l /\ q_method q = B "POST" /\ permitted q /\ authorised en q user /\
      (N.of_nat (length (received id l)) <= limit)%N /\
      (tokens_ok (e_tokens en) -> safe_name user -> ~ In ":"%char user ->
       exists link path, header r (B "Location") = [link] /\ unescape link = Some path /\
         forall l' i q' en', permitted q' -> q_method q' = B "GET" -> q_path q' = path ->
           exists r' mode name, step (exec files (l ++ e :: l')) (Request i q' en') = (exec files (l ++ e :: l'), [(i, r')]) /\
             p_code r' = 200%N /\ p_body r' = received id l /\
             header r' (B "Content-Disposition") = [format_media mode name] /\
             forall x params n, q_cdisp q <> [] -> parse_media (q_cdisp q) = Some (x, params) -> named params n ->
               n <> [] -> ~ In "/"%char n ->
               exists suffix, name = n ++ suffix /\ (In "."%char n -> suffix = [])).
  Proof.
    intros Hf Hd H Hcode. assert (Hd' : NoDup (request_ids l)).
    { rewrite ids_snoc in Hd. clear -Hd. revert Hd. generalize (match e with Request id _ _ => [id] | _ => [] end). intros x. induction (request_ids l) as [|y r IH]; [constructor|].
      cbn [app]. intros H. inversion H as [|? ? Hn Hd]; subst. constructor; [intros Hi; apply Hn; apply in_or_app; left; exact Hi|apply IH; exact Hd]. }
    destruct (inv_exec files l Hf Hd') as [news I]. pose proof (i_jobs _ _ _ _ I) as Ij. rewrite Forall_forall in Ij.
    assert (Ex : forall l', exec files (l ++ e :: l') = fold_left (fun s e => fst (step s e)) l' (fst (step (exec files l) e))).
    { intros l'. unfold UploadHttp.exec. rewrite fold_left_app. reflexivity. }
    set (s := exec files l) in *.
    destruct e as [i q en|i chunk|i closed|i|]; cbn [UploadHttp.step] in H.
    - exfalso. destruct (serve s i q en) as [s' outs] eqn:E. cbn [snd] in H.
      destruct (serve_cases _ _ _ _ _ _ E) as [(_ & r' & -> & Hc & _)|(user & orig & suffix & p & -> & _)]; [|destruct H].
      destruct H as [[= _ <-]|[]]. exact (Hc Hcode).
    - exfalso. destruct (the_job s i) as [j|]; [|destruct H]. destruct (N.ltb _ _); [|destruct H]. destruct H as [[= _ <-]|[]]. discriminate.
    - pose proof (the_job_spec s i) as Hj. destruct (the_job s i) as [j|] eqn:Etj; [|destruct H]. destruct Hj as [Hj Ei].
      destruct H as [[= <- Hr]|[]].
      destruct (Ij j Hj) as (q & en & orig & suffix & b & Hin & Ha & Hb & Hl & Hx & Hh). subst i.
      assert (Erec : received (j_id j) l = b) by (unfold received; rewrite Hb; reflexivity). rewrite Erec.
      exists q, en, (j_user j). split; [exact Hin|]. pose proof Ha as (He & Hm & Hpath & Hp & Hau & (mt & _ & Hbase & Hsuf) & _).
      split; [exact Hm|]. split; [exact Hp|]. split; [exact Hau|]. split; [lia|]. intros Ht Hu Hcolon.
      destruct (accepted_place _ _ _ _ _ _ Ha Ht Hu) as (tk & name & Htk & Hn & Ep & Hname).
      destruct closed; [|subst r; discriminate].
      assert (Eb : path_base (j_path j) = name).
      { rewrite Ep. destruct (Upload.place_two (clean root) (j_user j) name) as [pre ->]. apply Upload.path_base_app; apply Hn. }
      destruct (location_ok (j_user j) name Hu Hcolon) as (link & Elink & Eun). rewrite Eb, Elink in Hr.
      exists link, (B "/uploads/" ++ j_user j ++ B "/" ++ name). split.
      { rewrite <- Hr. unfold header. cbn [p_headers]. rewrite Hh, filter_app, map_app.
        assert (X : filter (fun h : bytes * bytes => beqb (fst h) (B "Location")) (csp :: fst (set_cors q)) = []).
        { unfold UploadHttp.set_cors. destruct (q_origin q) as [|c0 o]; [reflexivity|].
          destruct (url_host (c0 :: o)) as [h|]; [|reflexivity].
          destruct (beqb (to_lower h) (to_lower (q_host q)) || existsb (fun p => matches p h) origins); reflexivity. }
        rewrite X. reflexivity. }
      split; [exact Eun|]. intros l' i' q' en' Hp' Hm' Hpath'.
      assert (Hset : settled (exec files (l ++ Eof (j_id j) true :: l')) (j_path j) b).
      { rewrite Ex. apply settled_run. cbn [UploadHttp.step]. rewrite Etj. cbn [fst]. split; cbn [h_files h_jobs].
        - apply file_get_In; [apply (i_paths _ _ _ _ I)|]. rewrite (i_files _ _ _ _ I). apply in_or_app. right. apply in_map_iff. exists (j_id j, (j_path j, b)). auto.
        - intros k Hk E. unfold drop_job in Hk. apply filter_In in Hk as [Hk Hne]. apply negb_true_iff, N.eqb_neq in Hne. apply Hne.
          destruct (Ij k Hk) as (? & ? & ? & ? & b' & _ & _ & _ & _ & Hx' & _). rewrite E in Hx'.
          pose proof (i_paths _ _ _ _ I) as Hps. rewrite (i_files _ _ _ _ I), map_app in Hps. apply NoDup_app_remove_l in Hps.
          assert (b' = b).
          { apply (nodup_fst (map snd news) (j_path j)); [exact Hps| |]; apply in_map_iff; eexists; split; [|exact Hx'| |exact Hx]; reflexivity. }
          subst b'. apply (nodup_snd news (j_id k) (j_id j) (j_path j, b)); [apply (NoDup_map_inv fst); exact Hps|exact Hx'|exact Hx]. }
      destruct Hset as [Hget _].
      assert (Hfetch : fetch_path root (q_path q') = Some (j_path j)).
      { rewrite Hpath', Ep. change (j_user j ++ B "/" ++ name) with (join (B "/") [j_user j; name]). apply Upload.fetch_names; [discriminate|].
        constructor; [exact Hu|constructor; [exact Hn|constructor]]. }
      destruct (download _ _ en' i' _ _ He Hp' Hm' Hfetch Hget) as (f & r' & mode & Ef & Hstep & Hc200 & Hbody & Hdisp).
      exists r', mode, (shown_name f). split; [exact Hstep|]. split; [exact Hc200|]. split; [exact Hbody|]. split; [exact Hdisp|].
      intros x params n Hq Hpm Hnm Hne Hsl. apply al_get_named in Hnm.
      assert (Eo : orig = n).
      { unfold UploadHttp.upload_base in Hbase. destruct (q_cdisp q) as [|c0 cd]; [congruence|]. rewrite Hpm, Hnm in Hbase. injection Hbase as <-.
        apply path_base_plain; assumption. }
      subst orig. exists suffix. split.
      2:{ intros Hdot. rewrite Hsuf. unfold UploadHttp.upload_suffix, path_ext. pose proof (ext_dot n Hsl Hdot []) as X. destruct (ext_rev (rev n) []); [congruence|reflexivity]. }
      specialize (Hname Hsl).
      rewrite Hpath', (fetch_two _ _ Hu Hn) in Ef. injection Ef as <-.
      unfold shown_name. change (j_user j ++ B "/" ++ name) with (j_user j ++ "/"%char :: name).
      rewrite Upload.path_base_app by apply Hn. rewrite Hname. unfold upload_name. destruct n as [|o n]; [congruence|].
      change (B "-" ++ (o :: n)) with ("-"%char :: o :: n). rewrite <- app_comm_cons.
      rewrite cut_on_app; [reflexivity|].
      unfold tokens_ok in Ht. rewrite Forall_forall in Ht. destruct (Ht tk Htk) as [_ T2].
      intros Hmm. destruct (T2 _ Hmm) as [H'|H']; [discriminate|]. cbn in H'. intuition discriminate.
    - exfalso. destruct (the_job s i) as [j|]; [|destruct H]. destruct H as [[= _ <-]|[]]. discriminate.
    - destruct H.
  Qed.

  Lemma inline_harmless mt : bmem mt inline_types = true -> harmless mt.
  Proof.
    assert (G : forall main sub, In main [B "audio"; B "image"; B "video"] -> split_on "+" sub = [sub] -> sub <> B "svg" -> sub <> B "xml" ->
      harmless (main ++ B "/" ++ sub)).
    { intros main sub H1 H2 H3 H4. right; right. exists main, sub. rewrite H2. split; [reflexivity|]. split; [exact H1|]. intros x [ <-|[]]. auto. }
    assert (Ga : In (B "audio") [B "audio"; B "image"; B "video"]) by (left; reflexivity).
    assert (Gi : In (B "image") [B "audio"; B "image"; B "video"]) by (right; left; reflexivity).
    assert (Gv : In (B "video") [B "audio"; B "image"; B "video"]) by (right; right; left; reflexivity).
    intros H. apply bmem_In in H. unfold inline_types in H.
    destruct H as [ <-|H]; [right; left; reflexivity|].
    destruct H as [ <-|H]; [apply (G (B "audio") (B "aac") Ga); [reflexivity|discriminate..]|].
    destruct H as [ <-|H]; [apply (G (B "audio") (B "mp4") Ga); [reflexivity|discriminate..]|].
    destruct H as [ <-|H]; [apply (G (B "audio") (B "mpeg") Ga); [reflexivity|discriminate..]|].
    destruct H as [ <-|H]; [apply (G (B "audio") (B "ogg") Ga); [reflexivity|discriminate..]|].
    destruct H as [ <-|H]; [apply (G (B "audio") (B "webm") Ga); [reflexivity|discriminate..]|].
    destruct H as [ <-|H]; [apply (G (B "image") (B "apng") Gi); [reflexivity|discriminate..]|].
    destruct H as [ <-|H]; [apply (G (B "image") (B "gif") Gi); [reflexivity|discriminate..]|].
    destruct H as [ <-|H]; [apply (G (B "image") (B "jpeg") Gi); [reflexivity|discriminate..]|].
    destruct H as [ <-|H]; [apply (G (B "image") (B "png") Gi); [reflexivity|discriminate..]|].
    destruct H as [ <-|H]; [apply (G (B "image") (B "webp") Gi); [reflexivity|discriminate..]|].
    destruct H as [ <-|H]; [left; reflexivity|].
    destruct H as [ <-|H]; [apply (G (B "video") (B "mp4") Gv); [reflexivity|discriminate..]|].
    destruct H as [ <-|H]; [apply (G (B "video") (B "ogg") Gv); [reflexivity|discriminate..]|].
    destruct H as [ <-|[]]. apply (G (B "video") (B "webm") Gv); [reflexivity|discriminate..].
  Qed.

  Lemma shown s e id r :
    parse_media [] = None -> In (id, r) (snd (step s e)) -> p_code r = 200%N ->
    exists name,
      header r (B "Content-Disposition") = [format_media (B "attachment") name] \/
      header r (B "Content-Disposition") = [format_media (B "inline") name] /\
      exists ct mt params, header r (B "Content-Type") = [ct] /\ parse_media ct = Some (mt, params) /\ harmless mt.
  Proof.
    intros Hempty H Hc. destruct e as [i q en|i chunk|i closed|i|]; cbn [UploadHttp.step] in H.
    - destruct (serve s i q en) as [s' outs] eqn:E. cbn [snd] in H.
      destruct (serve_cases _ _ _ _ _ _ E) as [(_ & r' & -> & _ & _ & Hr)|(user & orig & suffix & p & -> & _)]; [|destruct H].
      destruct H as [[= _ <-]|[]]. destruct (Hr Hc) as (_ & _ & ->). unfold UploadHttp.fetch in *.
      destruct (fetch_name (q_path q)) as [f|]; [|discriminate]. destruct (file_get (h_files s) (load_path root f)) as [c|]; [|discriminate].
      exists (shown_name f). unfold header. cbn [p_headers].
      clear Hr E Hc. set (ct := match type_by_ext _ with [] => _ | _ => _ end). clearbody ct. rewrite !filter_app, !map_app.
      assert (X : filter (fun h : bytes * bytes => beqb (fst h) (B "Content-Disposition")) (csp :: fst (set_cors q)) = [] /\
        filter (fun h : bytes * bytes => beqb (fst h) (B "Content-Type")) (csp :: fst (set_cors q)) = []).
      { unfold UploadHttp.set_cors. destruct (q_origin q) as [|c0 o]; [split; reflexivity|].
        destruct (url_host (c0 :: o)) as [h|]; [|split; reflexivity].
        destruct (beqb (to_lower h) (to_lower (q_host q)) || existsb (fun p => matches p h) origins); split; reflexivity. }
      destruct X as [X1 X2]. rewrite X1, X2.
      assert (X3 : filter (fun h : bytes * bytes => beqb (fst h) (B "Content-Disposition")) (match ct with [] => [] | _ :: _ => [(B "Content-Type", ct)] end) = []) by (destruct ct; reflexivity).
      rewrite X3. destruct (bmem (match parse_media ct with Some (t, _) => t | None => [] end) inline_types) eqn:Em; [right|left; reflexivity].
      split; [reflexivity|]. destruct (parse_media ct) as [[mt params]|] eqn:Ep; [|discriminate].
      exists ct, mt, params. split; [|split; [exact Ep|apply inline_harmless; exact Em]].
      destruct ct; [congruence|reflexivity].
    - exfalso. destruct (the_job s i) as [j|]; [|destruct H]. destruct (N.ltb _ _); [|destruct H]. destruct H as [[= _ <-]|[]]. discriminate.
    - exfalso. destruct (the_job s i) as [j|]; [|destruct H]. destruct H as [[= _ <-]|[]].
      destruct (if closed then _ else _); discriminate.
    - exfalso. destruct (the_job s i) as [j|]; [|destruct H]. destruct H as [[= _ <-]|[]]. discriminate.
    - destruct H.
  Qed.
End Uploads.
