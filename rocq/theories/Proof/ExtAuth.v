(** Proofs about authentication by other servers. *)
From Coq Require Import NArith Lia.
From Verif.Base Require Import Bytes Base64 Path.
From Verif.Model Require Import Username Register ExtAuth.
From Verif.Model Require Config UploadHttp GenMsg.
From Verif.Proof Require Config.
From Verif.Spec Require Import Register ExtAuth.
Open Scope N_scope.

(** ** On the wire *)
Definition qb_ok (c : ascii) : bool :=
  match query_byte c with
  | [d] => (aeqb d c && negb (amem c (B "%+&=:"))) || (aeqb d "+" && aeqb c " ")
  | [d; a; b] => aeqb d "%" && match hex_value a, hex_value b with Some x, Some y => aeqb (ascii_of_N (x * 16 + y)) c | _, _ => false end
  | _ => false
  end.
Lemma qb_all : forall c, qb_ok c = true.
Proof. apply byte_forall. vm_compute. reflexivity. Qed.
Lemma qb c : (query_byte c = [c] /\ ~ In c (B "%+&=:")) \/ (query_byte c = B "+" /\ c = " "%char) \/
  exists a b x y, query_byte c = ["%"%char; a; b] /\ hex_value a = Some x /\ hex_value b = Some y /\ ascii_of_N (x * 16 + y) = c.
Proof.
  pose proof (qb_all c) as H. unfold qb_ok in H. destruct (query_byte c) as [|d [|a [|b [|]]]]; try discriminate.
  - apply orb_prop in H. destruct H as [H|H]; apply andb_prop in H; destruct H as [H1 H2].
    + apply aeqb_eq in H1. subst d. left. split; [reflexivity|]. intros I. apply amem_In in I. rewrite I in H2. discriminate.
    + apply aeqb_eq in H1. apply aeqb_eq in H2. subst. right. left. split; reflexivity.
  - apply andb_prop in H. destruct H as [H1 H2]. apply aeqb_eq in H1. subst d. destruct (hex_value a) as [x|] eqn:Ea; [|discriminate]. destruct (hex_value b) as [y|] eqn:Eb; [|discriminate].
    apply aeqb_eq in H2. right. right. exists a, b, x, y. auto.
Qed.
Lemma hex_not a x : hex_value a = Some x -> a <> "&"%char /\ a <> ":"%char.
Proof. intros H. split; intros ->; vm_compute in H; discriminate. Qed.
Lemma escape_none c s : c = "&"%char \/ c = ":"%char -> ~ In c (query_escape s).
Proof.
  intros C H. unfold query_escape in H. apply in_flat_map in H. destruct H as (d & _ & H). destruct (qb d) as [[E N]|[[E _]|(a & b & x & y & E & Ha & Hb & _)]]; rewrite E in H.
  - destruct H as [->|[]]. apply N. destruct C as [->| ->]; [right; right; left; reflexivity|do 4 right; left; reflexivity].
  - destruct H as [H|[]]. destruct C as [->| ->]; discriminate.
  - apply hex_not in Ha. apply hex_not in Hb. destruct H as [H|[H|[H|[]]]]; subst; destruct C as [X|X]; try discriminate X; tauto.
Qed.
Lemma form_escape s : form_text (query_escape s) s.
Proof.
  induction s as [|c s IH]; [constructor|]. change (query_escape (c :: s)) with (query_byte c ++ query_escape s).
  destruct (qb c) as [[E N]|[[E ->]|(a & b & x & y & E & Ha & Hb & <-)]]; rewrite E; cbn [app].
  - constructor; [|exact IH]. intros I. apply N. destruct I as [I|[I|[I|[I|[]]]]]; [left|right; left|right; right; left|right; right; right; left]; exact I.
  - constructor. exact IH.
  - constructor; assumption.
Qed.
Lemma form_det e t : form_text e t -> forall t', form_text e t' -> t = t'.
Proof.
  induction 1 as [|s t H IH|a b x y s t Ha Hb H IH|c s t N H IH]; intros t' H'.
  - inversion H'; reflexivity.
  - inversion H' as [|s' t'' F E1 E2| |c s' t'' N F E1 E2]; subst; [f_equal; apply IH; assumption|]. exfalso. apply N. right. left. reflexivity.
  - inversion H' as [| |a' b' x' y' s' t'' Ha' Hb' F E1 E2|c s' t'' N F E1 E2]; subst; [|exfalso; apply N; left; reflexivity]. rewrite Ha in Ha'. rewrite Hb in Hb'. injection Ha' as <-. injection Hb' as <-. f_equal. apply IH. assumption.
  - inversion H' as [|s' t'' F E1 E2|a' b' x' y' s' t'' Ha' Hb' F E1 E2|c' s' t'' N' F E1 E2]; subst; [exfalso; apply N; right; left; reflexivity|exfalso; apply N; left; reflexivity|f_equal; apply IH; assumption].
Qed.
Lemma form_iff s t : form_text (query_escape s) t <-> t = s.
Proof. split; [intros H; symmetry; exact (form_det _ _ (form_escape s) _ H)|intros ->; apply form_escape]. Qed.
Lemma first_colon u p u' p' : ~ In ":"%char u -> ~ In ":"%char u' -> u ++ ":"%char :: p = u' ++ ":"%char :: p' -> u = u' /\ p = p'.
Proof.
  revert u'. induction u as [|c u IH]; intros u' N N' H; destruct u' as [|d u']; cbn [app] in H.
  - injection H as <-. auto.
  - injection H as <- _. exfalso. apply N'. left. reflexivity.
  - injection H as -> _. exfalso. apply N. left. reflexivity.
  - injection H as -> H. destruct (IH u') as [-> ->]; auto; intros I; [apply N|apply N']; right; exact I.
Qed.
Lemma basic_iff u p u' p' : ~ In ":"%char u -> basic_credentials (basic u p) u' p' <-> u' = u /\ p' = p.
Proof.
  intros N. unfold basic_credentials, basic. split.
  - intros (e & E & D & N'). apply app_inv_head in E. subst e. rewrite b64_roundtrip in D. injection D as D. destruct (first_colon _ _ _ _ N N' D) as [-> ->]. auto.
  - intros [-> ->]. eexists. split; [reflexivity|]. split; [apply b64_roundtrip|exact N].
Qed.
Lemma http_iff users server u p : http_honest users server -> ~ In ":"%char u -> http_plain server u p = users u p.
Proof.
  intros H N. unfold http_plain. assert (E : server (basic u p) = Some 200 <-> users u p = true).
  { rewrite (H (basic u p)). split.
    - intros (u' & p' & C & U). apply (basic_iff u p) in C; [|exact N]. destruct C as [-> ->]. exact U.
    - intros U. exists u, p. split; [apply basic_iff; auto|exact U]. }
  destruct (users u p).
  - rewrite (proj2 E eq_refl). reflexivity.
  - destruct (server (basic u p)) as [n|]; [|reflexivity]. destruct (N.eqb_spec n 200) as [->|_]; [|reflexivity]. symmetry. apply E. reflexivity.
Qed.
Lemma token_iff t t' : form_value (token_form t) (B "token") t' <-> t' = t.
Proof.
  unfold form_value, token_form. change (B "token=" ++ query_escape t) with (B "token" ++ "="%char :: query_escape t). split.
  - intros (e & E & _ & F). apply app_inv_head in E. injection E as <-. apply form_iff. exact F.
  - intros ->. exists (query_escape t). split; [reflexivity|]. split; [apply escape_none; left; reflexivity|apply form_escape].
Qed.
Lemma bearer_iff o w t u : bearer o (sv_introspect w) t = Some u <-> identifies o w t u.
Proof.
  unfold bearer, identifies. destruct (sv_introspect w (oc_endpoint o) _ (token_form t)) as [[n [[active v]|]]|].
  - destruct (N.eqb_spec n 200) as [->|N]; cbn [negb orb].
    + destruct active; cbn [negb orb].
      * destruct (beqb_spec v []) as [->|N]; split; intros H.
        -- discriminate. -- destruct H as [H E]. injection E as <-. congruence.
        -- injection H as <-. auto. -- destruct H as [_ E]. injection E as <-. reflexivity.
      * split; [discriminate|intros [_ E]; discriminate].
    + split; [discriminate|]. intros [_ E]. congruence.
  - split; [discriminate|intros [_ E]; discriminate].
  - split; [discriminate|intros [_ E]; discriminate].
Qed.
Lemma oauth_iff clients public tokens o w t u : oauth_honest clients public tokens (sv_introspect w (oc_endpoint o)) ->
  (if beqb (oc_id o) [] then public = true else clients (oc_id o) (oc_secret o) = true) ->
  bearer o (sv_introspect w) t = Some u <-> u <> [] /\ tokens t = Some u.
Proof.
  intros H C. rewrite bearer_iff. unfold identifies. rewrite (H _ (token_form t) u). split.
  - intros (N & _ & t' & F & T). apply token_iff in F. subst t'. auto.
  - intros (N & T). split; [exact N|]. split.
    + destruct (beqb (oc_id o) []); [exact C|]. exists (query_escape (oc_id o)), (query_escape (oc_secret o)), (oc_id o), (oc_secret o).
      split; [apply basic_iff; [apply escape_none; right; reflexivity|auto]|]. split; [apply form_escape|]. split; [apply form_escape|exact C].
    + exists t. split; [apply token_iff; reflexivity|exact T].
Qed.
(** A client that is not registered gets no answer to act on. *)
Lemma oauth_unknown clients public tokens o w t : oauth_honest clients public tokens (sv_introspect w (oc_endpoint o)) ->
  (if beqb (oc_id o) [] then public = false else clients (oc_id o) (oc_secret o) = false) -> bearer o (sv_introspect w) t = None.
Proof.
  intros H C. destruct (bearer o (sv_introspect w) t) as [u|] eqn:E; [|reflexivity]. apply bearer_iff in E. destruct E as [_ E]. apply (H _ (token_form t) u) in E. destruct E as [E _].
  destruct (beqb (oc_id o) []); [congruence|]. destruct E as (eid & esec & id & sec & B0 & F1 & F2 & K). apply basic_iff in B0; [|apply escape_none; right; reflexivity]. destruct B0 as [-> ->].
  apply form_iff in F1. apply form_iff in F2. congruence.
Qed.

(** ** Discovery *)
Lemma new_oauth2_iff url_ok user answer o : new_oauth2 url_ok user answer = Some o <->
  exists m, answer = Some (200, Some m) /\ oc_endpoint o = me_endpoint m /\
    oc_id o = (match user with Some (u, _) => u | None => [] end) /\ oc_secret o = (match user with Some (_, Some p) => p | _ => [] end) /\ oauth_says url_ok (oc_id o) m.
Proof.
  assert (G : forall id secret, (match answer with
    | Some (st, Some m) =>
      if negb (N.eqb st 200) || beqb (me_issuer m) [] || beqb (me_endpoint m) [] || negb (url_ok (me_endpoint m)) then None
      else match me_methods m with
           | Some l => if beqb id [] && negb (bmem (B "none") l) then None
               else if negb (beqb id []) && negb (bmem (B "client_secret_basic") l) then None
               else Some (Oconf (me_endpoint m) id secret)
           | None => Some (Oconf (me_endpoint m) id secret) end
    | _ => None end) = Some o <-> exists m, answer = Some (200, Some m) /\ oc_endpoint o = me_endpoint m /\ oc_id o = id /\ oc_secret o = secret /\ oauth_says url_ok (oc_id o) m).
  { intros id secret. destruct answer as [[n [m|]]|]; [|split; [discriminate|intros (m & E & _); discriminate]..]. unfold oauth_says.
    destruct (N.eqb_spec n 200) as [->|Nn]; cbn [negb orb]; [|split; [discriminate|intros (m' & E & _); congruence]].
    destruct (beqb_spec (me_issuer m) []) as [Ei|Ni]; cbn [orb]; [split; [discriminate|intros (m' & E & _ & _ & _ & X & _); injection E as <-; congruence]|].
    destruct (beqb_spec (me_endpoint m) []) as [Ee|Ne]; cbn [orb]; [split; [discriminate|intros (m' & E & _ & _ & _ & _ & X & _); injection E as <-; congruence]|].
    destruct (url_ok (me_endpoint m)) eqn:Eu; cbn [negb]; [|split; [discriminate|intros (m' & E & _ & _ & _ & _ & _ & X & _); injection E as <-; congruence]].
    destruct o as [oe oi os]. cbn [oc_endpoint oc_id oc_secret].
    assert (Y : Some (Oconf (me_endpoint m) id secret) = Some (Oconf oe oi os) <-> oe = me_endpoint m /\ oi = id /\ os = secret) by (split; [intros H; injection H as -> -> ->; auto|intros (-> & -> & ->); reflexivity]).
    destruct (me_methods m) as [l|] eqn:Em.
    - destruct (beqb_spec id []) as [->|Nid]; cbn [andb negb].
      + destruct (bmem (B "none") l) eqn:Eb; cbn [negb].
        * rewrite Y. split.
          -- intros (-> & -> & ->). exists m. repeat split; try assumption; rewrite Em in *; match goal with H : Some _ = Some _ |- _ => injection H as <- end; [intros _; apply Proof.Config.bmem_iff; exact Eb|congruence].
          -- intros (m' & E & A1 & A2 & A3 & _). injection E as <-. auto.
        * split; [discriminate|]. intros (m' & E & _ & -> & _ & _ & _ & _ & L). injection E as <-. destruct (L l Em) as [L1 _]. apply Proof.Config.bmem_iff in L1; [|reflexivity]. congruence.
      + destruct (bmem (B "client_secret_basic") l) eqn:Eb; cbn [negb].
        * rewrite Y. split.
          -- intros (-> & -> & ->). exists m. repeat split; try assumption; rewrite Em in *; match goal with H : Some _ = Some _ |- _ => injection H as <- end; [congruence|intros _; apply Proof.Config.bmem_iff; exact Eb].
          -- intros (m' & E & A1 & A2 & A3 & _). injection E as <-. auto.
        * split; [discriminate|]. intros (m' & E & _ & -> & _ & _ & _ & _ & L). injection E as <-. destruct (L l Em) as [_ L1]. apply L1 in Nid. apply Proof.Config.bmem_iff in Nid. congruence.
    - rewrite Y. split.
      + intros (-> & -> & ->). exists m. repeat split; try assumption; rewrite Em in *; discriminate.
      + intros (m' & E & A1 & A2 & A3 & _). injection E as <-. auto. }
  unfold new_oauth2. destruct user as [[u [p|]]|]; apply G.
Qed.
Lemma discovery names : Forall safe_name names -> names <> [] ->
  discovery_path ("/"%char :: join (B "/") names) = B "/.well-known/oauth-authorization-server/" ++ join (B "/") names.
Proof.
  intros F N. unfold discovery_path, path_join. cbn [filter nonempty B list_ascii_of_string].
  change (clean (join (B "/") [B "/.well-known/oauth-authorization-server"; "/"%char :: join (B "/") names]) = B "/.well-known/oauth-authorization-server/" ++ join (B "/") names).
  change (join (B "/") [B "/.well-known/oauth-authorization-server"; "/"%char :: join (B "/") names]) with (B "/.well-known/oauth-authorization-server" ++ B "/" ++ "/"%char :: join (B "/") names).
  rewrite app_assoc. rewrite clean_below; [|discriminate|rewrite split_safe; assumption]. rewrite split_safe by assumption.
  replace (clean (B "/.well-known/oauth-authorization-server" ++ B "/")) with (B "/.well-known/oauth-authorization-server") by (vm_compute; reflexivity).
  unfold place. change (beqb (B "/.well-known/oauth-authorization-server") (B "/")) with false. change (beqb (B "/.well-known/oauth-authorization-server") (B ".")) with false. cbv iota. reflexivity.
Qed.

(** ** Acceptance *)
Lemma plain_iff k w db c u p : Config.a_plain (k_auth k) = Some c -> plain k w db c u p = true <-> vouches k w db u p.
Proof.
  intros C. split.
  - destruct c as [|url| |url]; cbn [plain].
    + unfold internal. destruct (Config.lookup u db) as [a|] eqn:E; [|discriminate]. destruct (ac_pass a) as [q|] eqn:P; [|discriminate]. intros H. apply beqb_eq in H. subst q. exact (VInternal k w db u p a C E P).
    + unfold http_plain. destruct (sv_http w url (basic u p)) as [n|] eqn:E; [|discriminate]. intros H. apply N.eqb_eq in H. subst n. exact (VHttp k w db u p url C E).
    + intros H. exact (VPam k w db u p C H).
    + destruct (bearer (k_oauth k) (sv_introspect w) p) as [v|] eqn:E; [|discriminate]. intros H. apply beqb_eq in H. subst v. apply bearer_iff in E. exact (VOauth k w db u p url C E).
  - intros [a C' L P|url C' H|C' H|url C' H]; rewrite C in C'; injection C' as ->; cbn [plain].
    + unfold internal. rewrite L, P. apply beqb_refl.
    + unfold http_plain. rewrite H. reflexivity.
    + exact H.
    + apply bearer_iff in H. rewrite H. apply beqb_refl.
Qed.
Lemma vouches_checker k w db u p : vouches k w db u p -> exists c, Config.a_plain (k_auth k) = Some c.
Proof. intros [a C L P|url C H|C H|url C H]; rewrite C; eauto. Qed.
Lemma verify_accepts k w db c names imp : verify (env_of k w db) c = Some (names, imp) -> accepts k w db c (fst (fst names)).
Proof.
  unfold verify, env_of. cbn [e_plain e_oauth e_user]. destruct c as [z name p|name t|]; [| |discriminate].
  - destruct (Config.a_plain (k_auth k)) as [c|] eqn:C; [|discriminate]. cbn [option_map]. destruct (plain k w db c (fst (fst (unmarshal_username name))) p) eqn:P; cbn [negb]; [|discriminate].
    apply (plain_iff k w db c _ _ C) in P. destruct (beqb_spec z []) as [->|Nz]; cbn [orb].
    + intros H. injection H as <- <-. apply (APassword k w db [] name p P). left. reflexivity.
    + destruct (beqb_spec z name) as [->|Nn]; cbn [orb].
      * intros H. injection H as <- <-. apply (APassword k w db name name p P). right. reflexivity.
      * destruct (Config.lookup (fst (fst (unmarshal_username name))) db) as [a|] eqn:L; [|discriminate]. cbn [option_map]. destruct (ac_admin a) eqn:Ad; [|discriminate]. cbn [negb].
        destruct (Config.lookup (fst (fst (unmarshal_username z))) db) as [b|] eqn:L2; [|discriminate]. cbn [option_map]. intros H. injection H as <- <-.
        exact (AAdmin k w db z name p a b P L Ad L2 Nz Nn).
  - destruct (Config.a_token (k_auth k)) eqn:T; [|discriminate]. cbn [option_map]. destruct (bearer (k_oauth k) (sv_introspect w) t) as [u|] eqn:E; [|discriminate]. apply bearer_iff in E.
    destruct (GenMsg.nonempty name && negb (beqb name u)) eqn:N; [discriminate|]. intros H. injection H as <- <-. cbn [fst]. apply (AToken k w db name t u); [congruence|exact E|].
    destruct name; [left; reflexivity|]. cbn [GenMsg.nonempty andb] in N. right. apply beqb_eq. destruct (beqb (a :: name) u); [reflexivity|discriminate].
Qed.
Lemma accepts_verify k w db c u : accepts k w db c u -> exists names imp, verify (env_of k w db) c = Some (names, imp) /\ fst (fst names) = u.
Proof.
  unfold verify, env_of. cbn [e_plain e_oauth e_user]. intros [z name p V Z|z name p a b V L Ad L2 Nz Nn|name t v T I N].
  - destruct (vouches_checker _ _ _ _ _ V) as [c' C]. apply (plain_iff k w db c' _ _ C) in V. unfold account in V. rewrite C. cbn [option_map]. rewrite V. cbn [negb].
    assert (E : beqb z [] || beqb z name = true) by (destruct Z as [->| ->]; [reflexivity|rewrite beqb_refl; apply orb_true_r]). rewrite E. eexists. eexists. split; reflexivity.
  - destruct (vouches_checker _ _ _ _ _ V) as [c' C]. apply (plain_iff k w db c' _ _ C) in V. unfold account in *. rewrite C. cbn [option_map]. rewrite V. cbn [negb].
    rewrite (proj2 (beqb_neq _ _) Nz), (proj2 (beqb_neq _ _) Nn). cbn [orb]. rewrite L. cbn [option_map]. rewrite Ad. cbn [negb]. rewrite L2. eexists. eexists. split; reflexivity.
  - destruct (Config.a_token (k_auth k)); [|congruence]. cbn [option_map]. apply bearer_iff in I. rewrite I.
    assert (E : GenMsg.nonempty name && negb (beqb name v) = false) by (destruct N as [->| ->]; [reflexivity|rewrite beqb_refl; apply andb_false_r]). rewrite E. eexists. eexists. split; reflexivity.
Qed.

(** ** Accounts *)
Lemma run_snoc s l o : run s (l ++ [o]) = step (run s l) o.
Proof. unfold run. rewrite fold_left_app. reflexivity. Qed.
Lemma lookup_removed u (l : list (bytes * acct)) : Config.lookup u (Config.remove u l) = None.
Proof.
  unfold Config.remove. induction l as [|[k v] l IH]; [reflexivity|]. cbn [filter fst]. destruct (beqb_spec k u) as [->|N]; cbn [negb]; [exact IH|]. cbn [Config.lookup].
  rewrite (proj2 (beqb_neq _ _) N). exact IH.
Qed.
Lemma lookup_put u a v l : Config.lookup v (put u a l) = if beqb u v then Some a else Config.lookup v l.
Proof. unfold put. cbn [Config.lookup]. destruct (beqb_spec u v) as [->|N]; [reflexivity|]. apply Proof.Config.lookup_remove. exact N. Qed.
Lemma accepted_snoc s l id u o : was_accepted s l id u -> was_accepted s (l ++ [o]) id u.
Proof. intros (l1 & q & w & c & l2 & -> & H). exists l1, q, w, c, (l2 ++ [o]). rewrite <- app_assoc. auto. Qed.
Lemma admitted_snoc s l id u o : was_admitted s l id u -> was_admitted s (l ++ [o]) id u.
Proof. intros (l1 & l2 & -> & H). exists l1, (l2 ++ [o]). rewrite <- app_assoc. auto. Qed.
Lemma admitted_accepted s l id u : was_admitted s l id u -> was_accepted s l id u.
Proof. intros (l1 & l2 & -> & (a & q & w & c & b & -> & H) & _). exists a, q, w, c, (b ++ Finish id :: l2). rewrite <- app_assoc. auto. Qed.

Definition phase_ok (s0 : st) (l : list op) (id : N) (x : phase) : Prop :=
  match x with
  | Authed u _ => was_accepted s0 l id u
  | Creating u => was_admitted s0 l id u
  | Served u => was_accepted s0 l id u
  | Gone => True
  end.
Lemma phase_snoc s0 l id x o : phase_ok s0 l id x -> phase_ok s0 (l ++ [o]) id x.
Proof. destruct x; cbn [phase_ok]; [apply accepted_snoc|apply admitted_snoc|apply accepted_snoc|auto]. Qed.
Lemma conn_set s id x i : conn i (st_conns (set_conn s id x)) = if N.eqb id i then Some x else conn i (st_conns s).
Proof. reflexivity. Qed.
Lemma connected_conns s id u : exists x, st_conns (connected s id u) = (id, x) :: st_conns s /\ (x = Served u \/ x = Gone).
Proof.
  unfold connected. destruct (Config.lookup u (st_db s)) as [a|]; [destruct (ac_enabled a); [|destruct (k_enable (st_conf s))]|]; cbn [set_conn st_conns]; eexists; (split; [reflexivity|]); auto.
Qed.
Lemma create_some s u a s' : create s u a = Some s' -> running s u = false /\ Config.lookup u (st_db s) = None /\ s' = St (st_conf s) (put u a (st_db s)) (u :: st_run s) (st_conns s).
Proof. unfold create. destruct (running s u); [discriminate|]. destruct (Config.lookup u (st_db s)); [discriminate|]. intros H. injection H as <-. auto. Qed.
Lemma conn_stop u i l x : conn i (map (fun x => match snd x with Served v => if beqb v u then (fst x, Gone) else x | _ => x end) l) = Some x ->
  (conn i l = Some x /\ x <> Served u) \/ x = Gone.
Proof.
  induction l as [|[j y] l IH]; [discriminate|]. cbn [map conn snd fst]. destruct y as [v b|v|v|]; cbn [fst]; try (destruct (N.eqb j i); [intros H; injection H as <-; left; split; [reflexivity|discriminate]|exact IH]).
  destruct (beqb_spec v u) as [->|N]; (destruct (N.eqb j i); [|exact IH]).
  - intros H. injection H as <-. right. reflexivity.
  - intros H. injection H as <-. left. split; [reflexivity|congruence].
Qed.
Lemma phases s0 l : st_conns s0 = [] -> forall id x, conn id (st_conns (run s0 l)) = Some x -> phase_ok s0 l id x.
Proof.
  intros Z. induction l as [|o l IH] using rev_ind; intros id x; [unfold run; cbn [fold_left]; rewrite Z; discriminate|]. rewrite run_snoc. set (s := run s0 l) in *.
  assert (K : forall i, conn i (st_conns s) = Some x -> i = id -> phase_ok s0 (l ++ [o]) id x) by (intros i H <-; apply phase_snoc; apply IH; exact H).
  destruct o as [i q w c|i|i|u|u|u a|u a|k]; cbn [step].
  - assert (G : conn id (st_conns (match verify (env_of (st_conf s) w (st_db s)) c with
        | Some (names, imp) => set_conn s i (if q && beqb (fst (fst names)) [] then Gone else Authed (fst (fst names)) imp) | None => s end)) = Some x -> phase_ok s0 (l ++ [Login i q w c]) id x).
    { destruct (verify (env_of (st_conf s) w (st_db s)) c) as [[names imp]|] eqn:V; [|intros H; exact (K id H eq_refl)]. rewrite conn_set. destruct (N.eqb_spec i id) as [->|_]; [|intros H; exact (K id H eq_refl)].
      intros H. injection H as <-. destruct (q && beqb (fst (fst names)) []); [exact I|]. apply verify_accepts in V. cbn [phase_ok]. exists l, q, w, c, []. auto. }
    destruct (conn i (st_conns s)) as [[| | |]|]; try exact G; intros H; exact (K id H eq_refl).
  - destruct (conn i (st_conns s)) as [[u imp|u|u|]|] eqn:E; try (intros H; exact (K id H eq_refl)). pose proof (IH i _ E) as A. cbn [phase_ok] in A. destruct (running s u).
    + destruct (connected_conns s i u) as (y & -> & Y). cbn [conn]. destruct (N.eqb_spec i id) as [->|_]; [|intros H; exact (K id H eq_refl)]. intros H. injection H as <-.
      destruct Y as [->| ->]; [|exact I]. apply accepted_snoc. exact A.
    + destruct (Config.lookup u (st_db s)) eqn:L.
      * rewrite conn_set. destruct (N.eqb_spec i id) as [->|_]; [|intros H; exact (K id H eq_refl)]. intros H. injection H as <-. exact I.
      * rewrite conn_set. destruct (N.eqb_spec i id) as [->|_]; [|intros H; exact (K id H eq_refl)]. intros H. injection H as <-. destruct (k_enable (st_conf s)) eqn:En; [|exact I].
        cbn [phase_ok]. exists l, []. split; [reflexivity|]. auto.
  - destruct (conn i (st_conns s)) as [[u imp|u|u|]|] eqn:E; try (intros H; exact (K id H eq_refl)). pose proof (IH i _ E) as A. cbn [phase_ok] in A. destruct (create s u new_user) as [s'|] eqn:C.
    + apply create_some in C. destruct C as (_ & _ & ->). destruct (connected_conns (St (st_conf s) (put u new_user (st_db s)) (u :: st_run s) (st_conns s)) i u) as (y & -> & Y). cbn [conn st_conns].
      destruct (N.eqb_spec i id) as [->|_]; [|intros H; exact (K id H eq_refl)]. intros H. injection H as <-. destruct Y as [->| ->]; [|exact I]. cbn [phase_ok]. apply accepted_snoc. apply admitted_accepted. exact A.
    + rewrite conn_set. destruct (N.eqb_spec i id) as [->|_]; [|intros H; exact (K id H eq_refl)]. intros H. injection H as <-. exact I.
  - cbn [st_conns]. intros H. apply conn_stop in H. destruct H as [[H _]| ->]; [exact (K id H eq_refl)|exact I].
  - destruct (running s u); intros H; exact (K id H eq_refl).
  - destruct (create s u a) as [s'|] eqn:C; [|intros H; exact (K id H eq_refl)]. apply create_some in C. destruct C as (_ & _ & ->). intros H; exact (K id H eq_refl).
  - destruct (Config.lookup u (st_db s)); intros H; exact (K id H eq_refl).
  - intros H; exact (K id H eq_refl).
Qed.
Lemma served s0 l id u : st_conns s0 = [] -> conn id (st_conns (run s0 l)) = Some (Served u) -> was_accepted s0 l id u.
Proof. intros Z H. exact (phases s0 l Z id _ H). Qed.

(** What one step does to accounts. *)
Lemma connected_db s id u v : Config.lookup v (st_db (connected s id u)) = Config.lookup v (st_db s) \/
  (v = u /\ k_enable (st_conf s) = true /\ exists a, Config.lookup v (st_db s) = Some a /\ ac_enabled a = false /\ Config.lookup v (st_db (connected s id u)) = Some (Acct (ac_pass a) true (ac_admin a))).
Proof.
  unfold connected. destruct (Config.lookup u (st_db s)) as [a|] eqn:E; [|left; reflexivity]. destruct (ac_enabled a) eqn:En; [left; reflexivity|]. destruct (k_enable (st_conf s)) eqn:K; [|left; reflexivity].
  cbn [set_conn st_db]. rewrite lookup_put. destruct (beqb_spec u v) as [->|N]; [|left; reflexivity]. right. split; [reflexivity|]. split; [reflexivity|]. exists a. auto.
Qed.
Lemma new_account s o u a : Config.lookup u (st_db s) = None -> Config.lookup u (st_db (step s o)) = Some a ->
  o = Admin u a \/ exists id, o = Create id /\ conn id (st_conns s) = Some (Creating u) /\ a = new_user.
Proof.
  intros N. assert (Same : Config.lookup u (st_db s) = Some a -> o = Admin u a \/ exists id, o = Create id /\ conn id (st_conns s) = Some (Creating u) /\ a = new_user) by congruence.
  destruct o as [i q w c|i|i|v|v|v b|v b|k]; cbn [step].
  - destruct (conn i (st_conns s)) as [[| | |]|]; try exact Same; destruct (verify _ c) as [[nms im]|]; exact Same.
  - destruct (conn i (st_conns s)) as [[v imp|v|v|]|]; try exact Same. destruct (running s v); [|destruct (Config.lookup v (st_db s)); exact Same].
    destruct (connected_db s i v u) as [->|(_ & _ & b & E & _)]; [exact Same|congruence].
  - destruct (conn i (st_conns s)) as [[v imp|v|v|]|] eqn:E; try exact Same. destruct (create s v new_user) as [s'|] eqn:C; [|exact Same]. apply create_some in C. destruct C as (_ & _ & ->).
    destruct (connected_db (St (st_conf s) (put v new_user (st_db s)) (v :: st_run s) (st_conns s)) i v u) as [->|(-> & _ & b & E1 & E2 & _)]; cbn [st_db] in *.
    + rewrite lookup_put. destruct (beqb_spec v u) as [->|Nu]; [|exact Same]. intros H. injection H as <-. right. exists i. auto.
    + rewrite lookup_put, beqb_refl in E1. injection E1 as <-. discriminate.
  - exact Same.
  - destruct (running s v); [exact Same|]. cbn [st_db]. destruct (beqb_spec v u) as [->|Nu]; [rewrite lookup_removed; discriminate|]. rewrite Proof.Config.lookup_remove by exact Nu. exact Same.
  - destruct (create s v b) as [s'|] eqn:C; [|exact Same]. apply create_some in C. destruct C as (_ & _ & ->). cbn [st_db]. rewrite lookup_put. destruct (beqb_spec v u) as [->|Nu]; [|exact Same].
    intros H. injection H as ->. left. reflexivity.
  - destruct (Config.lookup v (st_db s)) eqn:E; [|exact Same]. cbn [st_db]. rewrite lookup_put. destruct (beqb_spec v u) as [->|Nu]; [congruence|exact Same].
  - exact Same.
Qed.
(** Accounts of clients are created after they were accepted, if the configuration wants that. *)
Lemma created s0 l u a : st_conns s0 = [] -> Config.lookup u (st_db s0) = None -> Config.lookup u (st_db (run s0 l)) = Some a ->
  (exists b, In (Admin u b) l) \/ exists l1 id l2, l = l1 ++ Create id :: l2 /\ was_admitted s0 l1 id u /\ Config.lookup u (st_db (run s0 (l1 ++ [Create id]))) = Some new_user.
Proof.
  intros Z N. revert a. induction l as [|o l IH] using rev_ind; intros a H; [unfold run in H; cbn [fold_left] in H; congruence|]. rewrite run_snoc in H.
  destruct (Config.lookup u (st_db (run s0 l))) as [b|] eqn:E.
  - destruct (IH b eq_refl) as [[b' I]|(l1 & id & l2 & -> & A & B0)]; [left; exists b'; apply in_or_app; left; exact I|]. right. exists l1, id, (l2 ++ [o]). rewrite <- app_assoc. auto.
  - destruct (new_account _ _ _ _ E H) as [->|(id & -> & C & ->)]; [left; exists a; apply in_or_app; right; left; reflexivity|].
    right. exists l, id, []. split; [reflexivity|]. split; [exact (phases s0 l Z id _ C)|]. rewrite run_snoc. exact H.
Qed.
(** Logging in changes no account but to enable it. *)
Lemma login_keeps s o u a : Config.lookup u (st_db s) = Some a -> (exists id q w c, o = Login id q w c) \/ (exists id, o = Finish id) \/ (exists id, o = Create id) ->
  Config.lookup u (st_db (step s o)) = Some a \/
  (k_enable (st_conf s) = true /\ Config.lookup u (st_db (step s o)) = Some (Acct (ac_pass a) true (ac_admin a)) /\ exists id imp, o = Finish id /\ conn id (st_conns s) = Some (Authed u imp)).
Proof.
  intros E [(i & q & w & c & ->)|[(i & ->)|(i & ->)]]; cbn [step].
  - left. destruct (conn i (st_conns s)) as [[| | |]|]; try exact E; destruct (verify _ c) as [[nms im]|]; exact E.
  - destruct (conn i (st_conns s)) as [[v imp|v|v|]|] eqn:C; try (left; exact E). destruct (running s v); [|left; destruct (Config.lookup v (st_db s)); exact E].
    destruct (connected_db s i v u) as [->|(-> & K & b & E1 & _ & E2)]; [left; exact E|]. right. split; [exact K|]. rewrite E in E1. injection E1 as <-. split; [exact E2|]. exists i, imp. auto.
  - left. destruct (conn i (st_conns s)) as [[v imp|v|v|]|] eqn:C; try exact E. destruct (create s v new_user) as [s'|] eqn:Cr; [|exact E]. apply create_some in Cr. destruct Cr as (_ & L & ->).
    assert (Nv : v <> u) by congruence.
    destruct (connected_db (St (st_conf s) (put v new_user (st_db s)) (v :: st_run s) (st_conns s)) i v u) as [->|(-> & _)]; [|congruence]. cbn [st_db]. rewrite lookup_put, (proj2 (beqb_neq _ _) Nv). exact E.
Qed.
(** With the internal database and no deletions, no account is created by logging in. *)
Lemma stays s o u : (forall v, o <> Delete v) -> Config.lookup u (st_db s) <> None -> Config.lookup u (st_db (step s o)) <> None.
Proof.
  intros D E. destruct o as [i q w c|i|i|v|v|v b|v b|k]; cbn [step].
  - destruct (conn i (st_conns s)) as [[| | |]|]; try exact E; destruct (verify _ c) as [[nms im]|]; exact E.
  - destruct (conn i (st_conns s)) as [[v imp|v|v|]|]; try exact E. destruct (running s v); [|destruct (Config.lookup v (st_db s)); exact E].
    destruct (connected_db s i v u) as [->|(_ & _ & b & _ & _ & ->)]; [exact E|discriminate].
  - destruct (conn i (st_conns s)) as [[v imp|v|v|]|]; try exact E. destruct (create s v new_user) as [s'|] eqn:C; [|exact E]. apply create_some in C. destruct C as (_ & _ & ->).
    destruct (connected_db (St (st_conf s) (put v new_user (st_db s)) (v :: st_run s) (st_conns s)) i v u) as [->|(_ & _ & b & _ & _ & ->)]; [|discriminate]. cbn [st_db]. rewrite lookup_put. destruct (beqb v u); [discriminate|exact E].
  - exact E.
  - destruct (D v eq_refl).
  - destruct (create s v b) as [s'|] eqn:C; [|exact E]. apply create_some in C. destruct C as (_ & _ & ->). cbn [st_db]. rewrite lookup_put. destruct (beqb v u); [discriminate|exact E].
  - destruct (Config.lookup v (st_db s)); [|exact E]. cbn [st_db]. rewrite lookup_put. destruct (beqb v u); [discriminate|exact E].
  - exact E.
Qed.
Lemma stays_run l : (forall v, ~ In (Delete v) l) -> forall s u, Config.lookup u (st_db s) <> None -> Config.lookup u (st_db (run s l)) <> None.
Proof.
  induction l as [|o l IH]; intros D s u E; [exact E|]. change (run s (o :: l)) with (run (step s o) l). apply IH; [intros v I; apply (D v); right; exact I|].
  apply stays; [intros v ->; apply (D v); left; reflexivity|exact E].
Qed.
Lemma internal_exists k w db c u : Config.a_plain (k_auth k) = Some Config.Internal -> Config.a_token (k_auth k) = None -> accepts k w db c u -> Config.lookup u db <> None.
Proof.
  intros P T [z name p V Z|z name p a b V L Ad L2 Nz Nn|name t v T' I N]; [|congruence|congruence].
  destruct V as [a C L Q|url C H|C H|url C H]; congruence.
Qed.
Definition only_internal (k : conf) : Prop := Config.a_plain (k_auth k) = Some Config.Internal /\ Config.a_token (k_auth k) = None.
Lemma conf_run s0 l : only_internal (st_conf s0) -> (forall k, In (Reload k) l -> only_internal k) -> only_internal (st_conf (run s0 l)).
Proof.
  intros H R. induction l as [|o l IH] using rev_ind; [exact H|]. rewrite run_snoc. specialize (IH ltac:(intros k I; apply R; apply in_or_app; left; exact I)). set (s := run s0 l) in *.
  destruct o as [i q w c|i|i|v|v|v b|v b|k]; cbn [step].
  - destruct (conn i (st_conns s)) as [[| | |]|]; try exact IH; destruct (verify _ c) as [[nms im]|]; exact IH.
  - destruct (conn i (st_conns s)) as [[v imp|v|v|]|]; try exact IH. destruct (running s v); [|destruct (Config.lookup v (st_db s)); exact IH].
    unfold connected. destruct (Config.lookup v (st_db s)) as [a|]; [destruct (ac_enabled a); [|destruct (k_enable (st_conf s))]|]; exact IH.
  - destruct (conn i (st_conns s)) as [[v imp|v|v|]|]; try exact IH. destruct (create s v new_user) as [s'|] eqn:C; [|exact IH]. apply create_some in C. destruct C as (_ & _ & ->).
    unfold connected. destruct (Config.lookup v _) as [a|]; [destruct (ac_enabled a); [|destruct (k_enable _)]|]; exact IH.
  - exact IH.
  - destruct (running s v); exact IH.
  - destruct (create s v b) as [s'|] eqn:C; [|exact IH]. apply create_some in C. destruct C as (_ & _ & ->). exact IH.
  - destruct (Config.lookup v (st_db s)); exact IH.
  - apply R. apply in_or_app. right. left. reflexivity.
Qed.
Lemma internal_none s0 l u : st_conns s0 = [] -> only_internal (st_conf s0) -> (forall k, In (Reload k) l -> only_internal k) -> (forall v, ~ In (Delete v) l) ->
  Config.lookup u (st_db s0) = None -> (forall b, ~ In (Admin u b) l) -> Config.lookup u (st_db (run s0 l)) = None.
Proof.
  intros Z K R D N A. destruct (Config.lookup u (st_db (run s0 l))) as [a|] eqn:E; [|reflexivity]. exfalso.
  destruct (created s0 l u a Z N E) as [[b I]|(l1 & id & l2 & -> & (l3 & l4 & -> & (l5 & q & w & c & l6 & -> & Ac) & _ & Abs) & _)]; [exact (A b I)|].
  apply internal_exists in Ac; [|apply conf_run; [exact K|intros k I; apply R; repeat (apply in_or_app; left); exact I]..].
  apply (stays_run (Login id q w c :: l6)) in Ac.
  - unfold run in Ac, Abs. rewrite <- fold_left_app in Ac. congruence.
  - intros v I. apply (D v). apply in_or_app. left. apply in_or_app. left. apply in_or_app. right. exact I.
Qed.

(** Those who are accepted are let in. *)
Lemma lets_in s id q w c u a : conn id (st_conns s) = None -> accepts (st_conf s) w (st_db s) c u -> u <> [] ->
  running s u = true -> Config.lookup u (st_db s) = Some a -> ac_enabled a = true \/ k_enable (st_conf s) = true ->
  conn id (st_conns (run s [Login id q w c; Finish id])) = Some (Served u).
Proof.
  intros C A N R L En. destruct (accepts_verify _ _ _ _ _ A) as (names & imp & V & <-). unfold run. cbn [fold_left step]. rewrite C, V, (proj2 (beqb_neq _ _) N), andb_false_r. rewrite conn_set, N.eqb_refl.
  change (running (set_conn s id (Authed (fst (fst names)) imp)) (fst (fst names))) with (running s (fst (fst names))). rewrite R. unfold connected. cbn [set_conn st_db st_conf]. rewrite L.
  destruct (ac_enabled a); [apply (eq_trans (conn_set _ _ _ _)); rewrite N.eqb_refl; reflexivity|]. destruct En as [En|En]; [discriminate|]. rewrite En. cbn [set_conn st_conns conn]. rewrite N.eqb_refl. reflexivity.
Qed.
Lemma lets_in_new s id q w c u : conn id (st_conns s) = None -> accepts (st_conf s) w (st_db s) c u -> u <> [] ->
  running s u = false -> Config.lookup u (st_db s) = None -> k_enable (st_conf s) = true ->
  let s' := run s [Login id q w c; Finish id; Create id] in
  conn id (st_conns s') = Some (Served u) /\ Config.lookup u (st_db s') = Some new_user /\ running s' u = true.
Proof.
  intros C A N R L En. destruct (accepts_verify _ _ _ _ _ A) as (names & imp & V & <-). unfold run. cbn [fold_left]. cbn [step]. rewrite C, V, (proj2 (beqb_neq _ _) N), andb_false_r. rewrite conn_set, N.eqb_refl.
  change (running (set_conn s id (Authed (fst (fst names)) imp)) (fst (fst names))) with (running s (fst (fst names))). rewrite R.
  cbn [set_conn st_db st_conf]. rewrite L, En. cbn [set_conn st_conns conn]. rewrite N.eqb_refl. unfold create, running. cbn [set_conn st_run st_db st_conf st_conns]. unfold running in R. rewrite R, L. unfold connected. cbn [st_db st_conf st_run st_conns]. rewrite lookup_put, beqb_refl.
  cbn [new_user ac_enabled set_conn st_conns st_db st_run conn bmem existsb]. rewrite N.eqb_refl, lookup_put, !beqb_refl. auto.
Qed.

(** ** Registration *)
From Verif.Proof Require Register.
Lemma registered atoi parse_id oauth_parse oauth_failure p t m es u :
  (forall e ord msg, In (e, ord, msg) es -> exists k w db, e = env_of k w db) ->
  let s := fst (rrun atoi parse_id oauth_parse oauth_failure (new_conn p t m) es) in
  r_user s = Some u -> u <> [] ->
  exists es1 ord msg es2 k w db c, es = es1 ++ (env_of k w db, ord, msg) :: es2 /\ accepts k w db c u.
Proof.
  intros F s R N. pose proof (Proof.Register.registered_authenticated atoi parse_id oauth_parse oauth_failure p t m es u R) as (es1 & es2 & -> & A).
  destruct A as [es0 e ord mm f -> P Ne V|es0 e ord mm f z user pass -> S N1 N2 N3 P V Z|es0 e ord mm f z user pass -> S N1 N2 N3 P V Ad Ex|es0 e ord mm g resp user token v -> S O G T Nm].
  all: destruct (F e ord mm) as (k & w & db & ->); [apply in_or_app; left; apply in_or_app; right; left; reflexivity|].
  all: exists es0, ord, mm, es2, k, w, db; cbn [env_of e_plain e_oauth e_user] in *.
  - destruct (Config.a_plain (k_auth k)) as [c|] eqn:C; [|discriminate]. injection P as <-. apply (plain_iff k w db c _ _ C) in V.
    eexists. split; [rewrite <- app_assoc; reflexivity|]. apply (APassword k w db [] _ _ V). left. reflexivity.
  - destruct (Config.a_plain (k_auth k)) as [c|] eqn:C; [|discriminate]. injection P as <-. apply (plain_iff k w db c _ _ C) in V.
    eexists. split; [rewrite <- app_assoc; reflexivity|]. exact (APassword k w db z user pass V Z).
  - destruct (Config.a_plain (k_auth k)) as [c|] eqn:C; [|discriminate]. injection P as <-. apply (plain_iff k w db c _ _ C) in V.
    destruct (beqb_spec z user) as [->|Nu]; [eexists; split; [rewrite <- app_assoc; reflexivity|]; exact (APassword k w db [] user pass V (or_introl eq_refl))|].
    destruct (Config.lookup (account user) db) as [a|] eqn:L; [|discriminate]. injection Ad as Ad. destruct (Config.lookup (account z) db) as [b|] eqn:L2; [|cbn in Ex; congruence].
    eexists. split; [rewrite <- app_assoc; reflexivity|]. apply (AAdmin k w db z user pass a b V L Ad L2); [|exact Nu]. intros ->. apply N. reflexivity.
  - destruct (Config.a_token (k_auth k)) eqn:C; [|discriminate]. injection G as <-. apply bearer_iff in T.
    eexists. split; [rewrite <- app_assoc; reflexivity|]. apply (AToken k w db user token v); [congruence|exact T|exact Nm].
Qed.

Lemma firstn_index s i : index_sep s = Some i -> ~ In "@"%char (firstn i s).
Proof.
  revert i. induction s as [|c s IH]; intros i; [discriminate|]. cbn [index_sep]. destruct (is_sep c) eqn:E; [intros H; injection H as <-; intros []|].
  destruct (index_sep s) as [j|]; [|discriminate]. intros H. injection H as <-. cbn [firstn]. intros [->|I]; [discriminate|exact (IH j eq_refl I)].
Qed.
Lemma index_none s : index_sep s = None -> ~ In "@"%char s.
Proof.
  induction s as [|c s IH]; [intros _ []|]. cbn [index_sep]. destruct (is_sep c) eqn:E; [discriminate|]. destruct (index_sep s); [discriminate|]. intros _ [->|I]; [discriminate|exact (IH eq_refl I)].
Qed.
Lemma account_plain name : ~ In "@"%char (account name).
Proof.
  unfold account, unmarshal_username.
  assert (G : ~ In "@"%char (match index_sep name with Some i => firstn i name | None => name end)) by (destruct (index_sep name) as [i|] eqn:E; [exact (firstn_index _ _ E)|exact (index_none _ E)]).
  repeat match goal with |- context [let '(_, _) := ?x in _] => destruct x end. exact G.
Qed.
