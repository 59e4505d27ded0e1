(** Proofs about the configuration. *)
From Coq Require Import NArith ZArith Lia.
From Verif.Base Require Import Bytes.
From Verif.Model Require Import IPAddr Glob Config.
From Verif.Proof Require IPAddr Glob.
From Verif.Spec Require Import IPAddr Glob Config.
Open Scope nat_scope.

Lemma bmem_iff x l : bmem x l = true <-> In x l.
Proof.
  unfold bmem. rewrite existsb_exists. split.
  - intros (y & I & E). apply beqb_eq in E. subst. exact I.
  - intros I. exists x. split; [exact I|apply beqb_refl].
Qed.

(** ** Drivers *)
Lemma driver_iff l x : driver_source l = Some x <-> words l x.
Proof.
  destruct x as [d s]. unfold words. cbn [fst snd]. destruct l as [|a [|b [|c l]]]; cbn [driver_source]; split; try discriminate.
  - intros [H|[H _]]; discriminate.
  - intros E. injection E as <- <-. right. auto.
  - intros [H|[H ->]]; [discriminate|]. injection H as ->. reflexivity.
  - intros E. injection E as <- <-. left. reflexivity.
  - intros [H|[H _]]; [|discriminate]. injection H as -> ->. reflexivity.
  - intros [H|[H _]]; discriminate.
Qed.
Lemma check_driver_iff wo ne l x : (forall d, In d wo -> In d ne -> False) -> check_driver wo ne l = Some x <-> words l x /\ takes wo ne x.
Proof.
  intros D. unfold check_driver, takes. rewrite <- driver_iff. destruct (driver_source l) as [[d s]|]; [|split; [discriminate|intros [X _]; discriminate]].
  destruct (bmem d wo) eqn:E1; [|destruct (bmem d ne) eqn:E2].
  - apply bmem_iff in E1. destruct (beqb_spec s []) as [->|N].
    + split; [intros H; injection H as <-; cbn [fst snd]; auto|intros [H _]; exact H].
    + split; [discriminate|]. intros [H T]. injection H as <-. cbn [fst snd] in T. destruct T as [[_ T]|[T _]]; [contradiction|destruct (D d E1 T)].
  - apply bmem_iff in E2. destruct (beqb_spec s []) as [->|N].
    + split; [discriminate|]. intros [H T]. injection H as <-. cbn [fst snd] in T. destruct T as [[T _]|[_ T]]; [apply bmem_iff in T; congruence|congruence].
    + split; [intros H; injection H as <-; cbn [fst snd]; auto|intros [H _]; exact H].
  - split; [discriminate|]. intros [H T]. injection H as <-. cbn [fst snd] in T. destruct T as [[T _]|[T _]]; apply bmem_iff in T; congruence.
Qed.
Ltac disjoint := let d := fresh in let a := fresh in let b := fresh in intros d a b; repeat (destruct a as [a|a]; [subst d; repeat (destruct b as [b|b]; [discriminate b|]); destruct b|]); destruct a.
Lemma store_iff l x : check_store l = Some x <-> store_words l x.
Proof. apply check_driver_iff. disjoint. Qed.
Lemma auth_iff l x : check_auth l = Some x <-> auth_words l x.
Proof. apply check_driver_iff. disjoint. Qed.
Lemma upload_iff l x : check_upload l = Some x <-> upload_words l x.
Proof. apply check_driver_iff. disjoint. Qed.
Lemma auths_iff l x : check_auths l = Some x <-> Forall2 auth_words l x.
Proof.
  revert x. induction l as [|a l IH]; intros x; cbn [check_auths].
  - split; [intros H; injection H as <-; constructor|intros H; inversion H; reflexivity].
  - split.
    + destruct (check_auth a) as [y|] eqn:E; [|discriminate]. destruct (check_auths l) as [z|]; [|discriminate]. intros H. injection H as <-. constructor; [apply auth_iff; exact E|apply IH; reflexivity].
    + intros H. inversion H as [|? y ? z A F]; subst. apply auth_iff in A. apply IH in F. rewrite A, F. reflexivity.
Qed.
Lemma auths_some l : (exists x, check_auths l = Some x) <-> forall a, In a l -> exists x, auth_words a x.
Proof.
  split.
  - intros [x H]. apply auths_iff in H. induction H as [|a y l z A F IH]; intros b I; [destruct I|]. destruct I as [<-|I]; [exists y; exact A|exact (IH b I)].
  - induction l as [|a l IH]; intros H; [exists []; reflexivity|]. destruct (H a (or_introl eq_refl)) as [y A]. destruct IH as [z E]; [intros b I; apply H; right; exact I|].
    exists (y :: z). apply auths_iff. constructor; [exact A|apply auths_iff; exact E].
Qed.

(** ** Ranges of addresses *)
Lemma v6_iff s base k n : range s base k -> parse_cidr s = Some n -> SourceAddr.is_v6 (c_ip n) = false <-> is_v4 base /\ (96 <= k)%N.
Proof.
  intros R P. apply Proof.IPAddr.cidr_iff in P. destruct P as (f & t & m & x & j & E & P & Nm & L & ->).
  assert (U : forall t2 m2, forallb Proof.IPAddr.plain t2 = true -> t2 ++ B "/" ++ m2 = t ++ B "/" ++ m -> t2 = t /\ m2 = m).
  { intros t2 m2 Pl Et. assert (Pt : forallb Proof.IPAddr.plain t = true) by (apply Proof.IPAddr.parse_addr_iff in P; destruct f; [eapply Proof.IPAddr.text4_plain|eapply Proof.IPAddr.text6_plain]; exact P).
    pose proof (Proof.IPAddr.cut_slash t2 m2 Pl) as C1. rewrite Et, Proof.IPAddr.cut_slash in C1 by exact Pt. injection C1 as -> ->. auto. }
  assert (V : forall m2 j1 j2, number m2 j1 -> number m2 j2 -> j1 = j2).
  { intros m2 j1 j2 N1 N2. apply Proof.IPAddr.number_iff in N1. apply Proof.IPAddr.number_iff in N2. destruct N1 as (_ & _ & <-). destruct N2 as (_ & _ & <-). reflexivity. }
  unfold SourceAddr.is_v6. destruct R as [t2 x2 m2 j2 T Nm2 L2|t2 x2 m2 j2 T Nm2 L2].
  - destruct (U t2 m2 (Proof.IPAddr.text4_plain _ _ T) E) as [-> ->]. rewrite (proj2 (Proof.IPAddr.parse_addr_iff t V4 x2) T) in P. injection P as <- <-.
    cbn [c_ip]. rewrite Proof.IPAddr.to4_4 by (rewrite Proof.IPAddr.apply_len; rewrite ?Proof.IPAddr.mask_len; rewrite (Proof.IPAddr.text4_len _ _ T); reflexivity).
    split; [|reflexivity]. intros _. split; [exists x2; reflexivity|lia].
  - destruct (U t2 m2 (Proof.IPAddr.text6_plain _ _ T) E) as [-> ->]. rewrite (proj2 (Proof.IPAddr.parse_addr_iff t V6 x2) T) in P. injection P as <- <-.
    rewrite (V _ _ _ Nm Nm2) in *. clear U V Nm Nm2 j m E. destruct (Proof.IPAddr.text6_address _ _ T) as [Lb Ob]. set (n := N.to_nat j2) in *. cbn [c_ip].
    assert (Lm : length (apply_mask (cidr_mask n 16) x2) = 16) by (rewrite Proof.IPAddr.apply_len; rewrite ?Proof.IPAddr.mask_len; auto).
    assert (S : x2 = firstn 12 x2 ++ skipn 12 x2) by (symmetry; apply firstn_skipn).
    assert (L1 : length (firstn 12 x2) = 12) by (rewrite firstn_length; lia).
    assert (O1 : Forall (fun b => (b < 256)%N) (firstn 12 x2)) by (rewrite S in Ob; apply Forall_app in Ob; apply Ob).
    destruct (Proof.IPAddr.to4_16 _ Lm) as [(x & Ex & Et & Lx)|[Nb Et]]; rewrite Et.
    + split; [intros _|reflexivity].
      assert (N96 : 96 <= n).
      { pose proof (Proof.IPAddr.nth_mask 16 11 n x2 ltac:(lia) Lb) as Q. rewrite Ex in Q. change (nth 11 (mapped ++ x) 0%N) with 255%N in Q. symmetry in Q.
        apply Proof.IPAddr.mask_255 in Q; [lia|]. rewrite Forall_forall in Ob. apply Ob. apply nth_In. lia. }
      split; [|lia]. rewrite S, (Proof.IPAddr.split16 n), Proof.IPAddr.apply_app in Ex by (rewrite Proof.IPAddr.mask_len; symmetry; exact L1).
      rewrite (Proof.IPAddr.mask_full 12) in Ex by (assumption || lia).
      destruct (Proof.IPAddr.app_inj_pivot_len _ _ mapped x L1 Ex) as [E1 _]. exists (skipn 12 x2). rewrite <- E1. exact S.
    + split; [discriminate|]. intros [[y Ey] H96]. exfalso. apply Nb. exists (apply_mask (cidr_mask (n - 96) 4) y). rewrite Ey.
      rewrite (Proof.IPAddr.split16 n), Proof.IPAddr.apply_app by (rewrite Proof.IPAddr.mask_len; reflexivity).
      rewrite (Proof.IPAddr.mask_full 12); [reflexivity|reflexivity|apply Proof.IPAddr.mapped_ok|lia].
Qed.
Lemma kind s : (exists n, parse_cidr s = Some n /\ SourceAddr.is_v6 (c_ip n) = false /\ range4 s /\ ~ range6 s)
  \/ (exists n, parse_cidr s = Some n /\ SourceAddr.is_v6 (c_ip n) = true /\ range6 s /\ ~ range4 s)
  \/ (parse_cidr s = None /\ ~ range4 s /\ ~ range6 s).
Proof.
  destruct (parse_cidr s) as [n|] eqn:P.
  - assert (R : exists base k, range s base k) by (apply Proof.IPAddr.range_iff; exists n; exact P). destruct R as (base & k & R).
    assert (A4 : range4 s -> SourceAddr.is_v6 (c_ip n) = false) by (intros (b & j & R' & H); apply (v6_iff s b j n R' P); exact H).
    assert (A6 : range6 s -> SourceAddr.is_v6 (c_ip n) = true).
    { intros (b & j & R' & H). destruct (SourceAddr.is_v6 (c_ip n)) eqn:E; [reflexivity|]. apply (v6_iff s b j n R' P) in E. contradiction. }
    destruct (SourceAddr.is_v6 (c_ip n)) eqn:E.
    + right. left. exists n. split; [reflexivity|]. split; [exact E|]. split; [|intros H; apply A4 in H; discriminate].
      exists base, k. split; [exact R|]. intros H. apply (v6_iff s base k n R P) in H. congruence.
    + left. exists n. split; [reflexivity|]. split; [exact E|]. split; [|intros H; apply A6 in H; discriminate]. exists base, k. split; [exact R|]. apply (v6_iff s base k n R P). exact E.
  - right. right. split; [reflexivity|].
    assert (N : ~ exists base k, range s base k) by (intros H; apply Proof.IPAddr.range_iff in H; destruct H as [n H]; congruence).
    split; intros (b & j & R & _); apply N; exists b, j; exact R.
Qed.
Lemma user_ips_iff l : (exists ns, load_user_ips l false false = Some ns) <-> user_ips_valid l.
Proof.
  unfold user_ips_valid. destruct l as [|a l]; [split; [left; reflexivity|exists []; reflexivity]|].
  assert (Long : forall a b c l, ~ (exists ns, load_user_ips (a :: b :: c :: l) false false = Some ns)).
  { clear. intros a b c l [ns H]. cbn [load_user_ips] in H. destruct (parse_cidr a) as [na|]; [|discriminate]. destruct (parse_cidr b) as [nb|]; [|destruct (SourceAddr.is_v6 (c_ip na)); discriminate].
    destruct (parse_cidr c) as [nc|]; [|destruct (SourceAddr.is_v6 (c_ip na)), (SourceAddr.is_v6 (c_ip nb)); discriminate].
    destruct (SourceAddr.is_v6 (c_ip na)), (SourceAddr.is_v6 (c_ip nb)), (SourceAddr.is_v6 (c_ip nc)); discriminate. }
  destruct l as [|b l].
  - cbn [load_user_ips]. destruct (kind a) as [(n & -> & -> & K & _)|[(n & -> & -> & K & _)|(-> & N4 & N6)]]; cbn [option_map].
    + split; [intros _; right; left; exists a; auto|eexists; reflexivity].
    + split; [intros _; right; left; exists a; auto|eexists; reflexivity].
    + split; [intros [ns H]; discriminate|]. intros [H|[(s & E & [H|H])|(x & y & [E|E] & _)]]; try discriminate; injection E as <-; contradiction.
  - destruct l as [|c l].
    + cbn [load_user_ips]. split.
      * intros [ns H]. right. right.
        destruct (kind a) as [(n & E & E6 & K & _)|[(n & E & E6 & K & _)|(E & N4 & N6)]]; rewrite E in H; [rewrite E6 in H..|discriminate];
        destruct (kind b) as [(m & F & F6 & J & _)|[(m & F & F6 & J & _)|(F & M4 & M6)]]; rewrite F in H; try discriminate; rewrite F6 in H; try discriminate; [exists a, b|exists b, a]; auto.
      * intros [H|[(s & E & _)|(x & y & [E|E] & K4 & K6)]]; try discriminate; injection E as <- <-.
        -- destruct (kind a) as [(n & -> & -> & K & _)|[(n & _ & _ & _ & K)|(_ & K & _)]]; try contradiction.
           destruct (kind b) as [(m & _ & _ & _ & K')|[(m & -> & -> & K' & _)|(_ & _ & K')]]; try contradiction. eexists. reflexivity.
        -- destruct (kind b) as [(n & -> & -> & K & _)|[(n & _ & _ & _ & K)|(_ & K & _)]]; try contradiction.
           destruct (kind a) as [(m & _ & _ & _ & K')|[(m & -> & -> & K' & _)|(_ & _ & K')]]; try contradiction. eexists. reflexivity.
    + split; [intros H; destruct (Long _ _ _ _ H)|]. intros [H|[(s & E & _)|(x & y & [E|E] & _)]]; discriminate.
Qed.
Lemma user_ips_contain l : forall h4 h6 ns, load_user_ips l h4 h6 = Some ns ->
  Forall2 (fun w n => forall a, address a -> cidr_contains n a = true <-> exists base k, range w base k /\ covers base k a) l ns.
Proof.
  induction l as [|s l IH]; intros h4 h6 ns; cbn [load_user_ips]; [intros H; injection H as <-; constructor|].
  destruct (parse_cidr s) as [n|] eqn:P; [|discriminate].
  assert (R : exists base k, range s base k) by (apply Proof.IPAddr.range_iff; exists n; exact P). destruct R as (base & k & R).
  assert (G : forall x y, option_map (cons n) (load_user_ips l x y) = Some ns ->
     Forall2 (fun w n => forall a, address a -> cidr_contains n a = true <-> exists base k, range w base k /\ covers base k a) (s :: l) ns).
  { intros x y H. destruct (load_user_ips l x y) as [ns'|] eqn:E; [|discriminate]. injection H as <-. constructor; [|exact (IH _ _ _ E)].
    intros a A. split.
    - intros H. exists base, k. split; [exact R|]. exact (proj1 (Proof.IPAddr.range_contains s base k n a R P A) H).
    - intros (b & j & R' & H). exact (proj2 (Proof.IPAddr.range_contains s b j n a R' P A) H). }
  destruct (SourceAddr.is_v6 (c_ip n)); [destruct h6; [discriminate|]|destruct h4; [discriminate|]]; apply G.
Qed.

(** ** The file *)
Lemma bool_iff s b : parse_bool s = Some b <-> bool_text s b.
Proof.
  unfold parse_bool, bool_text. destruct (bmem s [B "1"; B "t"; B "T"; B "TRUE"; B "true"; B "True"]) eqn:E1.
  - apply bmem_iff in E1. destruct b; [split; auto|]. split; [discriminate|]. intros H. exfalso.
    repeat (destruct E1 as [E1|E1]; [subst s; repeat (destruct H as [H|H]; [discriminate H|]); destruct H|]). destruct E1.
  - assert (N1 : ~ In s [B "1"; B "t"; B "T"; B "TRUE"; B "true"; B "True"]) by (intros H; apply bmem_iff in H; congruence).
    destruct (bmem s [B "0"; B "f"; B "F"; B "FALSE"; B "false"; B "False"]) eqn:E2.
    + apply bmem_iff in E2. destruct b; [split; [discriminate|contradiction]|split; auto].
    + destruct b; [split; [discriminate|contradiction]|]. split; [discriminate|]. intros H. apply bmem_iff in H. congruence.
Qed.
Section Load.
  Variable system_host : bytes.
  Variable days : bytes -> option Z.
  Lemma days_iff s n : parse_days days s = Some n <-> exists x, s = x ++ B "d" /\ days x = Some n.
  Proof.
    unfold parse_days. destruct (rev s) as [|c x] eqn:E.
    - split; [discriminate|]. intros (x & -> & _). rewrite rev_app_distr in E. discriminate.
    - assert (S : s = rev x ++ [c]) by (rewrite <- (rev_involutive s), E; reflexivity). rewrite S. destruct (aeqb_spec c "d") as [->|N].
      + split; [intros H; exists (rev x); auto|]. intros (y & Ey & H). change (B "d") with ["d"%char] in Ey. apply app_inj_tail in Ey. destruct Ey as [-> _]. exact H.
      + split; [discriminate|]. intros (y & Ey & _). change (B "d") with ["d"%char] in Ey. apply app_inj_tail in Ey. destruct Ey as [_ X]. contradiction.
  Qed.
  Lemma inactive_iff s : (exists n, check_inactive days s = Some n) <-> s = [] \/ exists x n, s = x ++ B "d" /\ days x = Some n /\ (0 <= n)%Z.
  Proof.
    destruct s as [|c s]; [split; [left; reflexivity|exists 0%Z; reflexivity]|]. set (t := c :: s). assert (Nt : t <> []) by discriminate.
    assert (E : check_inactive days t = match parse_days days t with Some n => if (n <? 0)%Z then None else Some n | None => None end) by reflexivity. rewrite E. clearbody t. clear c s E.
    split.
    - intros [n H]. right. destruct (parse_days days t) as [m|] eqn:P; [|discriminate]. destruct (Z.ltb_spec m 0); [discriminate|]. injection H as ->.
      apply days_iff in P. destruct P as (x & -> & D). exists x, n. auto.
    - intros [H|(x & n & E & D & L)]; [contradiction|]. assert (P : parse_days days t = Some n) by (apply days_iff; exists x; auto). rewrite P.
      destruct (Z.ltb_spec n 0); [lia|]. exists n. reflexivity.
  Qed.
  Lemma load_inv r s : load system_host days r = Some s ->
    (match match r_store r with None => r_log r | x => x end with None => Some (s_store (defaults system_host)) | Some p => check_store p end) = Some (s_store s) /\
    (match r_auth r with [] => Some (s_auth (defaults system_host)) | l => check_auths l end) = Some (s_auth s) /\
    (match r_upload r with None => Some None | Some p => option_map Some (check_upload p) end) = Some (s_upload s) /\
    origins_ok (r_origins r) = true /\ load_proxies (r_proxies r) = Some (s_proxies s) /\ load_user_ips (r_user_ips r) false false = Some (s_user_ips s) /\
    check_inactive days (r_inactive r) = Some (s_inactive s) /\ check_enable (r_enable r) = Some (s_enable s) /\
    s_listen s = r_listen r /\ s_tls s = r_tls r /\ s_title s = r_title r /\ s_motd s = r_motd r /\
    s_hostname s = (if beqb (r_hostname r) [] then system_host else r_hostname r) /\
    s_db s = (match r_db r with Some x => x | None => (B "sqlite3", B "soju.db") end) /\ s_origins s = r_origins r /\
    s_ingress s = (if beqb (r_ingress r) [] then B "https://" ++ s_hostname s else r_ingress r) /\
    s_max s = (match r_max r with Some n => n | None => (-1)%Z end).
  Proof.
    unfold load. cbv zeta.
    destruct (match match r_store r with None => r_log r | x => x end with None => _ | Some p => _ end) as [st|]; [|discriminate].
    destruct (match r_auth r with [] => _ | l => _ end) as [au|]; [|discriminate].
    destruct (match r_upload r with None => _ | Some p => _ end) as [up|]; [|discriminate].
    destruct (origins_ok (r_origins r)); [|discriminate]. destruct (load_proxies (r_proxies r)) as [pr|]; [|discriminate].
    destruct (load_user_ips (r_user_ips r) false false) as [ui|]; [|discriminate]. destruct (check_inactive days (r_inactive r)) as [ina|]; [|discriminate].
    destruct (check_enable (r_enable r)) as [en|]; [|discriminate]. intros H. injection H as <-. repeat match goal with |- _ /\ _ => split end; reflexivity.
  Qed.
  Lemma load_some r st au up pr ui ina en :
    (match match r_store r with None => r_log r | x => x end with None => Some (s_store (defaults system_host)) | Some p => check_store p end) = Some st ->
    (match r_auth r with [] => Some (s_auth (defaults system_host)) | l => check_auths l end) = Some au ->
    (match r_upload r with None => Some None | Some p => option_map Some (check_upload p) end) = Some up ->
    origins_ok (r_origins r) = true -> load_proxies (r_proxies r) = Some pr -> load_user_ips (r_user_ips r) false false = Some ui ->
    check_inactive days (r_inactive r) = Some ina -> check_enable (r_enable r) = Some en -> exists s, load system_host days r = Some s.
  Proof. intros H1 H2 H3 H4 H5 H6 H7 H8. unfold load. cbv zeta. rewrite H1, H2, H3, H4, H5, H6, H7, H8. eexists. reflexivity. Qed.
  Lemma enable_iff s b : check_enable s = Some b <-> (s = [] /\ b = false) \/ (s <> [] /\ bool_text s b).
  Proof.
    unfold check_enable. destruct s as [|c s].
    - split; [intros H; injection H as <-; left; auto|]. intros [[_ ->]|[H _]]; [reflexivity|congruence].
    - rewrite bool_iff. split; [intros H; right; split; [discriminate|exact H]|]. intros [[H _]|[_ H]]; [discriminate|exact H].
  Qed.
  Lemma valid_iff r : (exists s, load system_host days r = Some s) <-> valid days r.
  Proof.
    unfold valid. split.
    - intros [s H]. apply load_inv in H. destruct H as (H1 & H2 & H3 & H4 & H5 & H6 & H7 & H8 & _). repeat match goal with |- _ /\ _ => split end.
      + intros l [F|[F G]]; rewrite F in H1; [|rewrite G in H1]; exists (s_store s); apply store_iff; exact H1.
      + intros l I. apply (proj1 (auths_some (r_auth r))); [|exact I]. destruct (r_auth r); [destruct I|]. eexists. exact H2.
      + intros l F. rewrite F in H3. destruct (check_upload l) as [x|] eqn:E; [|discriminate]. exists x. apply upload_iff. exact E.
      + apply Proof.Glob.origins_patterns. exact H4.
      + intros w I. assert (F : Forall proxy_valid (r_proxies r)) by (apply Proof.IPAddr.proxies_valid; eexists; exact H5). rewrite Forall_forall in F. exact (F w I).
      + apply user_ips_iff. eexists. exact H6.
      + apply inactive_iff. eexists. exact H7.
      + apply enable_iff in H8. destruct H8 as [[E _]|[_ E]]; [left; exact E|right; eexists; exact E].
    - intros (V1 & V2 & V3 & V4 & V5 & V6 & V7 & V8).
      assert (A1 : exists st, (match match r_store r with None => r_log r | x => x end with None => Some (s_store (defaults system_host)) | Some p => check_store p end) = Some st).
      { destruct (r_store r) as [l|] eqn:E; [|destruct (r_log r) as [l|] eqn:E2; [|eexists; reflexivity]]; (destruct (V1 l) as [x X]; [|exists x; apply store_iff; exact X]).
        - left. exact E. - right. auto. }
      assert (A2 : exists au, (match r_auth r with [] => Some (s_auth (defaults system_host)) | l => check_auths l end) = Some au).
      { apply auths_some in V2. destruct (r_auth r); [eexists; reflexivity|exact V2]. }
      assert (A3 : exists up, (match r_upload r with None => Some None | Some p => option_map Some (check_upload p) end) = Some up).
      { destruct (r_upload r) as [l|]; [|eexists; reflexivity]. destruct (V3 l eq_refl) as [x X]. apply upload_iff in X. rewrite X. eexists. reflexivity. }
      apply Proof.Glob.origins_patterns in V4. assert (A5 : Forall proxy_valid (r_proxies r)) by (apply Forall_forall; exact V5). apply Proof.IPAddr.proxies_valid in A5.
      apply user_ips_iff in V6. apply inactive_iff in V7.
      assert (A8 : exists b, check_enable (r_enable r) = Some b).
      { destruct (r_enable r) as [|c t] eqn:E; [exists false; reflexivity|]. destruct V8 as [V8|[b V8]]; [discriminate|]. exists b. apply enable_iff. right. split; [discriminate|exact V8]. }
      destruct A1 as [? A1], A2 as [? A2], A3 as [? A3], A5 as [? A5], V6 as [? V6], V7 as [? V7], A8 as [? A8]. eapply load_some; eassumption.
  Qed.
  Lemma says_of r s : load system_host days r = Some s -> says system_host days r s.
  Proof.
    intros H. apply load_inv in H. destruct H as (H1 & H2 & H3 & H4 & H5 & H6 & H7 & H8 & H9 & H10 & H11 & H12 & H13 & H14 & H15 & H16 & H17). unfold says.
    repeat match goal with |- _ /\ _ => split end; try assumption.
    - unfold or_else. destruct (beqb_spec (r_hostname r) []) as [E|N]; [right|left]; auto.
    - unfold or_else. destruct (beqb_spec (r_ingress r) []) as [E|N]; [right|left]; auto.
    - intros x E. rewrite E in H14. exact H14.
    - intros E. rewrite E in H14. exact H14.
    - intros l [F|[F G]]; rewrite F in H1; [|rewrite G in H1]; apply store_iff; exact H1.
    - intros N. destruct (r_store r) as [l|] eqn:E; [exfalso; apply (N l); left; exact E|]. destruct (r_log r) as [l|] eqn:E2; [exfalso; apply (N l); right; auto|].
      injection H1 as <-. reflexivity.
    - intros E. rewrite E in H2. injection H2 as <-. reflexivity.
    - intros N. destruct (r_auth r); [congruence|]. apply auths_iff. exact H2.
    - intros l E. rewrite E in H3. destruct (check_upload l) as [x|] eqn:U; [|discriminate]. injection H3 as <-. exists x. split; [reflexivity|apply upload_iff; exact U].
    - intros E. rewrite E in H3. injection H3 as <-. reflexivity.
    - intros a A. apply Proof.IPAddr.proxies_contain; assumption.
    - intros n E. rewrite E in H17. exact H17.
    - intros E. rewrite E in H17. exact H17.
    - exact (user_ips_contain _ _ _ _ H6).
    - intros E. rewrite E in H7. injection H7 as <-. reflexivity.
    - intros x E. assert (N : r_inactive r <> []) by (rewrite E; destruct x; discriminate). 
      assert (Q : check_inactive days (r_inactive r) = match parse_days days (r_inactive r) with Some n => if (n <? 0)%Z then None else Some n | None => None end) by (destruct (r_inactive r); [congruence|reflexivity]).
      rewrite Q in H7. destruct (parse_days days (r_inactive r)) as [n|] eqn:P; [|discriminate]. destruct (n <? 0)%Z; [discriminate|]. injection H7 as <-.
      apply days_iff in P. destruct P as (y & Ey & D). rewrite E in Ey. apply app_inv_tail in Ey. subst y. exact D.
    - intros E. apply enable_iff in H8. destruct H8 as [[_ H8]|[N _]]; [exact H8|contradiction].
    - intros N. apply enable_iff in H8. destruct H8 as [[E _]|[_ H8]]; [contradiction|exact H8].
  Qed.
End Load.

(** ** Authentication *)
Lemma only_none {A} (P : A -> Prop) l : only P l None <-> Forall (fun x => ~ P x) l.
Proof. split; [intros H; inversion H; assumption|apply OnlyNone]. Qed.
Lemma only_cons {A} (P : A -> Prop) x l o : only P (x :: l) o <-> (P x /\ only P l None /\ o = Some x) \/ (~ P x /\ only P l o).
Proof.
  split.
  - intros H. remember (x :: l) as xl eqn:E. destruct H as [l' F|l1 y l2 Py F1 F2].
    + subst l'. inversion F; subst. right. split; [assumption|constructor; assumption].
    + destruct l1 as [|z l1]; cbn [app] in E; injection E as E1 E2; subst.
      * left. split; [exact Py|]. split; [constructor; exact F2|reflexivity].
      * inversion F1; subst. right. split; [assumption|]. constructor; assumption.
  - intros [(Px & F & ->)|(N & H)].
    + apply only_none in F. apply (OnlyOne P [] x l); [exact Px|constructor|exact F].
    + inversion H as [l' F|l1 y l2 Py F1 F2]; subst; [constructor; constructor; assumption|]. apply (OnlyOne P (x :: l1) y l2); [exact Py|constructor; assumption|exact F2].
Qed.
Definition known (x : bytes * bytes) : Prop := In (fst x) [B "internal"; B "http"; B "oauth2"; B "pam"].
Definition avail (ok : bytes -> bytes -> bool) (x : bytes * bytes) : Prop := In (fst x) [B "oauth2"; B "pam"] -> ok (fst x) (snd x) = true.
Definition chk (x : bytes * bytes) : checker := if beqb (fst x) (B "internal") then Internal else if beqb (fst x) (B "http") then Http (snd x) else Pam.
Lemma checks_iff x c : checks x c <-> for_plain x /\ c = chk x.
Proof.
  destruct x as [d s]. unfold checks, for_plain, chk. cbn [fst snd]. split.
  - intros [[-> ->]|[[-> ->]|[-> ->]]]; (split; [|reflexivity]); [left; reflexivity|right; left; reflexivity|right; right; left; reflexivity].
  - intros [[H|[H|[H|[]]]] ->]; subst d; [left; auto|right; left; auto|right; right; auto].
Qed.
(** A line is one of these. *)
Lemma new_cases ok x : known x ->
  (for_plain x /\ ~ for_token x /\ ((avail ok x /\ new_auth ok (fst x) (snd x) = Some (Auth (Some (chk x)) None)) \/ (~ avail ok x /\ new_auth ok (fst x) (snd x) = None))) \/
  (for_token x /\ ~ for_plain x /\ ((avail ok x /\ new_auth ok (fst x) (snd x) = Some (Auth None (Some (snd x)))) \/ (~ avail ok x /\ new_auth ok (fst x) (snd x) = None))).
Proof.
  destruct x as [d s]. unfold known, for_plain, for_token, avail. cbn [fst snd]. intros [H|[H|[H|[H|[]]]]]; subst d.
  - left. split; [left; reflexivity|]. split; [discriminate|]. left. split; [intros [X|[X|[]]]; discriminate X|reflexivity].
  - left. split; [right; left; reflexivity|]. split; [discriminate|]. left. split; [intros [X|[X|[]]]; discriminate X|reflexivity].
  - right. split; [reflexivity|]. split; [intros [X|[X|[X|[]]]]; discriminate X|]. unfold new_auth. change (beqb (B "oauth2") (B "internal")) with false. change (beqb (B "oauth2") (B "http")) with false.
    change (beqb (B "oauth2") (B "oauth2")) with true. cbv iota. destruct (ok (B "oauth2") s); [left|right]; (split; [|reflexivity]); [reflexivity|].
    intros X. discriminate (X (or_introl eq_refl)).
  - left. split; [right; right; left; reflexivity|]. split; [discriminate|]. unfold new_auth. change (beqb (B "pam") (B "internal")) with false. change (beqb (B "pam") (B "http")) with false.
    change (beqb (B "pam") (B "oauth2")) with false. change (beqb (B "pam") (B "pam")) with true. cbv iota. destruct (ok (B "pam") s); [left|right]; (split; [|reflexivity]); [reflexivity|].
    intros X. discriminate (X (or_intror (or_introl eq_refl))).
Qed.
Lemma add_auths_iff ok l : Forall known l -> forall p0 t0 a, add_auths ok l (Auth p0 t0) = Some a <->
  exists p t, only for_plain l p /\ only for_token l t /\ Forall (avail ok) l /\ (p0 <> None -> p = None) /\ (t0 <> None -> t = None) /\
    a_plain a = (match p with Some x => Some (chk x) | None => p0 end) /\ a_token a = (match t with Some y => Some (snd y) | None => t0 end).
Proof.
  induction l as [|x l IH]; intros K p0 t0 a.
  - cbn [add_auths]. split.
    + intros H. injection H as <-. exists None, None. repeat split; try (constructor; constructor); constructor.
    + intros (p & t & P & T & _ & _ & _ & E1 & E2). inversion P as [|l1 ? ? ? ? ? E]; subst; [|destruct l1; discriminate]. inversion T as [|l1 ? ? ? ? ? E]; subst; [|destruct l1; discriminate].
      destruct a as [a1 a2]. cbn [a_plain a_token] in *. congruence.
  - inversion K as [|? ? Kx Kl]; subst. specialize (IH Kl). destruct x as [d s]. cbn [add_auths]. destruct (new_cases ok (d, s) Kx) as [(Px & Nx & [[Av E]|[Na E]])|(Px & Nx & [[Av E]|[Na E]])]; cbn [fst snd] in E; rewrite E.
    + cbn [a_plain a_token]. destruct p0 as [c0|].
      * split; [discriminate|]. intros (p & t & P & _ & _ & H & _). rewrite (H ltac:(discriminate)) in P. apply only_none in P. inversion P; subst. contradiction.
      * rewrite IH. split.
        -- intros (p & t & P & T & F & H1 & H2 & E1 & E2). rewrite (H1 ltac:(discriminate)) in *. exists (Some (d, s)), t. repeat split; try assumption.
           ++ apply only_cons. left. auto. ++ apply only_cons. right. auto. ++ constructor; assumption. ++ congruence.
        -- intros (p & t & P & T & F & H1 & H2 & E1 & E2). apply only_cons in P. destruct P as [(_ & P & ->)|(N & _)]; [|contradiction]. apply only_cons in T. destruct T as [(N & _)|(_ & T)]; [contradiction|].
           inversion F; subst. exists None, t. repeat split; assumption || congruence.
    + split; [discriminate|]. intros (p & t & _ & _ & F & _). inversion F; subst. contradiction.
    + cbn [a_plain a_token]. destruct t0 as [u|].
      * assert (G : (match p0 with Some _ => None | None => None end : option auth) = Some a <-> False) by (destruct p0; split; discriminate || contradiction).
        assert (X : ~ exists p t, only for_plain ((d, s) :: l) p /\ only for_token ((d, s) :: l) t /\ Forall (avail ok) ((d, s) :: l) /\ (p0 <> None -> p = None) /\ (Some u <> None -> t = None) /\
           a_plain a = (match p with Some x => Some (chk x) | None => p0 end) /\ a_token a = (match t with Some y => Some (snd y) | None => Some u end)).
        { intros (p & t & _ & T & _ & _ & H & _). rewrite (H ltac:(discriminate)) in T. apply only_none in T. inversion T; subst. contradiction. }
        destruct p0; (split; [discriminate|intros H; destruct (X H)]).
      * assert (X : add_auths ok l (Auth p0 (Some s)) = Some a <-> exists p t, only for_plain ((d, s) :: l) p /\ only for_token ((d, s) :: l) t /\ Forall (avail ok) ((d, s) :: l) /\ (p0 <> None -> p = None) /\ (@None bytes <> None -> t = None) /\
           a_plain a = (match p with Some x => Some (chk x) | None => p0 end) /\ a_token a = (match t with Some y => Some (snd y) | None => None end)).
        { rewrite IH. split.
          - intros (p & t & P & T & F & H1 & H2 & E1 & E2). rewrite (H2 ltac:(discriminate)) in *. exists p, (Some (d, s)). repeat split; try assumption.
            + apply only_cons. right. auto. + apply only_cons. left. auto. + constructor; assumption. + congruence.
          - intros (p & t & P & T & F & H1 & H2 & E1 & E2). apply only_cons in T. destruct T as [(_ & T & ->)|(N & _)]; [|contradiction]. apply only_cons in P. destruct P as [(N & _)|(_ & P)]; [contradiction|].
            inversion F; subst. exists p, None. repeat split; assumption || congruence. }
        destruct p0; exact X.
    + split; [discriminate|]. intros (p & t & _ & _ & F & _). inversion F; subst. contradiction.
Qed.
Lemma load_auth_iff ok l a : Forall known l -> load_auth ok l = Some a <-> auth_says ok l a.
Proof.
  intros K. unfold load_auth, auth_says.
  assert (Av : Forall (avail ok) l <-> forall x, In x l -> In (fst x) [B "oauth2"; B "pam"] -> ok (fst x) (snd x) = true) by (rewrite Forall_forall; reflexivity).
  assert (PL : forall x, only for_plain l (Some x) -> for_plain x) by (intros x H; inversion H; assumption).
  split.
  - destruct (add_auths ok l (Auth None None)) as [b|] eqn:E; [|discriminate]. apply (add_auths_iff ok l K) in E. destruct E as (p & t & P & T & F & _ & _ & E1 & E2).
    intros H. exists p, t. split; [exact P|]. split; [exact T|]. split; [apply Av; exact F|]. destruct b as [b1 b2]. cbn [a_plain a_token] in E1, E2. subst b1 b2.
    destruct p as [x|]; [|destruct t as [y|]]; injection H as <-; cbn [a_plain a_token].
    + split; [destruct t; reflexivity|]. exists (chk x). split; [apply checks_iff; auto|reflexivity].
    + split; reflexivity.
    + split; reflexivity.
  - intros (p & t & P & T & F & E2 & E1). apply Av in F.
    assert (A : add_auths ok l (Auth None None) = Some (Auth (match p with Some x => Some (chk x) | None => None end) (match t with Some y => Some (snd y) | None => None end))).
    { apply (add_auths_iff ok l K). exists p, t. repeat split; try assumption; congruence. }
    rewrite A. destruct a as [a1 a2]. cbn [a_plain a_token] in *. subst a2. destruct p as [x|]; [|destruct t as [y|]; subst a1; reflexivity].
    destruct E1 as (c & C & ->). apply checks_iff in C. destruct C as [_ ->]. destruct t; reflexivity.
Qed.
Lemma auth_known l x : auth_words l x -> known x.
Proof.
  unfold auth_words, takes, known. intros [_ [[[H|[H|[]]] _]|[[H|[H|[]]] _]]]; rewrite <- H; [left|right; right; right; left|right; left|right; right; left]; reflexivity.
Qed.
Lemma loaded_known h days r s : load h days r = Some s -> Forall known (s_auth s).
Proof.
  intros H. apply says_of in H. unfold says in H. destruct H as (_ & _ & _ & _ & _ & _ & _ & _ & _ & _ & A1 & A2 & _). destruct (r_auth r) as [|x l].
  - rewrite (A1 eq_refl). constructor; [left; reflexivity|constructor].
  - assert (F : Forall2 auth_words (x :: l) (s_auth s)) by (apply A2; discriminate). revert F. generalize (x :: l) (s_auth s). induction 1; constructor; [eapply auth_known; eassumption|assumption].
Qed.
(** Somebody checks passwords. *)
Lemma somebody ok l a : l <> [] -> Forall known l -> load_auth ok l = Some a -> a_plain a <> None.
Proof.
  intros N K H. apply load_auth_iff in H; [|exact K]. destruct H as (p & t & P & T & _ & _ & E). destruct p as [x|]; [destruct E as (c & _ & ->); discriminate|]. destruct t as [y|]; [rewrite E; discriminate|].
  exfalso. apply only_none in P. apply only_none in T. destruct l as [|x l]; [congruence|]. inversion K; inversion P; inversion T; subst.
  destruct (new_cases ok x ltac:(assumption)) as [(X & _)|(X & _)]; contradiction.
Qed.

(** ** Reloading *)
Section Reload.
  Variable system_host : bytes.
  Variable days : bytes -> option Z.
  Notation load_config := (load_config system_host days).
  Notation loads := (loads system_host days).
  Notation step := (step system_host days).
  Notation exec := (exec system_host days).
  Notation no_cert := (no_cert system_host days).

  Lemma trim_iff f m : trim_newline f = m <-> f = m ++ [newline] \/ (f = m /\ forall x, f <> x ++ [newline]).
  Proof.
    unfold trim_newline. destruct (rev f) as [|c x] eqn:E.
    - assert (f = []) by (rewrite <- (rev_involutive f), E; reflexivity). subst f. split.
      + intros <-. right. split; [reflexivity|]. intros x. destruct x; discriminate.
      + intros [H|[H _]]; [destruct m; discriminate|exact H].
    - assert (S : f = rev x ++ [c]) by (rewrite <- (rev_involutive f), E; reflexivity). rewrite S. destruct (aeqb_spec c newline) as [->|N].
      + split; [intros <-; left; reflexivity|]. intros [H|[H X]]; [apply app_inj_tail in H; apply H|destruct (X (rev x) eq_refl)].
      + split; [intros <-; right; split; [reflexivity|]; intros y H; apply app_inj_tail in H; destruct H; contradiction|].
        intros [H|[H _]]; [apply app_inj_tail in H; destruct H; contradiction|exact H].
  Qed.
  Lemma uploader_ok h r s : load h days r = Some s -> (match s_upload s with None => Some None | Some p => option_map Some (new_uploader p) end) = Some (s_upload s).
  Proof.
    intros H. apply load_inv in H. destruct H as (_ & _ & H & _). destruct (r_upload r) as [l|]; [|injection H as <-; reflexivity].
    destruct (check_upload l) as [x|] eqn:E; [|discriminate]. injection H as <-. apply upload_iff in E. destruct E as [_ [[[] _]|[I _]]]. unfold new_uploader.
    rewrite (proj2 (bmem_iff (fst x) [B "fs"; B "http"]) I). reflexivity.
  Qed.
  (** The configuration does not depend on the certificate before; the certificate changes only if there is one. *)
  Lemma loads_iff w cert c : fst (load_config w cert) = Some c <-> loads w c.
  Proof.
    unfold Config.load_config, Spec.Config.loads. destruct (w_raw w) as [r|]; [|split; [discriminate|intros (r & E & _); discriminate]].
    destruct (load system_host days r) as [s|] eqn:L; [|split; [discriminate|intros (r' & E & L' & _); injection E as <-; congruence]].
    pose proof (loaded_known _ _ _ _ L) as K. pose proof (uploader_ok _ _ _ L) as U.
    assert (M : forall m, (match s_motd s with [] => Some [] | f => option_map trim_newline (w_file w f) end) = Some m <->
      ((s_motd s = [] /\ m = []) \/ (s_motd s <> [] /\ exists f, w_file w (s_motd s) = Some f /\ (f = m ++ [newline] \/ (f = m /\ forall x, f <> x ++ [newline]))))).
    { intros m. destruct (s_motd s) as [|c0 t].
      - split; [intros H; injection H as <-; left; auto|]. intros [[_ ->]|[N _]]; [reflexivity|congruence].
      - split.
        + destruct (w_file w (c0 :: t)) as [f|]; [|discriminate]. intros H. injection H as H. right. split; [discriminate|]. exists f. split; [reflexivity|]. apply trim_iff. exact H.
        + intros [[H _]|[_ (f & -> & H)]]; [discriminate|]. apply trim_iff in H. cbn [option_map]. rewrite H. reflexivity. }
    split.
    - destruct (match s_motd s with [] => Some [] | f => option_map trim_newline (w_file w f) end) as [m|]; [|discriminate].
      destruct (load_auth (w_new_auth w) (s_auth s)) as [a|] eqn:A; [|discriminate].
      destruct (match s_tls s with None => Some cert | Some p => option_map Some (w_cert w p) end) as [cert'|] eqn:C; [|discriminate]. rewrite U. cbn [fst]. intros H. injection H as <-.
      exists r. cbn [c_server c_motd c_auth c_uploader]. split; [reflexivity|]. split; [exact L|]. split; [apply M; reflexivity|]. split; [apply load_auth_iff; assumption|]. split; [|reflexivity].
      intros p E. rewrite E in C. destruct (w_cert w p); discriminate.
    - intros (r' & E & L' & Mo & Au & Ce & Up). injection E as <-. rewrite L in L'. injection L' as ->. destruct c as [s m a up]. cbn [c_server c_motd c_auth c_uploader] in *.
      apply M in Mo. rewrite Mo. apply (load_auth_iff _ _ _ K) in Au. rewrite Au.
      assert (C : exists cert', (match s_tls s with None => Some cert | Some p => option_map Some (w_cert w p) end) = Some cert').
      { destruct (s_tls s) as [p|]; [|eexists; reflexivity]. specialize (Ce p eq_refl). destruct (w_cert w p); [eexists; reflexivity|congruence]. }
      destruct C as [cert' C]. rewrite C, U. subst up. reflexivity.
  Qed.
  Lemma cert_of w cert : snd (load_config w cert) =
    match fst (load_config w cert) with Some c => match s_tls (c_server c) with Some p => w_cert w p | None => cert end | None => cert end.
  Proof.
    unfold Config.load_config. destruct (w_raw w) as [r|]; [|reflexivity]. destruct (load system_host days r) as [s|] eqn:L; [|reflexivity]. pose proof (uploader_ok _ _ _ L) as U.
    destruct (match s_motd s with [] => Some [] | f => option_map trim_newline (w_file w f) end) as [m|]; [|reflexivity].
    destruct (load_auth (w_new_auth w) (s_auth s)) as [a|]; [|reflexivity]. destruct (s_tls s) as [p|] eqn:T.
    - destruct (w_cert w p) as [x|] eqn:C; [|reflexivity]. cbn [option_map]. rewrite U. cbn [fst snd c_server]. rewrite T. symmetry. exact C.
    - rewrite U. cbn [fst snd c_server]. rewrite T. reflexivity.
  Qed.
  Lemma loads_det w c c' : loads w c -> loads w c' -> c = c'.
  Proof. intros H H'. apply (loads_iff w None) in H. apply (loads_iff w None) in H'. congruence. Qed.
  Lemma loads_dec w : (exists c, loads w c) \/ forall c, ~ loads w c.
  Proof.
    destruct (fst (load_config w None)) as [c|] eqn:E; [left; exists c; apply (loads_iff w None); exact E|]. right. intros c H. apply (loads_iff w None) in H. congruence.
  Qed.
  Lemma loads_cert w c p : loads w c -> s_tls (c_server c) = Some p -> w_cert w p <> None.
  Proof. intros (r & _ & _ & _ & _ & H & _). apply H. Qed.

  (** A signal that fails changes nothing. *)
  Lemma failed p w : (forall c, ~ loads w c) -> step p (Hup w) = (p, None).
  Proof.
    intros N. cbn [Config.step]. pose proof (cert_of w (p_cert p)) as C. destruct (load_config w (p_cert p)) as [c cert] eqn:E. cbn [fst snd] in C.
    destruct c as [c|]; [exfalso; apply (N c); apply (loads_iff w (p_cert p)); rewrite E; reflexivity|]. subst cert. destruct p. reflexivity.
  Qed.
  Lemma succeeded p w c : loads w c -> p_config (fst (step p (Hup w))) = c.
  Proof. intros H. apply (loads_iff w (p_cert p)) in H. cbn [Config.step]. destruct (load_config w (p_cert p)) as [c' cert]. cbn [fst] in *. rewrite H. reflexivity. Qed.

  Lemma last_snoc_yes ws w c : loads w c -> last_loaded system_host days (ws ++ [w]) c.
  Proof. intros H. exists ws, w, []. split; [reflexivity|]. split; [exact H|constructor]. Qed.
  Lemma last_snoc_no ws w c : (forall c', ~ loads w c') -> last_loaded system_host days ws c -> last_loaded system_host days (ws ++ [w]) c.
  Proof.
    intros N (ws1 & w1 & ws2 & -> & H & F). exists ws1, w1, (ws2 ++ [w]). split; [rewrite <- app_assoc; reflexivity|]. split; [exact H|]. apply Forall_app. split; [exact F|constructor; [exact N|constructor]].
  Qed.
  Definition good (ws : list world) (p : proc) : Prop :=
    last_loaded system_host days ws (p_config p) /\ last_cert system_host days ws (p_cert p) /\ (p_tls p = true -> p_cert p <> None).
  Lemma cert_step ws cert w : last_cert system_host days ws cert -> last_cert system_host days (ws ++ [w]) (snd (load_config w cert)).
  Proof.
    intros H. rewrite cert_of. pose proof (loads_iff w cert) as L. 
    assert (Keep : no_cert w -> last_cert system_host days (ws ++ [w]) cert).
    { intros N. destruct H as [[E F]|(ws1 & w1 & ws2 & c & p & -> & H1 & H2 & H3 & H4 & F)].
      - left. split; [exact E|]. apply Forall_app. split; [exact F|constructor; [exact N|constructor]].
      - right. exists ws1, w1, (ws2 ++ [w]), c, p. rewrite <- app_assoc. repeat split; try assumption. apply Forall_app. split; [exact F|constructor; [exact N|constructor]]. }
    destruct (fst (load_config w cert)) as [c|].
    - assert (Hc : loads w c) by (apply L; reflexivity). destruct (s_tls (c_server c)) as [p|] eqn:T.
      + right. exists ws, w, [], c, p. repeat split; try assumption; [exact (loads_cert _ _ _ Hc T)|constructor].
      + apply Keep. intros c' H'. rewrite (loads_det _ _ _ H' Hc). exact T.
    - apply Keep. intros c' H'. apply L in H'. discriminate.
  Qed.
  Lemma step_good ws p o : good ws p -> good (ws ++ hups [o]) (fst (step p o)).
  Proof.
    intros (G1 & G2 & G3). destruct o as [w|n|n|n want]; cbn [hups Config.step fst]; rewrite ?app_nil_r.
    - pose proof (cert_step ws (p_cert p) w G2) as C. pose proof (cert_of w (p_cert p)) as Q. pose proof (loads_iff w (p_cert p)) as L. destruct (load_config w (p_cert p)) as [c cert]. cbn [fst snd] in *.
      unfold good. cbn [p_config p_cert p_tls]. split; [|split; [exact C|]].
      + destruct c as [c|]; [apply last_snoc_yes; apply L; reflexivity|]. apply last_snoc_no; [|exact G1]. intros c H. apply L in H. discriminate.
      + intros T. specialize (G3 T). rewrite Q. destruct c as [c|]; [|exact G3]. destruct (s_tls (c_server c)) as [q|] eqn:Eq; [|exact G3]. apply (loads_cert w c q); [apply L; reflexivity|exact Eq].
    - destruct (lookup n (p_users p)); exact (conj G1 (conj G2 G3)).
    - exact (conj G1 (conj G2 G3)).
    - exact (conj G1 (conj G2 G3)).
  Qed.
  Lemma exec_good l : forall ws p, good ws p -> good (ws ++ hups l) (fst (exec p l)).
  Proof.
    induction l as [|o l IH]; intros ws p G; [cbn [hups Config.exec fst]; rewrite app_nil_r; exact G|]. cbn [Config.exec].
    pose proof (step_good ws p o G) as S. destruct (step p o) as [p1 b]. cbn [fst] in S. specialize (IH _ _ S). destruct (exec p1 l) as [p2 bs]. cbn [fst] in *.
    replace (ws ++ hups (o :: l)) with ((ws ++ hups [o]) ++ hups l); [exact IH|]. destruct o; cbn [hups]; rewrite <- app_assoc; reflexivity.
  Qed.
  Lemma start_good flags names w p : start system_host days flags names w = Some p -> good [w] p.
  Proof.
    unfold start. pose proof (cert_step [] None w) as C. pose proof (loads_iff w None) as L. pose proof (cert_of w None) as Q. destruct (load_config w None) as [[c|] cert]; [|discriminate]. cbn [fst snd] in *.
    intros H. injection H as <-. unfold good. cbn [p_config p_cert p_tls]. assert (Lc : loads w c) by (apply L; reflexivity). split; [|split].
    - exists [], w, []. split; [reflexivity|]. split; [exact Lc|constructor].
    - apply C. left. split; [reflexivity|constructor].
    - destruct (s_tls (c_server c)) as [q|] eqn:E; [|discriminate]. intros _. rewrite Q. exact (loads_cert _ _ _ Lc E).
  Qed.
  Lemma running flags names w p0 l p outs : start system_host days flags names w = Some p0 -> exec p0 l = (p, outs) ->
    last_loaded system_host days (w :: hups l) (p_config p) /\ last_cert system_host days (w :: hups l) (p_cert p) /\ (p_tls p = true -> p_cert p <> None).
  Proof. intros S E. pose proof (exec_good l [w] p0 (start_good _ _ _ _ S)) as G. rewrite E in G. exact G. Qed.
  Lemma last_det ws c c' : last_loaded system_host days ws c -> last_loaded system_host days ws c' -> c = c'.
  Proof.
    assert (Rev : forall ws c, last_loaded system_host days ws c -> forall w ws', ws = ws' ++ [w] -> loads w c \/ ((forall x, ~ loads w x) /\ last_loaded system_host days ws' c)).
    { intros ws0 c0 (ws1 & w1 & ws2 & E & H & F) w ws' E'. destruct ws2 as [|x ws2] using rev_ind.
      - rewrite E in E'. apply app_inj_tail in E'. destruct E' as [_ ->]. left. exact H.
      - rewrite E, app_comm_cons, app_assoc in E'. apply app_inj_tail in E'. destruct E' as [<- ->]. apply Forall_app in F. destruct F as [F1 F2]. right. split; [inversion F2; assumption|].
        exists ws1, w1, ws2. auto. }
    induction ws as [|w ws IH] using rev_ind; intros H H'.
    - destruct H as (ws1 & w & ws2 & E & _). destruct ws1; discriminate.
    - destruct (Rev _ _ H w ws eq_refl) as [A|[N A]]; destruct (Rev _ _ H' w ws eq_refl) as [A'|[N' A']].
      + exact (loads_det _ _ _ A A'). + destruct (N' _ A). + destruct (N _ A'). + exact (IH A A').
  Qed.

  (** Listeners and the database stay. *)
  Lemma step_fixed p o : p_listen (fst (step p o)) = p_listen p /\ p_tls (fst (step p o)) = p_tls p /\ p_db (fst (step p o)) = p_db p.
  Proof. destruct o as [w|n|n|n want]; cbn [Config.step]; [destruct (load_config w (p_cert p))|destruct (lookup n (p_users p))| |]; repeat split. Qed.
  Lemma fixed l : forall p, p_listen (fst (exec p l)) = p_listen p /\ p_tls (fst (exec p l)) = p_tls p /\ p_db (fst (exec p l)) = p_db p.
  Proof.
    induction l as [|o l IH]; intros p; [repeat split|]. cbn [Config.exec]. destruct (step_fixed p o) as (A & B0 & C). destruct (step p o) as [p1 b]. cbn [fst] in *.
    destruct (IH p1) as (A' & B' & C'). destruct (exec p1 l) as [p2 bs]. cbn [fst] in *. repeat split; congruence.
  Qed.

  (** So does the message store of a user, as long as it runs. *)
  Lemma lookup_remove {A} n m (l : list (bytes * A)) : m <> n -> lookup n (remove m l) = lookup n l.
  Proof.
    intros N. unfold remove. induction l as [|[k v] l IH]; [reflexivity|]. cbn [filter fst lookup]. destruct (beqb_spec k m) as [->|Nk]; cbn [negb].
    - destruct (beqb_spec m n) as [E|_]; [contradiction|exact IH].
    - cbn [lookup]. destruct (beqb k n); [reflexivity|exact IH].
  Qed.
  Lemma store_stays n st l : Forall (fun o => o <> StopUser n) l -> forall p, lookup n (p_users p) = Some st -> lookup n (p_users (fst (exec p l))) = Some st.
  Proof.
    induction 1 as [|o l No _ IH]; intros p E; [exact E|]. cbn [Config.exec].
    assert (S : lookup n (p_users (fst (step p o))) = Some st).
    { destruct o as [w|m|m|m want]; cbn [Config.step].
      - destruct (load_config w (p_cert p)). exact E.
      - destruct (lookup m (p_users p)) eqn:Em; [exact E|]. cbn [fst p_users lookup]. destruct (beqb_spec m n) as [->|_]; [congruence|exact E].
      - cbn [fst p_users]. rewrite lookup_remove; [exact E|]. intros ->. apply No. reflexivity.
      - exact E. }
    destruct (step p o) as [p1 b]. cbn [fst] in S. specialize (IH p1 S). destruct (exec p1 l). exact IH.
  Qed.

  (** What was missed can be had, if no configuration changes the kind of store. *)
  Definition kind_of (p : proc) (b : bool) : Prop := offered (p_config p) = b /\ Forall (fun kv => can_history (fst (snd kv)) = b) (p_users p).
  Lemma lookup_In {A} n (l : list (bytes * A)) v : lookup n l = Some v -> exists k, In (k, v) l.
  Proof. induction l as [|[k x] l IH]; [discriminate|]. cbn [lookup]. destruct (beqb k n); [intros H; injection H as ->; exists k; left; reflexivity|]. intros H. destruct (IH H) as [j I]. exists j. right. exact I. Qed.
  Lemma never_lost b l : (forall w c, In w (hups l) -> loads w c -> offered c = b) -> forall p, kind_of p b -> ~ In (Some Lost) (snd (exec p l)).
  Proof.
    induction l as [|o l IH]; intros H p [K1 K2]; [intros []|]. cbn [Config.exec].
    assert (H' : forall w c, In w (hups l) -> loads w c -> offered c = b) by (intros w c I; apply H; destruct o; cbn [hups]; [right; exact I|exact I..]).
    assert (S : kind_of (fst (step p o)) b /\ snd (step p o) <> Some Lost).
    { unfold kind_of. destruct o as [w|m|m|m want]; cbn [Config.step].
      - pose proof (loads_iff w (p_cert p)) as L. destruct (load_config w (p_cert p)) as [[c|] cert]; cbn [fst snd p_config p_users] in *; (split; [split; [|exact K2]|discriminate]); [|exact K1].
        apply (H w c); [left; reflexivity|apply L; reflexivity].
      - destruct (lookup m (p_users p)); cbn [fst snd p_config p_users]; (split; [|discriminate]); [split; assumption|]. split; [exact K1|]. constructor; [exact K1|exact K2].
      - cbn [fst snd p_config p_users]. split; [|discriminate]. split; [exact K1|]. apply Forall_forall. intros x I. apply filter_In in I. rewrite Forall_forall in K2. apply K2, I.
      - cbn [fst snd]. split; [split; assumption|]. destruct (lookup m (p_users p)) as [st|] eqn:E; [|discriminate]. cbn [option_map]. destruct (lookup_In _ _ _ E) as [k I].
        rewrite Forall_forall in K2. specialize (K2 _ I). cbn [snd fst] in K2. unfold backlog_of. rewrite K1, K2. destruct want, b; discriminate. }
    destruct S as [S1 S2]. destruct (step p o) as [p1 x]. cbn [fst snd] in *. specialize (IH H' p1 S1). destruct (exec p1 l) as [p2 xs]. cbn [snd] in *.
    intros [E|E]; [contradiction|exact (IH E)].
  Qed.
  Lemma start_kind flags names w p : start system_host days flags names w = Some p -> kind_of p (offered (p_config p)).
  Proof.
    unfold start. destruct (load_config w None) as [[c|] cert]; [|discriminate]. intros H. injection H as <-. unfold kind_of. cbn [p_config p_users]. split; [reflexivity|].
    apply Forall_forall. intros x I. apply in_map_iff in I. destruct I as (n & <- & _). reflexivity.
  Qed.
End Reload.

Lemma start_listen host days flags names w p : start host days flags names w = Some p ->
  exists r s, w_raw w = Some r /\ load host days r = Some s /\ p_db p = s_db s /\ (p_tls p = true <-> s_tls s <> None) /\
  (forall a, In a (s_listen s) \/ In a flags -> In a (p_listen p)) /\
  (forall a, In a (p_listen p) -> In a (s_listen s) \/ In a flags \/ (s_listen s = [] /\ flags = [] /\ a = B ":6697")) /\
  p_listen p <> [].
Proof.
  intros H. unfold start in H. destruct (load_config host days w None) as [[c|] cert] eqn:E; [|discriminate].
  assert (L : exists r, w_raw w = Some r /\ load host days r = Some (c_server c)).
  { unfold load_config in E. destruct (w_raw w) as [r|]; [|discriminate]. exists r. split; [reflexivity|].
    destruct (load host days r) as [s|]; [|discriminate].
    destruct (match s_motd s with [] => _ | _ => _ end); [|discriminate]. destruct (load_auth _ _); [|discriminate].
    destruct (match s_tls s with None => _ | _ => _ end); [|discriminate]. destruct (match s_upload s with None => _ | _ => _ end); [|discriminate].
    injection E as <- _. reflexivity. }
  destruct L as (r & Hr & Ls). exists r, (c_server c). split; [exact Hr|]. split; [exact Ls|]. set (s := c_server c) in *. clearbody s.
  cbv zeta in H. assert (X : forall q, Some q = Some p -> p = q) by congruence. apply X in H. subst p. cbn [p_db p_tls p_listen].
  split; [reflexivity|]. split; [destruct (s_tls s); split; intros K; congruence|].
  destruct (s_listen s ++ flags) as [|x l] eqn:El.
  - apply app_eq_nil in El. destruct El as [E1 E2]. rewrite E1, E2. split; [intros a [[]|[]]|]. split; [|discriminate].
    intros a Ha. right. right. split; [reflexivity|]. split; [reflexivity|]. destruct Ha as [<-|[]]. reflexivity.
  - rewrite <- El. split; [intros a; apply in_or_app|]. split; [|rewrite El; discriminate].
    intros a Ha. apply in_app_iff in Ha. tauto.
Qed.
