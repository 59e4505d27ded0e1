(** Proofs about MONITOR. *)
From Verif.Base Require Import Bytes.
From Verif.Model Require Import Message CaseMap GenMsg Roster ReadMarker Monitor.
From Verif.Proof Require Import CaseMap GenMsg.
From Verif.Spec Require Import GenMsg Monitor.
From Verif.Proof Require Roster.
From Coq Require Import NArith Lia.
Open Scope nat_scope.

Notation look := Proof.Roster.look.

(** ** Names and keys *)

Definition kept (c : ascii) : bool := forallb (fun cm => forallb (fun a => Bool.eqb (aeqb (foldb cm a) c) (aeqb a c)) all_bytes) [CmASCII; CmRFC1459; CmRFC1459Strict].
Lemma kept_In cm c x : kept c = true -> In c (casemap cm x) <-> In c x.
Proof.
  intros K. rewrite casemap_map, in_map_iff.
  assert (H : forall a, foldb cm a = c <-> a = c).
  { intros a. unfold kept in K. rewrite forallb_forall in K. assert (Hc : In cm [CmASCII; CmRFC1459; CmRFC1459Strict]) by (destruct cm; cbn; auto).
    specialize (K cm Hc). rewrite forallb_forall in K. specialize (K a (all_bytes_In a)). apply Bool.eqb_prop in K.
    destruct (aeqb_spec (foldb cm a) c), (aeqb_spec a c); try discriminate K; tauto. }
  split.
  - intros [a [Ha Hi]]. apply (proj1 (H a)) in Ha. rewrite <- Ha. exact Hi.
  - intros Hi. exists c. split; [apply (proj2 (H c)); reflexivity|exact Hi].
Qed.
Lemma kept_comma : kept "," = true. Proof. vm_compute. reflexivity. Qed.
Lemma kept_bang : kept "!" = true. Proof. vm_compute. reflexivity. Qed.
Lemma kept_at : kept "@" = true. Proof. vm_compute. reflexivity. Qed.

(** Keys that fit. *)
Definition kfit (k : bytes) : Prop := ~ In ","%char k /\ ~ In "!"%char k /\ ~ In "@"%char k /\ length k <= 480.
Lemma kfit_cm cm n : kfit (casemap cm n) <-> kfit n.
Proof. unfold kfit. rewrite (kept_In cm "," n kept_comma), (kept_In cm "!" n kept_bang), (kept_In cm "@" n kept_at), casemap_length. tauto. Qed.
Lemma fits_kfit n : fits n -> kfit n.
Proof. intros [_ H]. exact H. Qed.
Lemma kfit_prefix n : kfit n -> prefix_name n = n.
Proof. intros [_ [Hb [Ha _]]]. unfold prefix_name. rewrite (cut_on_nosep "@" n Ha). cbn [fst]. rewrite (cut_on_nosep "!" n Hb). reflexivity. Qed.

(** ** Lists of targets on the wire *)

Definition serves (cm : casemapping) (ms : list message) (set : list bytes) : list bytes := fold_left (fun set m => serve cm m set) ms set.

Lemma generated sub targets : length sub = 1 -> Forall kfit targets ->
  flat_map read_monitor (generate_monitor sub targets) = targets /\
  Forall (fun m => exists b, m = monitor_msg sub b /\ read_monitor m = b) (generate_monitor sub targets).
Proof.
  intros Hs Hf. assert (Hmax : monitor_max_length sub = 502).
  { unfold monitor_max_length, max_message_length. rewrite !app_length, Hs. reflexivity. }
  destruct (monitor_loop_spec kfit sub (monitor_max_length sub) targets []) as [H1 H2].
  - intros t [Hc [_ [_ Hl]]]. split; [exact Hc|lia].
  - exact Hf.
  - cbn. lia.
  - split; [exact H1|]. eapply Forall_impl; [|exact H2]. intros m [b [Hne [-> [_ Hb]]]]. exists b. split; [reflexivity|].
    unfold read_monitor, monitor_msg. cbn [m_params msg]. apply split_join; [exact Hne|]. eapply Forall_impl; [|exact Hb]. intros t [Ht _]. exact Ht.
Qed.

Lemma serve_plus cm m b set k : m = monitor_msg (B "+") b -> read_monitor m = b -> In k (serve cm m set) <-> In k set \/ In k (map (casemap cm) b).
Proof.
  intros -> Hr. unfold read_monitor, monitor_msg in Hr. cbn [m_params msg] in Hr. unfold serve, monitor_msg. cbn [m_command m_params msg].
  rewrite !beqb_refl. cbn [negb]. rewrite Hr, in_app_iff. tauto.
Qed.
Lemma serve_minus cm m b set k : m = monitor_msg (B "-") b -> read_monitor m = b -> In k (serve cm m set) <-> In k set /\ ~ In k (map (casemap cm) b).
Proof.
  intros -> Hr. unfold read_monitor, monitor_msg in Hr. cbn [m_params msg] in Hr. unfold serve, monitor_msg. cbn [m_command m_params msg].
  rewrite beqb_refl. cbn [negb]. change (beqb (B "-") (B "+")) with false. change (beqb (B "-") (B "-")) with true. cbv iota. rewrite Hr, filter_In.
  destruct (bmem k (map (casemap cm) b)) eqn:E; cbn [negb].
  - apply bmem_In in E. split; [intros [_ H]; discriminate H|tauto].
  - apply bmem_nIn in E. tauto.
Qed.
Lemma asks_plus m b : m = monitor_msg (B "+") b -> read_monitor m = b -> asks m = b.
Proof. intros -> Hr. unfold read_monitor, monitor_msg in Hr. cbn [m_params msg] in Hr. exact Hr. Qed.
Lemma asks_minus m b : m = monitor_msg (B "-") b -> asks m = [].
Proof. intros ->. reflexivity. Qed.

Lemma serves_plus cm ms set k : Forall (fun m => exists b, m = monitor_msg (B "+") b /\ read_monitor m = b) ms ->
  In k (serves cm ms set) <-> In k set \/ In k (map (casemap cm) (flat_map read_monitor ms)).
Proof.
  intros H. revert set. induction H as [|m ms [b [Hm Hr]] H IH]; intros set; [cbn; tauto|].
  cbn [serves fold_left flat_map]. fold (serves cm ms (serve cm m set)). rewrite IH, (serve_plus cm m b set k Hm Hr), Hr, map_app, in_app_iff. tauto.
Qed.
Lemma serves_minus cm ms set k : Forall (fun m => exists b, m = monitor_msg (B "-") b /\ read_monitor m = b) ms ->
  In k (serves cm ms set) <-> In k set /\ ~ In k (map (casemap cm) (flat_map read_monitor ms)).
Proof.
  intros H. revert set. induction H as [|m ms [b [Hm Hr]] H IH]; intros set; [cbn; tauto|].
  cbn [serves fold_left flat_map]. fold (serves cm ms (serve cm m set)). rewrite IH, (serve_minus cm m b set k Hm Hr), Hr, map_app, in_app_iff. tauto.
Qed.

Lemma serves_app cm a b set : serves cm (a ++ b) set = serves cm b (serves cm a set).
Proof. apply fold_left_app. Qed.

(** ** The state *)

Record ok (cm : casemapping) (s : mst) : Prop := {
  ok_cm : mo_cm s = cm;
  ok_want : kfit (mo_want s);
  ok_up : wf (mo_up s) /\ cm_fold (mo_up s) = cm;
  ok_upn : forall k o b, look (mo_up s) k = Some (o, b) -> kfit k;
  ok_ids : NoDup (map mc_id (mo_clients s));
  ok_clients : forall x, In x (mo_clients s) -> wf (mc_mon x) /\ cm_fold (mc_mon x) = cm /\ forall k o v, look (mc_mon x) k = Some (o, v) -> kfit k;
  ok_set : forall k, In k (mo_set s) -> kfit k;
  ok_c2s : forall m t, In m (mo_c2s s) -> In t (asks m) -> kfit t;
  ok_s2c : forall b l t, In (b, l) (mo_s2c s) -> In t l -> kfit (prefix_name t);
  ok_down : mo_link s = false -> mo_on s = false /\ mo_set s = [] /\ mo_c2s s = [] /\ mo_s2c s = [] }.

Definition has (s : mst) (k : bytes) : Prop := look (mo_up s) k <> None.

Section Update.
  Variables (cm : casemapping) (s : mst).
  Hypothesis O : ok cm s.

  Lemma has_iff n : cm_has (mo_up s) n = true <-> has s (casemap cm n).
  Proof.
    rewrite Proof.Roster.look_has. rewrite (proj2 (ok_up _ _ O)). unfold has. destruct (look (mo_up s) (casemap cm n)); split; intros H; congruence.
  Qed.

  (** A nickname on the list of some client. *)
  Lemma targets_iff k : (exists t, In t (client_targets s) /\ casemap cm t = k) <-> exists c, on_list s c k.
  Proof.
    unfold client_targets, on_list. rewrite (ok_cm _ _ O). split.
    - intros [t [Ht Hk]]. apply in_flat_map in Ht as [x [Hx Ht]]. apply in_map_iff in Ht as [[n []] [Hn Hi]]. cbn in Hn. subst t.
      exists (mc_id x), x, n. auto.
    - intros [c [x [n [Hx [_ [Hi Hk]]]]]]. exists n. split; [|exact Hk]. apply in_flat_map. exists x. split; [exact Hx|]. apply in_map_iff. exists (n, tt). auto.
  Qed.
  Lemma on_list_fit c k : on_list s c k -> kfit k.
  Proof.
    intros [x [n [Hx [_ [Hi Hk]]]]]. destruct (ok_clients _ _ O x Hx) as [W [F K]]. apply (proj1 (Proof.Roster.wf_entries _ _ _ W)) in Hi.
    rewrite F in Hi. rewrite (ok_cm _ _ O) in Hk. rewrite Hk in Hi. exact (K _ _ _ Hi).
  Qed.

  Lemma fold_targets ts a b k :
    let '(add, seen) := fold_left (client_target cm (mo_up s)) ts (a, b) in
    (In k add <-> In k a \/ exists t, In t ts /\ casemap cm t = k /\ k <> service_cm /\ ~ has s k) /\
    (In k seen <-> In k b \/ exists t, In t ts /\ casemap cm t = k /\ k <> service_cm /\ has s k).
  Proof.
    revert a b. induction ts as [|t ts IH]; intros a b.
    { cbn. split; (split; [auto|intros [H|[t [[] _]]]; exact H]). }
    cbn [fold_left]. unfold client_target at 2. cbn [fst snd]. destruct (beqb_spec (casemap cm t) service_cm) as [Es|Es].
    - specialize (IH a b). destruct (fold_left _ ts (a, b)) as [add seen]. destruct IH as [I1 I2]. rewrite I1, I2.
      split; (split; [intros [H|[x [Hx Hr]]]; [auto|right; exists x; split; [right; exact Hx|exact Hr]]|intros [H|[x [[<-|Hx] [Hk Hr]]]]; [auto| |right; exists x; auto]]);
        exfalso; apply (proj1 Hr); congruence.
    - pose proof (has_iff (casemap cm t)) as Hi. rewrite casemap_idem in Hi.
      destruct (cm_has (mo_up s) (casemap cm t)) eqn:Eh; cbn [negb].
      + assert (Hh : has s (casemap cm t)) by (apply Hi; reflexivity).
        specialize (IH a (b ++ [casemap cm t])). destruct (fold_left _ ts (a, b ++ [casemap cm t])) as [add seen]. destruct IH as [I1 I2]. rewrite I1, I2, in_app_iff. cbn [In].
        split; split.
        * intros [H|[x [Hx Hr]]]; [auto|right; exists x; split; [right; exact Hx|exact Hr]].
        * intros [H|[x [[<-|Hx] [Hk Hr]]]]; [auto| |right; exists x; auto]. exfalso. apply (proj2 Hr). rewrite <- Hk. exact Hh.
        * intros [[H|[H|[]]]|[x [Hx Hr]]]; [auto| |right; exists x; split; [right; exact Hx|exact Hr]]. right. exists t. subst k. auto.
        * intros [H|[x [[<-|Hx] [Hk Hr]]]]; [auto| |right; exists x; auto]. left. right. left. exact Hk.
      + assert (Hh : ~ has s (casemap cm t)) by (intros H; apply Hi in H; discriminate H).
        set (a' := if bmem (casemap cm t) a then a else a ++ [casemap cm t]).
        assert (Ha : In k a' <-> In k a \/ casemap cm t = k).
        { unfold a'. destruct (bmem (casemap cm t) a) eqn:Em.
          - apply bmem_In in Em. split; [auto|intros [H|<-]; auto].
          - rewrite in_app_iff. cbn. tauto. }
        specialize (IH a' b). destruct (fold_left _ ts (a', b)) as [add seen]. destruct IH as [I1 I2]. rewrite I1, I2, Ha.
        split; split.
        * intros [[H|H]|[x [Hx Hr]]]; [auto| |right; exists x; split; [right; exact Hx|exact Hr]]. right. exists t. subst k. split; [left; reflexivity|]. auto.
        * intros [H|[x [[<-|Hx] [Hk Hr]]]]; [auto| |right; exists x; auto]. auto.
        * intros [H|[x [Hx Hr]]]; [auto|right; exists x; split; [right; exact Hx|exact Hr]].
        * intros [H|[x [[<-|Hx] [Hk Hr]]]]; [auto| |right; exists x; auto]. exfalso. apply Hh. rewrite Hk. exact (proj2 Hr).
  Qed.

  Lemma fold_del (u : cmmap bool) l : wf u -> wf (fold_left (fun u n => cm_del u n) l u) /\ cm_fold (fold_left (fun u n => cm_del u n) l u) = cm_fold u /\
    forall k, look (fold_left (fun u n => cm_del u n) l u) k = if bmem k (map (casemap (cm_fold u)) l) then None else look u k.
  Proof.
    revert u. induction l as [|n l IH]; intros u W; cbn [fold_left map]; [auto|].
    destruct (IH (cm_del u n) (Proof.Roster.wf_del u n W)) as [I1 [I2 I3]]. split; [exact I1|]. split; [exact I2|].
    intros k. rewrite I3, Proof.Roster.look_del. cbn [cm_fold cm_del bmem existsb]. change (cm_fold (cm_del u n)) with (cm_fold u).
    unfold bmem. destruct (beqb k (casemap (cm_fold u) n)); destruct (existsb (beqb k) _); reflexivity.
  Qed.

  (** What bringing the list up to date does. *)
  Lemma updated : mo_on s = true -> let s' := update_monitor s in
    ok cm s' /\ mo_clients s' = mo_clients s /\ mo_cm s' = cm /\ mo_link s' = mo_link s /\ mo_on s' = true /\ mo_s2c s' = mo_s2c s /\
    (forall k, look (mo_up s') k = None \/ look (mo_up s') k = look (mo_up s) k) /\
    (forall k, wanted s k -> look (mo_up s') k = look (mo_up s) k) /\
    (forall k, has s' k -> has s k /\ wanted s k) /\
    (forall k, on_the_way s k -> on_the_way s' k) /\
    (forall k, wanted s k -> (has s k -> server_has s k) -> server_has s' k) /\
    (forall k, server_has s' k -> on_the_way s' k \/ server_has s k /\ (has s k -> wanted s k)).
  Proof.
    intros On. unfold update_monitor. rewrite On. cbn [negb]. rewrite (ok_cm _ _ O).
    pose proof (fun k => fold_targets (client_targets s) [] [] k) as F.
    destruct (fold_left (client_target cm (mo_up s)) (client_targets s) ([], [])) as [add0 seen].
    assert (Fa : forall k, In k add0 <-> wanted s k /\ ~ has s k).
    { intros k. destruct (F k) as [Fa _]. rewrite Fa. unfold wanted. change (B "bouncerserv") with service_cm. rewrite <- targets_iff. split.
      - intros [[]|[t [Ht [Hk [Hs Hh]]]]]. split; [split; [exact Hs|exists t; auto]|exact Hh].
      - intros [[Hs [t [Ht Hk]]] Hh]. right. exists t. auto. }
    assert (Fs : forall k, In k seen <-> wanted s k /\ has s k).
    { intros k. destruct (F k) as [_ Fs]. rewrite Fs. unfold wanted. change (B "bouncerserv") with service_cm. rewrite <- targets_iff. split.
      - intros [[]|[t [Ht [Hk [Hs Hh]]]]]. split; [split; [exact Hs|exists t; auto]|exact Hh].
      - intros [[Hs [t [Ht Hk]]] Hh]. right. exists t. auto. }
    clear F. set (add := add_want s add0).
    assert (Fa1 : forall k, In k add0 -> In k add).
    { intros k H. unfold add, add_want. destruct (_ && _ && _ && _); [apply in_or_app; left; exact H|exact H]. }
    assert (Ka : Forall kfit add).
    { apply Forall_forall. intros k H. assert (H' : In k add0 \/ k = casemap (mo_cm s) (mo_want s)).
      { unfold add, add_want in H. destruct (_ && _ && _ && _); [|auto]. apply in_app_or in H as [H|[H|[]]]; auto. }
      destruct H' as [H'|H']; [apply Fa in H' as [[_ [c Hc]] _]; exact (on_list_fit c k Hc)|]. rewrite H'. apply kfit_cm. exact (ok_want _ _ O). }
    assert (Kc : forall k, In k add -> casemap cm k = k).
    { intros k H. assert (H' : In k add0 \/ k = casemap (mo_cm s) (mo_want s)).
      { unfold add, add_want in H. destruct (_ && _ && _ && _); [|auto]. apply in_app_or in H as [H|[H|[]]]; auto. }
      destruct H' as [H'|H']; [|rewrite H', (ok_cm _ _ O); apply casemap_idem]. apply Fa in H' as [[_ [c [x [n [_ [_ [_ Hk]]]]]]] _]. rewrite <- Hk, (ok_cm _ _ O). apply casemap_idem. }
    assert (Mc : map (casemap cm) add = add) by (rewrite <- (map_id add) at 2; apply map_ext_in; exact Kc).
    set (removes := filter (fun n => negb (bmem (casemap cm n) seen)) (map fst (cm_entries (mo_up s)))).
    destruct (ok_up _ _ O) as [Wu Fu].
    assert (Ent : forall n, In n (map fst (cm_entries (mo_up s))) <-> exists b, look (mo_up s) (casemap cm n) = Some (n, b)).
    { intros n. rewrite in_map_iff. split.
      - intros [[n' b] [E Hi]]. cbn in E. subst n'. apply (proj1 (Proof.Roster.wf_entries _ _ _ Wu)) in Hi. rewrite Fu in Hi. exists b. exact Hi.
      - intros [b Hl]. exists (n, b). split; [reflexivity|]. apply (proj2 (Proof.Roster.wf_entries _ _ _ Wu)). rewrite Fu. exact Hl. }
    assert (Rm : forall k, In k (map (casemap cm) removes) <-> has s k /\ ~ wanted s k).
    { intros k. rewrite in_map_iff. split.
      - intros [n [<- Hi]]. apply filter_In in Hi as [Hi Hb]. apply Ent in Hi as [b Hl]. assert (Hh : has s (casemap cm n)) by (unfold has; congruence).
        split; [exact Hh|]. intros Hw. destruct (bmem (casemap cm n) seen) eqn:Em; [discriminate Hb|]. apply bmem_nIn in Em. apply Em. apply Fs. auto.
      - intros [Hh Hw]. unfold has in Hh. destruct (look (mo_up s) k) as [[n b]|] eqn:El; [|congruence].
        pose proof (Proof.Roster.wf_key _ _ _ _ Wu El) as Hk. rewrite Fu in Hk. exists n. split; [symmetry; exact Hk|].
        apply filter_In. split; [apply Ent; exists b; rewrite <- Hk; exact El|]. rewrite <- Hk. destruct (bmem k seen) eqn:Em; [|reflexivity].
        apply bmem_In, Fs in Em. tauto. }
    assert (Kr : Forall kfit removes).
    { apply Forall_forall. intros n Hn. apply filter_In in Hn as [Hn _]. apply Ent in Hn as [b Hl]. apply (kfit_cm cm). exact (ok_upn _ _ O _ _ _ Hl). }
    destruct (generated (B "-") removes eq_refl Kr) as [Gm1 Gm2]. destruct (generated (B "+") add eq_refl Ka) as [Gp1 Gp2].
    destruct (fold_del (mo_up s) removes Wu) as [D1 [D2 D3]]. rewrite Fu in D2, D3.
    set (u := fold_left (fun u n => cm_del u n) removes (mo_up s)) in *.
    assert (D4 : forall k, look u k = None \/ look u k = look (mo_up s) k).
    { intros k. rewrite D3. destruct (bmem k (map (casemap cm) removes)); auto. }
    assert (D5 : forall k, wanted s k -> look u k = look (mo_up s) k).
    { intros k Hw. rewrite D3. destruct (bmem k (map (casemap cm) removes)) eqn:Em; [|reflexivity]. apply bmem_In, Rm in Em. tauto. }
    assert (D6 : forall k, look u k <> None -> has s k /\ wanted s k).
    { intros k Hk. rewrite D3 in Hk. destruct (bmem k (map (casemap cm) removes)) eqn:Em; [congruence|]. apply bmem_nIn in Em. split; [exact Hk|].
      destruct (in_dec bytes_dec k seen) as [Hs|Hs]; [apply Fs in Hs; tauto|]. exfalso. apply Em. apply Rm. split; [exact Hk|]. intros Hw. apply Hs. apply Fs. split; [exact Hw|exact Hk]. }
    (* the messages *)
    set (isC := _ && _ && _).
    set (ms := if isC then [msg (B "MONITOR") [B "C"]] else generate_monitor (B "-") removes ++ generate_monitor (B "+") add).
    replace (if isC then send_up s [msg (B "MONITOR") [B "C"]] else send_up s (generate_monitor (B "-") removes ++ generate_monitor (B "+") add)) with (send_up s ms)
      by (unfold ms; destruct isC; reflexivity).
    assert (HC : isC = true -> add = [] /\ forall k, ~ (wanted s k)).
    { unfold isC. intros H. apply andb_prop in H as [H H3]. apply andb_prop in H as [H1 H2]. destruct add as [|a0 ad] eqn:Ea; [|discriminate H2].
      split; [reflexivity|]. intros k Hw. assert (Hh : has s k).
      { destruct (look (mo_up s) k) eqn:El; [unfold has; congruence|]. exfalso. assert (In k add0) by (apply Fa; unfold has; split; [exact Hw|congruence]). apply Fa1 in H. exact H. }
      assert (Heq : removes = map fst (cm_entries (mo_up s))).
      { apply Nat.eqb_eq in H1. unfold removes in *. rewrite <- (map_length fst) in H1. clear - H1. revert H1.
        generalize (map fst (cm_entries (mo_up s))). intros l. assert (G : forall l' : list bytes, length (filter (fun n => negb (bmem (casemap cm n) seen)) l') <= length l').
        { induction l' as [|x l' IH]; cbn; [lia|]. destruct (negb _); cbn; lia. }
        induction l as [|x l IH]; cbn; [reflexivity|]. pose proof (G l). destruct (negb (bmem (casemap cm x) seen)); cbn; intros E; [f_equal; apply IH; lia|lia]. }
      unfold has in Hh. destruct (look (mo_up s) k) as [[n b]|] eqn:El; [|congruence].
      pose proof (Proof.Roster.wf_key _ _ _ _ Wu El) as Hk. rewrite Fu in Hk.
      assert (Hin : In k (map (casemap cm) removes)). { rewrite Heq. apply in_map_iff. exists n. split; [symmetry; exact Hk|]. apply Ent. exists b. rewrite <- Hk. exact El. }
      apply Rm in Hin. tauto. }
    assert (Sv : forall set k, In k (serves cm ms set) <-> isC = false /\ (In k add \/ In k set /\ ~ (has s k /\ ~ wanted s k))).
    { intros set k. unfold ms. destruct isC eqn:EC.
      - cbn. split; [intros []|intros [H _]; discriminate H].
      - rewrite serves_app, (serves_plus cm _ _ k Gp2), (serves_minus cm _ _ k Gm2), Gp1, Gm1, Mc, Rm. tauto. }
    assert (As : forall m t, In m ms -> In t (asks m) -> In t add).
    { intros m t Hm Ht. unfold ms in Hm. destruct isC; [destruct Hm as [<-|[]]; destruct Ht|]. apply in_app_or in Hm as [Hm|Hm].
      - rewrite Forall_forall in Gm2. destruct (Gm2 m Hm) as [b [E _]]. rewrite (asks_minus m b E) in Ht. destruct Ht.
      - rewrite Forall_forall in Gp2. destruct (Gp2 m Hm) as [b [E Hr]]. rewrite (asks_plus m b E Hr) in Ht. rewrite <- Gp1. apply in_flat_map. exists m. rewrite Hr. auto. }
    assert (Aw : isC = false -> forall k, In k add -> exists m t, In m ms /\ In t (asks m) /\ casemap cm t = k).
    { intros EC k Hk. rewrite <- Gp1 in Hk. apply in_flat_map in Hk as [m [Hm Hk]]. exists m, k. unfold ms. rewrite EC. split; [apply in_or_app; right; exact Hm|].
      rewrite Forall_forall in Gp2. destruct (Gp2 m Hm) as [b [E Hr]]. rewrite (asks_plus m b E Hr). rewrite Hr in Hk. split; [exact Hk|]. apply Kc. rewrite <- Gp1. apply in_flat_map. exists m. rewrite Hr. auto. }
    cbv zeta. unfold with_up, send_up, with_server. cbn [mo_cm mo_clients mo_link mo_on mo_up mo_nick mo_want mo_has mo_set mo_c2s mo_s2c].
    split; [|split; [reflexivity|split; [exact (ok_cm _ _ O)|split; [reflexivity|split; [exact On|split; [reflexivity|split; [exact D4|split; [exact D5|split; [exact D6|split; [|split]]]]]]]]]].
    - constructor; cbn [mo_cm mo_clients mo_link mo_on mo_up mo_nick mo_want mo_has mo_set mo_c2s mo_s2c].
      + exact (ok_cm _ _ O).
      + exact (ok_want _ _ O).
      + auto.
      + intros k o b Hl. change (look u k = Some (o, b)) in Hl. destruct (D4 k) as [E|E]; [congruence|]. rewrite E in Hl. exact (ok_upn _ _ O _ _ _ Hl).
      + exact (ok_ids _ _ O).
      + exact (ok_clients _ _ O).
      + exact (ok_set _ _ O).
      + intros m t Hm Ht. apply in_app_or in Hm as [Hm|Hm]; [exact (ok_c2s _ _ O m t Hm Ht)|]. apply As in Ht; [|exact Hm]. rewrite Forall_forall in Ka. exact (Ka t Ht).
      + exact (ok_s2c _ _ O).
      + intros Hd. exfalso. pose proof (proj1 (ok_down _ _ O Hd)). congruence.
    - intros k [[m [t [Hm Ht]]]|H]; [left|right; exact H]. cbn [mo_c2s mo_cm]. exists m, t. split; [apply in_or_app; left; exact Hm|exact Ht].
    - intros k Hw Hs. unfold server_has. cbn [mo_cm mo_c2s mo_set]. rewrite (ok_cm _ _ O). fold (serves cm (mo_c2s s ++ ms) (mo_set s)). rewrite serves_app, Sv.
      assert (EC : isC = false) by (destruct isC; [exfalso; exact (proj2 (HC eq_refl) k Hw)|reflexivity]). split; [exact EC|].
      destruct (look (mo_up s) k) eqn:El.
      + right. split; [|tauto]. unfold server_has in Hs. rewrite (ok_cm _ _ O) in Hs. apply Hs. unfold has. congruence.
      + left. apply Fa1, Fa. unfold has. split; [exact Hw|congruence].
    - intros k Hk. unfold server_has in Hk. cbn [mo_cm mo_c2s mo_set] in Hk. rewrite (ok_cm _ _ O) in Hk. fold (serves cm (mo_c2s s ++ ms) (mo_set s)) in Hk. rewrite serves_app in Hk.
      apply Sv in Hk as [EC [Hk|[Hk Hr]]].
      + left. left. cbn [mo_c2s mo_cm]. rewrite (ok_cm _ _ O). destruct (Aw EC k Hk) as [m [t [Hm Ht]]]. exists m, t. split; [apply in_or_app; right; exact Hm|exact Ht].
      + right. split; [unfold server_has; rewrite (ok_cm _ _ O); exact Hk|]. intros Hh. destruct (in_dec bytes_dec k seen) as [Hs|Hs]; [apply Fs in Hs; tauto|].
        exfalso. apply Hr. split; [exact Hh|]. intros Hw. apply Hs. apply Fs. auto.
  Qed.

  Lemma not_on : mo_on s = false -> update_monitor s = s.
  Proof. intros H. unfold update_monitor. rewrite H. reflexivity. Qed.
End Update.

(** ** Runs *)

Definition known_or_coming (s : mst) : Prop := forall k, server_has s k -> has s k \/ on_the_way s k.
Definition has_on_server (s : mst) : Prop := forall k, has s k -> server_has s k.
Definition covered (s : mst) : Prop := mo_on s = true -> forall k, wanted s k -> server_has s k.

Lemma wanted_same cm s s' k : mo_clients s' = mo_clients s -> mo_cm s = cm -> mo_cm s' = cm -> wanted s' k <-> wanted s k.
Proof. intros E E1 E2. unfold wanted, on_list. rewrite E, E1, E2. reflexivity. Qed.

Lemma updated_any cm s : ok cm s -> let s' := update_monitor s in
  ok cm s' /\ mo_clients s' = mo_clients s /\ mo_link s' = mo_link s /\ mo_on s' = mo_on s /\
  (forall k, look (mo_up s') k = None \/ look (mo_up s') k = look (mo_up s) k) /\
  (forall k, wanted s k -> look (mo_up s') k = look (mo_up s) k) /\
  (known_or_coming s -> known_or_coming s' /\ (mo_on s = true -> forall k, server_has s' k -> wanted s' k \/ on_the_way s' k)) /\
  (has_on_server s -> has_on_server s' /\ covered s').
Proof.
  intros O s'. destruct (mo_on s) eqn:On.
  - destruct (updated cm s O On) as [U1 [U2 [U3 [U4 [U5 [U6 [U7 [U8 [U9 [U10 [U11 U12]]]]]]]]]]]. fold s' in U1, U2, U3, U4, U5, U6, U7, U8, U9, U10, U11, U12.
    assert (Ws : forall k, wanted s' k <-> wanted s k) by (intros k; apply (wanted_same cm); [exact U2|exact (ok_cm _ _ O)|exact U3]).
    split; [exact U1|]. split; [exact U2|]. split; [exact U4|]. split; [exact U5|]. split; [exact U7|]. split; [exact U8|]. split.
    + intros K.
      assert (H : forall k, server_has s' k -> (wanted s k /\ has s k) \/ on_the_way s' k).
      { intros k Hk. destruct (U12 k Hk) as [Hw|[Hs Hw]]; [auto|]. destruct (K k Hs) as [Hh|Ho]; [left; auto|right; auto]. }
      split.
      * intros k Hk. destruct (H k Hk) as [[Hw Hh]|Ho]; [left; unfold has in *; rewrite (U8 k Hw); exact Hh|auto].
      * intros _ k Hk. rewrite Ws. destruct (H k Hk) as [[Hw _]|Ho]; auto.
    + intros K. split.
      * intros k Hk. destruct (U9 k Hk) as [Hh Hw]. apply U11; [exact Hw|exact (K k)].
      * intros _ k Hw. apply U11; [apply Ws; exact Hw|exact (K k)].
  - unfold s'. rewrite (not_on s On). split; [exact O|]. split; [reflexivity|]. split; [reflexivity|]. split; [exact On|]. split; [auto|]. split; [auto|]. split.
    + intros K. split; [exact K|]. intros H. discriminate H.
    + intros K. split; [exact K|]. intros H. congruence.
Qed.

(** *** Clients *)

Definition client_ok (cm : casemapping) (x : mclient) : Prop :=
  wf (mc_mon x) /\ cm_fold (mc_mon x) = cm /\ forall k o v, look (mc_mon x) k = Some (o, v) -> kfit k.

Lemma ok_with_clients cm s l : ok cm s -> NoDup (map mc_id l) -> (forall x, In x l -> client_ok cm x) -> ok cm (with_clients s l).
Proof. intros [A1 A2 A3 A4 A5 A6 A7 A8 A9 A10] N C. constructor; assumption. Qed.

Lemma put_ids c l : map mc_id (put_client c l) = map mc_id l.
Proof. unfold put_client. rewrite map_map. apply map_ext. intros x. destruct (N.eqb_spec (mc_id x) (mc_id c)) as [->|]; reflexivity. Qed.
Lemma put_In c l x : In x (put_client c l) -> x = c \/ (In x l /\ mc_id x <> mc_id c).
Proof. unfold put_client. intros H. apply in_map_iff in H as [y [E Hy]]. destruct (N.eqb_spec (mc_id y) (mc_id c)); [left; congruence|right; subst; auto]. Qed.
Lemma find_In c l x : find_client c l = Some x -> In x l /\ mc_id x = c.
Proof. unfold find_client. intros H. apply find_some in H as [H1 H2]. apply N.eqb_eq in H2. auto. Qed.

Lemma set_client cm x t : client_ok cm x -> kfit t -> client_ok cm (MClient (mc_id x) (mc_nick x) (cm_set (mc_mon x) t tt)).
Proof.
  intros [W [F K]] Ht. unfold client_ok. cbn [mc_mon]. split; [apply Proof.Roster.wf_set; exact W|]. split; [rewrite Proof.Roster.set_fold; exact F|].
  intros k o v. rewrite Proof.Roster.look_set, F. destruct (beqb_spec k (casemap cm t)) as [->|]; [intros _; apply kfit_cm; exact Ht|apply K].
Qed.
Lemma add_target_ok cm s x t : client_ok cm x -> kfit t -> client_ok cm (fst (add_target s x t)) /\ mc_id (fst (add_target s x t)) = mc_id x.
Proof.
  intros C Ht. unfold add_target. destruct (1000 <=? cm_len (mc_mon x)); [split; [exact C|reflexivity]|]. pose proof (set_client cm x t C Ht) as C'.
  destruct (beqb _ _); [split; [exact C'|reflexivity]|]. destruct (cm_get (mo_up s) t); split; try exact C'; reflexivity.
Qed.
Lemma add_targets_ok cm s l x : client_ok cm x -> Forall kfit l -> client_ok cm (fst (add_targets s x l)) /\ mc_id (fst (add_targets s x l)) = mc_id x.
Proof.
  revert x. induction l as [|t l IH]; cbn [add_targets]; intros x C F; [auto|]. inversion F as [|? ? Ft Fl]; subst.
  destruct (add_target_ok cm s x t C Ft) as [C1 I1]. destruct (add_target s x t) as [x1 o1]. cbn [fst] in *.
  destruct (IH x1 C1 Fl) as [C2 I2]. destruct (add_targets s x1 l) as [x2 o2]. cbn [fst] in *. split; [exact C2|congruence].
Qed.
Lemma del_targets (u : cmmap unit) l : wf u -> wf (fold_left (fun t n => cm_del t n) l u) /\ cm_fold (fold_left (fun t n => cm_del t n) l u) = cm_fold u /\
  forall k v, look (fold_left (fun t n => cm_del t n) l u) k = Some v -> look u k = Some v.
Proof.
  revert u. induction l as [|n l IH]; intros u W; cbn [fold_left]; [auto|].
  destruct (IH (cm_del u n) (Proof.Roster.wf_del u n W)) as [I1 [I2 I3]]. split; [exact I1|]. split; [exact I2|].
  intros k v H. apply I3 in H. rewrite Proof.Roster.look_del in H. destruct (beqb k _); [discriminate H|exact H].
Qed.

(** The lists after a command: either it changed the list of its client, and the
    server's list was brought up to date, or nothing changed. *)
Lemma command_cases cm s x params : ok cm s -> In x (mo_clients s) -> sane (MCommand (mc_id x) params) ->
  let '(s', o) := client_monitor s x params in
  (s' = s /\ ~ (syncs (MCommand (mc_id x) params) /\ mo_link s && mo_on s = true)) \/ (mo_link s = true /\ mo_on s = true /\ exists x', s' = update_monitor (with_clients s (put_client x' (mo_clients s))) /\ mc_id x' = mc_id x /\ client_ok cm x').
Proof.
  intros O Hx Sn. pose proof (ok_clients _ _ O x Hx) as C. unfold client_monitor. destruct (mo_link s && mo_on s) eqn:Eon; cbn [negb]; [|left; split; [reflexivity|intros [_ H]; discriminate H]].
  cbn [syncs].
  apply andb_prop in Eon as [El Eon].
  destruct params as [|sub r]; [left; split; [reflexivity|tauto]|]. destruct (beqb_spec sub (B "+")) as [->|N1]; cbn [orb].
  { destruct r as [|targets r]; [left; split; [reflexivity|intros [[[_ H]|H] _]; [congruence|discriminate H]]|]. cbn [sane] in Sn.
    assert (F : Forall kfit (split_on "," targets)) by (apply Forall_forall; intros t Ht; apply fits_kfit; exact (Sn eq_refl t Ht)).
    destruct (add_targets_ok cm s _ x C F) as [C' I']. destruct (add_targets s x (split_on "," targets)) as [x' o]. cbn [fst] in *.
    right. split; [exact El|]. split; [exact Eon|]. exists x'. auto. }
  destruct (beqb_spec sub (B "-")) as [->|N2].
  { destruct r as [|targets r]; [left; split; [reflexivity|intros [[[_ H]|H] _]; [congruence|discriminate H]]|]. right. split; [exact El|]. split; [exact Eon|]. eexists. split; [reflexivity|]. split; [reflexivity|].
    destruct C as [W [F K]]. destruct (del_targets (mc_mon x) (split_on "," targets) W) as [D1 [D2 D3]]. split; [exact D1|]. split; [cbn [mc_mon]; rewrite D2; exact F|].
    cbn [mc_mon]. intros k o v Hl. apply D3 in Hl. exact (K _ _ _ Hl). }
  assert (NS : sub <> B "C" -> ~ ((((sub = B "+" \/ sub = B "-") /\ r <> []) \/ sub = B "C") /\ true = true)) by tauto.
  destruct (beqb sub (B "C") || beqb sub (B "c")) eqn:Ecc.
  { right. split; [exact El|]. split; [exact Eon|]. eexists. split; [reflexivity|]. split; [reflexivity|]. rewrite (ok_cm _ _ O). split; [apply Proof.Roster.wf_new|]. split; [reflexivity|]. cbn. discriminate. }
  assert (N3 : sub <> B "C") by (intros ->; discriminate Ecc).
  destruct (beqb sub (B "L") || beqb sub (B "l")); [left; split; [reflexivity|exact (NS N3)]|]. destruct (beqb sub (B "S") || beqb sub (B "s")); left; (split; [reflexivity|exact (NS N3)]).
Qed.
Lemma ok_put cm s x' : ok cm s -> client_ok cm x' -> ok cm (with_clients s (put_client x' (mo_clients s))).
Proof.
  intros O C. apply ok_with_clients; [exact O|rewrite put_ids; exact (ok_ids _ _ O)|]. intros y Hy. apply put_In in Hy as [->|[Hy _]]; [exact C|exact (ok_clients _ _ O y Hy)].
Qed.

(** *** Notifications *)

Lemma fold_set (u : cmmap bool) b l : wf u -> wf (fold_left (fun u t => cm_set u (prefix_name t) b) l u) /\ cm_fold (fold_left (fun u t => cm_set u (prefix_name t) b) l u) = cm_fold u /\
  forall k, option_map snd (look (fold_left (fun u t => cm_set u (prefix_name t) b) l u) k) =
    if bmem k (map (fun t => casemap (cm_fold u) (prefix_name t)) l) then Some b else option_map snd (look u k).
Proof.
  revert u. induction l as [|n l IH]; intros u W; cbn [fold_left map]; [auto|].
  destruct (IH (cm_set u (prefix_name n) b) (Proof.Roster.wf_set u _ b W)) as [I1 [I2 I3]]. rewrite Proof.Roster.set_fold in I2, I3. split; [exact I1|]. split; [exact I2|].
  intros k. rewrite I3, Proof.Roster.look_set. unfold bmem. cbn [existsb]. destruct (beqb k (casemap (cm_fold u) (prefix_name n))); destruct (existsb (beqb k) _); reflexivity.
Qed.

Lemma ok_with_server cm s set c2s s2c : ok cm s -> mo_link s = true -> (forall k, In k set -> kfit k) -> (forall m t, In m c2s -> In t (asks m) -> kfit t) ->
  (forall b l t, In (b, l) s2c -> In t l -> kfit (prefix_name t)) -> ok cm (with_server s set c2s s2c).
Proof. intros [A1 A2 A3 A4 A5 A6 A7 A8 A9 A10] L H1 H2 H3. constructor; try assumption. cbn [with_server mo_link]. intros H. congruence. Qed.

Definition mentions (cm : casemapping) (l : list bytes) (k : bytes) : Prop := exists t, In t l /\ casemap cm (prefix_name t) = k.
Lemma mentions_iff cm l k : mentions cm l k <-> bmem k (map (fun t => casemap cm (prefix_name t)) l) = true.
Proof. rewrite bmem_In, in_map_iff. unfold mentions. split; intros [t [H1 H2]]; exists t; auto. Qed.

Lemma notified_ok cm s b l r : ok cm s -> mo_s2c s = (b, l) :: r ->
  let '(s', o) := notified (with_server s (mo_set s) (mo_c2s s) r) b l in
  ok cm s' /\ mo_clients s' = mo_clients s /\ mo_link s' = true /\ mo_link s = true /\ mo_on s' = mo_on s /\
  (forall k, option_map snd (look (mo_up s') k) = if bmem k (map (fun t => casemap cm (prefix_name t)) l) then Some b else option_map snd (look (mo_up s) k)) /\
  (forall k, server_has s' k <-> server_has s k) /\
  (forall k, on_the_way s k -> mentions cm l k \/ on_the_way s' k).
Proof.
  intros O Es. assert (L : mo_link s = true) by (destruct (mo_link s) eqn:E; [reflexivity|]; destruct (ok_down _ _ O E) as [_ [_ [_ H]]]; congruence).
  unfold notified. set (s0 := with_server s (mo_set s) (mo_c2s s) r).
  destruct (ok_up _ _ O) as [Wu Fu]. destruct (fold_set (mo_up s) b l Wu) as [D1 [D2 D3]]. rewrite Fu in D2, D3.
  change (mo_up s0) with (mo_up s). set (u := fold_left (fun u t => cm_set u (prefix_name t) b) l (mo_up s)) in *.
  assert (O0 : ok cm s0).
  { apply ok_with_server; [exact O|exact L|exact (ok_set _ _ O)|exact (ok_c2s _ _ O)|]. intros b' l' t Hi Ht. apply (ok_s2c _ _ O b' l' t); [rewrite Es; right; exact Hi|exact Ht]. }
  assert (O1 : ok cm (with_up s0 u)).
  { destruct O0 as [A1 A2 A3 A4 A5 A6 A7 A8 A9 A10]. constructor; try assumption; cbn [with_up mo_up]; [auto|].
    intros k o b' Hl. specialize (D3 k). rewrite Hl in D3. cbn [option_map snd] in D3. destruct (bmem k _) eqn:Em.
    - apply mentions_iff in Em as [t [Ht <-]]. apply kfit_cm. apply (ok_s2c _ _ O b l t); [rewrite Es; left; reflexivity|exact Ht].
    - destruct (look (mo_up s) k) as [[o'' b'']|] eqn:El; [|discriminate D3]. exact (ok_upn _ _ O _ _ _ El). }
  assert (Hw0 : forall k, on_the_way s k -> mentions cm l k \/ on_the_way s0 k).
  { intros k [H|[b' [l' [t [Hi [Ht Hk]]]]]]; [right; left; exact H|]. rewrite Es in Hi. destruct Hi as [Hi|Hi].
    - left. assert (l = l') by congruence. subst l'. exists t. rewrite (ok_cm _ _ O) in Hk. auto.
    - right. right. exists b', l', t. auto. }
  assert (NK : forall set, serve (mo_cm s) (msg (B "NICK") [mo_want s]) set = set) by reflexivity.
  destruct (_ && _ && _ && _).
  - unfold send_up. cbn [with_up mo_cm mo_clients mo_link mo_on mo_up mo_set mo_c2s mo_s2c with_server].
    split; [apply ok_with_server; [exact O1|exact L|exact (ok_set _ _ O)| |exact (ok_s2c _ _ O0)]|split; [reflexivity|split; [exact L|split; [exact L|split; [reflexivity|split; [exact D3|split]]]]]].
    + intros m t Hm Ht. apply in_app_or in Hm as [Hm|[<-|[]]]; [exact (ok_c2s _ _ O m t Hm Ht)|]. destruct Ht.
    + intros k. unfold server_has. cbn [with_server mo_cm mo_c2s mo_set with_up s0]. rewrite fold_left_app. cbn [fold_left]. rewrite NK. reflexivity.
    + intros k Hk. destruct (Hw0 k Hk) as [H|[[m [t [Hm Ht]]]|H]]; [left; exact H| |right; right; exact H]. right. left. exists m, t. split; [apply in_or_app; left; exact Hm|exact Ht].
  - split; [exact O1|]. split; [reflexivity|]. split; [exact L|]. split; [exact L|]. split; [reflexivity|]. split; [exact D3|]. split; [intros k; reflexivity|]. exact Hw0.
Qed.

(** *** The server *)

Lemma same_keys_iff cm a b : same_keys cm a b = true -> forall k, In k (map (casemap cm) a) <-> In k (map (casemap cm) b).
Proof.
  unfold same_keys. intros H k. apply andb_prop in H as [H1 H2]. rewrite forallb_forall in H1, H2. split; intros Hk.
  - apply bmem_In. apply H1. exact Hk.
  - apply bmem_In. apply H2. exact Hk.
Qed.

Lemma serve_fit cm m set : (forall k, In k set -> kfit k) -> (forall t, In t (asks m) -> kfit t) -> forall k, In k (serve cm m set) -> kfit k.
Proof.
  intros Hs Ha k. unfold serve, asks in *. destruct (negb (beqb (m_command m) (B "MONITOR"))); [apply Hs|].
  destruct (m_params m) as [|sub [|targets [|? ?]]]; [apply Hs|intros []| |apply Hs]. destruct (beqb sub (B "+")).
  - intros H. apply in_app_or in H as [H|H]; [exact (Hs k H)|]. apply in_map_iff in H as [t [<- Ht]]. apply kfit_cm. exact (Ha t Ht).
  - destruct (beqb sub (B "-")); [|apply Hs]. intros H. apply filter_In in H as [H _]. exact (Hs k H).
Qed.

(** *** Steps *)

Lemma ok_new cm want : kfit want -> ok cm (new_mst cm want).
Proof.
  intros H. constructor; cbn [new_mst mo_cm mo_clients mo_link mo_on mo_up mo_nick mo_want mo_has mo_set mo_c2s mo_s2c];
    [reflexivity|exact H|split; [apply Proof.Roster.wf_new|reflexivity]|cbn; discriminate|constructor|intros x []|intros k []|intros m t []|intros b l t []|auto].
Qed.

(** Three kinds of steps: those that do not touch the lists (first), those that
    bring the server's list up to date, and a notification. *)
Record calm (cm : casemapping) (s s' : mst) : Prop := {
  ca_ok : ok cm s';
  ca_list : forall c k, on_list s' c k -> on_list s c k;
  ca_up : forall k, look (mo_up s') k = None \/ look (mo_up s') k = look (mo_up s) k /\ (forall k, server_has s k -> server_has s' k);
  ca_on : mo_on s' = true -> mo_on s = true /\ forall k, server_has s k -> server_has s' k;
  ca_server : forall k, server_has s' k -> server_has s k /\ (has s k -> has s' k) /\ (on_the_way s k -> on_the_way s' k) }.

Lemma on_list_clients s s' c k : mo_clients s' = mo_clients s -> mo_cm s' = mo_cm s -> on_list s' c k <-> on_list s c k.
Proof. intros E1 E2. unfold on_list. rewrite E1, E2. reflexivity. Qed.

Inductive kind (cm : casemapping) (s : mst) (e : mev) (s' : mst) : Prop :=
| KCalm : calm cm s s' -> ~ (syncs e /\ mo_on s' = true) -> (e = MDown \/ (exists n h, e = MUp n h) \/ forall k, look (mo_up s') k = look (mo_up s) k) ->
    (mo_link s = true -> e <> MDown -> mo_link s' = true) -> kind cm s e s'
| KUpdate s1 : s' = update_monitor s1 -> ok cm s1 -> mo_up s1 = mo_up s -> (forall k, server_has s1 k <-> server_has s k) -> (forall k, on_the_way s1 k <-> on_the_way s k) ->
    mo_link s1 = mo_link s -> mo_link s = true -> kind cm s e s'
| KNote b l r : e = MRecv -> mo_s2c s = (b, l) :: r -> kind cm s e s'.

Lemma step_kind cm s e s' o : ok cm s -> sane e -> mstep e s = Some (s', o) -> kind cm s e s'.
Proof.
  intros O Sn. unfold mstep. destruct e as [n h| |b|n h|w|c n|c|c params| |answers|b l].
  - destruct (mo_link s) eqn:L; [discriminate|]. intros E. apply (f_equal (option_map fst)) in E. cbn [option_map fst] in E.
    assert (E1 : s' = MSt (mo_cm s) (mo_clients s) true false (cm_new (mo_cm s)) n (mo_want s) h [] [] []) by (rewrite not_on in E by reflexivity; congruence). clear E. subst s'.
    apply KCalm; [|intros [[] _]|right; left; exists n, h; reflexivity|intros H; congruence]. constructor.
    + destruct O as [A1 A2 A3 A4 A5 A6 A7 A8 A9 A10]. constructor; cbn [mo_cm mo_clients mo_link mo_on mo_up mo_nick mo_want mo_has mo_set mo_c2s mo_s2c]; try assumption.
      * split; [apply Proof.Roster.wf_new|rewrite A1; reflexivity].
      * cbn. discriminate.
      * intros k [].
      * intros m t [].
      * intros b l t [].
      * discriminate.
    + intros c k H. exact H.
    + intros k. left. reflexivity.
    + discriminate.
    + intros k [].
  - destruct (mo_link s) eqn:L; [|discriminate]. intros E. apply (f_equal (option_map fst)) in E. cbn [option_map fst] in E.
    assert (E1 : s' = MSt (mo_cm s) (mo_clients s) false false (cm_new (mo_cm s)) (mo_nick s) (mo_want s) (mo_has s) [] [] []) by congruence. clear E. subst s'.
    apply KCalm; [|intros [[] _]|left; reflexivity|intros _ H; congruence]. constructor.
    + destruct O as [A1 A2 A3 A4 A5 A6 A7 A8 A9 A10]. constructor; cbn [mo_cm mo_clients mo_link mo_on mo_up mo_nick mo_want mo_has mo_set mo_c2s mo_s2c]; try assumption.
      * split; [apply Proof.Roster.wf_new|rewrite A1; reflexivity].
      * cbn. discriminate.
      * intros k [].
      * intros m t [].
      * intros b l t [].
      * auto.
    + intros c k H. exact H.
    + intros k. left. reflexivity.
    + discriminate.
    + intros k [].
  - destruct (mo_link s) eqn:L; [|discriminate]. intros E. apply (f_equal (option_map fst)) in E. cbn [option_map fst] in E.
    apply (KUpdate _ _ _ _ (with_on s (mo_on s || b))); [congruence| |reflexivity|intros k; reflexivity|intros k; reflexivity|reflexivity|exact L].
    destruct O as [A1 A2 A3 A4 A5 A6 A7 A8 A9 A10]. constructor; try assumption. cbn [with_on mo_link]. intros H. congruence.
  - destruct (mo_link s) eqn:L; [|discriminate]. intros E. apply (f_equal (option_map fst)) in E. cbn [option_map fst] in E.
    apply (KUpdate _ _ _ _ (with_own s n h)); [congruence| |reflexivity|intros k; reflexivity|intros k; reflexivity|reflexivity|exact L].
    destruct O as [A1 A2 A3 A4 A5 A6 A7 A8 A9 A10]. constructor; assumption.
  - intros E. apply (f_equal (option_map fst)) in E. cbn [option_map fst] in E. assert (E1 : s' = with_wanted s w) by congruence. clear E. subst s'.
    apply KCalm; [|intros [[] _]|right; right; reflexivity|auto]. constructor.
    + destruct O as [A1 A2 A3 A4 A5 A6 A7 A8 A9 A10]. constructor; try assumption. exact (fits_kfit w Sn).
    + intros c k H. exact H.
    + intros k. right. split; [reflexivity|auto].
    + intros H. split; [exact H|auto].
    + intros k H. split; [exact H|]. split; intros H1; exact H1.
  - destruct (find_client c (mo_clients s)) eqn:Ef; [discriminate|]. intros E. apply (f_equal (option_map fst)) in E. cbn [option_map fst] in E.
    assert (E1 : s' = with_clients s (mo_clients s ++ [MClient c n (cm_new (mo_cm s))])) by congruence. clear E. subst s'.
    apply KCalm; [|intros [[] _]|right; right; reflexivity|auto]. constructor.
    + apply ok_with_clients; [exact O| |].
      * rewrite map_app. cbn [map mc_id]. pose proof (NoDup_rev (ok_ids _ _ O)) as N0.
        rewrite <- (rev_involutive (map mc_id (mo_clients s) ++ [c])). apply NoDup_rev. rewrite rev_app_distr. cbn [rev app]. constructor; [|exact N0].
        intros Hi. apply in_rev in Hi. apply in_map_iff in Hi as [x [Hx Hi]]. unfold find_client in Ef. pose proof (find_none _ _ Ef x Hi) as Hn. cbn in Hn. rewrite Hx, N.eqb_refl in Hn. discriminate Hn.
      * intros x Hx. apply in_app_or in Hx as [Hx|[<-|[]]]; [exact (ok_clients _ _ O x Hx)|]. split; [apply Proof.Roster.wf_new|]. split; [cbn; exact (ok_cm _ _ O)|]. cbn. discriminate.
    + intros d k [x [m [Hx [Hd [Hi Hk]]]]]. apply in_app_or in Hx as [Hx|[<-|[]]]; [exists x, m; auto|destruct Hi].
    + intros k. right. split; [reflexivity|auto].
    + intros H. split; [exact H|auto].
    + intros k H. split; [exact H|]. split; intros H1; exact H1.
  - set (s1 := with_clients s (filter (fun x => negb (N.eqb (mc_id x) c)) (mo_clients s))).
    assert (O1 : ok cm s1).
    { apply ok_with_clients; [exact O| |].
      - pose proof (ok_ids _ _ O) as N0. induction (mo_clients s) as [|x l IH]; cbn; [constructor|]. cbn in N0. inversion N0 as [|? ? Hn Hd]; subst.
        destruct (negb _); cbn; [|exact (IH Hd)]. constructor; [|exact (IH Hd)]. intros Hi. apply Hn. apply in_map_iff in Hi as [y [Hy Hi]]. apply filter_In in Hi as [Hi _]. apply in_map_iff. exists y. auto.
      - intros x Hx. apply filter_In in Hx as [Hx _]. exact (ok_clients _ _ O x Hx). }
    intros E. apply (f_equal (option_map fst)) in E. cbn [option_map fst] in E. destruct (mo_link s) eqn:L.
    + apply (KUpdate _ _ _ _ s1); [congruence|exact O1|reflexivity|intros k; reflexivity|intros k; reflexivity|reflexivity|exact L].
    + assert (E1 : s' = s1) by congruence. clear E. subst s'. assert (On : mo_on s1 = false) by exact (proj1 (ok_down _ _ O L)).
      apply KCalm; [|intros [_ H]; congruence|right; right; reflexivity|intros H; congruence]. constructor.
      * exact O1.
      * intros d k [x [m [Hx [Hd [Hi Hk]]]]]. apply filter_In in Hx as [Hx _]. exists x, m. auto.
      * intros k. right. split; [reflexivity|auto].
      * intros H. split; [exact H|auto].
      * intros k H. split; [exact H|]. split; intros H1; exact H1.
  - destruct (find_client c (mo_clients s)) as [x|] eqn:Ef; [|discriminate]. apply find_In in Ef as [Hx Hc]. subst c.
    pose proof (command_cases cm s x params O Hx Sn) as K.
    intros E. apply (f_equal (option_map fst)) in E. cbn [option_map] in E. destruct (client_monitor s x params) as [s1 o1] eqn:Ec. cbn [fst] in E. assert (E1 : s' = s1) by congruence. subst s1. clear E.
    destruct K as [[K Ns]|[L [On [x' [K [_ Cx]]]]]].
    + subst s'. apply KCalm; [|intros [Hs Ho]|right; right; reflexivity|auto].
      * constructor; [exact O|auto|intros k; right; auto|auto|auto].
      * assert (L : mo_link s = true) by (destruct (mo_link s) eqn:L; [reflexivity|pose proof (proj1 (ok_down _ _ O L)); congruence]).
        apply Ns. rewrite L, Ho. auto.
    + apply (KUpdate _ _ _ _ (with_clients s (put_client x' (mo_clients s)))); [exact K|exact (ok_put cm s x' O Cx)|reflexivity|intros k; reflexivity|intros k; reflexivity|reflexivity|exact L].
  - destruct (mo_s2c s) as [|[b l] r] eqn:Es; [discriminate|]. intros _. exact (KNote _ _ _ _ b l r eq_refl Es).
  - destruct (mo_c2s s) as [|m r] eqn:Ec; [discriminate|]. destruct (same_keys (mo_cm s) (asks m) (names (flat_map snd answers))) eqn:Ek; [|discriminate].
    destruct (no_comma (flat_map snd answers)); [|discriminate]. cbn [andb]. intros E. apply (f_equal (option_map fst)) in E. cbn [option_map fst] in E.
    assert (E1 : s' = with_server s (serve (mo_cm s) m (mo_set s)) r (mo_s2c s ++ answers)) by congruence. clear E. subst s'.
    assert (L : mo_link s = true) by (destruct (mo_link s) eqn:L; [reflexivity|]; destruct (ok_down _ _ O L) as [_ [_ [H _]]]; congruence).
    assert (Am : forall t, In t (asks m) -> kfit t) by (intros t Ht; apply (ok_c2s _ _ O m t); [rewrite Ec; left; reflexivity|exact Ht]).
    pose proof (same_keys_iff _ _ _ Ek) as Sk. rewrite (ok_cm _ _ O) in Sk.
    assert (Sh : forall k, server_has (with_server s (serve (mo_cm s) m (mo_set s)) r (mo_s2c s ++ answers)) k <-> server_has s k).
    { intros k. unfold server_has. cbn [with_server mo_cm mo_c2s mo_set]. rewrite Ec. reflexivity. }
    assert (Ow : forall k, on_the_way s k -> on_the_way (with_server s (serve (mo_cm s) m (mo_set s)) r (mo_s2c s ++ answers)) k).
    { intros k [[m' [t [Hm [Ht Hk]]]]|[b [l [t [Hi [Ht Hk]]]]]].
      - rewrite Ec in Hm. destruct Hm as [<-|Hm]; [|left; exists m', t; auto]. right. rewrite (ok_cm _ _ O) in Hk.
        assert (Hn : In k (map (casemap cm) (names (flat_map snd answers)))) by (apply Sk; apply in_map_iff; exists t; auto).
        apply in_map_iff in Hn as [n [Hn Hi]]. unfold names in Hi. apply in_map_iff in Hi as [t' [Hn' Hi]]. apply in_flat_map in Hi as [[b l] [Hi Hl]].
        exists b, l, t'. cbn [with_server mo_s2c mo_cm]. split; [apply in_or_app; right; exact Hi|]. split; [exact Hl|]. rewrite (ok_cm _ _ O). congruence.
      - right. exists b, l, t. cbn [with_server mo_s2c mo_cm]. split; [apply in_or_app; left; exact Hi|]. auto. }
    apply KCalm; [|intros [[] _]|right; right; reflexivity|auto]. constructor.
    + apply ok_with_server; [exact O|exact L| | |].
      * apply serve_fit; [exact (ok_set _ _ O)|exact Am].
      * intros m' t Hm Ht. apply (ok_c2s _ _ O m' t); [rewrite Ec; right; exact Hm|exact Ht].
      * intros b l t Hi Ht. apply in_app_or in Hi as [Hi|Hi]; [exact (ok_s2c _ _ O b l t Hi Ht)|].
        assert (Hn : In (casemap cm (prefix_name t)) (map (casemap cm) (asks m))).
        { apply Sk. apply in_map. unfold names. apply in_map. apply in_flat_map. exists (b, l). auto. }
        apply in_map_iff in Hn as [t' [Hn Ht']]. apply (kfit_cm cm). rewrite <- Hn. apply kfit_cm. exact (Am t' Ht').
    + intros c k H. exact H.
    + intros k. right. split; [reflexivity|]. intros k' H. apply Sh. exact H.
    + intros H. split; [exact H|]. intros k' H'. apply Sh. exact H'.
    + intros k H. split; [apply Sh; exact H|]. split; [intros H1; exact H1|apply Ow].
  - destruct (mo_link s) eqn:L; [|discriminate]. cbn [andb]. destruct (forallb _ l) eqn:Ef; [|discriminate]. destruct (no_comma l); [|discriminate]. cbn [andb].
    intros E. apply (f_equal (option_map fst)) in E. cbn [option_map fst] in E.
    assert (E1 : s' = with_server s (mo_set s) (mo_c2s s) (mo_s2c s ++ [(b, l)])) by congruence. clear E. subst s'.
    apply KCalm; [|intros [[] _]|right; right; reflexivity|intros _ _; exact L]. constructor.
    + apply ok_with_server; [exact O|exact L|exact (ok_set _ _ O)|exact (ok_c2s _ _ O)|].
      intros b' l' t Hi Ht. apply in_app_or in Hi as [Hi|[Hi|[]]]; [exact (ok_s2c _ _ O b' l' t Hi Ht)|]. assert (l = l') by congruence. subst l'.
      rewrite forallb_forall in Ef. specialize (Ef t Ht). apply bmem_In in Ef. apply (kfit_cm (mo_cm s)). exact (ok_set _ _ O _ Ef).
    + intros c k H. exact H.
    + intros k. right. split; [reflexivity|auto].
    + intros H. split; [exact H|auto].
    + intros k H. split; [exact H|]. split; [intros H1; exact H1|]. intros [H1|[b' [l' [t [Hi Ht]]]]]; [left; exact H1|right; exists b', l', t; split; [apply in_or_app; left; exact Hi|exact Ht]].
Qed.

Lemma recv_step s s' o b l r : mo_s2c s = (b, l) :: r -> mstep MRecv s = Some (s', o) -> notified (with_server s (mo_set s) (mo_c2s s) r) b l = (s', o).
Proof. intros Es E. unfold mstep in E. rewrite Es in E. congruence. Qed.

Section Runs.
  Variables (P : mst -> Prop) (cm : casemapping) (want : bytes).

  Lemma runs_P tr s : mruns P cm want tr s -> P s.
  Proof. intros [? ?|]; assumption. Qed.

  Lemma known_step s e s' o : ok cm s -> known_or_coming s -> sane e -> mstep e s = Some (s', o) ->
    ok cm s' /\ known_or_coming s' /\ (syncs e -> mo_on s' = true -> forall k, server_has s' k -> wanted s' k \/ on_the_way s' k).
  Proof.
    intros O K Sn E. destruct (step_kind cm s e s' o O Sn E) as [[C1 C2 C3 C4 C5] Ns _ _|s1 E1 O1 U1 S1 W1 L1 L|b l r -> Es].
    - split; [exact C1|]. split; [|intros Hs Ho; exfalso; apply Ns; auto]. intros k Hk. destruct (C5 k Hk) as [Hs [Hh Hw]]. destruct (K k Hs) as [H|H]; [left; exact (Hh H)|right; exact (Hw H)].
    - assert (K1 : known_or_coming s1). { intros k Hk. apply S1 in Hk. unfold has. rewrite U1, W1. exact (K k Hk). }
      destruct (updated_any cm s1 O1) as [V1 [_ [_ [V4 [_ [_ [V7 _]]]]]]]. rewrite <- E1 in *. destruct (V7 K1) as [V8 V9]. split; [exact V1|]. split; [exact V8|]. intros _ Ho. apply V9. congruence.
    - apply (recv_step s s' o b l r Es) in E. pose proof (notified_ok cm s b l r O Es) as N. rewrite E in N. destruct N as [N1 [_ [_ [_ [_ [N5 [N6 N7]]]]]]].
      split; [exact N1|]. split; [|intros []]. intros k Hk. apply N6 in Hk. specialize (N5 k). unfold has. destruct (K k Hk) as [H|H].
      + left. unfold has in H. intros E0. rewrite E0 in N5. cbn in N5. destruct (bmem k _); [discriminate N5|]. destruct (look (mo_up s) k); [discriminate N5|congruence].
      + destruct (N7 k H) as [Hm|Hw]; [left|auto]. apply mentions_iff in Hm. rewrite Hm in N5. intros E0. rewrite E0 in N5. discriminate N5.
  Qed.

  Lemma runs_known tr s : mruns P cm want tr s -> ok cm s /\ known_or_coming s.
  Proof.
    intros H. induction H as [Hw _|tr s e s' o H [IO IK] Sn E _]; [split; [apply ok_new; exact (fits_kfit _ Hw)|intros k []]|].
    destruct (known_step s e s' o IO IK Sn E) as [A [B0 _]]. auto.
  Qed.

  Lemma no_excess tr s e s' o k : mruns P cm want tr s -> sane e -> mstep e s = Some (s', o) -> syncs e -> mo_on s' = true ->
    server_has s' k -> wanted s' k \/ on_the_way s' k.
  Proof. intros H Sn E Sy Ho. destruct (runs_known tr s H) as [O K]. destruct (known_step s e s' o O K Sn E) as [_ [_ F]]. exact (F Sy Ho k). Qed.
End Runs.

Lemma orderly_runs cm want tr s : mruns orderly cm want tr s -> has_on_server s /\ covered s.
Proof.
  intros H. induction H as [Hw _|tr s e s' o H [IH IC] Sn E P']; [split; [intros k Hk; exfalso; apply Hk; reflexivity|intros Ho; discriminate Ho]|].
  destruct (runs_known _ _ _ _ _ H) as [O _]. pose proof (runs_P _ _ _ _ _ H) as Or.
  destruct (step_kind cm s e s' o O Sn E) as [[C1 C2 C3 C4 C5] Ns _ _|s1 E1 O1 U1 S1 W1 L1 L|b l r -> Es].
  - split.
    + intros k Hk. unfold has in Hk. destruct (C3 k) as [E0|[E0 Hs]]; [congruence|]. apply Hs. apply IH. unfold has. congruence.
    + intros Ho k [Hw [c Hc]]. destruct (C4 Ho) as [Ho' Hs]. apply Hs. apply (IC Ho'). split; [exact Hw|]. exists c. exact (C2 c k Hc).
  - destruct (updated_any cm s1 O1) as [_ [_ [_ [_ [_ [_ [_ V8]]]]]]]. rewrite <- E1 in V8. apply V8. intros k Hk. apply S1. apply IH. unfold has in *. rewrite <- U1. exact Hk.
  - apply (recv_step s s' o b l r Es) in E. pose proof (notified_ok cm s b l r O Es) as N. rewrite E in N. destruct N as [N1 [N2 [_ [_ [N4 [N5 [N6 N7]]]]]]]. split.
    + intros k Hk. apply N6. specialize (N5 k). destruct (bmem k (map (fun t => casemap cm (prefix_name t)) l)) eqn:Em.
      * apply mentions_iff in Em as [t [Ht Hk']]. apply Or. right. exists b, l, t. rewrite Es, (ok_cm _ _ O). split; [left; reflexivity|auto].
      * apply IH. unfold has in *. intros E0. rewrite E0 in N5. destruct (look (mo_up s') k); [discriminate N5|congruence].
    + intros Ho k Hw. apply N6. apply IC; [congruence|]. apply (wanted_same cm s s'); [exact N2|exact (ok_cm _ _ O)|exact (ok_cm _ _ N1)|exact Hw].
Qed.

(** ** What clients are told *)

Lemma told_app cm c k a b : told cm c k (a ++ b) = match told cm c k b with Some x => Some x | None => told cm c k a end.
Proof.
  induction a as [|[d [cmd ps]] a IH]; cbn [app told]; [destruct (told cm c k b); reflexivity|]. rewrite IH.
  destruct (told cm c k b) as [x|]; [reflexivity|]. reflexivity.
Qed.

(** A message that tells [c] about [k]. *)
Definition about (cm : casemapping) (c : N) (k : bytes) (b : bool) (m : mout) : Prop :=
  exists n t, m = (c, (status b, [n; t])) /\ casemap cm (prefix_name t) = k.
Lemma told_cons cm c k m o b : told cm c k (m :: o) = Some b <-> told cm c k o = Some b \/ (told cm c k o = None /\ about cm c k b m).
Proof.
  destruct m as [d [cmd ps]]. cbn [told]. destruct (told cm c k o) as [x|] eqn:E.
  - split; [intros H; left; exact H|intros [H|[H _]]; [exact H|discriminate H]].
  - split.
    + intros H. right. split; [reflexivity|]. destruct ps as [|n [|t [|? ?]]]; try discriminate H. destruct (N.eqb_spec d c) as [->|]; [|discriminate H]. cbn [andb] in H.
      destruct (beqb_spec (casemap cm (prefix_name t)) k) as [Ek|]; [|discriminate H]. exists n, t.
      destruct (beqb_spec cmd (B "730")) as [->|]; [assert (b = true) by congruence; subst b; auto|]. destruct (beqb_spec cmd (B "731")) as [->|]; [|discriminate H]. assert (b = false) by congruence. subst b. auto.
    + intros [H|[_ [n [t [Em Ek]]]]]; [discriminate H|]. apply pair_equal_spec in Em as [-> Em]. apply pair_equal_spec in Em as [-> ->]. rewrite N.eqb_refl, Ek, beqb_refl. cbn [andb].
      destruct b; reflexivity.
Qed.
Lemma told_some cm c k o b : told cm c k o = Some b -> exists m, In m o /\ about cm c k b m.
Proof.
  revert b. induction o as [|m o IH]; intros b; [discriminate|]. intros H. apply told_cons in H as [H|[_ H]].
  - destruct (IH b H) as [m' [Hi Ha]]. exists m'. split; [right; exact Hi|exact Ha].
  - exists m. split; [left; reflexivity|exact H].
Qed.
Lemma told_none cm c k o : told cm c k o = None -> forall m b, In m o -> ~ about cm c k b m.
Proof.
  induction o as [|m o IH]; intros H m' b; [intros []|]. destruct (told cm c k o) as [x|] eqn:E.
  - exfalso. assert (told cm c k (m :: o) = Some x) by (apply told_cons; left; exact E). congruence.
  - intros [<-|Hi]; [|exact (IH eq_refl m' b Hi)]. intros Ha. assert (told cm c k (m :: o) = Some b) by (apply told_cons; right; auto). congruence.
Qed.
(** All messages about it say the same. *)
Lemma told_all cm c k o b : (forall m b', In m o -> about cm c k b' m -> b' = b) -> (exists m, In m o /\ about cm c k b m) -> told cm c k o = Some b.
Proof.
  intros H [m [Hm Ha]]. destruct (told cm c k o) as [x|] eqn:E; [|exfalso; exact (told_none cm c k o E m b Hm Ha)].
  apply told_some in E as [m' [Hm' Ha']]. rewrite (H m' x Hm' Ha'). reflexivity.
Qed.

Lemma about_num cm c k b x cmd ps : about cm c k b (num x cmd ps) <-> mc_id x = c /\ cmd = status b /\ exists t, ps = [t] /\ casemap cm (prefix_name t) = k.
Proof.
  unfold about, num. split.
  - intros [n [t [E Ek]]]. apply pair_equal_spec in E as [E1 E]. apply pair_equal_spec in E as [E2 E3]. split; [exact E1|]. split; [exact E2|]. exists t. split; [congruence|exact Ek].
  - intros [E1 [E2 [t [E3 Ek]]]]. exists (mc_nick x), t. subst. auto.
Qed.

Lemma status_inj a b : status a = status b -> a = b.
Proof. destruct a, b; intros H; (reflexivity || discriminate H). Qed.

Definition up_status (s : mst) (k : bytes) : option bool := option_map snd (look (mo_up s) k).

(** Adding targets tells what is known about them. *)
Lemma add_target_told cm s x t k b : ok cm s -> client_ok cm x -> kfit t -> k <> service_cm -> up_status s k = Some b ->
  let '(x', o) := add_target s x t in
  (forall m b', In m o -> about cm (mc_id x) k b' m -> b' = b) /\
  (forall m c b', In m o -> about cm c k b' m -> c = mc_id x) /\
  (look (mc_mon x') k <> None -> look (mc_mon x) k <> None \/ exists m, In m o /\ about cm (mc_id x) k b m).
Proof.
  intros O [W [F K]] Ht Hk Hu. unfold add_target. destruct (1000 <=? cm_len (mc_mon x)).
  { split; [|split].
    - intros m b' [<-|[]] H. apply about_num in H as [_ [_ [t' [H _]]]]. discriminate H.
    - intros m c b' [<-|[]] H. apply about_num in H as [_ [_ [t' [H _]]]]. discriminate H.
    - auto. }
  rewrite (ok_cm _ _ O). destruct (beqb_spec (casemap cm t) service_cm) as [Es|Es].
  { assert (Na : forall c b', ~ about cm c k b' (num (MClient (mc_id x) (mc_nick x) (cm_set (mc_mon x) t tt)) (B "730") [t])).
    { intros c b' H. apply about_num in H as [_ [_ [t' [H Hk']]]]. assert (t' = t) by congruence. subst t'. rewrite (kfit_prefix t Ht) in Hk'. congruence. }
    split; [|split].
    - intros m b' [<-|[]] H. destruct (Na _ _ H).
    - intros m c b' [<-|[]] H. destruct (Na _ _ H).
    - cbn [mc_mon]. rewrite Proof.Roster.look_set, F. destruct (beqb_spec k (casemap cm t)) as [E|E]; [congruence|auto]. }
  assert (Eg : cm_get (mo_up s) t = up_status s (casemap cm t)) by (rewrite Proof.Roster.look_get, (proj2 (ok_up _ _ O)); reflexivity).
  rewrite Eg. destruct (beqb_spec (casemap cm t) k) as [E|E].
  - rewrite E, Hu. assert (Ha : about cm (mc_id x) k b (num (MClient (mc_id x) (mc_nick x) (cm_set (mc_mon x) t tt)) (status b) [t])).
    { apply about_num. split; [reflexivity|]. split; [reflexivity|]. exists t. split; [reflexivity|]. rewrite (kfit_prefix t Ht). exact E. }
    split; [|split].
    + intros m b' [<-|[]] H. apply about_num in H as [_ [H _]]. symmetry. apply status_inj. exact H.
    + intros m c b' [<-|[]] H. apply about_num in H as [H _]. symmetry. exact H.
    + intros _. right. eexists. split; [left; reflexivity|exact Ha].
  - assert (Hl : look (cm_set (mc_mon x) t tt) k <> None -> look (mc_mon x) k <> None).
    { rewrite Proof.Roster.look_set, F. destruct (beqb_spec k (casemap cm t)) as [E1|E1]; [congruence|auto]. }
    assert (Na : forall c b' b0, ~ about cm c k b' (num (MClient (mc_id x) (mc_nick x) (cm_set (mc_mon x) t tt)) (status b0) [t])).
    { intros c b' b0 H. apply about_num in H as [_ [_ [t' [H Hk']]]]. assert (t' = t) by congruence. subst t'. rewrite (kfit_prefix t Ht) in Hk'. congruence. }
    destruct (up_status s (casemap cm t)) as [b0|]; cbn [mc_mon]; (split; [|split]).
    + intros m b' [<-|[]] H. destruct (Na _ _ _ H).
    + intros m c b' [<-|[]] H. destruct (Na _ _ _ H).
    + intros H. left. exact (Hl H).
    + intros m b' [].
    + intros m c b' [].
    + intros H. left. exact (Hl H).
Qed.
Lemma add_targets_told cm s l k b : ok cm s -> Forall kfit l -> k <> service_cm -> up_status s k = Some b -> forall x, client_ok cm x ->
  let '(x', o) := add_targets s x l in
  (forall m b', In m o -> about cm (mc_id x) k b' m -> b' = b) /\
  (forall m c b', In m o -> about cm c k b' m -> c = mc_id x) /\
  (look (mc_mon x') k <> None -> look (mc_mon x) k <> None \/ exists m, In m o /\ about cm (mc_id x) k b m).
Proof.
  intros O Fl Hk Hu. induction l as [|t l IH]; intros x C; cbn [add_targets].
  { split; [intros m b' []|]. split; [intros m c b' []|auto]. }
  inversion Fl as [|? ? Ft Fl']; subst. pose proof (add_target_told cm s x t k b O C Ft Hk Hu) as A. destruct (add_target_ok cm s x t C Ft) as [C1 I1].
  destruct (add_target s x t) as [x1 o1]. cbn [fst] in *. specialize (IH Fl' x1 C1). destruct (add_targets s x1 l) as [x2 o2]. rewrite I1 in IH.
  destruct A as [A1 [A2 A3]], IH as [B1 [B2 B3]]. split; [|split].
  - intros m b' Hm. apply in_app_or in Hm as [Hm|Hm]; [exact (A1 m b' Hm)|exact (B1 m b' Hm)].
  - intros m c b' Hm. apply in_app_or in Hm as [Hm|Hm]; [exact (A2 m c b' Hm)|exact (B2 m c b' Hm)].
  - intros H. destruct (B3 H) as [H1|[m [Hm Ha]]]; [|right; exists m; split; [apply in_or_app; right; exact Hm|exact Ha]].
    destruct (A3 H1) as [H2|[m [Hm Ha]]]; [left; exact H2|right; exists m; split; [apply in_or_app; left; exact Hm|exact Ha]].
Qed.

Lemma on_list_look cm s c k : ok cm s -> on_list s c k <-> exists x, In x (mo_clients s) /\ mc_id x = c /\ look (mc_mon x) k <> None.
Proof.
  intros O. unfold on_list. rewrite (ok_cm _ _ O). split.
  - intros [x [n [Hx [Hc [Hi Hk]]]]]. exists x. split; [exact Hx|]. split; [exact Hc|]. destruct (ok_clients _ _ O x Hx) as [W [F _]].
    apply (proj1 (Proof.Roster.wf_entries _ _ _ W)) in Hi. rewrite F, Hk in Hi. congruence.
  - intros [x [Hx [Hc Hl]]]. destruct (ok_clients _ _ O x Hx) as [W [F _]]. destruct (look (mc_mon x) k) as [[n []]|] eqn:El; [|congruence].
    pose proof (Proof.Roster.wf_key _ _ _ _ W El) as Hk. rewrite F in Hk. exists x, n. split; [exact Hx|]. split; [exact Hc|]. split; [|symmetry; exact Hk].
    apply (proj2 (Proof.Roster.wf_entries _ _ _ W)). rewrite F, <- Hk. exact El.
Qed.

Lemma same_client s x y : NoDup (map mc_id (mo_clients s)) -> In x (mo_clients s) -> In y (mo_clients s) -> mc_id x = mc_id y -> x = y.
Proof.
  intros N Hx Hy E. induction (mo_clients s) as [|z l IH]; [destruct Hx|]. cbn in N. inversion N as [|? ? Hn Hd]; subst.
  destruct Hx as [->|Hx], Hy as [->|Hy]; [reflexivity| | |exact (IH Hd Hx Hy)].
  - exfalso. apply Hn. rewrite E. apply in_map. exact Hy.
  - exfalso. apply Hn. rewrite <- E. apply in_map. exact Hx.
Qed.

Definition informed (cm : casemapping) (tr : mtrace) (s : mst) : Prop :=
  forall c k b, k <> service_cm -> up_status s k = Some b -> on_list s c k -> last_told cm c k tr = Some b.

(** A command of a client: the messages about a nickname say what is known, and a
    nickname that is new on the list is mentioned. *)
Lemma command_told cm s x params k b : ok cm s -> In x (mo_clients s) -> sane (MCommand (mc_id x) params) -> k <> service_cm -> up_status s k = Some b ->
  let '(s', o) := client_monitor s x params in
  (forall m c b', In m o -> about cm c k b' m -> c = mc_id x /\ b' = b) /\
  (forall c, on_list s' c k -> on_list s c k \/ (c = mc_id x /\ exists m, In m o /\ about cm (mc_id x) k b m)).
Proof.
  intros O Hx Sn Hk Hu. pose proof (ok_clients _ _ O x Hx) as C. unfold client_monitor.
  assert (Nb : forall cmd a t' b' c, ~ about cm c k b' (num x cmd [a; t'])).
  { intros cmd a t' b' c H. apply about_num in H as [_ [_ [t [H _]]]]. discriminate H. }
  assert (Put : forall x' : mclient, mc_id x' = mc_id x -> client_ok cm x' -> forall s', mo_clients s' = put_client x' (mo_clients s) -> mo_cm s' = mo_cm s -> forall c, on_list s' c k -> on_list s c k \/ (c = mc_id x /\ look (mc_mon x') k <> None)).
  { intros x' Hid [W' [F' _]] s' Hc Hcm c [y [n [Hy [Hd [Hi Hkk]]]]]. rewrite Hc in Hy. rewrite Hcm in Hkk. apply put_In in Hy as [->|[Hy _]].
    - right. split; [congruence|]. apply (proj1 (Proof.Roster.wf_entries _ _ _ W')) in Hi. rewrite F' in Hi. rewrite (ok_cm _ _ O) in Hkk. rewrite Hkk in Hi. congruence.
    - left. exists y, n. auto. }
  assert (Upd : forall x', client_ok cm x' -> mo_clients (update_monitor (with_clients s (put_client x' (mo_clients s)))) = put_client x' (mo_clients s) /\ mo_cm (update_monitor (with_clients s (put_client x' (mo_clients s)))) = mo_cm s).
  { intros x' C'. destruct (updated_any cm _ (ok_put cm s x' O C')) as [U1 [U2 _]]. split; [exact U2|]. rewrite (ok_cm _ _ U1), (ok_cm _ _ O). reflexivity. }
  destruct (mo_link s && mo_on s); cbn [negb]; [|split; [intros m c b' [<-|[]] H; destruct (Nb _ _ _ _ _ H)|auto]].
  destruct params as [|sub r]; [split; [intros m c b' [<-|[]] H; destruct (Nb _ _ _ _ _ H)|auto]|].
  destruct (beqb_spec sub (B "+")) as [->|N1]; cbn [orb].
  { destruct r as [|targets r]; [split; [intros m c b' [<-|[]] H; destruct (Nb _ _ _ _ _ H)|auto]|]. cbn [sane] in Sn.
    assert (F : Forall kfit (split_on "," targets)) by (apply Forall_forall; intros t Ht; apply fits_kfit; exact (Sn eq_refl t Ht)).
    destruct (add_targets_ok cm s _ x C F) as [C' I']. pose proof (add_targets_told cm s _ k b O F Hk Hu x C) as T.
    destruct (add_targets s x (split_on "," targets)) as [x' o]. cbn [fst] in *. destruct T as [T1 [T2 T3]]. split.
    - intros m c b' Hm Ha. pose proof (T2 m c b' Hm Ha) as Hc. subst c. split; [reflexivity|exact (T1 m b' Hm Ha)].
    - intros c Hc. destruct (Upd x' C') as [U1 U2]. destruct (Put x' I' C' _ U1 U2 c Hc) as [H|[-> H]]; [left; exact H|].
      destruct (T3 H) as [H1|H1]; [left|right; auto]. apply (on_list_look cm s _ k O). exists x. auto. }
  destruct (beqb_spec sub (B "-")) as [->|N2].
  { destruct r as [|targets r]; [split; [intros m c b' [<-|[]] H; destruct (Nb _ _ _ _ _ H)|auto]|]. split; [intros m c b' []|].
    destruct C as [W [F K]]. destruct (del_targets (mc_mon x) (split_on "," targets) W) as [D1 [D2 D3]].
    set (x' := MClient (mc_id x) (mc_nick x) (fold_left (fun t n => cm_del t n) (split_on "," targets) (mc_mon x))).
    assert (C' : client_ok cm x'). { split; [exact D1|]. split; [cbn [x' mc_mon]; rewrite D2; exact F|]. cbn [x' mc_mon]. intros k0 o v Hl. apply D3 in Hl. exact (K _ _ _ Hl). }
    intros c Hc. destruct (Upd x' C') as [U1 U2]. destruct (Put x' eq_refl C' _ U1 U2 c Hc) as [H|[-> H]]; [left; exact H|].
    left. apply (on_list_look cm s _ k O). exists x. split; [exact Hx|]. split; [reflexivity|]. cbn [x' mc_mon] in H.
    destruct (look (fold_left (fun t n => cm_del t n) (split_on "," targets) (mc_mon x)) k) as [v|] eqn:El; [|congruence]. apply D3 in El. congruence. }
  destruct (beqb sub (B "C") || beqb sub (B "c")).
  { split; [intros m c b' []|]. set (x' := MClient (mc_id x) (mc_nick x) (cm_new (mo_cm s))).
    assert (C' : client_ok cm x'). { split; [apply Proof.Roster.wf_new|]. split; [exact (ok_cm _ _ O)|]. cbn. discriminate. }
    intros c Hc. destruct (Upd x' C') as [U1 U2]. destruct (Put x' eq_refl C' _ U1 U2 c Hc) as [H|[-> H]]; [left; exact H|]. exfalso. apply H. reflexivity. }
  destruct (beqb sub (B "L") || beqb sub (B "l")).
  { split; [|auto]. intros m c b' Hm Ha. exfalso. apply in_app_or in Hm as [Hm|[<-|[]]].
    - apply in_map_iff in Hm as [e [<- _]]. apply about_num in Ha as [_ [Ha _]]. destruct b'; discriminate Ha.
    - apply about_num in Ha as [_ [Ha _]]. destruct b'; discriminate Ha. }
  destruct (beqb sub (B "S") || beqb sub (B "s")); [|split; [intros m c b' []|auto]].
  split; [|auto]. intros m c b' Hm Ha. apply in_map_iff in Hm as [[n []] [<- Hi]]. cbn [fst] in Ha. apply about_num in Ha as [Hc [Hs [t [Ht Hkk]]]].
  split; [symmetry; exact Hc|]. assert (n = t) by congruence. subst t. destruct C as [W [F K]]. apply (proj1 (Proof.Roster.wf_entries _ _ _ W)) in Hi. rewrite F in Hi.
  pose proof (K _ _ _ Hi) as Kn. apply kfit_cm in Kn. rewrite (kfit_prefix n Kn) in Hkk. rewrite (ok_cm _ _ O), Hkk in Hs.
  rewrite (proj2 (beqb_neq _ _) Hk) in Hs.
  assert (Eg : cm_get (mo_up s) n = up_status s (casemap cm n)) by (rewrite Proof.Roster.look_get, (proj2 (ok_up _ _ O)); reflexivity).
  rewrite Eg, Hkk, Hu in Hs. symmetry. apply status_inj. exact Hs.
Qed.

Lemma other_output e s s' o : mstep e s = Some (s', o) -> e <> MRecv -> (forall c ps, e <> MCommand c ps) -> o = [].
Proof.
  unfold mstep. destruct e; intros E H1 H2; try (exfalso; congruence); try (exfalso; eapply H2; reflexivity);
    repeat match type of E with (if ?x then _ else _) = _ => destruct x | match ?x with _ => _ end = _ => destruct x end; congruence.
Qed.

Section Informed.
  Variables (P : mst -> Prop) (cm : casemapping) (want : bytes).

  Lemma runs_informed tr s : mruns P cm want tr s -> informed cm tr s.
  Proof.
    intros H. induction H as [Hw _|tr s e s' o H IH Sn E _]; [intros c k b _ Hu; discriminate Hu|].
    destruct (runs_known _ _ _ _ _ H) as [O K]. destruct (known_step cm s e s' o O K Sn E) as [O' _].
    intros c k b Hk Hu Hl. cbn [last_told].
    destruct (match e with MRecv => true | _ => false end) eqn:Er.
    { destruct e; try discriminate Er. destruct (mo_s2c s) as [|[b0 l] r] eqn:Es; [unfold mstep in E; rewrite Es in E; discriminate E|].
      pose proof (recv_step s s' o b0 l r Es E) as En. pose proof (notified_ok cm s b0 l r O Es) as N. rewrite En in N. destruct N as [_ [N1 [_ [_ [_ [N5 _]]]]]].
      specialize (N5 k). fold (up_status s' k) in N5. fold (up_status s k) in N5. rewrite Hu in N5.
      assert (Ho : o = flat_map (fun c => flat_map (fun t => if cm_has (mc_mon c) (prefix_name t) then [num c (status b0) [t]] else []) l) (mo_clients s)).
      { unfold notified in En. apply (f_equal snd) in En. cbn [snd] in En. rewrite <- En. reflexivity. }
      assert (Hl' : on_list s c k) by (apply (on_list_clients s s'); [exact N1|rewrite (ok_cm _ _ O), (ok_cm _ _ O'); reflexivity|exact Hl]).
      destruct (bmem k (map (fun t => casemap cm (prefix_name t)) l)) eqn:Em.
      - assert (b0 = b) by congruence. subst b0. apply mentions_iff in Em as [t [Ht Hkt]]. rewrite (told_all cm c k o b); [reflexivity| |].
        + intros m b' Hm Ha. rewrite Ho in Hm. apply in_flat_map in Hm as [x [Hx Hm]]. apply in_flat_map in Hm as [t' [Ht' Hm]].
          destruct (cm_has _ _); [|destruct Hm]. destruct Hm as [<-|[]]. apply about_num in Ha as [_ [Ha _]]. symmetry. apply status_inj. exact Ha.
        + apply (on_list_look cm s c k O) in Hl' as [x [Hx [Hc Hlk]]]. exists (num x (status b) [t]). split.
          * rewrite Ho. apply in_flat_map. exists x. split; [exact Hx|]. apply in_flat_map. exists t. split; [exact Ht|].
            destruct (ok_clients _ _ O x Hx) as [_ [F _]]. rewrite Proof.Roster.look_has, F, Hkt. destruct (look (mc_mon x) k); [left; reflexivity|congruence].
          * apply about_num. split; [exact Hc|]. split; [reflexivity|]. exists t. auto.
      - assert (En0 : told cm c k o = None).
        { destruct (told cm c k o) as [b1|] eqn:Et; [|reflexivity]. exfalso. apply told_some in Et as [m [Hm Ha]]. rewrite Ho in Hm. apply in_flat_map in Hm as [x [Hx Hm]]. apply in_flat_map in Hm as [t' [Ht' Hm]].
          destruct (cm_has _ _); [|destruct Hm]. destruct Hm as [<-|[]]. apply about_num in Ha as [_ [_ [t [E1 E2]]]]. assert (t' = t) by congruence. subst t'.
          assert (bmem k (map (fun t => casemap cm (prefix_name t)) l) = true) by (apply mentions_iff; exists t; auto). congruence. }
        rewrite En0. apply IH; [exact Hk|symmetry; exact N5|exact Hl']. }
    assert (Nr : e <> MRecv) by (intros ->; discriminate Er).
    (* what is known does not change otherwise *)
    assert (Hs : up_status s k = Some b).
    { destruct (step_kind cm s e s' o O Sn E) as [[C1 C2 C3 C4 C5] _ _ _|s1 E1 O1 U1 _ _ _ _|b0 l r E0 _]; [| |contradiction].
      - unfold up_status in *. destruct (C3 k) as [E0|[E0 _]]; rewrite E0 in Hu; [discriminate Hu|exact Hu].
      - destruct (updated_any cm s1 O1) as [_ [_ [_ [_ [V5 _]]]]]. rewrite <- E1 in V5. unfold up_status in *. rewrite U1 in V5. destruct (V5 k) as [E0|E0]; rewrite E0 in Hu; [discriminate Hu|exact Hu]. }
    destruct e as [n h| |b0|n h|w|c0 n|c0|c0 params| |answers|b0 l]; try contradiction.
    all: try (assert (Ho : o = []) by (apply (other_output _ _ _ _ E); [discriminate|intros; discriminate]); subst o; cbn [told]; apply IH; [exact Hk|exact Hs|]).
    - destruct (step_kind cm s _ s' [] O Sn E) as [[_ C2 _ _ _] _ _ _|s1 E1 O1 _ _ _ _ _|? ? ? E0 _]; [exact (C2 c k Hl)| |discriminate E0].
      unfold mstep in E. destruct (mo_link s); [discriminate E|]. rewrite not_on in E by reflexivity. assert (E2 : s' = MSt (mo_cm s) (mo_clients s) true false (cm_new (mo_cm s)) n (mo_want s) h [] [] []) by congruence. rewrite E2 in Hl. exact Hl.
    - destruct (step_kind cm s _ s' [] O Sn E) as [[_ C2 _ _ _] _ _ _|s1 E1 O1 _ _ _ _ _|? ? ? E0 _]; [exact (C2 c k Hl)| |discriminate E0].
      unfold mstep in E. destruct (mo_link s); [|discriminate E]. assert (E2 : s' = MSt (mo_cm s) (mo_clients s) false false (cm_new (mo_cm s)) (mo_nick s) (mo_want s) (mo_has s) [] [] []) by congruence. rewrite E2 in Hl. exact Hl.
    - unfold mstep in E. destruct (mo_link s) eqn:L; [|discriminate E]. assert (E2 : s' = update_monitor (with_on s (mo_on s || b0))) by congruence.
      assert (O1 : ok cm (with_on s (mo_on s || b0))). { destruct O as [A1 A2 A3 A4 A5 A6 A7 A8 A9 A10]. constructor; try assumption. cbn [with_on mo_link]. intros H0. congruence. }
      destruct (updated_any cm _ O1) as [V1 [V2 _]]. rewrite <- E2 in *. apply (on_list_clients s s') in Hl; [exact Hl|exact V2|rewrite (ok_cm _ _ O), (ok_cm _ _ O'); reflexivity].
    - unfold mstep in E. destruct (mo_link s) eqn:L; [|discriminate E]. assert (E2 : s' = update_monitor (with_own s n h)) by congruence.
      assert (O1 : ok cm (with_own s n h)). { destruct O as [A1 A2 A3 A4 A5 A6 A7 A8 A9 A10]. constructor; assumption. }
      destruct (updated_any cm _ O1) as [V1 [V2 _]]. rewrite <- E2 in *. apply (on_list_clients s s') in Hl; [exact Hl|exact V2|rewrite (ok_cm _ _ O), (ok_cm _ _ O'); reflexivity].
    - destruct (step_kind cm s _ s' [] O Sn E) as [[_ C2 _ _ _] _ _ _|s1 E1 O1 _ _ _ _ _|? ? ? E0 _]; [exact (C2 c k Hl)| |discriminate E0].
      unfold mstep in E. assert (E2 : s' = with_wanted s w) by congruence. rewrite E2 in Hl. exact Hl.
    - unfold mstep in E. destruct (find_client c0 (mo_clients s)); [discriminate E|]. assert (E2 : s' = with_clients s (mo_clients s ++ [MClient c0 n (cm_new (mo_cm s))])) by congruence. rewrite E2 in Hl.
      destruct Hl as [x [m [Hx [Hd [Hi Hkk]]]]]. apply in_app_or in Hx as [Hx|[<-|[]]]; [exists x, m; auto|destruct Hi].
    - unfold mstep in E. set (s1 := with_clients s (filter (fun x => negb (N.eqb (mc_id x) c0)) (mo_clients s))) in *.
      assert (E2 : mo_clients s' = mo_clients s1 /\ mo_cm s' = mo_cm s).
      { split; [|rewrite (ok_cm _ _ O), (ok_cm _ _ O'); reflexivity]. destruct (mo_link s); [|congruence]. assert (E3 : s' = update_monitor s1) by congruence. rewrite E3.
        unfold update_monitor. destruct (negb (mo_on s1)); [reflexivity|]. destruct (fold_left _ _ _) as [a0 b1]. destruct (_ && _ && _); reflexivity. }
      destruct E2 as [E2 E3]. destruct Hl as [x [m [Hx [Hd [Hi Hkk]]]]]. rewrite E2 in Hx. apply filter_In in Hx as [Hx _]. rewrite E3 in Hkk. exists x, m. auto.
    - unfold mstep in E. destruct (find_client c0 (mo_clients s)) as [x|] eqn:Ef; [|discriminate E]. apply find_In in Ef as [Hx Hc]. subst c0.
      pose proof (command_told cm s x params k b O Hx Sn Hk Hs) as T. assert (Ec : client_monitor s x params = (s', o)) by congruence. rewrite Ec in T. destruct T as [T1 T2].
      destruct (told cm c k o) as [b1|] eqn:Et.
      + apply told_some in Et as [m [Hm Ha]]. destruct (T1 m c b1 Hm Ha) as [_ ->]. reflexivity.
      + destruct (T2 c Hl) as [Hl'|[-> [m [Hm Ha]]]]; [exact (IH c k b Hk Hs Hl')|]. exfalso. exact (told_none _ _ _ _ Et m b Hm Ha).
    - destruct (step_kind cm s _ s' [] O Sn E) as [[_ C2 _ _ _] _ _ _|s1 E1 O1 _ _ _ _ _|? ? ? E0 _]; [exact (C2 c k Hl)| |discriminate E0].
      unfold mstep in E. destruct (mo_c2s s); [discriminate E|]. destruct (_ && _); [|discriminate E]. apply (f_equal (option_map (fun p => (mo_clients (fst p), mo_cm (fst p))))) in E. cbn in E.
      assert (Ea : mo_clients s' = mo_clients s) by congruence. assert (Eb : mo_cm s' = mo_cm s) by congruence. apply (on_list_clients s s'); assumption.
    - destruct (step_kind cm s _ s' [] O Sn E) as [[_ C2 _ _ _] _ _ _|s1 E1 O1 _ _ _ _ _|? ? ? E0 _]; [exact (C2 c k Hl)| |discriminate E0].
      unfold mstep in E. destruct (_ && _ && _); [|discriminate E]. apply (f_equal (option_map (fun p => (mo_clients (fst p), mo_cm (fst p))))) in E. cbn in E.
      assert (Ea : mo_clients s' = mo_clients s) by congruence. assert (Eb : mo_cm s' = mo_cm s) by congruence. apply (on_list_clients s s'); assumption.
  Qed.

  Lemma known_runs k b tr s : known P cm want k b tr s -> mruns P cm want tr s.
  Proof. intros H. induction H as [tr s s' o l r Hr Es Hm E Ps|tr s e s' o K IH Sn E Ps _ _ _]; [exact (MCons P cm want tr s MRecv s' o Hr I E Ps)|exact (MCons P cm want tr s e s' o IH Sn E Ps)]. Qed.

  Lemma known_status k b tr s : known P cm want k b tr s -> up_status s k = Some b /\ mo_link s = true.
  Proof.
    intros H. induction H as [tr s s' o l r Hr Es Hm E Ps|tr s e s' o Kn [IH IL] Sn E Ps Nd Nr Hw].
    - destruct (runs_known _ _ _ _ _ Hr) as [O _]. pose proof (recv_step s s' o b l r Es E) as En. pose proof (notified_ok cm s b l r O Es) as N. rewrite En in N.
      destruct N as [_ [_ [L [_ [_ [N5 _]]]]]]. split; [|exact L]. unfold up_status. rewrite N5. assert (Hb : bmem k (map (fun t => casemap cm (prefix_name t)) l) = true) by (apply mentions_iff; exact Hm). rewrite Hb. reflexivity.
    - destruct (runs_known _ _ _ _ _ (known_runs _ _ _ _ Kn)) as [O K].
      destruct (step_kind cm s e s' o O Sn E) as [_ _ C C4|s1 E1 O1 U1 _ _ L1 L|b0 l r -> Es].
      + split; [|exact (C4 IL Nd)]. destruct C as [C|[[n [h C]]|C]]; [contradiction|subst e; unfold mstep in E; rewrite IL in E; discriminate E|]. unfold up_status in *. rewrite C. exact IH.
      + destruct (updated_any cm s1 O1) as [V1 [V2 [V3 [_ [_ [V6 _]]]]]]. rewrite <- E1 in *. split; [|congruence].
        assert (Hw1 : wanted s1 k) by (apply (wanted_same cm s1 s'); [exact V2|exact (ok_cm _ _ O1)|exact (ok_cm _ _ V1)|exact Hw]).
        unfold up_status in *. rewrite (V6 k Hw1), U1. exact IH.
      + pose proof (recv_step s s' o b0 l r Es E) as En. pose proof (notified_ok cm s b0 l r O Es) as N. rewrite En in N.
        destruct N as [_ [_ [L [_ [_ [N5 _]]]]]]. split; [|exact L]. unfold up_status. rewrite N5. destruct (bmem k _) eqn:Em; [|exact IH].
        apply mentions_iff in Em as [t [Ht Hk]]. exfalso. exact (Nr eq_refl b0 l r t Es Ht Hk).
  Qed.
End Informed.
