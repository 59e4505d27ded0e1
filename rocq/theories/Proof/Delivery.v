From Verif.Base Require Import Bytes.
From Verif.Model Require Import Delivery.
From Verif.Spec Require Import Delivery.
From Coq Require Import Lia.

(** ** Maps *)
Lemma assoc_set_same {A} k (v : A) l : assoc k (set_assoc k v l) = Some v.
Proof.
  induction l as [|[k' v'] l IH]; cbn [set_assoc assoc]; [rewrite N.eqb_refl; reflexivity|].
  destruct (N.eqb k' k) eqn:E; cbn [assoc]; rewrite E; [reflexivity|exact IH].
Qed.

Lemma assoc_set_other {A} k k' (v : A) l : k' <> k -> assoc k' (set_assoc k v l) = assoc k' l.
Proof.
  intros H. induction l as [|[k0 v'] l IH]; cbn [set_assoc assoc].
  - destruct (N.eqb k k') eqn:E; [apply N.eqb_eq in E; congruence|reflexivity].
  - destruct (N.eqb k0 k) eqn:E; cbn [assoc].
    + apply N.eqb_eq in E. subst k0. destruct (N.eqb k k') eqn:E; [apply N.eqb_eq in E; congruence|reflexivity].
    + destruct (N.eqb k0 k'); [reflexivity|exact IH].
Qed.

Lemma set_keys {A} k (v : A) l : forall x, In x (map fst (set_assoc k v l)) <-> x = k \/ In x (map fst l).
Proof.
  induction l as [|[k' v'] l IH]; intros x; cbn [set_assoc map fst In]; [intuition|].
  destruct (N.eqb k' k) eqn:E; cbn [map fst In].
  - apply N.eqb_eq in E. subst k'. intuition.
  - rewrite IH. intuition.
Qed.

Lemma set_nodup {A} k (v : A) l : NoDup (map fst l) -> NoDup (map fst (set_assoc k v l)).
Proof.
  induction l as [|[k' v'] l IH]; intros H; cbn [set_assoc map fst] in *; [constructor; [easy|constructor]|].
  inversion_clear H as [|? ? H1 H2]. destruct (N.eqb k' k) eqn:E; cbn [map fst]; constructor.
  - exact H1.
  - exact H2.
  - rewrite set_keys. intros [X|X]; [subst; rewrite N.eqb_refl in E; discriminate|exact (H1 X)].
  - apply IH, H2.
Qed.

Lemma assoc_in {A} k (v : A) l : assoc k l = Some v -> In (k, v) l.
Proof.
  induction l as [|[k' v'] l IH]; cbn [assoc]; [discriminate|].
  destruct (N.eqb k' k) eqn:E; [intros [= ->]; apply N.eqb_eq in E; subst; left; reflexivity|intros H; right; exact (IH H)].
Qed.

Lemma assoc_none {A} k (l : list (N * A)) : assoc k l = None <-> ~ In k (map fst l).
Proof.
  induction l as [|[k' v'] l IH]; cbn [assoc map fst In]; [intuition|].
  destruct (N.eqb k' k) eqn:E.
  - apply N.eqb_eq in E. subst. split; [discriminate|intros H; destruct H; left; reflexivity].
  - apply N.eqb_neq in E. rewrite IH. intuition.
Qed.

Lemma in_assoc {A} k (v : A) l : NoDup (map fst l) -> In (k, v) l -> assoc k l = Some v.
Proof.
  induction l as [|[k' v'] l IH]; cbn [map fst assoc]; [easy|]. intros D [H|H]; inversion_clear D as [|? ? D1 D2].
  - injection H as -> ->. rewrite N.eqb_refl. reflexivity.
  - destruct (N.eqb k' k) eqn:E; [|exact (IH D2 H)].
    apply N.eqb_eq in E. subst. destruct D1. apply (in_map fst) in H. exact H.
Qed.

Lemma load_store d t c n t' c' :
  ds_load (ds_store d t c n) t' c' = if N.eqb t t' && N.eqb c c' then Some n else ds_load d t' c'.
Proof.
  unfold ds_load, ds_store. destruct (N.eqb t t') eqn:E1; cbn [andb].
  - apply N.eqb_eq in E1. subst t'. rewrite assoc_set_same. destruct (N.eqb c c') eqn:E2.
    + apply N.eqb_eq in E2. subst c'. rewrite assoc_set_same. reflexivity.
    + apply N.eqb_neq in E2. rewrite assoc_set_other by congruence. destruct (assoc t d); reflexivity.
  - apply N.eqb_neq in E1. rewrite assoc_set_other by congruence. reflexivity.
Qed.

Lemma load_has d t c n : ds_load d t c = Some n -> ds_has d t = true /\ In t (map fst d) /\ In c (ds_clients d) /\ ds_empty d = false.
Proof.
  unfold ds_load, ds_has. destruct (assoc t d) as [m|] eqn:E; [|discriminate]. intros H.
  apply assoc_in in E, H.
  split; [reflexivity|]. split; [apply (in_map fst) in E; exact E|]. split; [|destruct d; [destruct E|reflexivity]].
  unfold ds_clients. apply nodup_In. apply in_concat. exists (map fst m). split.
  - apply (in_map (fun x => map fst (snd x))) in E. exact E.
  - apply (in_map fst) in H. exact H.
Qed.

(** ** Lists *)
Lemma chat_app a b : chat (a ++ b) = chat a ++ chat b.
Proof. apply filter_app. Qed.

Lemma got_app c t a b : got c t (a ++ b) = got c t a ++ got c t b.
Proof. apply flat_map_app. Qed.

(** The bodies of the chat messages. *)
Definition bodies (l : list lmsg) : list N := map m_body (chat l).
Lemma bodies_app a b : bodies (a ++ b) = bodies a ++ bodies b.
Proof. unfold bodies. rewrite chat_app. apply map_app. Qed.

(** ** The invariant for a client *)
Definition pings_on (t : N) (ps : list (N * nat)) : list nat := map snd (filter (fun x => N.eqb (fst x) t) ps).
Definition latest (o : option nat) (l : list nat) : option nat :=
  match rev l with [] => o | n :: _ => Some n end.

Lemma latest_snoc o l n : latest o (l ++ [n]) = Some n.
Proof. unfold latest. rewrite rev_app_distr. reflexivity. Qed.
Lemma latest_cons o n l : latest o (n :: l) = latest (Some n) l.
Proof.
  unfold latest. cbn [rev]. destruct (rev l); reflexivity.
Qed.
Lemma latest_nil o : latest o [] = o.
Proof. reflexivity. Qed.

(** What the client has got if its position is [z] of the log [l], and nothing is owed. *)
Definition upto (d : list N) (l : list lmsg) (z : option nat) : Prop :=
  match z with
  | None => d = []
  | Some q => q <= length l /\ suffix d (bodies (firstn q l))
  end.
Definition current (d : list N) (l : list lmsg) (z : option nat) : Prop :=
  upto d l z /\ match z with None => True | Some q => bodies (skipn q l) = [] end.

Definition conns_of (c : N) (s : dstate) : list dconn := filter (fun dc => N.eqb (d_client dc) c) (s_conns s).

Record dinv (c : N) (s : dstate) (g : N -> list N) : Prop := Dinv {
  v_ids : NoDup (map d_id (s_conns s));
  v_keys : NoDup (map fst (s_del s));
  v_dbkeys : NoDup (map fst (s_db s));
  v_rows : forall c' rows, assoc c' (s_db s) = Some rows -> NoDup (map fst rows) /\
           forall t n, In (t, n) rows -> ds_load (s_del s) t c' <> None;
  v_client : match conns_of c s with
             | [] => forall t, upto (g t) (log_of s t) (ds_load (s_del s) t c)
             | [dc] => d_hist dc = false /\
                 forall t, current (g t) (log_of s t) (latest (ds_load (s_del s) t c) (pings_on t (d_pings dc)))
             | _ => False
             end
}.

Lemma upto_grow d l m z : upto d l z -> upto d (l ++ [m]) z.
Proof.
  destruct z as [q|]; [|easy]. intros [L H]. split; [rewrite app_length; lia|].
  rewrite firstn_app. replace (q - length l) with 0 by lia. cbn [firstn]. rewrite app_nil_r. exact H.
Qed.

Lemma current_all d l z : current d l z -> suffix d (bodies l).
Proof.
  intros [U C]. destruct z as [q|].
  - destruct U as [_ U]. rewrite <- (firstn_skipn q l), bodies_app, C, app_nil_r. exact U.
  - cbn in U. subst d. exists (bodies l). rewrite app_nil_r. reflexivity.
Qed.

Lemma suffix_current d l : suffix d (bodies l) -> current d l (Some (length l)).
Proof.
  intros H. split; [split; [lia|]|].
  - rewrite firstn_all. exact H.
  - rewrite skipn_all. reflexivity.
Qed.

Lemma suffix_snoc {A} (d l : list A) x : suffix d l -> suffix (d ++ x) (l ++ x).
Proof. intros [p ->]. exists p. rewrite app_assoc. reflexivity. Qed.

(** A new chat message, sent with its ID. *)
Lemma current_chat d l m z : m_chat m = true -> current d l z -> current (d ++ [m_body m]) (l ++ [m]) (Some (S (length l))).
Proof.
  intros M C. replace (S (length l)) with (length (l ++ [m])) by (rewrite app_length; cbn; lia).
  apply suffix_current. rewrite bodies_app. replace (bodies [m]) with [m_body m] by (unfold bodies, chat; cbn [filter]; rewrite M; reflexivity).
  apply suffix_snoc. eapply current_all, C.
Qed.

Lemma current_other d l m z : m_chat m = false -> current d l z -> current d (l ++ [m]) z.
Proof.
  intros M [U C]. split; [apply upto_grow, U|]. destruct z as [q|]; [|easy]. destruct U as [L _].
  rewrite skipn_app. replace (q - length l) with 0 by lia. cbn [skipn]. rewrite bodies_app, C.
  unfold bodies, chat. cbn [filter]. rewrite M. reflexivity.
Qed.

Lemma upto_now d l q : d = [] -> q = length l -> upto d l (Some q).
Proof. intros -> ->. split; [lia|]. rewrite firstn_all. exists (bodies l). rewrite app_nil_r. reflexivity. Qed.

Lemma log_set s t l del cs db t' : log_of (Dstate (set_assoc t l (s_log s)) del cs db) t' = if N.eqb t t' then l else log_of s t'.
Proof.
  unfold log_of. cbn [s_log]. destruct (N.eqb t t') eqn:E.
  - apply N.eqb_eq in E. subst. rewrite assoc_set_same. reflexivity.
  - apply N.eqb_neq in E. rewrite assoc_set_other by congruence. reflexivity.
Qed.

(** Storing an ID for several clients. *)
Lemma fold_store_load d t n cl t' c' :
  ds_load (fold_left (fun d c => ds_store d t c n) cl d) t' c' =
  if N.eqb t t' && existsb (N.eqb c') cl then Some n else ds_load d t' c'.
Proof.
  revert d. induction cl as [|c cl IH]; intros d; cbn [fold_left existsb]; [rewrite andb_false_r; reflexivity|].
  rewrite IH, load_store. destruct (N.eqb t t'); cbn [andb]; [|reflexivity].
  rewrite (N.eqb_sym c' c). destruct (N.eqb c c'); cbn [orb]; destruct (existsb (N.eqb c') cl); reflexivity.
Qed.

Lemma fold_store_keys d t n cl : NoDup (map fst d) -> NoDup (map fst (fold_left (fun d c => ds_store d t c n) cl d)).
Proof.
  revert d. induction cl as [|c cl IH]; intros d H; cbn [fold_left]; [exact H|]. apply IH. apply set_nodup, H.
Qed.

Lemma filter_map_conns (f : dconn -> dconn) c cs : (forall dc, d_client (f dc) = d_client dc) ->
  filter (fun dc => N.eqb (d_client dc) c) (map f cs) = map f (filter (fun dc => N.eqb (d_client dc) c) cs).
Proof.
  intros H. induction cs as [|dc cs IH]; [reflexivity|]. cbn [map filter]. rewrite H. destruct (N.eqb (d_client dc) c); cbn [map]; rewrite IH; reflexivity.
Qed.

(** The outputs of a message. *)
Lemma got_produce c t m o s t' :
  got c t' (snd (produce s t m o)) =
  if N.eqb t t' && m_chat m then map (fun _ => m_body m) (conns_of c s) else [].
Proof.
  unfold produce. cbn [snd]. unfold conns_of. induction (s_conns s) as [|dc cs IH].
  - cbn. destruct (N.eqb t t' && m_chat m); reflexivity.
  - cbn [flat_map filter]. rewrite got_app, IH. clear IH.
    assert (E : got c t' (out_chat (match o with
                                    | Some o => if N.eqb o (d_id dc) then Own (d_id dc) (d_client dc) t else Sent (d_id dc) (d_client dc) t
                                    | None => Sent (d_id dc) (d_client dc) t
                                    end) m) = if N.eqb (d_client dc) c && N.eqb t t' && m_chat m then [m_body m] else []).
    { unfold out_chat. destruct (m_chat m); [rewrite andb_true_r|rewrite andb_false_r; reflexivity].
      destruct o as [o|]; [destruct (N.eqb o (d_id dc))|]; cbn; destruct (N.eqb (d_client dc) c && N.eqb t t'); reflexivity. }
    rewrite E. destruct (N.eqb (d_client dc) c), (N.eqb t t'), (m_chat m); reflexivity.
Qed.

Lemma inv_msg c s g t m o : dinv c s g ->
  dinv c (fst (produce s t m o)) (fun t' => g t' ++ got c t' (snd (produce s t m o))).
Proof.
  intros [V1 V2 V3 V4 V5].
  set (s' := fst (produce s t m o)).
  assert (Load : forall t' c', ds_load (s_del s') t' c' =
            if negb (ds_empty (s_del s)) && negb (ds_has (s_del s) t) && (N.eqb t t' && existsb (N.eqb c') (ds_clients (s_del s)))
            then Some (last_id s t) else ds_load (s_del s) t' c').
  { intros t' c'. unfold s', produce. cbn [fst s_del]. destruct (_ && _); cbn [andb]; [apply fold_store_load|reflexivity]. }
  assert (Keep : forall t' c' n, ds_load (s_del s) t' c' = Some n -> ds_load (s_del s') t' c' = Some n).
  { intros t' c' n H. rewrite Load. destruct (N.eqb t t') eqn:E.
    - apply N.eqb_eq in E. subst t'. destruct (load_has _ _ _ _ H) as (-> & _). cbn [negb]. rewrite andb_false_r. exact H.
    - cbn [andb]. rewrite andb_false_r. exact H. }
  assert (Log : forall t', log_of s' t' = if N.eqb t t' then log_of s t ++ [m] else log_of s t') by (intros; apply log_set).
  split.
  - unfold s', produce. cbn [fst s_conns]. rewrite map_map.
    erewrite map_ext; [exact V1|]. intros dc. cbv beta. destruct (m_chat m && negb (d_hist dc)); reflexivity.
  - unfold s', produce. cbn [fst s_del]. destruct (negb (ds_empty (s_del s)) && negb (ds_has (s_del s) t)); [apply fold_store_keys, V2|exact V2].
  - exact V3.
  - intros c' rows H. destruct (V4 c' rows H) as [R1 R2]. split; [exact R1|].
    intros t' n H2 H3. specialize (R2 t' n H2). destruct (ds_load (s_del s) t' c') as [x|] eqn:E; [|contradiction].
    rewrite (Keep _ _ _ E) in H3. discriminate.
  - assert (Cs : conns_of c s' = map (fun dc => if m_chat m && negb (d_hist dc)
                                then Dconn (d_id dc) (d_client dc) (d_hist dc) (d_pings dc ++ [(t, S (last_id s t))])
                                else dc) (conns_of c s)).
    { unfold conns_of, s', produce. cbn [fst s_conns]. apply filter_map_conns. intros dc. destruct (m_chat m && negb (d_hist dc)); reflexivity. }
    rewrite Cs. clear Cs.
    (* the pointer of [c] for [t'], new or old *)
    assert (Ptr : forall t', ds_load (s_del s') t' c = ds_load (s_del s) t' c \/
              (t' = t /\ ds_load (s_del s) t' c = None /\ ds_load (s_del s') t' c = Some (last_id s t))).
    { intros t'. rewrite Load. destruct (ds_has (s_del s) t) eqn:Hh; [cbn [negb]; rewrite andb_false_r; left; reflexivity|].
      destruct (N.eqb t t') eqn:E; [|cbn [andb]; rewrite andb_false_r; left; reflexivity].
      apply N.eqb_eq in E. subst t'.
      assert (Nn : ds_load (s_del s) t c = None).
      { destruct (ds_load (s_del s) t c) eqn:F; [|reflexivity]. apply load_has in F as (F & _). congruence. }
      destruct (negb (ds_empty (s_del s)) && negb false && (true && existsb (N.eqb c) (ds_clients (s_del s))));
        [right; split; [reflexivity|split; [exact Nn|reflexivity]]|left; reflexivity]. }
    destruct (conns_of c s) as [|dc [|? ?]] eqn:Cc; cbn [map].
    + intros t'. specialize (V5 t'). rewrite got_produce, Cc. cbn [map].
      assert (G0 : g t' ++ (if N.eqb t t' && m_chat m then [] else []) = g t') by (destruct (N.eqb t t' && m_chat m); apply app_nil_r).
      rewrite G0. destruct (Ptr t') as [P|(-> & P0 & P)].
      * rewrite P, Log. destruct (N.eqb t t') eqn:E; [apply N.eqb_eq in E; subst t'; apply upto_grow, V5|exact V5].
      * rewrite P, Log, N.eqb_refl. apply upto_grow. rewrite P0 in V5. apply upto_now; [exact V5|reflexivity].
    + destruct V5 as [Hh V5]. split; [rewrite Hh; cbn [negb]; rewrite andb_true_r; destruct (m_chat m); [reflexivity|exact Hh]|].
      intros t'. specialize (V5 t'). rewrite got_produce, Cc. cbn [map].
      rewrite Hh. cbn [negb]. rewrite andb_true_r, Log.
      destruct (N.eqb t t') eqn:E; cbn [andb].
      * apply N.eqb_eq in E. subst t'. destruct (m_chat m) eqn:M.
        -- cbn [d_pings]. unfold pings_on. rewrite filter_app, map_app. cbn [filter fst]. rewrite N.eqb_refl. cbn [map snd].
           rewrite latest_snoc. eapply current_chat; [exact M|exact V5].
        -- rewrite app_nil_r. destruct (Ptr t) as [P|(_ & P0 & P)].
           ++ rewrite P. apply current_other; [exact M|exact V5].
           ++ rewrite P. rewrite P0 in V5.
              apply current_other; [exact M|]. unfold latest in *. destruct (rev (pings_on t (d_pings dc))); [|exact V5].
              destruct V5 as [V5 _]. cbn in V5. rewrite V5. apply suffix_current. exists (bodies (log_of s t)). rewrite app_nil_r. reflexivity.
      * rewrite app_nil_r. assert (Pg : pings_on t' (d_pings (if m_chat m then Dconn (d_id dc) (d_client dc) false (d_pings dc ++ [(t, S (last_id s t))]) else dc)) = pings_on t' (d_pings dc)).
        { destruct (m_chat m); [|reflexivity]. cbn [d_pings]. unfold pings_on. rewrite filter_app. cbn [filter fst]. rewrite E, app_nil_r. reflexivity. }
        rewrite Pg. destruct (Ptr t') as [P|(-> & _)]; [rewrite P; exact V5|rewrite N.eqb_refl in E; discriminate].
    + exact V5.
Qed.

(** ** Connections *)
Lemma backlog_fold limit client id ts : forall s outs,
  let r := fold_left (backlog_target limit client id) ts (s, outs) in
  s_log (fst r) = s_log s /\ s_conns (fst r) = s_conns s /\ s_db (fst r) = s_db s /\
  (NoDup (map fst (s_del s)) -> NoDup (map fst (s_del (fst r)))) /\
  (forall t c, ds_load (s_del (fst r)) t c =
     if N.eqb client c && existsb (N.eqb t) ts then option_map (fun _ => last_id s t) (ds_load (s_del s) t c) else ds_load (s_del s) t c) /\
  (forall t c, got c t (snd r) = got c t outs ++
     (if N.eqb client c && existsb (N.eqb t) ts
      then match ds_load (s_del s) t client with None => [] | Some q => map m_body (load_latest limit s t q) end else [])).
Proof.
  induction ts as [|t0 ts IH]; intros s outs; cbn [fold_left].
  - split; [reflexivity|]. split; [reflexivity|]. split; [reflexivity|]. split; [auto|].
    split; intros t c; cbn [existsb]; rewrite andb_false_r; [reflexivity|rewrite app_nil_r; reflexivity].
  - cbn [backlog_target]. destruct (ds_load (s_del s) t0 client) as [q|] eqn:L.
    + set (s1 := Dstate _ _ _ _). set (o1 := outs ++ _).
      destruct (IH s1 o1) as (A1 & A2 & A3 & A4 & A5 & A6). cbv zeta in *.
      split; [exact A1|]. split; [exact A2|]. split; [exact A3|]. split; [intros H; apply A4; apply set_nodup, H|].
      split.
      * intros t c. rewrite A5. cbn [s1 s_del existsb]. rewrite load_store.
        change (last_id s1 t) with (last_id s t).
        destruct (N.eqb client c) eqn:E1; cbn [andb]; [|rewrite andb_false_r; reflexivity].
        apply N.eqb_eq in E1. subst c. rewrite (N.eqb_sym t t0), andb_true_r.
        destruct (N.eqb t0 t) eqn:E2; cbn [orb].
        -- apply N.eqb_eq in E2. subst t0. rewrite L. destruct (existsb (N.eqb t) ts); reflexivity.
        -- reflexivity.
      * intros t c. rewrite A6. unfold o1. rewrite got_app, <- app_assoc. f_equal.
        assert (G : got c t (map (fun m => Sent id client t0 (m_body m)) (load_latest limit s t0 q)) =
                    if N.eqb client c && N.eqb t0 t then map m_body (load_latest limit s t0 q) else []).
        { clear. induction (load_latest limit s t0 q) as [|m l IHl]; [destruct (N.eqb client c && N.eqb t0 t); reflexivity|].
          cbn [map]. change (got c t (Sent id client t0 (m_body m) :: map (fun m => Sent id client t0 (m_body m)) l)) with
            ((if N.eqb client c && N.eqb t0 t then [m_body m] else []) ++ got c t (map (fun m => Sent id client t0 (m_body m)) l)).
          rewrite IHl. destruct (N.eqb client c && N.eqb t0 t); reflexivity. }
        rewrite G. cbn [existsb s1 s_del]. rewrite load_store, N.eqb_refl, andb_true_r.
        destruct (N.eqb client c) eqn:E1; cbn [andb]; [|reflexivity].
        rewrite (N.eqb_sym t t0). destruct (N.eqb t0 t) eqn:E2; cbn [orb].
        -- apply N.eqb_eq in E2. subst t0. rewrite L.
           assert (Z : map m_body (load_latest limit s1 t (last_id s t)) = []).
           { unfold load_latest. change (log_of s1 t) with (log_of s t). unfold last_id. rewrite skipn_all. unfold lastn. cbn. reflexivity. }
           destruct (existsb (N.eqb t) ts); [rewrite Z|]; apply app_nil_r.
        -- cbn [app]. unfold load_latest. reflexivity.
    + destruct (IH s outs) as (A1 & A2 & A3 & A4 & A5 & A6). cbv zeta in *.
      split; [exact A1|]. split; [exact A2|]. split; [exact A3|]. split; [exact A4|].
      split.
      * intros t c. rewrite A5. cbn [existsb]. destruct (N.eqb client c) eqn:E1; cbn [andb]; [|reflexivity].
        apply N.eqb_eq in E1. subst c. destruct (N.eqb t t0) eqn:E2; cbn [orb]; [|reflexivity].
        apply N.eqb_eq in E2. subst t0. rewrite L. destruct (existsb (N.eqb t) ts); reflexivity.
      * intros t c. rewrite A6. cbn [existsb]. destruct (N.eqb client c) eqn:E1; cbn [andb]; [|reflexivity].
        destruct (N.eqb t t0) eqn:E2; cbn [orb]; [|reflexivity].
        apply N.eqb_eq in E2. subst t0. rewrite L. destruct (existsb (N.eqb t) ts); reflexivity.
Qed.

Lemma filter_none {A} (f : A -> bool) l : (forall x, In x l -> f x = false) -> filter f l = [].
Proof.
  induction l as [|x l IH]; intros H; [reflexivity|]. cbn [filter]. rewrite (H x (or_introl eq_refl)). apply IH. intros y Hy. apply H. right; exact Hy.
Qed.

Lemma inv_connect limit c s g id c' hist : dinv c s g -> careful_event limit c s (EConnect id c' hist) ->
  dinv c (fst (connect limit s id c' hist)) (fun t => g t ++ got c t (snd (connect limit s id c' hist))).
Proof.
  intros [V1 V2 V3 V4 V5] [Fresh Cond]. cbn [careful_event] in *.
  unfold connect.
  set (r := if hist || existsb (fun dc => N.eqb (d_client dc) c') (s_conns s) then (s, [])
            else fold_left (backlog_target limit c' id) (map fst (s_del s)) (s, [])).
  assert (R : s_log (fst r) = s_log s /\ s_conns (fst r) = s_conns s /\ s_db (fst r) = s_db s /\
              NoDup (map fst (s_del (fst r))) /\
              (forall t c0, ds_load (s_del s) t c0 <> None -> ds_load (s_del (fst r)) t c0 <> None) /\
              (c' <> c -> (forall t, ds_load (s_del (fst r)) t c = ds_load (s_del s) t c) /\ forall t, got c t (snd r) = []) /\
              (c' = c -> (forall t, ds_load (s_del (fst r)) t c = option_map (fun _ => last_id s t) (ds_load (s_del s) t c)) /\
                         forall t, got c t (snd r) = match ds_load (s_del s) t c with None => [] | Some q => bodies (skipn q (log_of s t)) end)).
  { destruct (hist || existsb (fun dc => N.eqb (d_client dc) c') (s_conns s)) eqn:X; unfold r.
    - cbn [fst snd]. split; [reflexivity|]. split; [reflexivity|]. split; [reflexivity|]. split; [exact V2|]. split; [auto|].
      split; [intros _; split; reflexivity|]. intros ->. destruct (Cond eq_refl) as (-> & Nc & _). cbn [orb] in X.
      apply existsb_exists in X as (dc & A1 & A2). destruct Nc. exists dc. split; [exact A1|apply N.eqb_eq, A2].
    - destruct (backlog_fold limit c' id (map fst (s_del s)) s []) as (A1 & A2 & A3 & A4 & A5 & A6). cbv zeta in *.
      split; [exact A1|]. split; [exact A2|]. split; [exact A3|]. split; [apply A4, V2|].
      split. { intros t c0 H. rewrite A5. destruct (N.eqb c' c0 && existsb (N.eqb t) (map fst (s_del s))); [|exact H]. destruct (ds_load (s_del s) t c0); [discriminate|exact H]. }
      split.
      + intros Ne. apply N.eqb_neq in Ne. split; intros t; [rewrite A5|rewrite A6]; rewrite Ne; reflexivity.
      + intros ->. destruct (Cond eq_refl) as (-> & Nc & Lim).
        assert (Ex : forall t, ds_load (s_del s) t c <> None -> existsb (N.eqb t) (map fst (s_del s)) = true).
        { intros t H. destruct (ds_load (s_del s) t c) eqn:E; [|contradiction]. apply load_has in E as (_ & E & _).
          apply existsb_exists. exists t. split; [exact E|apply N.eqb_refl]. }
        split; intros t; [rewrite A5|rewrite A6]; rewrite N.eqb_refl; cbn [andb].
        * destruct (ds_load (s_del s) t c) as [q|] eqn:E; [|destruct (existsb (N.eqb t) (map fst (s_del s))); reflexivity]. rewrite Ex; [reflexivity|rewrite E; discriminate].
        * change (got c t []) with (@nil N). cbn [app]. destruct (ds_load (s_del s) t c) as [q|] eqn:E; [|destruct (existsb (N.eqb t) (map fst (s_del s))); reflexivity].
          rewrite Ex; [|rewrite E; discriminate]. unfold load_latest, bodies, chat. rewrite lastn_all; [reflexivity|]. exact (Lim t q E). }
  clearbody r. destruct r as [s1 outs]. cbn [fst snd] in *. destruct R as (R1 & R2 & R3 & R4 & R5 & R6 & R7).
  assert (Lg : forall t, log_of (Dstate (s_log s1) (s_del s1) (s_conns s1 ++ [Dconn id c' hist []]) (s_db s1)) t = log_of s t)
    by (intros t; unfold log_of; cbn [s_log]; rewrite R1; reflexivity).
  split; cbn [s_conns s_del s_db].
  - rewrite R2, map_app. cbn [map d_id].
    apply (Permutation.Permutation_NoDup (l := id :: map d_id (s_conns s))); [apply Permutation.Permutation_cons_append|constructor; assumption].
  - exact R4.
  - rewrite R3. exact V3.
  - rewrite R3. intros c0 rows H. destruct (V4 c0 rows H) as [Q1 Q2]. split; [exact Q1|]. intros t n H2. apply R5. exact (Q2 t n H2).
  - assert (Cs : conns_of c (Dstate (s_log s1) (s_del s1) (s_conns s1 ++ [Dconn id c' hist []]) (s_db s1)) =
                 conns_of c s ++ (if N.eqb c' c then [Dconn id c' hist []] else [])).
    { unfold conns_of. cbn [s_conns]. rewrite R2, filter_app. cbn [filter d_client]. reflexivity. }
    rewrite Cs. clear Cs. destruct (N.eqb c' c) eqn:E.
    + apply N.eqb_eq in E. subst c'. destruct (Cond eq_refl) as (-> & Nc & Lim).
      assert (Z : conns_of c s = []).
      { apply filter_none. intros dc A. apply N.eqb_neq. intros B. apply Nc. exists dc. split; assumption. }
      rewrite Z in *. cbn [app d_hist d_pings]. split; [reflexivity|]. destruct (R7 eq_refl) as [R7a R7b].
      intros t. change (pings_on t []) with (@nil nat). rewrite latest_nil, R7a, R7b, Lg. specialize (V5 t).
      destruct (ds_load (s_del s) t c) as [q|]; cbn [option_map].
      * unfold last_id. apply suffix_current. destruct V5 as [_ V5].
        rewrite <- (firstn_skipn q (log_of s t)) at 2. rewrite bodies_app. apply suffix_snoc, V5.
      * cbn in V5. rewrite V5. split; [reflexivity|exact I].
    + rewrite app_nil_r. apply N.eqb_neq in E. destruct (R6 E) as [R6a R6b].
      destruct (conns_of c s) as [|dc [|? ?]].
      * intros t. rewrite R6a, R6b, app_nil_r, Lg. apply V5.
      * destruct V5 as [V5a V5]. split; [exact V5a|]. intros t. rewrite R6a, R6b, app_nil_r, Lg. apply V5.
      * exact V5.
Qed.

(** ** Answers to PINGs *)
Lemma pong_spec cs id : NoDup (map d_id cs) ->
  match snd (pong_conns cs id) with
  | None => fst (pong_conns cs id) = cs
  | Some (c, t, n) => exists a dc ps b, cs = a ++ dc :: b /\ d_client dc = c /\ d_pings dc = (t, n) :: ps /\
      fst (pong_conns cs id) = a ++ Dconn (d_id dc) (d_client dc) (d_hist dc) ps :: b
  end.
Proof.
  induction cs as [|dc cs IH]; intros D; cbn [pong_conns]; [reflexivity|].
  cbn [map] in D. inversion_clear D as [|? ? D1 D2]. destruct (N.eqb (d_id dc) id) eqn:E.
  - destruct (d_pings dc) as [|[t n] ps] eqn:P; cbn [snd fst]; [reflexivity|].
    exists [], dc, ps, cs. split; [reflexivity|]. split; [reflexivity|]. split; [exact P|reflexivity].
  - specialize (IH D2). destruct (pong_conns cs id) as [cs' r]. cbn [fst snd] in *. destruct r as [[[c t] n]|].
    + destruct IH as (a & dc0 & ps & b & -> & C & P & ->). exists (dc :: a), dc0, ps, b.
      split; [reflexivity|]. split; [exact C|]. split; [exact P|reflexivity].
    + rewrite IH. reflexivity.
Qed.

Lemma inv_pong c s g id : dinv c s g -> dinv c (pong s id) g.
Proof.
  intros V. pose proof V as [V1 V2 V3 V4 V5]. unfold pong. pose proof (pong_spec (s_conns s) id V1) as P.
  destruct (pong_conns (s_conns s) id) as [cs r]. cbn [fst snd] in P. destruct r as [[[c' t] n]|]; [|exact V].
  destruct P as (a & dc & ps & b & E & C & Pi & ->).
  set (dc' := Dconn (d_id dc) (d_client dc) (d_hist dc) ps).
  split; cbn [s_conns s_del s_db].
  - rewrite E in V1. rewrite map_app in *. exact V1.
  - apply set_nodup, V2.
  - exact V3.
  - intros c0 rows H. destruct (V4 c0 rows H) as [Q1 Q2]. split; [exact Q1|]. intros t0 n0 H2. specialize (Q2 t0 n0 H2).
    rewrite load_store. destruct (N.eqb t t0 && N.eqb c' c0); [discriminate|exact Q2].
  - assert (Cs : conns_of c s = filter (fun dc => N.eqb (d_client dc) c) a ++ (if N.eqb c' c then [dc] else []) ++ filter (fun dc => N.eqb (d_client dc) c) b).
    { unfold conns_of. rewrite E, filter_app. cbn [filter]. rewrite C. destruct (N.eqb c' c); reflexivity. }
    assert (Cs' : conns_of c (Dstate (s_log s) (ds_store (s_del s) t c' n) (a ++ dc' :: b) (s_db s)) =
                  filter (fun dc => N.eqb (d_client dc) c) a ++ (if N.eqb c' c then [dc'] else []) ++ filter (fun dc => N.eqb (d_client dc) c) b).
    { unfold conns_of. cbn [s_conns]. rewrite filter_app. cbn [filter dc' d_client]. rewrite C. destruct (N.eqb c' c); reflexivity. }
    rewrite Cs'. rewrite Cs in V5. clear Cs Cs'.
    generalize dependent (filter (fun dc => N.eqb (d_client dc) c) a). intros fa V5.
    generalize dependent (filter (fun dc => N.eqb (d_client dc) c) b). intros fb V5.
    destruct (N.eqb c' c) eqn:Ec.
    + assert (Z : fa = [] /\ fb = []).
      { destruct fa as [|x [|y l]]; cbn [app] in V5; [destruct fb; cbn [app] in V5; [split; reflexivity|destruct V5]|destruct V5|destruct V5]. }
      destruct Z as [-> ->]. cbn [app] in *.
      destruct V5 as [V5a V5]. split; [exact V5a|]. intros t0. specialize (V5 t0). rewrite Pi in V5. cbn [dc' d_pings].
      rewrite load_store, Ec, andb_true_r. unfold pings_on in V5. cbn [filter fst] in V5.
      destruct (N.eqb t t0); [|exact V5]. cbn [map snd] in V5. rewrite latest_cons in V5. exact V5.
    + assert (Ld : forall t0, ds_load (ds_store (s_del s) t c' n) t0 c = ds_load (s_del s) t0 c)
        by (intros t0; rewrite load_store, Ec, andb_false_r; reflexivity).
      cbn [app] in *. destruct (fa ++ fb) as [|x [|y l]].
      * intros t0. rewrite Ld. apply V5.
      * destruct V5 as [V5a V5]. split; [exact V5a|]. intros t0. rewrite Ld. apply V5.
      * exact V5.
Qed.

(** ** Receipts *)
Lemma receipts_spec d c t n : NoDup (map fst d) -> (In (t, n) (receipts d c) <-> ds_load d t c = Some n).
Proof.
  intros D. unfold receipts, ds_load. rewrite in_flat_map. split.
  - intros ([t' m] & A & H). cbn [fst snd] in H. destruct (assoc c m) as [n'|] eqn:E; [|destruct H].
    destruct H as [H|[]]. injection H as -> ->. rewrite (in_assoc t m d D A). exact E.
  - destruct (assoc t d) as [m|] eqn:E; [|discriminate]. intros H. exists (t, m). split; [apply assoc_in, E|].
    cbn [fst snd]. rewrite H. left; reflexivity.
Qed.

Lemma receipts_nodup d c : NoDup (map fst d) -> NoDup (map fst (receipts d c)).
Proof.
  intros D. unfold receipts. induction d as [|[t m] d IH]; [constructor|]. cbn [map fst flat_map snd] in *.
  inversion_clear D as [|? ? D1 D2]. rewrite map_app. destruct (assoc c m); cbn [map fst app]; [|apply IH, D2].
  constructor; [|apply IH, D2]. intros A. apply in_map_iff in A as ([t' n'] & E & A). cbn [fst] in E. subst t'.
  apply in_flat_map in A as ([t'' m''] & A & H). cbn [fst snd] in H. destruct (assoc c m''); [|destruct H].
  destruct H as [H|[]]. injection H as -> _. apply D1. apply (in_map fst) in A. exact A.
Qed.

Lemma inv_store c s g c' : dinv c s g -> dinv c (store_receipts s c') g.
Proof.
  intros [V1 V2 V3 V4 V5]. unfold store_receipts. split; cbn [s_conns s_del s_db].
  - exact V1.
  - exact V2.
  - apply set_nodup, V3.
  - intros c0 rows H. destruct (N.eq_dec c0 c') as [->|Ne].
    + rewrite assoc_set_same in H. injection H as <-. split; [apply receipts_nodup, V2|].
      intros t n H. apply receipts_spec in H; [|exact V2]. rewrite H. discriminate.
    + rewrite assoc_set_other in H by exact Ne. exact (V4 c0 rows H).
  - exact V5.
Qed.

Lemma inv_disconnect limit c s g id : dinv c s g -> careful_event limit c s (EDisconnect id) -> dinv c (disconnect s id) g.
Proof.
  intros V Cond. unfold disconnect. destruct (find _ (s_conns s)) as [dc|] eqn:F; [|exact V].
  apply inv_store. apply find_some in F as [F1 F2]. apply N.eqb_eq in F2.
  destruct V as [V1 V2 V3 V4 V5]. split; cbn [s_conns s_del s_db].
  - clear - V1. induction (s_conns s) as [|x l IH]; [constructor|]. cbn [map filter] in *. inversion_clear V1 as [|? ? D1 D2].
    destruct (negb _); [|apply IH, D2]. cbn [map]. constructor; [|apply IH, D2].
    intros A. apply D1. apply in_map_iff in A as (y & E & A). apply filter_In in A as [A _]. apply in_map_iff. exists y. split; assumption.
  - exact V2.
  - exact V3.
  - exact V4.
  - cbn [careful_event] in Cond.
    assert (Cs : conns_of c (Dstate (s_log s) (s_del s) (filter (fun x => negb (N.eqb (d_id x) id)) (s_conns s)) (s_db s)) =
                 filter (fun x => negb (N.eqb (d_id x) id)) (conns_of c s)).
    { unfold conns_of. cbn [s_conns]. generalize (s_conns s) as l. induction l as [|x l IH]; [reflexivity|].
      cbn [filter]. destruct (negb (N.eqb (d_id x) id)) eqn:E1, (N.eqb (d_client x) c) eqn:E2; cbn [filter]; rewrite ?E1, ?E2, IH; reflexivity. }
    rewrite Cs. destruct (conns_of c s) as [|x [|y l]] eqn:Cc.
    + exact V5.
    + assert (Xin : In x (s_conns s) /\ d_client x = c).
      { assert (A : In x (conns_of c s)) by (rewrite Cc; left; reflexivity). apply filter_In in A as [A1 A2]. split; [exact A1|apply N.eqb_eq, A2]. }
      destruct Xin as [X1 X2]. cbn [filter]. destruct (N.eqb (d_id x) id) eqn:E; cbn [negb].
      * apply N.eqb_eq in E. intros t. destruct V5 as [_ V5]. specialize (V5 t). rewrite (Cond x X1 E X2) in V5.
        change (pings_on t []) with (@nil nat) in V5. rewrite latest_nil in V5. apply V5.
      * exact V5.
    + destruct V5.
Qed.

(** ** Restarts *)
Lemma fold_rows_load c rows : forall d t c0, NoDup (map fst rows) ->
  ds_load (fold_left (fun d y => ds_store d (fst y) c (snd y)) rows d) t c0 =
  if N.eqb c c0 then match assoc t rows with Some n => Some n | None => ds_load d t c0 end else ds_load d t c0.
Proof.
  induction rows as [|[t' n'] rows IH]; intros d t c0 D; cbn [fold_left assoc fst snd].
  - destruct (N.eqb c c0); reflexivity.
  - cbn [map fst] in D. inversion_clear D as [|? ? D1 D2]. rewrite IH by exact D2. rewrite load_store.
    destruct (N.eqb c c0); [|rewrite andb_false_r; reflexivity]. rewrite andb_true_r.
    destruct (N.eqb t' t) eqn:E; [|reflexivity]. apply N.eqb_eq in E. subst t'. apply assoc_none in D1. rewrite D1. reflexivity.
Qed.

Lemma load_receipts_load db : forall d t c, NoDup (map fst db) ->
  (forall c' rows, assoc c' db = Some rows -> NoDup (map fst rows)) ->
  ds_load (fold_left (fun d x => fold_left (fun d y => ds_store d (fst y) (fst x) (snd y)) (snd x) d) db d) t c =
  match assoc c db with
  | Some rows => match assoc t rows with Some n => Some n | None => ds_load d t c end
  | None => ds_load d t c
  end.
Proof.
  induction db as [|[c' rows] db IH]; intros d t c D R; cbn [fold_left assoc fst snd]; [reflexivity|].
  cbn [map fst] in D. inversion_clear D as [|? ? D1 D2].
  assert (R0 : NoDup (map fst rows)) by (apply (R c' rows); cbn [assoc]; rewrite N.eqb_refl; reflexivity).
  rewrite IH.
  - rewrite fold_rows_load by exact R0. destruct (N.eqb c' c) eqn:E; [|reflexivity].
    apply N.eqb_eq in E. subst c'. apply assoc_none in D1. rewrite D1. reflexivity.
  - exact D2.
  - intros c0 rows0 H. apply (R c0 rows0). cbn [assoc]. destruct (N.eqb c' c0) eqn:E; [|exact H].
    apply N.eqb_eq in E. subst c'. exfalso. apply D1. apply assoc_in in H. apply (in_map fst) in H. exact H.
Qed.

Lemma load_receipts_keys db : forall d, NoDup (map fst d) ->
  NoDup (map fst (fold_left (fun d x => fold_left (fun d y => ds_store d (fst y) (fst x) (snd y)) (snd x) d) db d)).
Proof.
  induction db as [|[c' rows] db IH]; intros d D; cbn [fold_left]; [exact D|]. apply IH.
  revert d D. induction rows as [|[t n] rows IHr]; intros d D; cbn [fold_left]; [exact D|]. apply IHr, set_nodup, D.
Qed.

Lemma fold_store_receipts cl : forall s,
  let s1 := fold_left store_receipts cl s in
  s_log s1 = s_log s /\ s_del s1 = s_del s /\ s_conns s1 = s_conns s /\
  (forall c, assoc c (s_db s1) = if existsb (N.eqb c) cl then Some (receipts (s_del s) c) else assoc c (s_db s)).
Proof.
  induction cl as [|c0 cl IH]; intros s; cbn [fold_left existsb].
  - split; [reflexivity|]. split; [reflexivity|]. split; [reflexivity|]. intros; reflexivity.
  - destruct (IH (store_receipts s c0)) as (A1 & A2 & A3 & A4). cbv zeta in *.
    split; [exact A1|]. split; [exact A2|]. split; [exact A3|]. intros c. rewrite A4. cbn [store_receipts s_del s_db].
    destruct (N.eqb c c0) eqn:E; cbn [orb].
    + apply N.eqb_eq in E. subst c0. rewrite assoc_set_same. destruct (existsb (N.eqb c) cl); reflexivity.
    + apply N.eqb_neq in E. rewrite assoc_set_other by exact E. reflexivity.
Qed.

Lemma assoc_receipts d c t : NoDup (map fst d) -> assoc t (receipts d c) = ds_load d t c.
Proof.
  intros D. destruct (ds_load d t c) as [n|] eqn:E.
  - apply in_assoc; [apply receipts_nodup, D|]. apply receipts_spec; assumption.
  - apply assoc_none. intros A. apply in_map_iff in A as ([t' n] & Et & A). cbn [fst] in Et. subst t'.
    apply receipts_spec in A; [|exact D]. congruence.
Qed.

Lemma restart_load c s g : dinv c s g -> forall t c', ds_load (s_del (restart s)) t c' = ds_load (s_del s) t c'.
Proof.
  intros V. unfold restart.
  destruct (fold_store_receipts (ds_clients (s_del s)) s) as (A1 & A2 & A3 & A4). cbv zeta in *.
  assert (W : dinv c (fold_left store_receipts (ds_clients (s_del s)) s) g).
  { generalize (ds_clients (s_del s)) as cl. intros cl. revert s V A1 A2 A3 A4. induction cl as [|x cl IH]; intros s V A1 A2 A3 A4; [exact V|].
    cbn [fold_left] in *. clear A1 A2 A3 A4. revert s V. clear IH.
    revert x. induction cl as [|y cl IH]; intros x s V; [apply inv_store, V|]. cbn [fold_left]. apply IH. apply inv_store, V. }
  set (s1 := fold_left store_receipts (ds_clients (s_del s)) s) in *. clearbody s1.
  intros t c'. cbn [s_del]. unfold load_receipts. rewrite load_receipts_load; [|apply (v_dbkeys c s1 g W)|].
  - rewrite A4. change (ds_load [] t c') with (@None nat). destruct (existsb (N.eqb c') (ds_clients (s_del s))) eqn:E.
    + rewrite assoc_receipts by apply (v_keys c s g V). destruct (ds_load (s_del s) t c'); reflexivity.
    + assert (Z : ds_load (s_del s) t c' = None).
      { destruct (ds_load (s_del s) t c') eqn:F; [|reflexivity]. apply load_has in F as (_ & _ & F & _).
        exfalso. assert (X : existsb (N.eqb c') (ds_clients (s_del s)) = true) by (apply existsb_exists; exists c'; split; [exact F|apply N.eqb_refl]).
        congruence. }
      rewrite Z. destruct (assoc c' (s_db s)) as [rows|] eqn:F; [|reflexivity].
      destruct (assoc t rows) as [n|] eqn:G; [|reflexivity]. apply assoc_in in G.
      destruct (v_rows c s g V c' rows F) as [_ H]. exfalso. exact (H t n G Z).
  - intros c0 rows H. apply (v_rows c s1 g W c0 rows H).
Qed.

Lemma inv_restart limit c s g : dinv c s g -> careful_event limit c s ERestart -> dinv c (restart s) g.
Proof.
  intros V Cond. pose proof (restart_load c s g V) as L. cbn [careful_event] in Cond.
  destruct (fold_store_receipts (ds_clients (s_del s)) s) as (A1 & A2 & A3 & A4). cbv zeta in *.
  assert (W : forall cl s, dinv c s g -> dinv c (fold_left store_receipts cl s) g).
  { induction cl as [|x cl IH]; intros s0 V0; [exact V0|]. cbn [fold_left]. apply IH, inv_store, V0. }
  pose proof (W (ds_clients (s_del s)) s V) as W1. clear W.
  assert (Rdel : s_log (restart s) = s_log s) by (unfold restart; cbn [s_log]; exact A1).
  split.
  - constructor.
  - unfold restart. cbn [s_del]. apply load_receipts_keys. constructor.
  - unfold restart. cbn [s_db]. apply (v_dbkeys c _ g W1).
  - intros c' rows H. assert (H1 := v_rows c _ g W1 c' rows H). rewrite A2 in H1. destruct H1 as [H1 H2]. split; [exact H1|].
    intros t n A. rewrite L. exact (H2 t n A).
  - change (conns_of c (restart s)) with (@nil dconn). intros t. rewrite L.
    replace (log_of (restart s) t) with (log_of s t) by (unfold log_of; rewrite Rdel; reflexivity).
    destruct V as [V1 V2 V3 V4 V5]. destruct (conns_of c s) as [|x [|y l]] eqn:Cc; [apply V5| |destruct V5].
    assert (A : In x (conns_of c s)) by (rewrite Cc; left; reflexivity). apply filter_In in A as [X1 X2]. apply N.eqb_eq in X2.
    destruct V5 as [_ V5]. specialize (V5 t). rewrite (Cond x X1 X2) in V5. change (pings_on t []) with (@nil nat) in V5. rewrite latest_nil in V5. apply V5.
Qed.

(** ** Executions *)
Lemma dinv_ext c s g g' : (forall t, g t = g' t) -> dinv c s g -> dinv c s g'.
Proof.
  intros E [V1 V2 V3 V4 V5]. split; try assumption. destruct (conns_of c s) as [|x [|y l]].
  - intros t. rewrite <- E. apply V5.
  - destruct V5 as [V5a V5]. split; [exact V5a|]. intros t. rewrite <- E. apply V5.
  - exact V5.
Qed.

Lemma inv_step limit c s g e : dinv c s g -> careful_event limit c s e ->
  dinv c (fst (dstep limit s e)) (fun t => g t ++ got c t (snd (dstep limit s e))).
Proof.
  intros V C. destruct e; cbn [dstep fst snd].
  - apply inv_msg, V.
  - apply inv_connect; assumption.
  - eapply dinv_ext; [|apply inv_pong, V]. intros; cbn; rewrite app_nil_r; reflexivity.
  - eapply dinv_ext; [|eapply inv_disconnect; eassumption]. intros; cbn; rewrite app_nil_r; reflexivity.
  - eapply dinv_ext; [|eapply inv_restart; eassumption]. intros; cbn; rewrite app_nil_r; reflexivity.
  - destruct C.
Qed.

Lemma inv_run limit c es : forall s g, dinv c s g -> careful limit c s es ->
  dinv c (fst (drun limit s es)) (fun t => g t ++ got c t (snd (drun limit s es))).
Proof.
  induction es as [|e es IH]; intros s g V C; cbn [drun].
  - eapply dinv_ext; [|exact V]. intros; cbn; rewrite app_nil_r; reflexivity.
  - destruct C as [C1 C2]. pose proof (inv_step limit c s g e V C1) as V1.
    destruct (dstep limit s e) as [s1 o1]. cbn [fst snd] in *. specialize (IH s1 _ V1 C2).
    destruct (drun limit s1 es) as [s2 o2]. cbn [fst snd] in *. eapply dinv_ext; [|exact IH].
    intros t. cbv beta. rewrite got_app, app_assoc. reflexivity.
Qed.

Lemma inv_init c : dinv c dinit (fun _ => []).
Proof. split; cbn; try constructor; easy. Qed.

Lemma connected_current c s g t : dinv c s g -> connected s c -> suffix (g t) (all_chat s t).
Proof.
  intros [_ _ _ _ V5] (dc & A & E).
  assert (B : In dc (conns_of c s)) by (apply filter_In; split; [exact A|apply N.eqb_eq, E]).
  destruct (conns_of c s) as [|x [|y l]]; [destruct B| |destruct V5].
  destruct V5 as [_ V5]. exact (current_all _ _ _ (V5 t)).
Qed.

(** ** Targets that appear when the client is known *)
Record finv (c t : N) (s : dstate) (g : list N) : Prop := Finv {
  w_known : exists t0, ds_load (s_del s) t0 c <> None;
  w_has : ds_has (s_del s) t = true -> log_of s t <> [];
  w_pings : forall dc, In dc (s_conns s) -> pings_on t (d_pings dc) <> [] -> log_of s t <> [];
  w_none : ds_load (s_del s) t c = None -> log_of s t = [];
  w_away : conns_of c s = [] -> forall q, ds_load (s_del s) t c = Some q -> g = bodies (firstn q (log_of s t));
  w_here : conns_of c s <> [] -> g = bodies (log_of s t)
}.

Lemma has_store d t c n t' : ds_has (ds_store d t c n) t' = N.eqb t t' || ds_has d t'.
Proof.
  unfold ds_has, ds_store. destruct (N.eqb t t') eqn:E; cbn [orb].
  - apply N.eqb_eq in E. subst. rewrite assoc_set_same. reflexivity.
  - apply N.eqb_neq in E. rewrite assoc_set_other by congruence. reflexivity.
Qed.

Lemma has_fold d t n cl t' : ds_has (fold_left (fun d c => ds_store d t c n) cl d) t' = true -> ds_has d t' = true \/ t' = t.
Proof.
  revert d. induction cl as [|c cl IH]; intros d H; cbn [fold_left] in H; [left; exact H|].
  destruct (IH _ H) as [H1|H1]; [|right; exact H1]. rewrite has_store in H1. apply orb_true_iff in H1 as [H1|H1]; [right; symmetry; apply N.eqb_eq, H1|left; exact H1].
Qed.

Lemma conns_of_map c f s log del db : (forall dc, d_client (f dc) = d_client dc) ->
  conns_of c (Dstate log del (map f (s_conns s)) db) = map f (conns_of c s).
Proof. intros H. apply filter_map_conns, H. Qed.

Lemma fin_msg c t0 s g t m o : dinv c s g -> finv c t0 s (g t0) ->
  finv c t0 (fst (produce s t m o)) (g t0 ++ got c t0 (snd (produce s t m o))).
Proof.
  intros V [W1 W2 W3 W4 W5 W6].
  set (s' := fst (produce s t m o)).
  assert (Load : forall t' c', ds_load (s_del s') t' c' =
            if negb (ds_empty (s_del s)) && negb (ds_has (s_del s) t) && (N.eqb t t' && existsb (N.eqb c') (ds_clients (s_del s)))
            then Some (last_id s t) else ds_load (s_del s) t' c').
  { intros t' c'. unfold s', produce. cbn [fst s_del].
    destruct (negb (ds_empty (s_del s)) && negb (ds_has (s_del s) t)); cbn [andb]; [apply fold_store_load|reflexivity]. }
  assert (Log : forall t', log_of s' t' = if N.eqb t t' then log_of s t ++ [m] else log_of s t') by (intros; apply log_set).
  assert (Ne : log_of s t0 <> [] -> log_of s' t0 <> []).
  { rewrite Log. destruct (N.eqb t t0); [|auto]. intros _. destruct (log_of s t); discriminate. }
  assert (Cs : conns_of c s' = map (fun dc => if m_chat m && negb (d_hist dc)
                                then Dconn (d_id dc) (d_client dc) (d_hist dc) (d_pings dc ++ [(t, S (last_id s t))])
                                else dc) (conns_of c s)).
  { apply conns_of_map. intros dc. destruct (m_chat m && negb (d_hist dc)); reflexivity. }
  destruct W1 as [tk W1].
  assert (Kc : ds_empty (s_del s) = false /\ existsb (N.eqb c) (ds_clients (s_del s)) = true).
  { destruct (ds_load (s_del s) tk c) as [n|] eqn:E; [|contradiction]. apply load_has in E as (_ & _ & E1 & E2). split; [exact E2|].
    apply existsb_exists. exists c. split; [exact E1|apply N.eqb_refl]. }
  destruct Kc as [K1 K2].
  (* the pointer after the message *)
  assert (P0 : ds_load (s_del s) t0 c = None -> ds_load (s_del s') t0 c = if N.eqb t t0 then Some 0 else None).
  { intros N0. rewrite Load, K1, K2. cbn [negb andb]. rewrite andb_true_r.
    assert (Hh : ds_has (s_del s) t0 = false).
    { destruct (ds_has (s_del s) t0) eqn:E; [|reflexivity]. destruct (W2 eq_refl). apply W4, N0. }
    destruct (N.eqb t t0) eqn:E; [|rewrite andb_false_r; exact N0]. apply N.eqb_eq in E. subst t0. rewrite Hh. cbn [negb andb].
    unfold last_id. rewrite (W4 N0). reflexivity. }
  assert (P1 : forall q, ds_load (s_del s) t0 c = Some q -> ds_load (s_del s') t0 c = Some q).
  { intros q H. rewrite Load. destruct (N.eqb t t0) eqn:E; [|cbn [andb]; rewrite andb_false_r; exact H].
    apply N.eqb_eq in E. subst t0. apply load_has in H as H2. destruct H2 as (-> & _). cbn [negb]. rewrite andb_false_r. exact H. }
  split.
  - exists tk. rewrite Load. destruct (negb (ds_empty (s_del s)) && negb (ds_has (s_del s) t) && (N.eqb t tk && existsb (N.eqb c) (ds_clients (s_del s)))); [discriminate|exact W1].
  - intros H. unfold s', produce in H. cbn [fst s_del] in H.
    destruct (N.eqb t t0) eqn:E; [rewrite Log, E; destruct (log_of s t); discriminate|].
    apply Ne, W2. destruct (negb (ds_empty (s_del s)) && negb (ds_has (s_del s) t)); [|exact H].
    apply has_fold in H as [H|H]; [exact H|]. subst. rewrite N.eqb_refl in E. discriminate.
  - intros dc A H. destruct (N.eqb t t0) eqn:E; [rewrite Log, E; destruct (log_of s t); discriminate|].
    unfold s', produce in A. cbn [fst s_conns] in A. apply in_map_iff in A as (dc0 & <- & A).
    apply Ne, (W3 dc0 A). destruct (m_chat m && negb (d_hist dc0)); [|exact H]. cbn [d_pings] in H. unfold pings_on in *.
    rewrite filter_app in H. cbn [filter fst] in H. rewrite E, app_nil_r in H. exact H.
  - intros H. destruct (ds_load (s_del s) t0 c) as [q|] eqn:F; [rewrite (P1 q eq_refl) in H; discriminate|].
    rewrite P0 in H by reflexivity. rewrite Log. destruct (N.eqb t t0); [discriminate|]. apply W4. reflexivity.
  - rewrite Cs. intros H q Hq. assert (Z : conns_of c s = []) by (destruct (conns_of c s); [reflexivity|discriminate]).
    rewrite got_produce, Z. cbn [map]. replace (if N.eqb t t0 && m_chat m then [] else []) with (@nil N) by (destruct (N.eqb t t0 && m_chat m); reflexivity).
    rewrite app_nil_r. destruct (ds_load (s_del s) t0 c) as [q0|] eqn:F.
    + rewrite (P1 q0 eq_refl) in Hq. injection Hq as ->. rewrite (W5 Z q eq_refl). rewrite Log.
      destruct (N.eqb t t0) eqn:E; [|reflexivity]. apply N.eqb_eq in E. subst t0.
      destruct V as [_ _ _ _ V5]. rewrite Z in V5. specialize (V5 t). rewrite F in V5. destruct V5 as [L _].
      rewrite firstn_app. replace (q - length (log_of s t)) with 0 by lia. cbn [firstn]. rewrite app_nil_r. reflexivity.
    + rewrite P0 in Hq by reflexivity. destruct (N.eqb t t0); [|discriminate]. injection Hq as <-. cbn [firstn].
      destruct V as [_ _ _ _ V5]. rewrite Z in V5. specialize (V5 t0). rewrite F in V5. exact V5.
  - rewrite Cs. intros H. assert (Z : conns_of c s <> []) by (destruct (conns_of c s); [contradiction H; reflexivity|discriminate]).
    rewrite (W6 Z), got_produce, Log. destruct V as [_ _ _ _ V5]. destruct (conns_of c s) as [|dc [|? ?]]; [contradiction| |destruct V5].
    cbn [map]. destruct (N.eqb t t0) eqn:E; cbn [andb]; [|apply app_nil_r]. apply N.eqb_eq in E. subst t0.
    rewrite bodies_app. f_equal. unfold bodies, chat. cbn [filter]. destruct (m_chat m); reflexivity.
Qed.

Lemma backlog_has limit client id ts : forall s outs t,
  ds_has (s_del (fst (fold_left (backlog_target limit client id) ts (s, outs)))) t = ds_has (s_del s) t.
Proof.
  induction ts as [|t0 ts IH]; intros s outs t; cbn [fold_left]; [reflexivity|].
  cbn [backlog_target]. destruct (ds_load (s_del s) t0 client) as [q|] eqn:L; [|apply IH].
  rewrite IH. cbn [s_del]. rewrite has_store. destruct (N.eqb t0 t) eqn:E; [|reflexivity]. apply N.eqb_eq in E. subst t0.
  apply load_has in L as (-> & _). reflexivity.
Qed.

Lemma connect_del limit s id c' hist :
  s_log (fst (connect limit s id c' hist)) = s_log s /\
  s_conns (fst (connect limit s id c' hist)) = s_conns s ++ [Dconn id c' hist []] /\
  (forall t, ds_has (s_del (fst (connect limit s id c' hist))) t = ds_has (s_del s) t) /\
  (forall t c, ds_load (s_del (fst (connect limit s id c' hist))) t c = None <-> ds_load (s_del s) t c = None) /\
  (forall t c, c' <> c -> ds_load (s_del (fst (connect limit s id c' hist))) t c = ds_load (s_del s) t c /\
                          got c t (snd (connect limit s id c' hist)) = []).
Proof.
  unfold connect. destruct (hist || existsb (fun dc => N.eqb (d_client dc) c') (s_conns s)); cbn [fst snd].
  - split; [reflexivity|]. split; [reflexivity|]. split; [reflexivity|]. split; [reflexivity|]. intros; split; reflexivity.
  - pose proof (backlog_fold limit c' id (map fst (s_del s)) s []) as B. pose proof (backlog_has limit c' id (map fst (s_del s)) s []) as Bh.
    destruct (fold_left (backlog_target limit c' id) (map fst (s_del s)) (s, [])) as [s1 o1]. cbn [fst snd s_log s_conns s_del] in *.
    destruct B as (A1 & A2 & A3 & A4 & A5 & A6).
    split; [exact A1|]. split; [rewrite A2; reflexivity|]. split; [exact Bh|]. split.
    + intros t c. rewrite A5. destruct (N.eqb c' c && existsb (N.eqb t) (map fst (s_del s))); [|reflexivity].
      destruct (ds_load (s_del s) t c); cbn [option_map]; [split; discriminate|split; reflexivity].
    + intros t c Ne. apply N.eqb_neq in Ne. rewrite A5, A6, Ne. split; reflexivity.
Qed.

Lemma connect_own limit c s g id hist : dinv c s g -> careful_event limit c s (EConnect id c hist) ->
  conns_of c s = [] /\
  forall t, got c t (snd (connect limit s id c hist)) = match ds_load (s_del s) t c with None => [] | Some q => bodies (skipn q (log_of s t)) end.
Proof.
  intros V [Fresh Cond]. destruct (Cond eq_refl) as (-> & Nc & Lim). clear Cond.
  assert (Z : conns_of c s = []).
  { apply filter_none. intros dc A. apply N.eqb_neq. intros B. apply Nc. exists dc. split; assumption. }
  split; [exact Z|]. intros t. unfold connect.
  destruct (false || existsb (fun dc => N.eqb (d_client dc) c) (s_conns s)) eqn:X.
  - cbn [orb] in X. apply existsb_exists in X as (dc & A1 & A2). destruct Nc. exists dc. split; [exact A1|apply N.eqb_eq, A2].
  - pose proof (backlog_fold limit c id (map fst (s_del s)) s []) as B.
    destruct (fold_left (backlog_target limit c id) (map fst (s_del s)) (s, [])) as [s1 o1]. cbn [fst snd] in *.
    destruct B as (_ & _ & _ & _ & _ & A6). rewrite A6, N.eqb_refl. change (got c t []) with (@nil N). cbn [andb app].
    destruct (ds_load (s_del s) t c) as [q|] eqn:E; [|destruct (existsb (N.eqb t) (map fst (s_del s))); reflexivity].
    assert (Ex : existsb (N.eqb t) (map fst (s_del s)) = true).
    { apply load_has in E as (_ & E & _). apply existsb_exists. exists t. split; [exact E|apply N.eqb_refl]. }
    rewrite Ex. unfold load_latest, bodies, chat. rewrite lastn_all; [reflexivity|]. exact (Lim t q E).
Qed.

Lemma fin_connect limit c t s g id c' hist : dinv c s g -> finv c t s (g t) -> careful_event limit c s (EConnect id c' hist) ->
  finv c t (fst (connect limit s id c' hist)) (g t ++ got c t (snd (connect limit s id c' hist))).
Proof.
  intros V [W1 W2 W3 W4 W5 W6] Cond. destruct (connect_del limit s id c' hist) as (C1 & C2 & C3 & C4 & C5).
  assert (Own : c' = c -> conns_of c s = [] /\
     forall t, got c t (snd (connect limit s id c' hist)) = match ds_load (s_del s) t c with None => [] | Some q => bodies (skipn q (log_of s t)) end)
    by (intros ->; exact (connect_own limit c s g id hist V Cond)).
  destruct (connect limit s id c' hist) as [s' o]. cbn [fst snd] in *.
  assert (Lg : log_of s' t = log_of s t) by (unfold log_of; rewrite C1; reflexivity).
  assert (Cs : conns_of c s' = conns_of c s ++ (if N.eqb c' c then [Dconn id c' hist []] else [])).
  { unfold conns_of. rewrite C2, filter_app. cbn [filter d_client]. reflexivity. }
  split; rewrite ?Lg.
  - destruct W1 as [tk W1]. exists tk. intros H. apply C4 in H. exact (W1 H).
  - rewrite C3. exact W2.
  - rewrite C2. intros dc A H. apply in_app_iff in A as [A|[A|[]]]; [exact (W3 dc A H)|]. subst dc. destruct H. reflexivity.
  - intros H. apply C4 in H. exact (W4 H).
  - rewrite Cs. intros H q Hq. apply app_eq_nil in H as [H1 H2]. destruct (N.eqb c' c) eqn:E; [discriminate|]. apply N.eqb_neq in E.
    destruct (C5 t c E) as [D1 D2]. rewrite D2, app_nil_r. rewrite D1 in Hq. exact (W5 H1 q Hq).
  - intros H. destruct (N.eq_dec c' c) as [E|E].
    + destruct (Own E) as [O1 O2]. rewrite O2. destruct (ds_load (s_del s) t c) as [q|] eqn:F.
      * rewrite (W5 O1 q eq_refl), <- bodies_app, firstn_skipn. reflexivity.
      * rewrite app_nil_r, (W4 eq_refl). destruct V as [_ _ _ _ V5]. rewrite O1 in V5. specialize (V5 t). rewrite F in V5. exact V5.
    + destruct (C5 t c E) as [_ D2]. rewrite D2, app_nil_r. apply W6. apply N.eqb_neq in E. rewrite Cs, E, app_nil_r in H. exact H.
Qed.

Lemma fin_pong c t s g id : dinv c s g -> finv c t s (g t) -> finv c t (pong s id) (g t).
Proof.
  intros V W. pose proof W as [W1 W2 W3 W4 W5 W6]. unfold pong. pose proof (pong_spec (s_conns s) id (v_ids c s g V)) as P.
  destruct (pong_conns (s_conns s) id) as [cs r]. cbn [fst snd] in P. destruct r as [[[c' t'] n]|]; [|exact W].
  destruct P as (a & dc & ps & b & E & C & Pi & ->).
  set (dc' := Dconn (d_id dc) (d_client dc) (d_hist dc) ps).
  assert (Cs : conns_of c s = filter (fun dc => N.eqb (d_client dc) c) a ++ (if N.eqb c' c then [dc] else []) ++ filter (fun dc => N.eqb (d_client dc) c) b).
  { unfold conns_of. rewrite E, filter_app. cbn [filter]. rewrite C. destruct (N.eqb c' c); reflexivity. }
  assert (Cs' : conns_of c (Dstate (s_log s) (ds_store (s_del s) t' c' n) (a ++ dc' :: b) (s_db s)) =
                filter (fun dc => N.eqb (d_client dc) c) a ++ (if N.eqb c' c then [dc'] else []) ++ filter (fun dc => N.eqb (d_client dc) c) b).
  { unfold conns_of. cbn [s_conns]. rewrite filter_app. cbn [filter dc' d_client]. rewrite C. destruct (N.eqb c' c); reflexivity. }
  assert (Tl : t' = t -> log_of s t <> []).
  { intros ->. apply (W3 dc); [rewrite E; apply in_elt|]. rewrite Pi. unfold pings_on. cbn [filter fst]. rewrite N.eqb_refl. discriminate. }
  split; cbn [s_del s_conns].
  - destruct W1 as [tk W1]. exists tk. rewrite load_store. destruct (N.eqb t' tk && N.eqb c' c); [discriminate|exact W1].
  - rewrite has_store. destruct (N.eqb t' t) eqn:F; cbn [orb]; [intros _; apply N.eqb_eq in F; exact (Tl F)|exact W2].
  - intros x A H. apply in_app_iff in A as [A|[A|A]].
    + apply (W3 x); [rewrite E; apply in_app_iff; left; exact A|exact H].
    + subst x. cbn [dc' d_pings] in H. apply (W3 dc); [rewrite E; apply in_elt|]. rewrite Pi. unfold pings_on in *. cbn [filter fst].
      destruct (N.eqb t' t); [discriminate|exact H].
    + apply (W3 x); [rewrite E; apply in_app_iff; right; right; exact A|exact H].
  - rewrite load_store. destruct (N.eqb t' t && N.eqb c' c); [discriminate|exact W4].
  - intros H q. rewrite load_store. rewrite Cs' in H. destruct (N.eqb c' c) eqn:F.
    + exfalso. apply app_eq_nil in H as [_ H]. discriminate.
    + rewrite andb_false_r. apply W5. rewrite Cs. exact H.
  - intros H. apply W6. rewrite Cs. rewrite Cs' in H. intros X. apply H. destruct (N.eqb c' c); [|exact X].
    apply app_eq_nil in X as [_ X]. discriminate.
Qed.

Lemma fin_leave c t s g s' : dinv c s g -> finv c t s (g t) ->
  s_log s' = s_log s -> (forall t, ds_has (s_del s') t = ds_has (s_del s) t) ->
  (forall t c, ds_load (s_del s') t c = ds_load (s_del s) t c) ->
  (forall dc, In dc (s_conns s') -> In dc (s_conns s)) ->
  (conns_of c s' = conns_of c s \/ (conns_of c s' = [] /\ forall dc, In dc (conns_of c s) -> d_pings dc = [])) ->
  finv c t s' (g t).
Proof.
  intros V [W1 W2 W3 W4 W5 W6] E1 E2 E3 E4 E5.
  assert (Lg : log_of s' t = log_of s t) by (unfold log_of; rewrite E1; reflexivity).
  split; rewrite ?Lg, ?E2, ?E3.
  - destruct W1 as [tk W1]. exists tk. rewrite E3. exact W1.
  - exact W2.
  - intros dc A. exact (W3 dc (E4 dc A)).
  - exact W4.
  - intros H q Hq. destruct E5 as [E5|[_ E5]]; [rewrite E5 in H; exact (W5 H q Hq)|].
    destruct (conns_of c s) as [|x [|y l]] eqn:Cc; [exact (W5 eq_refl q Hq)| |destruct V as [_ _ _ _ V5]; rewrite Cc in V5; destruct V5].
    rewrite W6 by discriminate. destruct V as [_ _ _ _ V5]. rewrite Cc in V5. destruct V5 as [_ V5]. specialize (V5 t).
    rewrite (E5 x (or_introl eq_refl)) in V5. change (pings_on t []) with (@nil nat) in V5. rewrite latest_nil, Hq in V5.
    destruct V5 as [_ V5]. rewrite <- (firstn_skipn q (log_of s t)) at 1. rewrite bodies_app, V5. apply app_nil_r.
  - intros H. destruct E5 as [E5|[E5 _]]; [rewrite E5 in H; exact (W6 H)|contradiction].
Qed.

Lemma fin_disconnect limit c t s g id : dinv c s g -> finv c t s (g t) -> careful_event limit c s (EDisconnect id) -> finv c t (disconnect s id) (g t).
Proof.
  intros V W Cond. unfold disconnect. destruct (find _ (s_conns s)) as [dc|] eqn:F; [|exact W].
  apply (fin_leave c t s g); [exact V|exact W|reflexivity|reflexivity|reflexivity| |].
  - cbn. intros x A. apply filter_In in A as [A _]. exact A.
  - set (s' := store_receipts _ _).
    assert (Cs : conns_of c s' = filter (fun x => negb (N.eqb (d_id x) id)) (conns_of c s)).
    { unfold conns_of. cbn [s' store_receipts s_conns]. generalize (s_conns s) as l. induction l as [|x l IH]; [reflexivity|].
      cbn [filter]. destruct (negb (N.eqb (d_id x) id)) eqn:X1, (N.eqb (d_client x) c) eqn:X2; cbn [filter]; rewrite ?X1, ?X2, IH; reflexivity. }
    rewrite Cs. pose proof (v_client c s g V) as V5. destruct (conns_of c s) as [|x [|y l]] eqn:Cc; [left; reflexivity| |destruct V5].
    cbn [filter]. destruct (N.eqb (d_id x) id) eqn:E; cbn [negb]; [right|left; reflexivity].
    split; [reflexivity|]. intros dc0 [<-|[]].
    assert (A : In x (conns_of c s)) by (rewrite Cc; left; reflexivity). apply filter_In in A as [A1 A2].
    apply (Cond x A1); apply N.eqb_eq; assumption.
Qed.

Lemma rows_has c rows : forall d t, ds_has (fold_left (fun d y => ds_store d (fst y) c (snd y)) rows d) t = true ->
  ds_has d t = true \/ exists n, In (t, n) rows.
Proof.
  induction rows as [|[t' n'] rows IH]; intros d t H; cbn [fold_left fst snd] in H; [left; exact H|].
  destruct (IH _ _ H) as [H1|[n H1]]; [|right; exists n; right; exact H1]. rewrite has_store in H1.
  apply orb_true_iff in H1 as [H1|H1]; [|left; exact H1]. apply N.eqb_eq in H1. subst. right. exists n'. left. reflexivity.
Qed.

Lemma load_receipts_has db : forall d t,
  ds_has (fold_left (fun d x => fold_left (fun d y => ds_store d (fst y) (fst x) (snd y)) (snd x) d) db d) t = true ->
  ds_has d t = true \/ exists c rows n, In (c, rows) db /\ In (t, n) rows.
Proof.
  induction db as [|[c rows] db IH]; intros d t H; cbn [fold_left fst snd] in H; [left; exact H|].
  destruct (IH _ _ H) as [H1|(c0 & r0 & n & H1 & H2)]; [|right; exists c0, r0, n; split; [right; exact H1|exact H2]].
  apply rows_has in H1 as [H1|[n H1]]; [left; exact H1|]. right. exists c, rows, n. split; [left; reflexivity|exact H1].
Qed.

Lemma fin_restart limit c t s g : dinv c s g -> finv c t s (g t) -> careful_event limit c s ERestart -> finv c t (restart s) (g t).
Proof.
  intros V [W1 W2 W3 W4 W5 W6] Cond. pose proof (restart_load c s g V) as L.
  pose proof (inv_restart limit c s g V Cond) as Vr.
  destruct (fold_store_receipts (ds_clients (s_del s)) s) as (A1 & A2 & A3 & A4). cbv zeta in *.
  assert (Lg : log_of (restart s) t = log_of s t) by (unfold log_of, restart; cbn [s_log]; rewrite A1; reflexivity).
  split; rewrite ?Lg, ?L.
  - destruct W1 as [tk W1]. exists tk. rewrite L. exact W1.
  - intros H. apply W2. unfold restart in H. cbn [s_del] in H. unfold load_receipts in H. apply load_receipts_has in H as [H|(c0 & rows & n & H1 & H2)]; [discriminate|].
    apply in_assoc in H1; [|apply (v_dbkeys c _ g Vr)]. destruct (v_rows c _ g Vr c0 rows H1) as [_ X]. specialize (X t n H2). rewrite L in X.
    destruct (ds_load (s_del s) t c0) eqn:F; [|contradiction]. apply load_has in F as (F & _). exact F.
  - intros dc [].
  - exact W4.
  - intros _ q Hq. destruct (conns_of c s) as [|x [|y l]] eqn:Cc; [exact (W5 eq_refl q Hq)| |destruct V as [_ _ _ _ V5]; rewrite Cc in V5; destruct V5].
    rewrite W6 by discriminate. destruct V as [_ _ _ _ V5]. rewrite Cc in V5. destruct V5 as [_ V5]. specialize (V5 t).
    assert (A : In x (conns_of c s)) by (rewrite Cc; left; reflexivity). apply filter_In in A as [X1 X2]. apply N.eqb_eq in X2.
    rewrite (Cond x X1 X2) in V5. change (pings_on t []) with (@nil nat) in V5. rewrite latest_nil, Hq in V5.
    destruct V5 as [_ V5]. rewrite <- (firstn_skipn q (log_of s t)) at 1. rewrite bodies_app, V5. apply app_nil_r.
  - intros H. destruct H. reflexivity.
Qed.

Lemma fin_step limit c t s g e : dinv c s g -> finv c t s (g t) -> careful_event limit c s e ->
  finv c t (fst (dstep limit s e)) (g t ++ got c t (snd (dstep limit s e))).
Proof.
  intros V W C. destruct e; cbn [dstep fst snd].
  - apply fin_msg; assumption.
  - apply fin_connect; assumption.
  - cbn. rewrite app_nil_r. apply fin_pong; assumption.
  - cbn. rewrite app_nil_r. eapply fin_disconnect; eassumption.
  - cbn. rewrite app_nil_r. eapply fin_restart; eassumption.
  - destruct C.
Qed.

Lemma fin_run limit c t es : forall s g, dinv c s g -> finv c t s (g t) -> careful limit c s es ->
  finv c t (fst (drun limit s es)) (g t ++ got c t (snd (drun limit s es))).
Proof.
  induction es as [|e es IH]; intros s g V W C; cbn [drun].
  - cbn. rewrite app_nil_r. exact W.
  - destruct C as [C1 C2]. pose proof (inv_step limit c s g e V C1) as V1. pose proof (fin_step limit c t s g e V W C1) as W1.
    destruct (dstep limit s e) as [s1 o1]. cbn [fst snd] in *. specialize (IH s1 _ V1 W1 C2).
    destruct (drun limit s1 es) as [s2 o2]. cbn [fst snd] in *. rewrite got_app, app_assoc. exact IH.
Qed.

(** Every pointer and every pending PING of a target is about a logged message. *)
Definition linked (s : dstate) : Prop := forall t,
  (ds_has (s_del s) t = true -> log_of s t <> []) /\
  (forall dc, In dc (s_conns s) -> pings_on t (d_pings dc) <> [] -> log_of s t <> []).

Lemma careful_app limit c es1 : forall s es2, careful limit c s (es1 ++ es2) <->
  careful limit c s es1 /\ careful limit c (fst (drun limit s es1)) es2.
Proof.
  induction es1 as [|e es1 IH]; intros s es2; cbn [app careful drun]; [intuition|]. rewrite IH.
  destruct (dstep limit s e) as [s1 o1]. cbn [fst]. destruct (drun limit s1 es1). cbn [fst]. intuition.
Qed.

Lemma drun_app limit es1 : forall s es2, drun limit s (es1 ++ es2) =
  let '(s1, o1) := drun limit s es1 in let '(s2, o2) := drun limit s1 es2 in (s2, o1 ++ o2).
Proof.
  induction es1 as [|e es1 IH]; intros s es2; cbn [app drun]; [destruct (drun limit s es2); reflexivity|].
  destruct (dstep limit s e) as [s1 o1]. rewrite IH. destruct (drun limit s1 es1) as [s2 o2]. destruct (drun limit s2 es2) as [s3 o3].
  rewrite app_assoc. reflexivity.
Qed.

Lemma linked_msg s t m o : linked s -> linked (fst (produce s t m o)).
Proof.
  intros K t0. destruct (K t0) as [K1 K2].
  assert (Log : forall t', log_of (fst (produce s t m o)) t' = if N.eqb t t' then log_of s t ++ [m] else log_of s t') by (intros; apply log_set).
  rewrite Log. destruct (N.eqb t t0) eqn:E; [split; intros; destruct (log_of s t); discriminate|]. split.
  - intros H. unfold produce in H. cbn [fst s_del] in H.
    apply K1. destruct (negb (ds_empty (s_del s)) && negb (ds_has (s_del s) t)); [|exact H].
    apply has_fold in H as [H|H]; [exact H|]. subst. rewrite N.eqb_refl in E. discriminate.
  - intros dc A H. unfold produce in A. cbn [fst s_conns] in A. apply in_map_iff in A as (dc0 & <- & A).
    apply (K2 dc0 A). destruct (m_chat m && negb (d_hist dc0)); [|exact H]. cbn [d_pings] in H. unfold pings_on in *.
    rewrite filter_app in H. cbn [filter fst] in H. rewrite E, app_nil_r in H. exact H.
Qed.

Lemma linked_pong c s g id : dinv c s g -> linked s -> linked (pong s id).
Proof.
  intros V K. unfold pong. pose proof (pong_spec (s_conns s) id (v_ids c s g V)) as P.
  destruct (pong_conns (s_conns s) id) as [cs r]. cbn [fst snd] in P. destruct r as [[[c' t'] n]|]; [|exact K].
  destruct P as (a & dc & ps & b & E & C & Pi & ->). intros t. destruct (K t) as [K1 K2]. split; cbn [s_del s_conns].
  - change (log_of {| s_log := s_log s; s_del := ds_store (s_del s) t' c' n; s_conns := a ++ {| d_id := d_id dc; d_client := d_client dc; d_hist := d_hist dc; d_pings := ps |} :: b; s_db := s_db s |} t) with (log_of s t).
    rewrite has_store. destruct (N.eqb t' t) eqn:F; cbn [orb]; [|exact K1]. intros _. apply (K2 dc); [rewrite E; apply in_elt|].
    rewrite Pi. unfold pings_on. cbn [filter fst]. rewrite F. discriminate.
  - intros x A H. change (log_of s t <> []). apply in_app_iff in A as [A|[A|A]].
    + apply (K2 x); [rewrite E; apply in_app_iff; left; exact A|exact H].
    + subst x. cbn [d_pings] in H. apply (K2 dc); [rewrite E; apply in_elt|]. rewrite Pi. unfold pings_on in *. cbn [filter fst].
      destruct (N.eqb t' t); [discriminate|exact H].
    + apply (K2 x); [rewrite E; apply in_app_iff; right; right; exact A|exact H].
Qed.

Lemma linked_step limit c s g e : dinv c s g -> careful_event limit c s e -> linked s -> linked (fst (dstep limit s e)).
Proof.
  intros V C K. destruct e; cbn [dstep fst].
  - apply linked_msg, K.
  - destruct (connect_del limit s id client hist) as (C1 & C2 & C3 & _). destruct (connect limit s id client hist) as [s' o]. cbn [fst] in *.
    intros t. destruct (K t) as [K1 K2]. assert (Lg : log_of s' t = log_of s t) by (unfold log_of; rewrite C1; reflexivity).
    rewrite Lg. split; [rewrite C3; exact K1|]. rewrite C2. intros dc A H. apply in_app_iff in A as [A|[A|[]]]; [exact (K2 dc A H)|].
    subst dc. destruct H. reflexivity.
  - eapply linked_pong; eassumption.
  - unfold disconnect. destruct (find _ (s_conns s)) as [dc|]; [|exact K]. intros t. destruct (K t) as [K1 K2]. split; [exact K1|].
    cbn. intros x A. apply filter_In in A as [A _]. exact (K2 x A).
  - pose proof (restart_load c s g V) as L. pose proof (inv_restart limit c s g V C) as Vr.
    destruct (fold_store_receipts (ds_clients (s_del s)) s) as (A1 & A2 & A3 & A4). cbv zeta in *.
    intros t. destruct (K t) as [K1 K2]. assert (Lg : log_of (restart s) t = log_of s t) by (unfold log_of, restart; cbn [s_log]; rewrite A1; reflexivity).
    rewrite Lg. split; [|intros dc []].
    intros H. apply K1. unfold restart in H. cbn [s_del] in H. unfold load_receipts in H. apply load_receipts_has in H as [H|(c0 & rows & n & H1 & H2)]; [discriminate|].
    apply in_assoc in H1; [|apply (v_dbkeys c _ g Vr)]. destruct (v_rows c _ g Vr c0 rows H1) as [_ X]. specialize (X t n H2). rewrite L in X.
    destruct (ds_load (s_del s) t c0) eqn:F; [|contradiction]. apply load_has in F as (F & _). exact F.
  - destruct C.
Qed.

Lemma linked_run limit c es : forall s g, dinv c s g -> careful limit c s es -> linked s -> linked (fst (drun limit s es)).
Proof.
  induction es as [|e es IH]; intros s g V C K; cbn [drun]; [exact K|]. destruct C as [C1 C2].
  pose proof (inv_step limit c s g e V C1) as V1. pose proof (linked_step limit c s g e V C1 K) as K1.
  destruct (dstep limit s e) as [s1 o1]. cbn [fst snd] in *. specialize (IH s1 _ V1 C2 K1). destruct (drun limit s1 es). exact IH.
Qed.

(** A client that is away, known from another target. *)
Lemma away_fin c t t0 s g : dinv c s g -> linked s -> ~ connected s c -> g t0 <> [] -> log_of s t = [] -> finv c t s (g t).
Proof.
  intros V K Nc G L.
  assert (Z : conns_of c s = []).
  { apply filter_none. intros dc A. apply N.eqb_neq. intros B. apply Nc. exists dc. split; assumption. }
  pose proof (v_client c s g V) as V5. rewrite Z in V5. destruct (K t) as [K1 K2].
  assert (Gt : g t = []).
  { specialize (V5 t). destruct (ds_load (s_del s) t c); [|exact V5]. destruct V5 as [_ [p X]]. rewrite L, firstn_nil in X.
    symmetry in X. apply app_eq_nil in X as [_ X]. exact X. }
  split.
  - exists t0. specialize (V5 t0). destruct (ds_load (s_del s) t0 c); [discriminate|contradiction].
  - exact K1.
  - exact K2.
  - intros _. exact L.
  - intros _ q _. rewrite L, firstn_nil. exact Gt.
  - intros H. contradiction.
Qed.

(** ** A decision procedure for the conditions, for examples *)
Definition carefulb_event (limit : nat) (c : N) (s : dstate) (e : dev) : bool :=
  match e with
  | EConnect id c' hist =>
      negb (existsb (N.eqb id) (map d_id (s_conns s))) &&
      (negb (N.eqb c' c) ||
       (negb hist && negb (existsb (fun dc => N.eqb (d_client dc) c) (s_conns s)) && forallb (fun x => length (snd x) <=? limit) (s_log s)))
  | EDisconnect id => forallb (fun dc => negb (N.eqb (d_id dc) id && N.eqb (d_client dc) c) || match d_pings dc with [] => true | _ => false end) (s_conns s)
  | ERestart => forallb (fun dc => negb (N.eqb (d_client dc) c) || match d_pings dc with [] => true | _ => false end) (s_conns s)
  | EUpdateNetwork => false
  | _ => true
  end.
Fixpoint carefulb (limit : nat) (c : N) (s : dstate) (es : list dev) : bool :=
  match es with
  | [] => true
  | e :: es' => carefulb_event limit c s e && carefulb limit c (fst (dstep limit s e)) es'
  end.

Lemma carefulb_ok limit c es : forall s, carefulb limit c s es = true -> careful limit c s es.
Proof.
  induction es as [|e es IH]; intros s H; [exact I|]. cbn [carefulb careful] in *. apply andb_true_iff in H as [H1 H2].
  split; [|apply IH, H2]. clear H2 IH. destruct e; cbn [carefulb_event careful_event] in *; try exact I; try discriminate.
  - apply andb_true_iff in H1 as [H1 H2]. split.
    + intros A. apply negb_true_iff in H1. assert (X : existsb (N.eqb id) (map d_id (s_conns s)) = true) by (apply existsb_exists; exists id; split; [exact A|apply N.eqb_refl]). congruence.
    + intros ->. rewrite N.eqb_refl in H2. cbn [negb orb] in H2. apply andb_true_iff in H2 as [H2 H3]. apply andb_true_iff in H2 as [H2 H4].
      apply negb_true_iff in H2, H4. split; [exact H2|]. split.
      * intros (dc & A & B). assert (X : existsb (fun dc => N.eqb (d_client dc) c) (s_conns s) = true) by (apply existsb_exists; exists dc; split; [exact A|apply N.eqb_eq, B]). congruence.
      * intros t n _. rewrite forallb_forall in H3. unfold log_of. destruct (assoc t (s_log s)) as [l|] eqn:E; [|rewrite skipn_nil; cbn; lia].
        apply assoc_in in E. specialize (H3 _ E). cbn [snd] in H3. apply Nat.leb_le in H3.
        pose proof (skipn_length n l). assert (X : forall l, length (filter m_chat l) <= length l) by (induction l0 as [|x l0 IH]; cbn; [lia|destruct (m_chat x); cbn; lia]).
        specialize (X (skipn n l)). lia.
  - rewrite forallb_forall in H1. intros dc A B C. specialize (H1 dc A). subst. rewrite !N.eqb_refl in H1. cbn [andb negb orb] in H1. destruct (d_pings dc); [reflexivity|discriminate].
  - rewrite forallb_forall in H1. intros dc A C. specialize (H1 dc A). subst. rewrite N.eqb_refl in H1. cbn [negb orb] in H1. destruct (d_pings dc); [reflexivity|discriminate].
Qed.
