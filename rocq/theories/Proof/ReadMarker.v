From Verif.Base Require Import Bytes.
From Verif.Model Require Import CaseMap TimeFmt ReadMarker.
From Verif.Spec Require Import TimeFmt ReadMarker.
From Verif.Proof Require TimeFmt.
From Coq Require Import ZArith Lia.
Open Scope Z_scope.

Lemma parse_multiple s t : parse_time s = Some t -> t mod 1000000 = 0.
Proof.
  unfold parse_time.
  destruct (take_num 4 "-" s) as [[y s1]|]; [|discriminate].
  destruct (take_num 2 "-" s1) as [[m s2]|]; [|discriminate].
  destruct (take_num 2 "T" s2) as [[d s3]|]; [|discriminate].
  destruct (take_num 2 ":" s3) as [[hh s4]|]; [|discriminate].
  destruct (take_num 2 ":" s4) as [[mi s5]|]; [|discriminate].
  destruct (take_num 2 "." s5) as [[ss s6]|]; [|discriminate].
  destruct (take_num 3 "Z" s6) as [[ms s7]|]; [|discriminate].
  destruct (_ && _); [|discriminate]. intros [= <-]. unfold ns_per_day.
  generalize (days_of_civil y m d) as q. generalize (((hh * 60 + mi) * 60 + ss) * 1000 + ms) as w. intros w q.
  replace (q * (86400 * 1000000000) + w * 1000000) with ((q * 86400000 + w) * 1000000) by lia. apply Z_mod_mult.
Qed.

Lemma millis_le t : millis t <= t.
Proof. unfold millis. pose proof (Z.mul_div_le t 1000000). lia. Qed.
Lemma millis_mono t u : t <= u -> millis t <= millis u.
Proof. intros H. unfold millis. pose proof (Z.div_le_mono t u 1000000). lia. Qed.
Lemma millis_id t : t mod 1000000 = 0 -> millis t = t.
Proof. intros H. unfold millis. pose proof (Z.div_mod t 1000000). lia. Qed.
Lemma millis_multiple t : millis t mod 1000000 = 0.
Proof. apply Z_mod_mult. Qed.
Lemma millis_same t : format_time (millis t) = format_time t.
Proof. apply Proof.TimeFmt.format_same. unfold millis. rewrite Z_div_mult by lia. reflexivity. Qed.

(** ** The table *)
Definition is_row (net : Z) (t : bytes) (r : rrow) : bool := Z.eqb (r_net r) net && beqb (r_target r) t.
Definition row_of (db : list rrow) (net : Z) (t : bytes) : option rrow := find (is_row net t) db.

Lemma next_id_fresh db : forall r, In r db -> (r_id r < next_id db)%N.
Proof.
  unfold next_id. induction db as [|x db IH]; intros r [].
  - subst x. cbn [fold_right]. lia.
  - specialize (IH r H). cbn [fold_right]. lia.
Qed.

Lemma find_app {A} (f : A -> bool) a b : find f (a ++ b) = match find f a with Some x => Some x | None => find f b end.
Proof. induction a as [|x a IH]; [reflexivity|]. cbn [app find]. destruct (f x); [reflexivity|exact IH]. Qed.

Lemma row_insert db id net t v net' t' :
  row_of (db ++ [Rrow id net t v]) net' t' =
  match row_of db net' t' with
  | Some r => Some r
  | None => if Z.eqb net net' && beqb t t' then Some (Rrow id net t v) else None
  end.
Proof. unfold row_of. rewrite find_app. destruct (find _ db); [reflexivity|]. reflexivity. Qed.

Lemma row_update db i v net t r : NoDup (map r_id db) -> row_of db net t = Some r -> r_id r = i ->
  forall net' t', row_of (map (fun r => if N.eqb (r_id r) i then Rrow (r_id r) (r_net r) (r_target r) v else r) db) net' t' =
    if Z.eqb net net' && beqb t t' then Some (Rrow (r_id r) (r_net r) (r_target r) v) else row_of db net' t'.
Proof.
  intros D R I net' t'. unfold row_of in *. apply find_some in R as R0. destruct R0 as [R1 R2].
  apply andb_true_iff in R2 as [R2 R3]. apply Z.eqb_eq in R2. apply beqb_eq in R3.
  induction db as [|x db IH]; [destruct R1|]. cbn [map find] in *. inversion_clear D as [|? ? D1 D2].
  destruct (is_row net t x) eqn:Ex.
  - injection R as ->. rewrite I, N.eqb_refl. unfold is_row at 1. cbn [r_net r_target]. rewrite R2, R3.
    destruct (Z.eqb net net' && beqb t t') eqn:E; [reflexivity|].
    replace (is_row net' t' r) with false by (unfold is_row; rewrite R2, R3; symmetry; exact E).
    clear IH R1. f_equal. rewrite <- (map_id db) at 2. apply map_ext_in. intros y Hy. destruct (N.eqb (r_id y) i) eqn:Ey; [|reflexivity].
    apply N.eqb_eq in Ey. destruct D1. rewrite I, <- Ey. apply in_map, Hy.
  - destruct R1 as [->|R1]; [unfold is_row in Ex; rewrite R2, R3, Z.eqb_refl, beqb_refl in Ex; discriminate|].
    specialize (IH D2 R R1). destruct (N.eqb (r_id x) i) eqn:Ei.
    { apply N.eqb_eq in Ei. destruct D1. rewrite Ei, <- I. apply in_map, R1. }
    destruct (is_row net' t' x) eqn:Ex'; [|exact IH].
    destruct (Z.eqb net net' && beqb t t') eqn:E; [|reflexivity]. exfalso.
    apply andb_true_iff in E as [E1 E2]. apply Z.eqb_eq in E1. apply beqb_eq in E2. subst net' t'. congruence.
Qed.

Lemma get_row db net t : get_receipt db net t =
  match row_of db net t with
  | None => Some None
  | Some r => match sqlite_scan (r_time r) with None => None | Some v => Some (Some (r_id r, v)) end
  end.
Proof. reflexivity. Qed.

(** ** The invariant *)
Definition time_ok (v : Z) : Prop := 0 < v /\ v mod 1000000 = 0 /\ in_years v.

Record minv (cm : Z -> casemapping) (es : list mev) (db : list rrow) : Prop := Minv {
  m_ids : NoDup (map r_id db);
  m_rows : forall net t, t <> service_cm ->
    match row_of db net t with
    | None => marker cm net t es 0
    | Some r => exists v, time_ok v /\ r_time r = Some (format_time v) /\ marker cm net t es v
    end
}.

Lemma scan_time v : time_ok v -> sqlite_scan (Some (format_time v)) = Some v.
Proof. intros (_ & M & Y). cbn [sqlite_scan]. rewrite Proof.TimeFmt.parse_format by exact Y. rewrite millis_id by exact M. reflexivity. Qed.

(** The value that a database gives for a target. *)
Definition val (db : list rrow) (net : Z) (t : bytes) : Z :=
  match row_of db net t with
  | None => 0
  | Some r => match sqlite_scan (r_time r) with Some v => v | None => 0 end
  end.

Lemma inv_get cm es db net t : minv cm es db -> t <> service_cm ->
  exists r, get_receipt db net t = Some r /\ marker cm net t es (val db net t) /\
    match r with None => val db net t = 0 /\ row_of db net t = None
               | Some (i, v) => v = val db net t /\ time_ok v /\ exists x, row_of db net t = Some x /\ r_id x = i end.
Proof.
  intros [_ R] Nt. specialize (R net t Nt). rewrite get_row. unfold val. destruct (row_of db net t) as [x|].
  - destruct R as (v & T & E & M). rewrite E, scan_time by exact T. eexists. split; [reflexivity|]. split; [exact M|].
    split; [reflexivity|]. split; [exact T|]. exists x. split; reflexivity.
  - exists None. split; [reflexivity|]. split; [exact R|]. split; reflexivity.
Qed.

(** A command that does not set the marker. *)
Lemma marker_keep cm net t es e v : (forall w, sets cm net t e w -> w <= v) -> marker cm net t es v -> marker cm net t (es ++ [e]) v.
Proof.
  intros H (M1 & M2 & M3). split; [exact M1|]. split.
  - destruct M2 as [M2|(x & A & B)]; [left; exact M2|right; exists x; split; [apply in_app_iff; left; exact A|exact B]].
  - intros x w A B. apply in_app_iff in A as [A|[<-|[]]]; [exact (M3 x w A B)|exact (H w B)].
Qed.

Lemma marker_set cm net t es e v w : sets cm net t e w -> (forall u, sets cm net t e u -> u = w) -> v <= w -> 0 <= w ->
  marker cm net t es v -> marker cm net t (es ++ [e]) w.
Proof.
  intros S U L P (M1 & M2 & M3). split; [exact P|]. split.
  - right. exists e. split; [apply in_app_iff; right; left; reflexivity|exact S].
  - intros x u A B. apply in_app_iff in A as [A|[<-|[]]]; [specialize (M3 x u A B); lia|rewrite (U u B); lia].
Qed.

Lemma app_same_len {A} (a b c d : list A) : length a = length b -> a ++ c = b ++ d -> a = b /\ c = d.
Proof.
  revert b. induction a as [|x a IH]; intros [|y b] L E; try discriminate; [split; [reflexivity|exact E]|].
  injection E as -> E. injection L as L. destruct (IH b L E) as [-> ->]. split; reflexivity.
Qed.

Lemma cut_timestamp text : cut_on "=" (B "timestamp=" ++ text) = (B "timestamp", Some text).
Proof. reflexivity. Qed.

Lemma parse_criteria_some c ts : parse_criteria c = inr ts -> exists text, c = B "timestamp=" ++ text /\ parse_time text = Some ts.
Proof.
  unfold parse_criteria. destruct (cut_on "=" c) as [k [v|]] eqn:E; [|discriminate].
  destruct (beqb k (B "timestamp")) eqn:K; [|discriminate]. apply beqb_eq in K. subst k.
  destruct (parse_time v) as [t|] eqn:P; [|discriminate]. intros [= ->]. exists v. split; [|exact P].
  pose proof (cut_on_spec "=" c) as S. rewrite E in S. destruct S as [S _]. exact S.
Qed.

Lemma sets_inv cm net t e w : sets cm net t e w -> exists cmd target text ts,
  ev_body e = MarkRead cmd target (B "timestamp=" ++ text) /\ parse_time text = Some ts /\ ev_net e = net /\
  casemap (cm net) target = t /\ t <> service_cm /\ ev_get e = true /\ ev_store e = true /\ w = millis (Z.min ts (ev_now e)).
Proof. intros []. exists cmd, target, text, ts. repeat (split; [assumption|]). reflexivity. Qed.

Lemma marker_text_shown v : shown v (marker_text v).
Proof. unfold shown, marker_text. destruct (Z.eqb_spec v 0); [left|right]; split; (assumption || reflexivity). Qed.

Lemma marker_text_millis t : 1000000 <= t -> marker_text t = marker_text (millis t).
Proof.
  intros H. unfold marker_text. assert (1000000 <= millis t) by (change 1000000 with (millis 1000000) at 1; apply millis_mono, H).
  destruct (Z.eqb_spec t 0); [lia|]. destruct (Z.eqb_spec (millis t) 0); [lia|]. rewrite millis_same. reflexivity.
Qed.

(** What a command does. *)
Inductive effect (cm : Z -> casemapping) (es : list mev) (db : list rrow) (e : mev) (r : list rrow * list mout) : Prop :=
| Keeps : fst r = db -> (forall net t w, sets cm net t e w -> w <= val db net t) ->
    (forall c cmd target text, In (Report c cmd target text) (snd r) ->
       if beqb (casemap (cm (ev_net e)) target) service_cm then text = B "*" \/ exists ch, ev_body e = Forward ch
       else shown (val db (ev_net e) (casemap (cm (ev_net e)) target)) text) -> effect cm es db e r
| Moves cmd target criteria text ts : ev_body e = MarkRead cmd target criteria -> criteria = B "timestamp=" ++ text -> parse_time text = Some ts ->
    casemap (cm (ev_net e)) target <> service_cm -> ev_get e = true -> ev_store e = true ->
    let t := Z.min ts (ev_now e) in
    let tcm := casemap (cm (ev_net e)) target in
    val db (ev_net e) tcm < t ->
    fst r = store_receipt db (match row_of db (ev_net e) tcm with None => None | Some x => Some (r_id x) end) (ev_net e) tcm t ->
    snd r = flat_map (fun c => report c target (marker_text t)) (ev_conns e) -> effect cm es db e r.

Lemma in_report c target text d cmd target' text' : In (Report d cmd target' text') (report c target text) -> target' = target /\ text' = text.
Proof.
  unfold report. destruct (mc_marker c); [|destruct (mc_read c)]; cbn; [intros [H|[]]|intros [H|[]]|intros []]; injection H; intros; subst; split; reflexivity.
Qed.

Lemma step_effect cm es db e : minv cm es db -> clock_ok e -> effect cm es db e (mstep cm db e).
Proof.
  intros V Ck. unfold mstep. destruct (ev_body e) as [cmd target criteria|channel] eqn:Eb.
  - unfold mark_read. set (tcm := casemap (cm (ev_net e)) target).
    assert (NoSets : (forall text ts, criteria = B "timestamp=" ++ text -> parse_time text = Some ts -> ev_get e = true -> ev_store e = true -> tcm <> service_cm ->
                        millis (Z.min ts (ev_now e)) <= val db (ev_net e) tcm) ->
                     forall net t w, sets cm net t e w -> w <= val db net t).
    { intros H net t w S. apply sets_inv in S as (cmd' & target' & text & ts & S1 & S2 & S3 & S4 & S5 & S6 & S7 & ->).
      rewrite Eb in S1. injection S1 as <- <- S1. subst net t. apply (H text ts S1 S2 S6 S7). exact S5. }
    destruct (beqb tcm service_cm) eqn:Es.
    { apply beqb_eq in Es. apply Keeps; [reflexivity| |].
      - apply NoSets. intros text ts _ _ _ _ H. contradiction.
      - cbn [snd]. intros c cm' tg tx H. unfold own_report in H. destruct (_ || _); [|destruct H]. destruct H as [H|[]].
        injection H as <- <- <- <-. fold tcm. rewrite Es, beqb_refl. left; reflexivity. }
    assert (Ns : tcm <> service_cm) by (intros H; rewrite H, beqb_refl in Es; discriminate).
    destruct (inv_get cm es db (ev_net e) tcm V Ns) as (r & G & M & R).
    assert (Shown : forall (f : mconn -> bool) c cm' tg tx old, old = val db (ev_net e) tcm ->
              In (Report c cm' tg tx) (flat_map (fun c => if f c then report c target (marker_text old) else []) (ev_conns e)) ->
              if beqb (casemap (cm (ev_net e)) tg) service_cm then tx = B "*" \/ (exists ch, ev_body e = Forward ch)
              else shown (val db (ev_net e) (casemap (cm (ev_net e)) tg)) tx).
    { intros f c cm' tg tx old -> H. apply in_flat_map in H as (x & _ & H). destruct (f x); [|destruct H].
      apply in_report in H as [-> ->]. fold tcm. rewrite Es. apply marker_text_shown. }
    destruct (ev_get e) eqn:Eg.
    2:{ apply Keeps; [reflexivity| |].
        - apply NoSets. intros. discriminate.
        - cbn [snd]. intros c cm' tg tx [H|[]]. discriminate. }
    rewrite G.
    assert (Old : exists id old, match r with None => (None, 0) | Some (i, t) => (Some i, t) end = (id, old) /\ old = val db (ev_net e) tcm /\
                  id = match row_of db (ev_net e) tcm with None => None | Some x => Some (r_id x) end /\ 0 <= old).
    { destruct r as [[i t]|]; [|destruct R as [R1 R2]].
      - destruct R as (R1 & R2 & x & R3 & R4). exists (Some i), t. split; [reflexivity|]. split; [exact R1|]. rewrite R3, R4. split; [reflexivity|].
        destruct R2. lia.
      - exists None, 0. split; [reflexivity|]. split; [symmetry; exact R1|]. rewrite R2. split; [reflexivity|lia]. }
    destruct Old as (id & old & -> & Ov & Oi & Op). destruct criteria as [|c0 criteria0].
    { apply Keeps; [reflexivity| |].
      - apply NoSets. intros. discriminate.
      - cbn [snd]. intros c cm' tg tx. apply (Shown (fun c => N.eqb (mc_id c) (mc_id (ev_from e)))). exact Ov. }
    set (criteria := c0 :: criteria0) in *. destruct (parse_criteria criteria) as [err|ts] eqn:Pc.
    { apply Keeps; [reflexivity| |].
      - apply NoSets. intros text ts E P _ _ _. exfalso. unfold parse_criteria in Pc. rewrite E, cut_timestamp in Pc.
        rewrite beqb_refl, P in Pc. discriminate.
      - cbn [snd]. intros c cm' tg tx [H|[]]. discriminate. }
    apply parse_criteria_some in Pc as (text & Ec & Pt).
    replace (if ev_now e <? ts then ev_now e else ts) with (Z.min ts (ev_now e)) by (destruct (Z.ltb_spec (ev_now e) ts); lia).
    destruct (Z.ltb_spec old (Z.min ts (ev_now e))) as [Lt|Ge].
    + destruct (ev_store e) eqn:Est.
      * eapply (Moves cm es db e _ cmd target criteria text ts); try eassumption; cbv zeta; fold tcm.
        -- rewrite <- Ov. exact Lt.
        -- cbn [fst]. rewrite Oi. reflexivity.
        -- reflexivity.
      * apply Keeps; [reflexivity| |].
        -- apply NoSets. intros. discriminate.
        -- cbn [snd]. intros c cm' tg tx [H|[]]. discriminate.
    + apply Keeps; [reflexivity| |].
      * apply NoSets. intros text' ts' E P _ _ _. rewrite Ec in E. apply (app_same_len (B "timestamp=")) in E as [_ <-]; [|reflexivity].
        rewrite Pt in P. injection P as <-. rewrite <- Ov. pose proof (millis_le (Z.min ts (ev_now e))). lia.
      * cbn [snd]. intros c cm' tg tx. apply (Shown (fun c => N.eqb (mc_id c) (mc_id (ev_from e)))). exact Ov.
  - unfold forward. set (tcm := casemap (cm (ev_net e)) channel).
    assert (Nset : forall net t w, sets cm net t e w -> w <= val db net t).
    { intros net t w S. apply sets_inv in S as (cmd' & target' & text & ts & S1 & _). rewrite Eb in S1. discriminate. }
    destruct (mc_marker (ev_from e) || mc_read (ev_from e)); [|apply Keeps; [reflexivity|exact Nset|intros ? ? ? ? []]].
    destruct (ev_get e) eqn:Eg; [|apply Keeps; [reflexivity|exact Nset|intros ? ? ? ? []]].
    destruct (beqb tcm service_cm) eqn:Es.
    + destruct (get_receipt db (ev_net e) tcm) as [r|]; (apply Keeps; [reflexivity|exact Nset|]); cbn [snd]; intros c cm' tg tx H; [|destruct H].
      apply in_report in H as [-> ->]. fold tcm. rewrite Es. right. exists channel. exact Eb.
    + assert (Ns : tcm <> service_cm) by (intros H; rewrite H, beqb_refl in Es; discriminate).
      destruct (inv_get cm es db (ev_net e) tcm V Ns) as (r & G & M & R). rewrite G.
      apply Keeps; [reflexivity|exact Nset|]. cbn [snd]. intros c cm' tg tx H. apply in_report in H as [-> ->]. fold tcm. rewrite Es.
      destruct r as [[i t]|].
      * destruct R as (<- & (R2 & _) & _). right. split; [lia|reflexivity].
      * destruct R as [-> _]. left. split; reflexivity.
Qed.

Lemma sets_once cm net t e u w : sets cm net t e u -> sets cm net t e w -> u = w.
Proof.
  intros S T. apply sets_inv in S as (c1 & t1 & x1 & s1 & A1 & A2 & _ & _ & _ & _ & _ & ->).
  apply sets_inv in T as (c2 & t2 & x2 & s2 & B1 & B2 & _ & _ & _ & _ & _ & ->).
  rewrite A1 in B1. injection B1 as _ _ <-. rewrite A2 in B2. injection B2 as ->. reflexivity.
Qed.

(** A moving command. *)
Lemma moves_time ts e v : clock_ok e -> 0 <= v -> v < Z.min ts (ev_now e) -> ts mod 1000000 = 0 -> 1000000 <= Z.min ts (ev_now e).
Proof.
  intros [C _] P L M. assert (1000000 <= ts); [|lia]. pose proof (Z.div_mod ts 1000000). assert (0 < ts / 1000000); [|lia].
  destruct (Z_lt_le_dec 0 (ts / 1000000)); [assumption|lia].
Qed.

Lemma val_nonneg cm es db net t : minv cm es db -> t <> service_cm -> 0 <= val db net t.
Proof. intros V N. destruct (inv_get cm es db net t V N) as (r & _ & M & _). apply M. Qed.

Lemma min_years ts e : clock_ok e -> 1000000 <= Z.min ts (ev_now e) -> time_ok (millis (Z.min ts (ev_now e))).
Proof.
  intros [_ Y] L. assert (1000000 <= millis (Z.min ts (ev_now e))) by (change 1000000 with (millis 1000000) at 1; apply millis_mono, L).
  pose proof (millis_le (Z.min ts (ev_now e))). unfold in_years in Y. split; [lia|]. split; [apply millis_multiple|]. unfold in_years. lia.
Qed.

Lemma inv_step cm es db e : minv cm es db -> clock_ok e -> minv cm (es ++ [e]) (fst (mstep cm db e)).
Proof.
  intros V Ck. destruct (step_effect cm es db e V Ck) as [E S _|cmd target criteria text ts Eb Ec Pt Ns Eg Est t tcm L E _].
  - rewrite E. destruct V as [V1 V2]. split; [exact V1|]. intros net t N. specialize (V2 net t N). specialize (S net t). unfold val in S.
    destruct (row_of db net t) as [r|].
    + destruct V2 as (v & T & R & M). exists v. split; [exact T|]. split; [exact R|]. rewrite R, scan_time in S by exact T. apply marker_keep; assumption.
    + apply marker_keep; assumption.
  - rewrite E. clear E. fold tcm in Ns. pose proof (val_nonneg cm es db (ev_net e) tcm V Ns) as Vp.
    assert (L1 : 1000000 <= t) by (apply (moves_time ts e (val db (ev_net e) tcm)); [exact Ck|exact Vp|exact L|eapply parse_multiple, Pt]).
    pose proof (min_years ts e Ck L1) as T. fold t in T.
    assert (St : sets cm (ev_net e) tcm e (millis t)).
    { eapply (Sets cm (ev_net e) tcm e cmd target text ts); try reflexivity; try assumption. rewrite Eb, Ec. reflexivity. }
    assert (Mv : marker cm (ev_net e) tcm (es ++ [e]) (millis t)).
    { destruct (inv_get cm es db (ev_net e) tcm V Ns) as (r & _ & M & R). apply (marker_set _ _ _ _ _ (val db (ev_net e) tcm)).
      - exact St.
      - intros u Hu. exact (sets_once _ _ _ _ _ _ Hu St).
      - assert (Vm : val db (ev_net e) tcm = millis (val db (ev_net e) tcm)).
        { symmetry. apply millis_id. destruct r as [[i v]|]; [destruct R as (<- & (_ & R & _) & _); exact R|destruct R as [-> _]; reflexivity]. }
        rewrite Vm. apply millis_mono. lia.
      - destruct T; lia.
      - exact M. }
    assert (Oth : forall net' t', Z.eqb (ev_net e) net' && beqb tcm t' = false -> forall v, marker cm net' t' es v -> marker cm net' t' (es ++ [e]) v).
    { intros net' t' Ne v M. apply marker_keep; [|exact M]. intros w S. exfalso.
      apply sets_inv in S as (cmd' & target' & text' & ts' & S1 & _ & S3 & S4 & _). rewrite Eb in S1. injection S1 as _ <- _. subst net'.
      fold tcm in S4. rewrite S4, Z.eqb_refl, beqb_refl in Ne. discriminate. }
    assert (Tv : sqlite_value t = Some (format_time (millis t))).
    { unfold sqlite_value. destruct (Z.eqb_spec t 0); [lia|]. rewrite millis_same. reflexivity. }
    destruct V as [V1 V2]. unfold store_receipt. destruct (row_of db (ev_net e) tcm) as [x|] eqn:Rx.
    + split.
      * rewrite map_map. erewrite map_ext; [exact V1|]. intros y. destruct (N.eqb (r_id y) (r_id x)); reflexivity.
      * intros net' t' N'. rewrite (row_update db (r_id x) (sqlite_value t) (ev_net e) tcm x V1 Rx eq_refl).
        specialize (V2 net' t' N'). destruct (Z.eqb (ev_net e) net' && beqb tcm t') eqn:Ee.
        -- apply andb_true_iff in Ee as [E1 E2]. apply Z.eqb_eq in E1. apply beqb_eq in E2. subst net' t'.
           exists (millis t). split; [exact T|]. cbn [r_time]. split; [exact Tv|exact Mv].
        -- destruct (row_of db net' t') as [y|]; [|apply (Oth _ _ Ee), V2].
           destruct V2 as (v & A & B & C). exists v. split; [exact A|]. split; [exact B|]. apply (Oth _ _ Ee), C.
    + split.
      * rewrite map_app. cbn [map r_id]. apply (Permutation.Permutation_NoDup (l := next_id db :: map r_id db)); [apply Permutation.Permutation_cons_append|].
        constructor; [|exact V1]. intros A. apply in_map_iff in A as (y & A1 & A2). pose proof (next_id_fresh db y A2). lia.
      * intros net' t' N'. rewrite row_insert. specialize (V2 net' t' N'). destruct (row_of db net' t') as [y|] eqn:Ry.
        -- assert (Ee : Z.eqb (ev_net e) net' && beqb tcm t' = false).
           { destruct (Z.eqb (ev_net e) net' && beqb tcm t') eqn:Ee; [|reflexivity]. apply andb_true_iff in Ee as [E1 E2].
             apply Z.eqb_eq in E1. apply beqb_eq in E2. subst net' t'. congruence. }
           destruct V2 as (v & A & B & C). exists v. split; [exact A|]. split; [exact B|]. apply (Oth _ _ Ee), C.
        -- destruct (Z.eqb (ev_net e) net' && beqb tcm t') eqn:Ee; [|apply (Oth _ _ Ee), V2].
           apply andb_true_iff in Ee as [E1 E2]. apply Z.eqb_eq in E1. apply beqb_eq in E2. subst net' t'.
           exists (millis t). split; [exact T|]. cbn [r_time]. split; [exact Tv|exact Mv].
Qed.

Lemma inv_run cm es : Forall clock_ok es -> minv cm es (mrun cm es).
Proof.
  unfold mrun. induction es as [|e es IH] using rev_ind; intros C.
  - split; [constructor|]. intros net t N. split; [lia|]. split; [left; reflexivity|]. intros e w [].
  - rewrite fold_left_app. cbn [fold_left]. apply Forall_app in C as [C1 C2]. inversion_clear C2. apply inv_step; [apply IH, C1|assumption].
Qed.

Lemma marker_unique cm net t es v w : marker cm net t es v -> marker cm net t es w -> v = w.
Proof.
  intros (A1 & A2 & A3) (B1 & B2 & B3). destruct A2 as [->|(e & E1 & E2)], B2 as [->|(f & F1 & F2)].
  - reflexivity.
  - specialize (A3 f w F1 F2). lia.
  - specialize (B3 e v E1 E2). lia.
  - specialize (A3 f w F1 F2). specialize (B3 e v E1 E2). lia.
Qed.

Lemma reports cm es e c cmd target text : Forall clock_ok (es ++ [e]) ->
  In (Report c cmd target text) (snd (mstep cm (mrun cm es) e)) ->
  casemap (cm (ev_net e)) target <> service_cm ->
  exists v, marker cm (ev_net e) (casemap (cm (ev_net e)) target) (es ++ [e]) v /\ shown v text.
Proof.
  intros C H N. apply Forall_app in C as [C1 C2]. inversion_clear C2 as [|? ? Ck _]. pose proof (inv_run cm es C1) as V.
  assert (Nb : beqb (casemap (cm (ev_net e)) target) service_cm = false).
  { destruct (beqb _ service_cm) eqn:E; [apply beqb_eq in E; contradiction|reflexivity]. }
  destruct (step_effect cm es (mrun cm es) e V Ck) as [E S R|cmd' target' criteria text' ts Eb Ec Pt Ns Eg Est t tcm L E O].
  - specialize (R c cmd target text H). rewrite Nb in R. eexists. split; [|exact R].
    destruct (inv_get cm es _ (ev_net e) _ V N) as (r & _ & M & _). apply marker_keep; [|exact M]. intros w Hw. exact (S _ _ w Hw).
  - rewrite O in H. apply in_flat_map in H as (x & _ & H). apply in_report in H as [-> ->]. fold tcm in Ns, N |- *.
    pose proof (val_nonneg cm es _ (ev_net e) tcm V Ns) as Vp.
    assert (L1 : 1000000 <= t) by (apply (moves_time ts e (val (mrun cm es) (ev_net e) tcm)); [exact Ck|exact Vp|exact L|eapply parse_multiple, Pt]).
    exists (millis t). split; [|rewrite marker_text_millis by exact L1; apply marker_text_shown].
    destruct (inv_get cm es _ (ev_net e) tcm V Ns) as (r & _ & M & R).
    assert (St : sets cm (ev_net e) tcm e (millis t)).
    { eapply (Sets cm (ev_net e) tcm e cmd' target' text' ts); try reflexivity; try assumption. rewrite Eb, Ec. reflexivity. }
    apply (marker_set _ _ _ _ _ (val (mrun cm es) (ev_net e) tcm)).
    + exact St.
    + intros u Hu. exact (sets_once _ _ _ _ _ _ Hu St).
    + assert (Vm : val (mrun cm es) (ev_net e) tcm = millis (val (mrun cm es) (ev_net e) tcm)).
      { symmetry. apply millis_id. destruct r as [[i v]|]; [destruct R as (<- & (_ & R & _) & _); exact R|destruct R as [-> _]; reflexivity]. }
      rewrite Vm. apply millis_mono. lia.
    + pose proof (min_years ts e Ck L1) as T. fold t in T. destruct T as [T _]. lia.
    + exact M.
Qed.

Lemma advances cm es e net t v v' : Forall clock_ok (es ++ [e]) -> t <> service_cm ->
  marker cm net t es v -> marker cm net t (es ++ [e]) v' -> v < v' ->
  exists target text, casemap (cm net) target = t /\ shown v' text /\ ev_net e = net /\
    forall c, In c (ev_conns e) -> incl (report c target text) (snd (mstep cm (mrun cm es) e)).
Proof.
  intros C N M M' L. pose proof C as C0. apply Forall_app in C as [C1 C2]. inversion_clear C2 as [|? ? Ck _]. pose proof (inv_run cm es C1) as V.
  destruct (inv_get cm es _ net t V N) as (r & _ & Mv & _). assert (Ev : v = val (mrun cm es) net t) by (eapply marker_unique; eassumption).
  assert (Se : sets cm net t e v').
  { destruct M' as (A1 & [A2|(x & B1 & B2)] & A3); [destruct M as [M _]; clear - M A2 L; lia|]. apply in_app_iff in B1 as [B1|[<-|[]]]; [|exact B2].
    destruct M as (_ & _ & M). specialize (M x v' B1 B2). clear - M L. lia. }
  destruct (step_effect cm es (mrun cm es) e V Ck) as [E S R|cmd' target' criteria text' ts Eb Ec Pt Ns Eg Est tt tcm Lt E O].
  - specialize (S net t v' Se). lia.
  - assert (Key : ev_net e = net /\ casemap (cm net) target' = t /\ v' = millis tt).
    { apply sets_inv in Se as (c2 & t2 & x2 & s2 & S1 & S2 & S3 & S4 & S5 & S6 & S7 & S8). rewrite Eb in S1. injection S1 as _ <- S1.
      rewrite Ec in S1. injection S1 as <-. rewrite Pt in S2. injection S2 as <-.
      split; [exact S3|]. split; [exact S4|exact S8]. }
    destruct Key as (K1 & K2 & K3). exists target', (marker_text tt). split; [exact K2|]. split.
    + pose proof (val_nonneg cm es _ (ev_net e) tcm V Ns) as Vp.
      rewrite K3, marker_text_millis; [apply marker_text_shown|].
      apply (moves_time ts e (val (mrun cm es) (ev_net e) tcm)); [exact Ck|exact Vp|exact Lt|eapply parse_multiple, Pt].
    + split; [exact K1|]. intros c Hc x Hx. rewrite O. apply in_flat_map. exists c. split; [exact Hc|exact Hx].
Qed.

(** A working query is answered. *)
Lemma answers cm es e cmd target criteria c : Forall clock_ok (es ++ [e]) ->
  ev_body e = MarkRead cmd target criteria -> casemap (cm (ev_net e)) target <> service_cm ->
  criteria = [] \/ (exists text ts, criteria = B "timestamp=" ++ text /\ parse_time text = Some ts) ->
  ev_get e = true -> ev_store e = true -> In c (ev_conns e) -> mc_id c = mc_id (ev_from e) ->
  exists text, incl (report c target text) (snd (mstep cm (mrun cm es) e)).
Proof.
  intros C Eb N Hc Eg Es Ic Id. apply Forall_app in C as [C1 _]. pose proof (inv_run cm es C1) as V.
  unfold mstep. rewrite Eb. unfold mark_read.
  destruct (beqb (casemap (cm (ev_net e)) target) service_cm) eqn:Eq; [apply beqb_eq in Eq; contradiction|].
  destruct (inv_get cm es _ (ev_net e) _ V N) as (r & G & _). rewrite Eg, G.
  destruct (match r with None => (None, 0) | Some (i, t) => (Some i, t) end) as [id old].
  assert (Own : incl (report c target (marker_text old)) (flat_map (fun c => if N.eqb (mc_id c) (mc_id (ev_from e)) then report c target (marker_text old) else []) (ev_conns e))).
  { intros x Hx. apply in_flat_map. exists c. split; [exact Ic|]. rewrite Id, N.eqb_refl. exact Hx. }
  destruct Hc as [->|(text & ts & -> & P)]; [eexists; exact Own|].
  change (match B "timestamp=" ++ text with [] => ?a | _ => ?b end) with b.
  unfold parse_criteria. rewrite cut_timestamp, beqb_refl, P.
  destruct (old <? (if ev_now e <? ts then ev_now e else ts)); [|eexists; exact Own].
  rewrite Es. cbn [snd]. eexists. intros x Hx. apply in_flat_map. exists c. split; [exact Ic|exact Hx].
Qed.
