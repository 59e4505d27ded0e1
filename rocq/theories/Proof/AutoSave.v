From Verif.Base Require Import Bytes Base64.
From Verif.Model Require Import Message GenMsg Pending Register AutoSave.
From Verif.Spec Require Import AutoSave.
From Coq Require Import ZArith Lia.
Open Scope nat_scope.

(** ** Words *)

Lemma blanks_white : blanks = map utf8 white_space.
Proof. vm_compute. reflexivity. Qed.

Lemma isblank_in b : IsBlank b <-> In b blanks.
Proof.
  rewrite blanks_white, in_map_iff. unfold IsBlank. split; intros (n & H1 & H2); exists n; auto.
Qed.

Lemma find_blank b t : IsBlank b -> find (has_prefix (b ++ t)) blanks = Some b.
Proof.
  intros H. apply isblank_in in H.
  cbv [blanks map seq app b3 plus] in H.
  repeat (destruct H as [<-|H]; [reflexivity|]). destruct H.
Qed.

Definition cont (c : ascii) : bool := (N.leb 128 (code c) && N.ltb (code c) 192)%N.

Definition splits_ok (b : bytes) : bool :=
  nonempty b && match b with c :: r => negb (cont c) && forallb cont r | [] => false end.

Lemma blanks_ok b : IsBlank b -> exists c r, b = c :: r /\ cont c = false /\ forallb cont r = true.
Proof.
  intros H. apply isblank_in in H.
  assert (Ha : forallb splits_ok blanks = true) by (vm_compute; reflexivity).
  rewrite forallb_forall in Ha. specialize (Ha b H). unfold splits_ok in Ha.
  destruct b as [|c r]; [discriminate Ha|]. cbn [nonempty andb] in Ha.
  apply andb_prop in Ha as [H1 H2]. exists c, r. rewrite negb_true_iff in H1. auto.
Qed.

Lemma ufields_skip x t w : ufields (x ++ t) (length x) w = ufields t 0 w.
Proof. induction x as [|c x IH]; [reflexivity|exact IH]. Qed.

Lemma ufields_blank b t w : IsBlank b -> ufields (b ++ t) 0 w = flush w ++ ufields t 0 [].
Proof.
  intros H. pose proof (find_blank b t H) as Hf. destruct (blanks_ok b H) as (c & r & -> & _).
  cbn [app] in *. cbn [ufields]. rewrite Hf. cbn [length]. rewrite Nat.sub_0_r || replace (S (length r) - 1) with (length r) by lia.
  rewrite ?ufields_skip. reflexivity.
Qed.

Lemma ufields_char c s w : find (has_prefix (c :: s)) blanks = None -> ufields (c :: s) 0 w = ufields s 0 (c :: w).
Proof. intros H. cbn [ufields]. rewrite H. reflexivity. Qed.

Definition Clean (w s : bytes) : Prop := forall x b y, IsBlank b -> w ++ s = x ++ b ++ y -> length w <= length x.

Lemma clean_word w s : w <> [] -> Clean w s -> Word w.
Proof.
  intros Hn Hc. split; [exact Hn|]. intros x b y Hb ->.
  assert (H := Hc x b (y ++ s) Hb). rewrite <- !app_assoc in H. specialize (H eq_refl).
  destruct (blanks_ok b Hb) as (c & r & -> & _). rewrite !app_length in H. cbn [length] in H. lia.
Qed.

Lemma gap_cons b g : IsBlank b -> Gap g -> Gap (b ++ g).
Proof. intros Hb (bs & Hf & ->). exists (b :: bs). split; [constructor; assumption|reflexivity]. Qed.

Lemma gap_nil : Gap [].
Proof. exists []. split; [constructor|reflexivity]. Qed.

Lemma words_blank b t ws : IsBlank b -> Words t ws -> Words (b ++ t) ws.
Proof.
  intros Hb H. destruct H as [g Hg|g w Hg Hw|g w t ws Hg Hw Ht He].
  - apply words_none, gap_cons; assumption.
  - rewrite app_assoc. apply words_last; [apply gap_cons|]; assumption.
  - rewrite app_assoc. apply words_more; [apply gap_cons| | |]; assumption.
Qed.

Lemma ufields_sound n : forall s w, length s <= n -> Clean (rev w) s -> Words (rev w ++ s) (ufields s 0 w).
Proof.
  induction n as [|n IH]; intros s w Hl Hc.
  - destruct s as [|c s]; [|cbn in Hl; lia]. cbn [ufields]. rewrite app_nil_r in *. destruct w as [|d w]; cbn [flush].
    + apply words_none, gap_nil.
    + apply (words_last []); [exact gap_nil|]. apply (clean_word _ []); [|exact Hc].
      cbn [rev]. destruct (rev w); discriminate.
  - destruct s as [|c s].
    + apply (IH [] w); [cbn; lia|exact Hc].
    + destruct (find (has_prefix (c :: s)) blanks) as [b|] eqn:Ef.
      * apply find_some in Ef as [Hb Hp]. apply isblank_in in Hb. apply has_prefix_iff in Hp as [t Ht].
        rewrite Ht in *. rewrite ufields_blank by exact Hb.
        assert (Hlt : length t <= n).
        { destruct (blanks_ok b Hb) as (c' & r & -> & _). rewrite app_length in Hl. cbn [length] in Hl. lia. }
        pose proof (IH t [] Hlt) as Hw. cbn [rev app] in Hw.
        assert (Hc0 : Clean [] t) by (intros x ? ? _ _; cbn; lia). specialize (Hw Hc0).
        destruct w as [|d w].
        -- cbn [flush rev app]. apply words_blank; assumption.
        -- cbn [flush]. change (Words ([] ++ rev (d :: w) ++ b ++ t) (rev (d :: w) :: ufields t 0 [])).
           apply words_more; [exact gap_nil| |apply words_blank; assumption|exists b, t; auto].
           apply (clean_word _ (b ++ t)); [|exact Hc]. cbn [rev]. destruct (rev w); discriminate.
      * rewrite ufields_char by exact Ef.
        assert (He : rev w ++ c :: s = rev (c :: w) ++ s) by (cbn [rev]; rewrite <- app_assoc; reflexivity).
        rewrite He. apply IH; [cbn in Hl; lia|].
        intros x b y Hb Hx. rewrite <- He in Hx. pose proof (Hc x b y Hb Hx) as Hle.
        cbn [rev]. rewrite app_length. cbn [length].
        destruct (Nat.eq_dec (length (rev w)) (length x)) as [Heq|]; [|lia]. exfalso.
        assert (Hxw : x = rev w /\ b ++ y = c :: s).
        { clear - Heq Hx. revert Heq Hx. generalize (rev w) as v. induction x as [|a x IH]; intros [|a' v]; cbn; intros; try discriminate; [auto|].
          injection Hx as -> Hx. destruct (IH v ltac:(lia) Hx) as [-> ->]; auto. }
        destruct Hxw as [_ Hb'].
        assert (Hn : has_prefix (c :: s) b = true) by (apply has_prefix_iff; exists y; auto).
        apply isblank_in in Hb. pose proof (find_none _ _ Ef b Hb). congruence.
Qed.

Lemma fields_words text : Words text (ufields text 0 []).
Proof.
  apply (ufields_sound (length text) text []); [lia|]. intros x b y _ _. cbn. lia.
Qed.

Lemma ufields_clean w s acc : Clean w s -> ufields (w ++ s) 0 acc = ufields s 0 (rev w ++ acc).
Proof.
  revert acc; induction w as [|c w IH]; intros acc Hc; [reflexivity|].
  cbn [app]. rewrite ufields_char.
  - rewrite IH; [cbn [rev]; rewrite <- app_assoc; reflexivity|].
    intros x b y Hb Hx. pose proof (Hc (c :: x) b y Hb) as H. cbn [app length] in H. rewrite Hx in H. specialize (H eq_refl). lia.
  - destruct (find (has_prefix (c :: w ++ s)) blanks) as [b|] eqn:Ef; [exfalso|reflexivity].
    apply find_some in Ef as [Hb Hp]. apply isblank_in in Hb. apply has_prefix_iff in Hp as [t Ht].
    pose proof (Hc [] b t Hb Ht) as H. cbn in H. lia.
Qed.

Lemma app_split {A} (a b c d : list A) : a ++ b = c ++ d -> length a <= length c -> exists m, c = a ++ m /\ b = m ++ d.
Proof.
  revert c; induction a as [|x a IH]; intros c H Hl; [exists c; auto|].
  destruct c as [|y c]; [cbn in Hl; lia|]. injection H as -> H. destruct (IH c H ltac:(cbn in Hl; lia)) as (m & -> & ->).
  exists m; auto.
Qed.

Lemma word_clean w t : Word w -> (t = [] \/ exists b t', IsBlank b /\ t = b ++ t') -> Clean w t.
Proof.
  intros [Hn Hw] Ht x b y Hb Hx.
  destruct (Nat.le_gt_cases (length w) (length x)) as [|Hlt]; [assumption|exfalso].
  destruct (app_split x (b ++ y) w t (eq_sym Hx) ltac:(lia)) as (m & Hwm & Hby).
  destruct (Nat.le_gt_cases (length b) (length m)) as [Hbm|Hbm].
  - destruct (app_split b y m t Hby Hbm) as (m' & -> & ->). exact (Hw x b m' Hb Hwm).
  - destruct (app_split m t b y (eq_sym Hby) ltac:(lia)) as (m' & Hb' & Ht').
    destruct (blanks_ok b Hb) as (c & r & Hbr & Hc & Hr).
    destruct m as [|a m]; [rewrite Hwm, app_nil_r in Hlt; lia|].
    destruct m' as [|a' m']; [rewrite Hb', app_nil_r in Hbm; lia|].
    rewrite Hbr in Hb'. injection Hb' as -> Hr'. rewrite Hr', forallb_app in Hr. apply andb_prop in Hr as [_ Hr].
    cbn [forallb] in Hr. apply andb_prop in Hr as [Hr _].
    destruct Ht as [->|(b' & t' & Hbb & ->)]; [discriminate Ht'|].
    destruct (blanks_ok b' Hbb) as (c' & r' & -> & Hc' & _). injection Ht' as -> _. congruence.
Qed.

Lemma ufields_gap g t : Gap g -> ufields (g ++ t) 0 [] = ufields t 0 [].
Proof.
  intros (bs & Hf & ->). induction Hf as [|b bs Hb Hf IH]; [reflexivity|].
  cbn [concat]. rewrite <- app_assoc, ufields_blank by exact Hb. exact IH.
Qed.

Lemma flush_rev w : w <> [] -> flush (rev w) = [w].
Proof.
  intros H. unfold flush. rewrite rev_involutive. destruct (rev w) eqn:E; [|reflexivity].
  apply (f_equal (@rev ascii)) in E. rewrite rev_involutive in E. contradiction.
Qed.

Lemma words_fields text ws : Words text ws -> ufields text 0 [] = ws.
Proof.
  induction 1 as [g Hg|g w Hg Hw|g w t ws Hg Hw Ht IH (b & t' & Hb & ->)].
  - rewrite <- (app_nil_r g), ufields_gap by exact Hg. reflexivity.
  - rewrite ufields_gap by exact Hg. rewrite <- (app_nil_r w) at 1.
    rewrite ufields_clean by (apply word_clean; auto). cbn [ufields]. rewrite app_nil_r. apply flush_rev, Hw.
  - rewrite ufields_gap by exact Hg.
    rewrite ufields_clean by (apply word_clean; [assumption|right; exists b, t'; auto]).
    rewrite app_nil_r, ufields_blank by exact Hb. rewrite flush_rev by apply Hw. cbn [app]. f_equal.
    rewrite ufields_blank in IH by exact Hb. exact IH.
Qed.

(** ** Case *)

Definition capital (c : ascii) : bool := (N.leb 65 (code c) && N.leb (code c) 90)%N.

Lemma capital_upper c : capital (upper_byte c) = true -> c = upper_byte c \/ c = lower_byte (upper_byte c).
Proof.
  assert (H : forall c, implb (capital (upper_byte c)) (aeqb c (upper_byte c) || aeqb c (lower_byte (upper_byte c))) = true)
    by (apply byte_forall; vm_compute; reflexivity).
  intros Hc. specialize (H c). rewrite Hc in H. cbn [implb] in H. apply orb_prop in H as [H|H].
  - left. destruct (aeqb_spec c (upper_byte c)); congruence.
  - right. destruct (aeqb_spec c (lower_byte (upper_byte c))); congruence.
Qed.

Lemma capital_facts c : capital c = true ->
  upper_byte c = c /\ upper_byte (lower_byte c) = c /\ aeqb c (ascii_of_nat 196) = false /\ aeqb c (ascii_of_nat 197) = false
  /\ aeqb (lower_byte c) (ascii_of_nat 196) = false /\ aeqb (lower_byte c) (ascii_of_nat 197) = false.
Proof.
  assert (H : forall c, implb (capital c) (aeqb (upper_byte c) c && aeqb (upper_byte (lower_byte c)) c && negb (aeqb c (ascii_of_nat 196)) &&
    negb (aeqb c (ascii_of_nat 197)) && negb (aeqb (lower_byte c) (ascii_of_nat 196)) && negb (aeqb (lower_byte c) (ascii_of_nat 197))) = true)
    by (apply byte_forall; vm_compute; reflexivity).
  intros Hc. specialize (H c). rewrite Hc in H. cbn [implb] in H.
  repeat (apply andb_prop in H as [H ?]). rewrite !negb_true_iff in *.
  destruct (aeqb_spec (upper_byte c) c); [|discriminate]. destruct (aeqb_spec (upper_byte (lower_byte c)) c); [|discriminate].
  auto 10.
Qed.

Lemma upper_reads_n n : forall w, length w <= n -> forall k, upper w = k -> forallb capital k = true -> Reads w k.
Proof.
  induction n as [|n IH]; intros w Hl k Hk Hc.
  { destruct w; [|cbn in Hl; lia]. cbn in Hk. subst k. constructor. }
  destruct w as [|c t]; [cbn in Hk; subst k; constructor|].
  assert (Hone : forall k', upper t = k' -> k = upper_byte c :: k' -> Reads (c :: t) k).
  { intros k' Hk' ->. cbn [forallb] in Hc. apply andb_prop in Hc as [Hc1 Hc2].
    assert (Hr : Reads t k') by (apply IH; [cbn in Hl; lia|exact Hk'|exact Hc2]).
    destruct (capital_upper c Hc1) as [He|He].
    - rewrite He at 1. apply reads_same, Hr.
    - rewrite He at 1. apply reads_lower, Hr. }
  destruct t as [|d r]; [cbn [upper] in Hk; apply (Hone []); [reflexivity|auto]|].
  cbn [upper] in Hk. fold upper in Hk.
  destruct (aeqb_spec c (ascii_of_nat 196)) as [->|]; destruct (aeqb_spec d (ascii_of_nat 177)) as [->|]; cbn [andb] in Hk.
  - subst k. apply andb_prop in Hc as [_ Hc].
    apply (reads_dotless r (upper r)). apply IH; [cbn in Hl; lia|reflexivity|exact Hc].
  - destruct (aeqb_spec (ascii_of_nat 196) (ascii_of_nat 197)) as [E|]; [discriminate E|]. cbn [andb] in Hk.
    exact (Hone _ eq_refl (eq_sym Hk)).
  - destruct (aeqb_spec c (ascii_of_nat 197)) as [->|].
    + destruct (aeqb_spec (ascii_of_nat 177) (ascii_of_nat 191)) as [E|]; [discriminate E|]. cbn [andb] in Hk. exact (Hone _ eq_refl (eq_sym Hk)).
    + cbn [andb] in Hk. exact (Hone _ eq_refl (eq_sym Hk)).
  - destruct (aeqb_spec c (ascii_of_nat 197)) as [->|]; destruct (aeqb_spec d (ascii_of_nat 191)) as [->|]; cbn [andb] in Hk;
      try exact (Hone _ eq_refl (eq_sym Hk)).
    subst k. apply andb_prop in Hc as [_ Hc].
    apply (reads_long r (upper r)). apply IH; [cbn in Hl; lia|reflexivity|exact Hc].
Qed.

Lemma upper_cons c w : aeqb c (ascii_of_nat 196) = false -> aeqb c (ascii_of_nat 197) = false -> upper (c :: w) = upper_byte c :: upper w.
Proof. intros H1 H2. destruct w as [|d r]; [reflexivity|]. cbn [upper]. rewrite H1, H2. reflexivity. Qed.

Lemma reads_upper w k : Reads w k -> forallb capital k = true -> upper w = k.
Proof.
  induction 1 as [|c w k H IH|c w k H IH|w k H IH|w k H IH]; intros Hc; [reflexivity|..]; cbn [forallb] in Hc; apply andb_prop in Hc as [Hc1 Hc2].
  - destruct (capital_facts c Hc1) as (F1 & F2 & F3 & F4 & F5 & F6). rewrite upper_cons by assumption. rewrite F1, IH by assumption. reflexivity.
  - destruct (capital_facts c Hc1) as (F1 & F2 & F3 & F4 & F5 & F6). rewrite upper_cons by assumption. rewrite F2, IH by assumption. reflexivity.
  - change (utf8 305 ++ w) with (ascii_of_nat 196 :: ascii_of_nat 177 :: w). cbn [upper]. rewrite !aeqb_refl. cbn [andb]. rewrite IH by assumption. reflexivity.
  - change (utf8 383 ++ w) with (ascii_of_nat 197 :: ascii_of_nat 191 :: w). cbn [upper]. rewrite !aeqb_refl.
    change (aeqb (ascii_of_nat 197) (ascii_of_nat 196)) with false. cbn [andb]. rewrite IH by assumption. reflexivity.
Qed.

Lemma upper_iff w k : forallb capital k = true -> beqb (upper w) k = true <-> Reads w k.
Proof.
  intros Hk. rewrite beqb_eq. split; [intros H; exact (upper_reads_n _ w (le_n _) k H Hk)|intros H; exact (reads_upper w k H Hk)].
Qed.

Lemma upper_cases w k : forallb capital k = true -> (beqb (upper w) k = true /\ Reads w k) \/ (beqb (upper w) k = false /\ ~ Reads w k).
Proof.
  intros Hk. pose proof (upper_iff w k Hk) as H. destruct (beqb (upper w) k); [left; tauto|right]. split; [reflexivity|].
  intros Hr. apply H in Hr. discriminate.
Qed.

Lemma reads_det w k k' : Reads w k -> Reads w k' -> forallb capital k = true -> forallb capital k' = true -> k = k'.
Proof. intros H H' Hk Hk'. rewrite <- (reads_upper w k H Hk). exact (reads_upper w k' H' Hk'). Qed.

(** The credentials in a message to NickServ. *)
Lemma parse_spec text nick ws : Words text ws ->
  forall u p, parse_nickserv text nick = Some (u, p) <-> Tells nick ws u p \/ (OtherSetting ws /\ u = [] /\ p = []).
Proof.
  intros Hw u p. unfold parse_nickserv. rewrite (words_fields text ws Hw).
  assert (KR : forallb capital (B "REGISTER") = true) by (vm_compute; reflexivity).
  assert (KI : forallb capital (B "IDENTIFY") = true) by (vm_compute; reflexivity).
  assert (KS : forallb capital (B "SET") = true) by (vm_compute; reflexivity).
  assert (KP : forallb capital (B "PASSWORD") = true) by (vm_compute; reflexivity).
  destruct ws as [|c [|q ps]].
  { split; [discriminate|]. intros [H|(H & _)]; inversion H. }
  { split; [discriminate|]. intros [H|(H & _)]; inversion H. }
  destruct (upper_cases c _ KR) as [[-> HR]|[-> HR]].
  { split.
    - intros H. apply (f_equal (fun o => match o with Some x => x | None => ([], []) end)) in H. cbv beta iota in H.
      apply pair_equal_spec in H as [<- <-]. left. apply tells_register, HR.
    - intros [H|(H & _)].
      + inversion H; subst; try reflexivity;
          match goal with R : Reads c ?k |- _ => tryif constr_eq k (B "REGISTER") then fail else (pose proof (reads_det _ _ _ HR R KR ltac:(assumption)) as E; discriminate E) end.
      + inversion H; subst. match goal with R : Reads c (B "SET") |- _ => pose proof (reads_det _ _ _ HR R KR KS) as E; discriminate E end. }
  destruct (upper_cases c _ KI) as [[-> HI]|[-> HI]].
  { destruct ps as [|p' ps].
    - split.
      + intros H. apply (f_equal (fun o => match o with Some x => x | None => ([], []) end)) in H. cbv beta iota in H.
        apply pair_equal_spec in H as [<- <-]. left. apply tells_identify, HI.
      + intros [H|(H & _)]; inversion H; subst; try contradiction; try reflexivity.
        match goal with R : Reads c (B "SET") |- _ => pose proof (reads_det _ _ _ HI R KI KS) as E; discriminate E end.
    - split.
      + intros H. apply (f_equal (fun o => match o with Some x => x | None => ([], []) end)) in H. cbv beta iota in H.
        apply pair_equal_spec in H as [<- <-]. left. apply tells_identify_account, HI.
      + intros [H|(H & _)]; inversion H; subst; try contradiction; try reflexivity;
          match goal with R : Reads c (B "SET") |- _ => pose proof (reads_det _ _ _ HI R KI KS) as E; discriminate E end. }
  destruct (upper_cases c _ KS) as [[-> HS]|[-> HS]].
  - assert (Hother : ~ (Reads q (B "PASSWORD") /\ length ps = 1) -> Some ([], []) = Some (u, p) <-> Tells nick (c :: q :: ps) u p \/ (OtherSetting (c :: q :: ps) /\ u = [] /\ p = [])).
    { intros Hn. split.
      - intros H. injection H as <- <-. right. split; [apply other_setting; assumption|auto].
      - intros [H|(_ & -> & ->)]; [|reflexivity]. inversion H; subst; try contradiction. exfalso; apply Hn; auto. }
    destruct ps as [|p' [|p'' ps]]; [apply Hother; cbn; intros [_ E]; discriminate E| |apply Hother; cbn; intros [_ E]; discriminate E].
    destruct (upper_cases q _ KP) as [[-> HP]|[-> HP]].
    + split.
      * intros H. apply (f_equal (fun o => match o with Some x => x | None => ([], []) end)) in H. cbv beta iota in H.
        apply pair_equal_spec in H as [<- <-]. left. apply tells_password; assumption.
      * intros [H|(H & _)]; inversion H; subst; try contradiction; try reflexivity. exfalso. cbn in *. tauto.
    + apply Hother. tauto.
  - split; [discriminate|]. intros [H|(H & _)]; inversion H; subst; contradiction.
Qed.

(** ** Runs *)

Definition payload (chunks : list bytes) : bytes := concat (map (fun c => if beqb c (B "+") then [] else c) chunks).

Definition Hist (ps : list bytes) (x : dsasl) : Prop :=
  (exists pre chunks, ps = pre ++ chunks /\ d_pending x = payload chunks)
  /\ (d_mech x = MAnonymous -> exists m, In m ps /\ to_upper m = B "ANONYMOUS")
  /\ (forall z u p, d_plain x = Some (z, u, p) -> exists pre chunks post, ps = pre ++ chunks ++ post /\
        b64_decode B64Std (payload chunks) = Some (z ++ "000"%char :: u ++ "000"%char :: p)).

Definition QueueOk (s : astate) : Prop :=
  a_qs s AUTHENTICATE = []
  \/ exists q u p, a_qs s AUTHENTICATE = [q] /\ a_uc s = Some (u, p) /\
       forall x z u' p', a_sasl s (p_client q) = Some x -> d_plain x = Some (z, u', p') -> u' = u /\ p' = p /\ (z = [] \/ z = u).

Definition RegOk (es : list aev) (s : astate) : Prop :=
  forall q, In q (a_qs s REGISTER) -> exists id cap now, In (ERegister id cap (p_msg q) now) es.

Definition Inv (es : list aev) (s : astate) : Prop :=
  a_panic s = true \/
  ((forall id x, a_sasl s id = Some x -> Hist (auth_params es id) x) /\ QueueOk s /\ RegOk es s).

Lemma auth_params_app es es' id : auth_params (es ++ es') id = auth_params es id ++ auth_params es' id.
Proof. apply flat_map_app. Qed.

Lemma payload_app a b : payload (a ++ b) = payload a ++ payload b.
Proof. unfold payload. rewrite map_app, concat_app. reflexivity. Qed.

Lemma kind_refl k : kind_eqb k k = true.
Proof. destruct k; reflexivity. Qed.

Lemma dequeue_queue (qs : queues (list bytes)) k now k' :
  fst (dequeue qs k now) k' = if kind_eqb k' k then match qs k with [] => [] | _ :: q => match q with [] => [] | r :: t => Pcmd (p_client r) (p_msg r) (Some now) :: t end end else qs k'.
Proof.
  unfold dequeue. destruct (qs k) as [|p q] eqn:E.
  - cbn [fst]. destruct (kind_eqb k' k) eqn:Ek; [|reflexivity].
    assert (k' = k) by (destruct k, k'; cbn in Ek; congruence). congruence.
  - cbn [fst]. unfold send_next, set_q at 1. rewrite kind_refl. destruct q as [|r t].
    + cbn [fst]. unfold set_q. destruct (kind_eqb k' k); reflexivity.
    + cbn [fst]. unfold set_q. destruct (kind_eqb k' k) eqn:Ek; reflexivity.
Qed.

Lemma enqueue_other (qs : queues (list bytes)) k id m now k' : kind_eqb k' k = false -> fst (enqueue qs k id m now) k' = qs k'.
Proof.
  intros H. unfold enqueue.
  match goal with |- context [set_q qs k ?q] => generalize q end. intros q.
  destruct (Nat.eqb (length q) 1); [|cbn [fst]; unfold set_q; rewrite H; reflexivity].
  unfold send_next. unfold set_q at 1. rewrite kind_refl. destruct q; cbn [fst]; unfold set_q; rewrite H; reflexivity.
Qed.

Lemma enqueue_first (qs : queues (list bytes)) k id m now : qs k = [] -> fst (enqueue qs k id m now) k = [Pcmd id m (Some now)].
Proof.
  intros H. unfold enqueue. rewrite H. cbn [app length Nat.eqb]. unfold send_next, set_q at 1. rewrite kind_refl. cbn [fst].
  unfold set_q. rewrite kind_refl. reflexivity.
Qed.

Lemma copy_down_in {M} (q : list (pcmd M)) x : In x (copy_down q) -> In x q.
Proof.
  destruct q as [|a q]; [intros []|]. cbn [copy_down]. rewrite in_app_iff. intros [H|[<-|[]]]; [right; exact H|].
  destruct q as [|b q]; [left; reflexivity|]. right. clear. revert b. induction q as [|c q IH]; intros b; [left; reflexivity|].
  right. exact (IH c).
Qed.

Lemma enqueue_in (qs : queues (list bytes)) k id m now q : In q (fst (enqueue qs k id m now) k) ->
  p_msg q = m \/ exists q', In q' (qs k) /\ p_msg q = p_msg q'.
Proof.
  unfold enqueue. set (q0 := qs k ++ [Pcmd id m None]).
  assert (H0 : forall q, In q q0 -> p_msg q = m \/ exists q', In q' (qs k) /\ p_msg q = p_msg q').
  { intros r. unfold q0. rewrite in_app_iff. intros [H|[<-|[]]]; [right; exists r; auto|left; reflexivity]. }
  assert (H1 : forall q, In q (match q0 with Pcmd _ _ (Some t) :: _ => if Z.ltb stale_after (now - t)%Z then copy_down q0 else q0 | _ => q0 end) ->
    p_msg q = m \/ exists q', In q' (qs k) /\ p_msg q = p_msg q').
  { intros r Hr. apply H0. destruct q0 as [|[c ms [t|]] l] eqn:E; try exact Hr.
    destruct (Z.ltb stale_after (now - t)); [apply copy_down_in; exact Hr|exact Hr]. }
  revert H1. generalize (match q0 with Pcmd _ _ (Some t) :: _ => if Z.ltb stale_after (now - t)%Z then copy_down q0 else q0 | _ => q0 end).
  intros l Hl. cbv zeta. destruct (Nat.eqb (length l) 1).
  - unfold send_next. unfold set_q at 1. rewrite kind_refl. destruct l as [|r t]; cbn [fst]; unfold set_q; rewrite kind_refl.
    + intros [].
    + intros [<-|H]; [cbn [p_msg]; apply (Hl r); left; reflexivity|apply Hl; right; exact H].
  - cbn [fst]. unfold set_q. rewrite kind_refl. apply Hl.
Qed.

Lemma cancel_in (qs : queues (list bytes)) id k q : In q (cancel qs id k) -> In q (qs k).
Proof.
  unfold cancel. destruct (qs k) as [|p l]; [intros []|]. intros [<-|H]; [left; reflexivity|right].
  apply filter_In in H. apply H.
Qed.

Section Runs.
  Variable cm : bytes -> bytes.
  Variable oauth_parse : bytes -> option (bytes * bytes).
  Variable oauth_failure : bytes.
  Notation step := (astep cm oauth_parse oauth_failure).
  Notation run := (arun cm oauth_parse oauth_failure).

  Lemma regok_mono es e s : RegOk es s -> RegOk (es ++ [e]) s.
  Proof. intros H q Hq. destruct (H q Hq) as (id & cap & now & Hin). exists id, cap, now. rewrite in_app_iff. auto. Qed.

  Lemma regok_dequeue es s k now : RegOk es s -> RegOk es (fst (fst (dequeue_cmd s k now))).
  Proof.
    intros H q Hq. unfold dequeue_cmd in Hq. destruct (a_qs s k) as [|p l] eqn:E; [exact (H q Hq)|].
    cbn [fst with_qs a_qs] in Hq. rewrite dequeue_queue in Hq. destruct (kind_eqb REGISTER k) eqn:Ek.
    - assert (k = REGISTER) by (destruct k; cbn in Ek; congruence). subst k. rewrite E in Hq.
      destruct l as [|r t]; [destruct Hq|].
      destruct Hq as [<-|Hq]; [|apply H; rewrite E; right; right; exact Hq].
      destruct (H r) as (id & cap & now' & Hin); [rewrite E; right; left; reflexivity|]. exists id, cap, now'. exact Hin.
    - exact (H q Hq).
  Qed.

  Lemma dequeue_parts s k now : let r := fst (fst (dequeue_cmd s k now)) in
    a_mem r = a_mem s /\ a_db r = a_db s /\ a_uc r = a_uc s /\ a_started r = a_started s /\ a_sasl r = a_sasl s /\ a_live r = a_live s /\ a_panic r = a_panic s.
  Proof. unfold dequeue_cmd. destruct (a_qs s k); cbn; repeat split. Qed.

  Lemma dequeue_auth s k now : QueueOk s ->
    a_qs (fst (fst (dequeue_cmd s k now))) AUTHENTICATE = [] \/ (k <> AUTHENTICATE /\ a_qs (fst (fst (dequeue_cmd s k now))) AUTHENTICATE = a_qs s AUTHENTICATE).
  Proof.
    intros H. unfold dequeue_cmd. destruct (a_qs s k) as [|p l] eqn:E; cbn [fst].
    - destruct k; try (right; split; [discriminate|reflexivity]). left; exact E.
    - cbn [with_qs a_qs]. rewrite dequeue_queue. destruct (kind_eqb AUTHENTICATE k) eqn:Ek.
      + assert (k = AUTHENTICATE) by (destruct k; cbn in Ek; congruence). subst k. left. rewrite E.
        destruct H as [H|(q & u & pw & H & _)]; rewrite E in H; [discriminate H|]. injection H as -> ->. reflexivity.
      + right. split; [intros ->; discriminate Ek|reflexivity].
  Qed.

  Lemma auto_save_parts s u p b : let r := auto_save s u p b in
    a_uc r = a_uc s /\ a_started r = a_started s /\ a_qs r = a_qs s /\ a_sasl r = a_sasl s /\ a_live r = a_live s /\ a_panic r = a_panic s.
  Proof. unfold auto_save. destruct (nonempty _ && _); cbn; repeat split. Qed.

  Lemma auto_save_saved s u p b : let r := auto_save s u p b in
    (r = s \/ (Savable (a_mem s) /\ a_mem r = Saved (B "PLAIN") u p)) /\ (a_db r = a_db s \/ a_db r = a_mem r).
  Proof.
    cbv zeta. unfold auto_save. destruct (nonempty (sv_mech (a_mem s)) && negb (beqb (sv_mech (a_mem s)) (B "PLAIN"))) eqn:E; [auto|].
    split.
    - right. split; [|reflexivity]. unfold Savable. destruct (sv_mech (a_mem s)) as [|c m]; [auto|]. right.
      cbn [nonempty andb] in E. rewrite negb_false_iff in E. apply beqb_eq. exact E.
    - cbn [with_saved a_db a_mem]. destruct b; auto.
  Qed.

  (** handleAuthenticate. *)
  Lemma handle_auth_spec s id ds params ps :
    (forall x, a_sasl s id = Some x -> Hist ps x) ->
    let ps' := ps ++ match params with p :: _ => [p] | [] => [] end in
    let r := handle_authenticate oauth_parse oauth_failure s id ds params in
    (exists o, fst r = with_sasl s id o /\ (forall x, o = Some x -> Hist ps' x) /\
      match snd r with
      | HFailed => o = None
      | HMore => forall x, o = Some x -> (exists y, a_sasl s id = Some y /\ d_plain x = d_plain y) \/ d_plain x = None
      | HDone (CPlain z u p) => exists x, o = Some x /\ d_plain x = Some (z, u, p)
      | HDone CAnonymous => exists m, In m ps' /\ to_upper m = B "ANONYMOUS"
      | HDone (COauth _ _) => True
      end).
  Proof.
    intros Hh ps' r. unfold r, handle_authenticate.
    destruct ds; cbn [negb]; [|exists None; cbn [fst snd]; split; [reflexivity|split; [discriminate|reflexivity]]].
    destruct params as [|p params]; [exists None; cbn [fst snd]; split; [reflexivity|split; [discriminate|reflexivity]]|].
    destruct (beqb p (B "*")); [exists None; cbn [fst snd]; split; [reflexivity|split; [discriminate|reflexivity]]|].
    destruct (a_sasl s id) as [x|] eqn:Es.
    2:{ destruct (find_mech (to_upper p)) as [m|] eqn:Em; [|exists None; cbn [fst snd]; split; [reflexivity|split; [discriminate|reflexivity]]].
        exists (Some (Dsasl m [] false None)). cbn [fst snd]. split; [reflexivity|]. split.
        - intros x Hx. injection Hx as <-. split; [exists ps', []; rewrite app_nil_r; split; reflexivity|]. split; [|discriminate].
          cbn [d_mech]. intros ->. exists p. split; [unfold ps'; apply in_app_iff; right; left; reflexivity|].
          unfold find_mech in Em. destruct (beqb (to_upper p) (B "PLAIN")); [discriminate|]. destruct (beqb (to_upper p) (B "OAUTHBEARER")); [discriminate|].
          destruct (beqb_spec (to_upper p) (B "ANONYMOUS")); [assumption|discriminate].
        - intros x Hx. injection Hx as <-. right. reflexivity. }
    specialize (Hh x eq_refl). destruct Hh as ((pre & chunks & Hps & Hpend) & Hanon & Hplain).
    assert (Hplain' : forall z u q, d_plain x = Some (z, u, q) -> exists pre chunks post, ps' = pre ++ chunks ++ post /\
        b64_decode B64Std (payload chunks) = Some (z ++ "000"%char :: u ++ "000"%char :: q)).
    { intros z u q Hq. destruct (Hplain z u q Hq) as (a & b & c & -> & Hd). exists a, b, (c ++ [p]). split; [|exact Hd].
      unfold ps'. rewrite <- !app_assoc. reflexivity. }
    assert (Hanon' : d_mech x = MAnonymous -> exists m, In m ps' /\ to_upper m = B "ANONYMOUS").
    { intros Ha. destruct (Hanon Ha) as (m & Hin & Hm). exists m. split; [unfold ps'; apply in_app_iff; left; exact Hin|exact Hm]. }
    assert (Hpay : d_pending x ++ (if beqb p (B "+") then [] else p) = payload (chunks ++ [p])).
    { rewrite payload_app, Hpend. unfold payload at 3. cbn [map concat]. rewrite app_nil_r. reflexivity. }
    assert (Hps' : ps' = pre ++ chunks ++ [p]) by (unfold ps'; rewrite Hps, <- app_assoc; reflexivity).
    unfold recv_chunk. cbv zeta. destruct (N.ltb 10240 _); [exists None; cbn [fst snd]; split; [reflexivity|split; [discriminate|reflexivity]]|].
    rewrite Hpay. destruct (Nat.eqb (length _) max_sasl_length).
    { exists (Some (Dsasl (d_mech x) (payload (chunks ++ [p])) (d_done x) (d_plain x))). cbn [fst snd]. split; [reflexivity|]. split.
      - intros y Hy. injection Hy as <-. split; [exists pre, (chunks ++ [p]); split; [exact Hps'|reflexivity]|]. split; assumption.
      - intros y Hy. injection Hy as <-. left. exists x. split; reflexivity. }
    destruct (b64_decode B64Std (payload (chunks ++ [p]))) as [resp|] eqn:Ed;
      [|exists None; cbn [fst snd]; split; [reflexivity|split; [discriminate|reflexivity]]].
    destruct (d_done x); [exists None; cbn [fst snd]; split; [reflexivity|split; [discriminate|reflexivity]]|].
    destruct (sasl_next oauth_parse oauth_failure (d_mech x) resp) as [c|m ch|] eqn:En;
      [| |exists None; cbn [fst snd]; split; [reflexivity|split; [discriminate|reflexivity]]].
    - eexists. cbn [fst snd]. split; [reflexivity|].
      assert (Hnew : forall z u q, c = CPlain z u q -> resp = z ++ "000"%char :: u ++ "000"%char :: q).
      { intros z u q ->. unfold sasl_next in En. destruct (d_mech x) as [|[]|].
        - pose proof (join_split "000" resp) as Hj. destruct (split_on "000" resp) as [|z' [|u' [|q' [|]]]]; try discriminate En.
          injection En as -> -> ->. rewrite <- Hj. reflexivity.
        - discriminate En.
        - destruct (oauth_parse resp) as [[]|]; discriminate En.
        - discriminate En. }
      split.
      + intros y Hy. injection Hy as <-. split; [exists ps', []; rewrite app_nil_r; split; reflexivity|]. split; [exact Hanon'|].
        cbn [d_plain]. intros z u q Hq. destruct c as [z' u' q'| |]; [|apply Hplain'; exact Hq|apply Hplain'; exact Hq].
        injection Hq as -> -> ->. exists pre, (chunks ++ [p]), []. rewrite app_nil_r. split; [exact Hps'|].
        rewrite Ed, (Hnew z u q eq_refl). reflexivity.
      + destruct c as [z u q| |]; [|exact I|].
        * eexists. split; [reflexivity|]. reflexivity.
        * apply Hanon'. unfold sasl_next in En. destruct (d_mech x) as [|[]|]; [|discriminate En| |reflexivity].
          -- destruct (split_on "000" resp) as [|? [|? [|? [|]]]]; discriminate En.
          -- destruct (oauth_parse resp) as [[]|]; discriminate En.
    - exists (Some (Dsasl m [] false (d_plain x))). cbn [fst snd]. split; [reflexivity|]. split.
      + intros y Hy. injection Hy as <-. split; [exists ps', []; rewrite app_nil_r; split; reflexivity|]. split; [|exact Hplain'].
        cbn [d_mech]. intros ->. exfalso. unfold sasl_next in En. destruct (d_mech x) as [|[]|]; [|discriminate En| |discriminate En].
        * destruct (split_on "000" resp) as [|? [|? [|? [|]]]]; discriminate En.
        * destruct (oauth_parse resp) as [[]|]; discriminate En.
      + intros y Hy. injection Hy as <-. left. exists x. split; reflexivity.
  Qed.

  Definition is_auth (e : aev) : bool := match e with EAuth _ _ _ _ _ _ => true | _ => false end.
  Definition auth_of (e : aev) : option (N * bytes) :=
    match e with EAuth i true _ (p :: _) _ _ => Some (i, p) | _ => None end.

  Lemma auth_params_snoc es e id : auth_params (es ++ [e]) id = auth_params es id ++
    match auth_of e with Some (i, p) => if N.eqb i id then [p] else [] | None => [] end.
  Proof.
    rewrite auth_params_app. f_equal. unfold auth_params. cbn [flat_map]. rewrite app_nil_r.
    destruct e as [| | |i [] ds [|p ps] b now| | | | | | | |]; reflexivity.
  Qed.

  Lemma auth_params_none es e id : auth_of e = None -> auth_params (es ++ [e]) id = auth_params es id.
  Proof. intros H. rewrite auth_params_snoc, H, app_nil_r. reflexivity. Qed.

  (** Only the parts that matter for the invariant have changed, to less. *)
  Lemma inv_same es e s s' : auth_of e = None ->
    (forall id x, a_sasl s id = Some x -> Hist (auth_params es id) x) ->
    (forall id x, a_sasl s' id = Some x -> a_sasl s id = Some x) -> QueueOk s' -> RegOk (es ++ [e]) s' -> Inv (es ++ [e]) s'.
  Proof.
    intros He Hh Hs Hq Hr. right. split; [|split; assumption]. intros id x Hx. rewrite auth_params_none by exact He. apply Hh, Hs, Hx.
  Qed.

  Lemma queueok_same s s' : QueueOk s -> a_qs s' AUTHENTICATE = a_qs s AUTHENTICATE -> a_uc s' = a_uc s ->
    (forall id x, a_sasl s' id = Some x -> a_sasl s id = Some x) -> QueueOk s'.
  Proof.
    intros [H|(q & u & p & H1 & H2 & H3)] Hq Hu Hs; [left; congruence|].
    right. exists q, u, p. rewrite Hq, Hu. split; [exact H1|]. split; [exact H2|].
    intros x z u' p' Hx. apply H3. apply Hs. exact Hx.
  Qed.

  Lemma regok_same es s s' : RegOk es s -> a_qs s' REGISTER = a_qs s REGISTER -> RegOk es s'.
  Proof. intros H Hq q Hin. apply H. rewrite <- Hq. exact Hin. Qed.

  Definition Change (es : list aev) (s : astate) (e : aev) (s' : astate) : Prop :=
    (a_mem s' = a_mem s
     \/ (exists v, e = EConfig v /\ a_mem s' = v)
     \/ (AskedAnonymous (es ++ [e]) /\ is_auth e = true /\ a_mem s' = cleared)
     \/ (Savable (a_mem s) /\ exists u p, a_mem s' = Saved (B "PLAIN") u p /\
          (Supplied cm (es ++ [e]) u p \/
           exists id target text nick dbok ws, e = EMessage id (B "PRIVMSG") target text nick dbok /\ cm target = B "nickserv" /\
             Words text ws /\ OtherSetting ws /\ u = [] /\ p = [])))
    /\ (a_db s' = a_db s \/ a_db s' = a_mem s').

  Lemma change_none es s e s' : a_mem s' = a_mem s -> a_db s' = a_db s -> Change es s e s'.
  Proof. intros H H'. split; left; assumption. Qed.

  Lemma step_message es s id cmd target text nick dbok :
    Inv es s -> a_panic s = false -> let e := EMessage id cmd target text nick dbok in let s' := on_message cm s cmd target text nick dbok in
    Inv (es ++ [e]) s' /\ Change es s e s'.
  Proof.
    intros [Hp|(Hh & Hq & Hr)] Hnp e s'; [congruence|].
    assert (Hsame : Inv (es ++ [e]) s /\ Change es s e s).
    { split; [|apply change_none; reflexivity]. apply (inv_same es e s s eq_refl Hh); auto. apply regok_mono, Hr. }
    unfold s', on_message. destruct (beqb cmd (B "PRIVMSG")) eqn:Ec; [|exact Hsame].
    destruct (beqb (cm target) (B "nickserv")) eqn:Et; [|exact Hsame]. cbn [andb].
    apply beqb_eq in Ec, Et.
    destruct (parse_nickserv text nick) as [[u p]|] eqn:Ep; [|exact Hsame].
    apply (parse_spec text nick _ (fields_words text)) in Ep.
    pose proof (auto_save_parts s u p dbok) as (P1 & P2 & P3 & P4 & P5 & P6).
    pose proof (auto_save_saved s u p dbok) as [S1 S2].
    split.
    - apply (inv_same es e s _ eq_refl Hh); [rewrite P4; auto| |].
      + apply (queueok_same s); [exact Hq|rewrite P3; reflexivity|exact P1|rewrite P4; auto].
      + apply (regok_same _ s); [apply regok_mono, Hr|rewrite P3; reflexivity].
    - split; [|exact S2]. destruct S1 as [->|[S1 S1']]; [left; reflexivity|]. right. right. right. split; [exact S1|].
      exists u, p. split; [exact S1'|]. destruct Ep as [Ep|(Ho & -> & ->)].
      + left. apply (supplied_nickserv _ _ _ _ id target text nick dbok (ufields text 0 [])); [|exact Et|apply fields_words|exact Ep].
        apply in_app_iff. right. left. unfold e. rewrite Ec. reflexivity.
      + right. exists id, target, text, nick, dbok, (ufields text 0 []). unfold e. rewrite Ec.
        split; [reflexivity|]. split; [exact Et|]. split; [apply fields_words|]. auto.
  Qed.

  Lemma step_auth es s id us ds params dbok now :
    Inv es s -> a_panic s = false -> let e := EAuth id us ds params dbok now in let s' := on_auth oauth_parse oauth_failure s id us ds params dbok now in
    Inv (es ++ [e]) s' /\ Change es s e s'.
  Proof.
    intros [Hp|(Hh & Hq & Hr)] Hnp e s'; [congruence|].
    unfold s', on_auth. destruct us; cbn [negb].
    2:{ split; [|apply change_none; reflexivity]. apply (inv_same es e s s eq_refl Hh); auto. apply regok_mono, Hr. }
    pose proof (handle_auth_spec s id ds params (auth_params es id) (Hh id)) as (o & Ho & Hio & Hres).
    assert (Hps : auth_params es id ++ match params with p :: _ => [p] | [] => [] end = auth_params (es ++ [e]) id).
    { rewrite auth_params_snoc. unfold e. destruct params as [|p ps]; cbn [auth_of]; [reflexivity|]. rewrite N.eqb_refl. reflexivity. }
    rewrite Hps in Hio, Hres.
    assert (Hother : forall i x, i <> id -> a_sasl s i = Some x -> Hist (auth_params (es ++ [e]) i) x).
    { intros i x Hi Hx. rewrite auth_params_snoc. unfold e. destruct params as [|p ps]; cbn [auth_of]; [rewrite app_nil_r; apply Hh, Hx|].
      destruct (N.eqb_spec id i); [congruence|]. rewrite app_nil_r. apply Hh, Hx. }
    assert (Hhist : forall o', (forall x, o' = Some x -> Hist (auth_params (es ++ [e]) id) x) ->
      forall i x, a_sasl (with_sasl s id o') i = Some x -> Hist (auth_params (es ++ [e]) i) x).
    { intros o' Ho' i x. cbn [with_sasl a_sasl]. destruct (N.eqb_spec i id) as [->|Hi]; [apply Ho'|apply Hother, Hi]. }
    assert (Hr' : RegOk (es ++ [e]) s) by (apply regok_mono, Hr).
    assert (Hq0 : QueueOk (with_sasl s id None)).
    { apply (queueok_same s); [exact Hq|reflexivity|reflexivity|]. intros i x. cbn [with_sasl a_sasl]. destruct (N.eqb i id); [discriminate|auto]. }
    assert (Hend : forall o', Inv (es ++ [e]) (with_sasl (with_sasl s id o') id None)).
    { intros o'. right. split; [|split].
      - intros i x. cbn [with_sasl a_sasl]. destruct (N.eqb_spec i id) as [->|Hi]; [discriminate|apply Hother, Hi].
      - apply (queueok_same s); [exact Hq|reflexivity|reflexivity|]. intros i x. cbn [with_sasl a_sasl]. destruct (N.eqb i id); [discriminate|auto].
      - exact Hr'. }
    destruct (handle_authenticate oauth_parse oauth_failure s id ds params) as [s1 [| |c]]; cbn [fst snd] in Ho, Hres; subst s1.
    - subst o. split; [|apply change_none; reflexivity]. right. split; [apply Hhist; discriminate|]. split; assumption.
    - split; [|apply change_none; reflexivity]. right. split; [apply Hhist, Hio|]. split; [|exact Hr'].
      destruct Hq as [Hq|(q & u & p & H1 & H2 & H3)]; [left; exact Hq|]. right. exists q, u, p. split; [exact H1|]. split; [exact H2|].
      intros x z u' p'. cbn [with_sasl a_sasl]. destruct (N.eqb_spec (p_client q) id) as [Hid|]; [|apply H3].
      intros Hx Hpl. destruct (Hres x Hx) as [(y & Hy & Hxy)|Hn]; [|congruence]. apply (H3 y z u' p'); [rewrite Hid; exact Hy|congruence].
    - cbn [with_sasl a_uc]. destruct (a_uc s) as [uc|] eqn:Eu; [split; [apply Hend|apply change_none; reflexivity]|].
      assert (Hempty : a_qs s AUTHENTICATE = []).
      { destruct Hq as [Hq|(q & u & p & _ & H2 & _)]; [exact Hq|congruence]. }
      destruct c as [z u p| |].
      + destruct Hres as (x & Hox & Hx).
        destruct (nonempty z && negb (beqb z u)) eqn:Ez.
        * split; [|apply change_none; reflexivity]. right. split; [apply Hhist, Hio|]. split; [left; exact Hempty|exact Hr'].
        * split; [|apply change_none; reflexivity]. right. split; [apply (Hhist o), Hio|]. split.
          -- right. exists (Pcmd id [B "PLAIN"] (Some now)), u, p. cbn [with_qs with_uc with_sasl a_qs a_uc a_sasl p_client].
             split; [apply enqueue_first, Hempty|]. split; [reflexivity|]. rewrite N.eqb_refl. intros y z' u' p' Hy Hpl.
             rewrite Hox in Hy. injection Hy as <-. rewrite Hx in Hpl. injection Hpl as <- <- <-. split; [reflexivity|]. split; [reflexivity|].
             destruct z as [|a z]; [left; reflexivity|right]. cbn [nonempty andb] in Ez. rewrite negb_false_iff in Ez. apply beqb_eq, Ez.
          -- intros q. cbn [with_qs with_uc with_sasl a_qs]. rewrite enqueue_other by reflexivity. apply Hr'.
      + split; [apply Hend|apply change_none; reflexivity].
      + destruct (nonempty (sv_mech _) && dbok) eqn:Em.
        * split.
          -- right. split; [|split; [left; reflexivity|intros q []]].
             intros i x. cbn [with_sasl with_saved drop_upstream a_sasl]. destruct (N.eqb_spec i id) as [->|Hi]; [discriminate|].
             destruct (existsb _ _ && _); [discriminate|]. apply Hother, Hi.
          -- split; [|right; reflexivity]. right. right. left. split; [|split].
             ++ destruct Hres as (m & Hm1 & Hm2). exists id, m. auto.
             ++ reflexivity.
             ++ reflexivity.
        * split; [apply Hend|apply change_none; reflexivity].
  Qed.

  Lemma queueok_uc s : a_qs s AUTHENTICATE = [] -> QueueOk s.
  Proof. intros H; left; exact H. Qed.

  Lemma step_reply es s ok params dbok now :
    Inv es s -> a_panic s = false -> let e := EReply ok params dbok now in let s' := on_reply s ok params dbok now in
    Inv (es ++ [e]) s' /\ Change es s e s'.
  Proof.
    intros [Hp|(Hh & Hq & Hr)] Hnp e s'; [congruence|].
    assert (Hr' : RegOk (es ++ [e]) s) by (apply regok_mono, Hr).
    unfold s', on_reply. destruct (length params <? 2).
    { split; [|apply change_none; reflexivity]. apply (inv_same es e s s eq_refl Hh); auto. }
    pose proof (dequeue_parts (with_uc s None false) AUTHENTICATE now) as (P1 & P2 & P3 & P4 & P5 & P6 & P7).
    assert (Hq0 : a_qs (fst (fst (dequeue_cmd (with_uc s None false) AUTHENTICATE now))) AUTHENTICATE = []).
    { unfold dequeue_cmd. cbn [with_uc a_qs]. destruct Hq as [Hq|(q & u & p & Hq & _)]; rewrite Hq; [exact Hq|].
      cbn [fst with_qs a_qs]. rewrite dequeue_queue. cbn [kind_eqb]. rewrite Hq. reflexivity. }
    assert (Hr0 : RegOk (es ++ [e]) (fst (fst (dequeue_cmd (with_uc s None false) AUTHENTICATE now)))).
    { apply regok_dequeue. exact Hr'. }
    assert (Hd : match snd (fst (dequeue_cmd (with_uc s None false) AUTHENTICATE now)) with
                 | None => True
                 | Some id => exists q, a_qs s AUTHENTICATE = [q] /\ p_client q = id
                 end).
    { unfold dequeue_cmd. cbn [with_uc a_qs]. destruct Hq as [Hq|(q & u & p & Hq & _)]; rewrite Hq; cbn [fst snd]; [exact I|].
      destruct (a_live _ _); [exists q; auto|exact I]. }
    destruct (dequeue_cmd (with_uc s None false) AUTHENTICATE now) as [[s1 dc] m]. cbn [fst snd] in *.
    cbn [with_uc a_mem a_db a_uc a_started a_sasl a_live a_panic] in *.
    assert (Hsame : Inv (es ++ [e]) s1 /\ Change es s e s1).
    { split; [|apply change_none; assumption]. apply (inv_same es e s s1 eq_refl Hh); [rewrite P5; auto|left; exact Hq0|exact Hr0]. }
    assert (Hend : forall id, Inv (es ++ [e]) (with_sasl s1 id None)).
    { intros id. apply (inv_same es e s _ eq_refl Hh); [|left; exact Hq0|exact Hr0].
      intros i x. cbn [with_sasl a_sasl]. rewrite P5. destruct (N.eqb i id); [discriminate|auto]. }
    destruct dc as [id|]; [|exact Hsame].
    destruct (a_sasl s1 id) as [x|] eqn:Ex; [|exact Hsame].
    destruct ok; [|split; [apply Hend|apply change_none; assumption]].
    destruct (d_plain x) as [[[z u] p]|] eqn:Epl.
    2:{ split; [left; reflexivity|apply change_none; assumption]. }
    pose proof (auto_save_parts s1 u p dbok) as (A1 & A2 & A3 & A4 & A5 & A6).
    pose proof (auto_save_saved s1 u p dbok) as [S1 S2].
    split.
    - apply (inv_same es e s _ eq_refl Hh).
      + intros i y. cbn [with_sasl a_sasl]. rewrite A4, P5. destruct (N.eqb i id); [discriminate|auto].
      + left. cbn [with_sasl a_qs]. rewrite A3. exact Hq0.
      + apply (regok_same _ s1); [exact Hr0|]. cbn [with_sasl a_qs]. rewrite A3. reflexivity.
    - unfold Change. cbn [with_sasl a_mem a_db]. split; [|rewrite <- P2; exact S2].
      destruct S1 as [->|[S1 S1']]; [left; exact P1|]. right. right. right. rewrite <- P1. split; [exact S1|]. exists u, p. split; [exact S1'|].
      left. destruct Hd as (q & Hqq & Hid). destruct Hq as [Hq|(q' & u' & p' & H1 & H2 & H3)]; [congruence|].
      rewrite Hqq in H1. injection H1 as <-. rewrite Hid in H3. rewrite P5 in Ex. destruct (H3 x z u p Ex Epl) as (Hu & Hp & Hz). subst u' p'.
      destruct (Hh id x Ex) as (_ & _ & Hpl). destruct (Hpl z u p Epl) as (pre & chunks & post & Hps & Hd).
      apply (supplied_sasl _ _ _ _ id pre chunks post z); [rewrite auth_params_none by reflexivity; exact Hps|]. split; [exact Hd|exact Hz].
  Qed.

  Lemma step_registered es s params dbok now :
    Inv es s -> a_panic s = false -> let e := ERegistered params dbok now in let s' := on_registered s params dbok now in
    Inv (es ++ [e]) s' /\ Change es s e s'.
  Proof.
    intros [Hp|(Hh & Hq & Hr)] Hnp e s'; [congruence|].
    assert (Hr' : RegOk (es ++ [e]) s) by (apply regok_mono, Hr).
    pose proof (dequeue_parts s REGISTER now) as (P1 & P2 & P3 & P4 & P5 & P6 & P7).
    assert (Hr0 : RegOk (es ++ [e]) (fst (fst (dequeue_cmd s REGISTER now)))) by (apply regok_dequeue; exact Hr').
    assert (Hq0 : QueueOk (fst (fst (dequeue_cmd s REGISTER now)))).
    { destruct (dequeue_auth s REGISTER now Hq) as [H|[_ H]]; [left; exact H|].
      apply (queueok_same s); [exact Hq|exact H|exact P3|rewrite P5; auto]. }
    assert (Hm : match snd (dequeue_cmd s REGISTER now) with None => True | Some m => exists id cap now, In (ERegister id cap m now) es end).
    { unfold dequeue_cmd. destruct (a_qs s REGISTER) as [|q l] eqn:E; cbn [snd]; [exact I|]. apply Hr. rewrite E. left; reflexivity. }
    unfold s', on_registered. destruct (dequeue_cmd s REGISTER now) as [[s1 dc] m]. cbn [fst snd] in *.
    assert (Hsame : Inv (es ++ [e]) s1 /\ Change es s e s1).
    { split; [|apply change_none; assumption]. apply (inv_same es e s s1 eq_refl Hh); [rewrite P5; auto|exact Hq0|exact Hr0]. }
    destruct dc as [id|]; [|exact Hsame].
    destruct m as [[|a [|b [|password rest]]]|]; try exact Hsame.
    destruct params as [|r [|account more]]; try exact Hsame.
    pose proof (auto_save_parts s1 account password dbok) as (A1 & A2 & A3 & A4 & A5 & A6).
    pose proof (auto_save_saved s1 account password dbok) as [S1 S2].
    split.
    - apply (inv_same es e s _ eq_refl Hh).
      + intros i y. rewrite A4, P5. auto.
      + apply (queueok_same s1); [exact Hq0|rewrite A3; reflexivity|exact A1|rewrite A4; auto].
      + apply (regok_same _ s1); [exact Hr0|]. rewrite A3. reflexivity.
    - unfold Change. split; [|rewrite <- P2; exact S2].
      destruct S1 as [->|[S1 S1']]; [left; exact P1|]. right. right. right. rewrite <- P1. split; [exact S1|]. exists account, password. split; [exact S1'|].
      left. destruct Hm as (i & cap & now' & Hin).
      apply (supplied_register _ _ _ _ i cap a b rest now' r more dbok now); [apply in_app_iff; left; exact Hin|apply in_app_iff; right; left; reflexivity].
  Qed.

  Lemma step_error es s e command reset now : auth_of e = None ->
    Inv es s -> a_panic s = false -> let s' := on_error s command reset now in
    Inv (es ++ [e]) s' /\ Change es s e s'.
  Proof.
    intros He [Hp|(Hh & Hq & Hr)] Hnp s'; [congruence|].
    assert (Hr' : RegOk (es ++ [e]) s) by (apply regok_mono, Hr).
    set (s1 := match queue_of command with Some k => fst (fst (dequeue_cmd s k now)) | None => s end).
    assert (H1 : QueueOk s1 /\ RegOk (es ++ [e]) s1 /\ a_sasl s1 = a_sasl s /\ a_mem s1 = a_mem s /\ a_db s1 = a_db s
                 /\ (beqb command (B "AUTHENTICATE") = true -> a_qs s1 AUTHENTICATE = [])).
    { unfold s1, queue_of. destruct (beqb command (B "AUTHENTICATE")) eqn:Ea.
      - pose proof (dequeue_parts s AUTHENTICATE now) as (P1 & P2 & P3 & P4 & P5 & P6 & P7).
        destruct (dequeue_auth s AUTHENTICATE now Hq) as [H|[H _]]; [|congruence].
        split; [left; exact H|]. split; [apply regok_dequeue, Hr'|]. auto.
      - destruct (beqb command (B "REGISTER")).
        + pose proof (dequeue_parts s REGISTER now) as (P1 & P2 & P3 & P4 & P5 & P6 & P7).
          split; [|split; [apply regok_dequeue, Hr'|split; [exact P5|split; [exact P1|split; [exact P2|discriminate]]]]].
          destruct (dequeue_auth s REGISTER now Hq) as [H|[_ H]]; [left; exact H|].
          apply (queueok_same s); [exact Hq|exact H|exact P3|rewrite P5; auto].
        + split; [exact Hq|]. split; [exact Hr'|]. repeat split. discriminate. }
    destruct H1 as (Q1 & R1 & S1 & M1 & D1 & A1).
    unfold s', on_error. fold s1. destruct (reset && beqb command (B "AUTHENTICATE")) eqn:E.
    - apply andb_prop in E as [_ E]. split; [|apply change_none; assumption].
      apply (inv_same es e s _ He Hh); [cbn [with_uc a_sasl]; rewrite S1; auto|left; exact (A1 E)|exact R1].
    - split; [|apply change_none; assumption].
      apply (inv_same es e s _ He Hh); [rewrite S1; auto|exact Q1|exact R1].
  Qed.

  Lemma step_spec es s e : Inv es s -> Inv (es ++ [e]) (fst (step s e)) /\ Change es s e (fst (step s e)).
  Proof.
    intros Hinv. unfold astep. destruct (a_panic s) eqn:Ep.
    { split; [left; exact Ep|apply change_none; reflexivity]. }
    assert (Hinv' := Hinv). destruct Hinv' as [Hp|(Hh & Hq & Hr)]; [congruence|].
    assert (Hr' : RegOk (es ++ [e]) s) by (apply regok_mono, Hr).
    destruct e as [id|id|id cmd target text nick dbok|id us ds params dbok now|id uc params now|params|ok params dbok now|params dbok now|command now|command now| |v]; cbn [fst].
    - split; [|apply change_none; reflexivity]. eapply (fun He => inv_same _ _ s _ He Hh); [reflexivity| | |exact Hr'].
      + intros i x. cbn [with_sasl with_live a_sasl]. destruct (N.eqb i id); [discriminate|auto].
      + apply (queueok_same s); [exact Hq|reflexivity|reflexivity|]. intros i x. cbn [with_sasl with_live a_sasl]. destruct (N.eqb i id); [discriminate|auto].
    - split; [|apply change_none; reflexivity]. eapply (fun He => inv_same _ _ s _ He Hh); [reflexivity|..].
      + intros i x. cbn [with_sasl with_live with_qs a_sasl]. destruct (N.eqb i id); [discriminate|auto].
      + apply (queueok_same s); [exact Hq| |reflexivity|].
        * cbn [with_sasl with_live with_qs a_qs]. unfold cancel. destruct Hq as [Hq|(q & u & p & Hq & _)]; rewrite Hq; reflexivity.
        * intros i x. cbn [with_sasl with_live with_qs a_sasl]. destruct (N.eqb i id); [discriminate|auto].
      + intros q Hin. cbn [with_sasl with_live with_qs a_qs] in Hin. apply cancel_in in Hin. exact (Hr' q Hin).
    - apply step_message; assumption.
    - apply step_auth; assumption.
    - destruct ((length params <? 3) || negb uc).
      { split; [|apply change_none; reflexivity]. eapply (fun He => inv_same _ _ s _ He Hh); [reflexivity|auto..]. }
      split; [|apply change_none; reflexivity]. eapply (fun He => inv_same _ _ s _ He Hh); [reflexivity|auto| |].
      + apply (queueok_same s); [exact Hq|cbn [with_qs a_qs]; apply enqueue_other; reflexivity|reflexivity|auto].
      + intros q Hin. cbn [with_qs a_qs] in Hin. apply enqueue_in in Hin as [->|(q' & Hin & ->)]; [|exact (Hr' q' Hin)].
        exists id, uc, now. apply in_app_iff. right. left. reflexivity.
    - unfold on_challenge. assert (Hsame : Inv (es ++ [EChallenge params]) s /\ Change es s (EChallenge params) s).
      { split; [|apply change_none; reflexivity]. eapply (fun He => inv_same _ _ s _ He Hh); [reflexivity|auto..]. }
      destruct (a_uc s) as [[u p]|] eqn:Eu; [|exact Hsame]. destruct params as [|c ps]; [exact Hsame|].
      destruct (negb (beqb c (B "+")) && _); [exact Hsame|]. destruct (a_started s); [exact Hsame|].
      cbn [fst]. split; [|apply change_none; reflexivity]. eapply (fun He => inv_same _ _ s _ He Hh); [reflexivity|auto| |exact Hr'].
      apply (queueok_same s); [exact Hq|reflexivity|cbn; congruence|auto].
    - apply step_reply; assumption.
    - apply step_registered; assumption.
    - apply step_error; [reflexivity|assumption|assumption].
    - apply step_error; [reflexivity|assumption|assumption].
    - split; [|apply change_none; reflexivity]. eapply (fun He => inv_same _ _ s _ He Hh); [reflexivity| |left; reflexivity|intros q []].
      intros i x. cbn [drop_upstream a_sasl]. destruct (existsb _ _ && _); [discriminate|auto].
    - split.
      + eapply (fun He => inv_same _ _ s _ He Hh); [reflexivity| |left; reflexivity|intros q []].
        intros i x. cbn [with_saved drop_upstream a_sasl]. destruct (existsb _ _ && _); [discriminate|auto].
      + split; [right; left; exists v; auto|right; reflexivity].
  Qed.

  Lemma run_snoc s es e : fst (run s (es ++ [e])) = fst (step (fst (run s es)) e).
  Proof.
    revert s; induction es as [|e' es IH]; intros s; [reflexivity|]. cbn [app arun fst]. apply IH.
  Qed.

  Lemma run_inv v es : Inv es (fst (run (loaded v) es)).
  Proof.
    induction es as [|e es IH] using rev_ind.
    - right. split; [intros id x H; discriminate H|]. split; [left; reflexivity|intros q []].
    - rewrite run_snoc. apply step_spec, IH.
  Qed.

  Lemma saved_supplied v es e : Change es (fst (run (loaded v) es)) e (fst (run (loaded v) (es ++ [e]))).
  Proof. rewrite run_snoc. apply step_spec, run_inv. Qed.

  (** ** What the server has accepted *)

  Lemma step_uc s e c : undisturbed e = true -> a_uc s = Some c -> a_uc (fst (step s e)) = Some c.
  Proof.
    intros He Hu. unfold astep. destruct (a_panic s); [exact Hu|].
    destruct e as [id|id|id cmd target text nick dbok|id us ds params dbok now|id uc params now|params|ok params dbok now|params dbok now|command now|command now| |v]; try discriminate He; cbn [fst]; try exact Hu.
    - unfold on_message. destruct (_ && _); [|exact Hu]. destruct (parse_nickserv _ _) as [[u p]|]; [|exact Hu].
      destruct (auto_save_parts s u p dbok) as (P & _). rewrite P. exact Hu.
    - unfold on_auth. destruct us; cbn [negb]; [|exact Hu].
      assert (Hs : a_uc (fst (handle_authenticate oauth_parse oauth_failure s id ds params)) = a_uc s).
      { unfold handle_authenticate. destruct ds; cbn [negb]; [|reflexivity]. destruct params as [|p ps]; [reflexivity|].
        destruct (beqb p _); [reflexivity|]. destruct (a_sasl s id) as [x|].
        - destruct (recv_chunk _ _) as [[pe [resp|]]|]; try reflexivity. destruct (d_done x); [reflexivity|].
          destruct (sasl_next _ _ _ _); reflexivity.
        - destruct (find_mech _); reflexivity. }
      destruct (handle_authenticate oauth_parse oauth_failure s id ds params) as [s1 [| |k]]; cbn [fst] in Hs; try congruence.
      rewrite Hs, Hu. cbn [with_sasl a_uc]. congruence.
    - destruct (_ || _); exact Hu.
    - unfold on_challenge. destruct (a_uc s) as [[u p]|] eqn:Eu; [|discriminate Hu]. destruct params as [|c' ps]; [cbn [fst]; congruence|].
      destruct (_ && _); [cbn [fst]; congruence|]. destruct (a_started s); [cbn [fst]; congruence|]. cbn. exact Hu.
    - unfold on_registered. destruct (dequeue_parts s REGISTER now) as (_ & _ & P & _).
      destruct (dequeue_cmd s REGISTER now) as [[s1 dc] m]. cbn [fst] in P.
      assert (Hs1 : a_uc s1 = Some c) by congruence.
      destruct dc; [|exact Hs1]. destruct m as [[|a [|b [|pw rest]]]|]; try exact Hs1. destruct params as [|r [|acc more]]; try exact Hs1.
      destruct (auto_save_parts s1 acc pw dbok) as (P' & _). congruence.
    - unfold on_error. cbn [andb]. destruct (queue_of command) as [k|]; [|exact Hu].
      destruct (dequeue_parts s k now) as (_ & _ & P & _). congruence.
  Qed.

  Lemma run_uc es s c : forallb undisturbed es = true -> a_uc s = Some c -> a_uc (fst (run s es)) = Some c.
  Proof.
    revert s; induction es as [|e es IH]; intros s He Hu; [exact Hu|]. cbn [forallb] in He. apply andb_prop in He as [H1 H2].
    cbn [arun fst]. apply IH; [exact H2|]. apply step_uc; assumption.
  Qed.

  Lemma run_app s a b : fst (run s (a ++ b)) = fst (run (fst (run s a)) b).
  Proof. revert s; induction a as [|e a IH]; intros s; [reflexivity|]. cbn [app arun fst]. apply IH. Qed.

  (** The response that the bouncer gives the server determines the credentials that are saved when the
      server accepts it. *)
  Lemma accepted_saved v es1 params ms es2 rparams dbok now :
    let s1 := fst (run (loaded v) es1) in
    snd (step s1 (EChallenge params)) = [ASend ms] ->
    forallb undisturbed es2 = true ->
    let s2 := fst (run (loaded v) (es1 ++ EChallenge params :: es2)) in
    let s3 := fst (step s2 (EReply true rparams dbok now)) in
    a_mem s3 = a_mem s2 \/
    exists u p, a_mem s3 = Saved (B "PLAIN") u p /\ ms = generate_sasl ("000"%char :: u ++ "000"%char :: p).
  Proof.
    intros s1 Hout Hun s2 s3.
    assert (Hc : exists u p, a_uc (fst (step s1 (EChallenge params))) = Some (u, p) /\ ms = generate_sasl ("000"%char :: u ++ "000"%char :: p)).
    { unfold astep in *. destruct (a_panic s1); [discriminate Hout|]. unfold on_challenge in *. destruct (a_uc s1) as [[u p]|] eqn:Eu; [|discriminate Hout].
      destruct params as [|c ps]; [discriminate Hout|]. destruct (_ && _); [discriminate Hout|]. destruct (a_started s1); [discriminate Hout|].
      cbn [snd] in Hout. injection Hout as <-. exists u, p. split; reflexivity. }
    destruct Hc as (u & p & Hc & Hms).
    assert (H2 : a_uc s2 = Some (u, p)).
    { unfold s2. replace (es1 ++ EChallenge params :: es2) with ((es1 ++ [EChallenge params]) ++ es2) by (rewrite <- app_assoc; reflexivity).
      rewrite run_app. apply run_uc; [exact Hun|]. rewrite run_snoc. exact Hc. }
    assert (Hinv : Inv (es1 ++ EChallenge params :: es2) s2) by apply run_inv.
    unfold s3, astep. destruct (a_panic s2) eqn:Ep; [left; reflexivity|].
    destruct Hinv as [Hp|(Hh & Hq & Hr)]; [congruence|]. cbn [fst].
    unfold on_reply. destruct (length rparams <? 2); [left; reflexivity|].
    pose proof (dequeue_parts (with_uc s2 None false) AUTHENTICATE now) as (P1 & P2 & P3 & P4 & P5 & P6 & P7).
    assert (Hd : match snd (fst (dequeue_cmd (with_uc s2 None false) AUTHENTICATE now)) with
                 | None => True
                 | Some id => exists q, a_qs s2 AUTHENTICATE = [q] /\ p_client q = id
                 end).
    { unfold dequeue_cmd. cbn [with_uc a_qs]. destruct Hq as [Hq|(q & u' & p' & Hq & _)]; rewrite Hq; cbn [fst snd]; [exact I|].
      destruct (a_live _ _); [exists q; auto|exact I]. }
    destruct (dequeue_cmd (with_uc s2 None false) AUTHENTICATE now) as [[sd dc] m]. cbn [fst snd with_uc a_mem a_sasl] in *.
    destruct dc as [id|]; [|left; exact P1]. destruct (a_sasl sd id) as [x|] eqn:Ex; [|left; exact P1].
    destruct (d_plain x) as [[[z u'] p']|] eqn:Epl; [|left; exact P1].
    destruct Hd as (q & Hqq & Hid). destruct Hq as [Hq|(q' & u2 & p2 & H1 & H3 & H4)]; [congruence|].
    rewrite Hqq in H1. injection H1 as <-. rewrite Hid in H4. rewrite P5 in Ex. destruct (H4 x z u' p' Ex Epl) as (-> & -> & _).
    rewrite H2 in H3. injection H3 as <- <-.
    cbn [with_sasl a_mem]. destruct (auto_save_saved sd u p dbok) as [[->|[_ S]] _]; [left; exact P1|].
    right. exists u, p. split; [exact S|exact Hms].
  Qed.

  (** The database has what is in memory, unless it fails. *)
  Definition agree (s : astate) : Prop := a_mem s = a_db s.
  Lemma agree_dequeue : forall s k now, agree s -> agree (fst (fst (dequeue_cmd s k now))).
  Proof. intros s k now H; unfold dequeue_cmd. destruct (a_qs s k); exact H. Qed.
  Lemma agree_save : forall s u p, agree s -> agree (auto_save s u p true).
  Proof. intros s u p H; unfold auto_save. destruct (_ && _); [exact H|reflexivity]. Qed.
  Lemma agree_handle : forall s id ds params, agree s -> agree (fst (handle_authenticate oauth_parse oauth_failure s id ds params)).
  Proof.
    intros s id ds params H; unfold handle_authenticate. destruct (negb ds); [exact H|].
    destruct params as [|p params]; [exact H|]. destruct (beqb p (B "*")); [exact H|].
    destruct (a_sasl s id) as [x|]; [|destruct (find_mech _); exact H].
    destruct (recv_chunk _ _) as [[pd [r|]]|]; [|exact H|exact H].
    destruct (d_done x); [exact H|]. destruct (sasl_next _ _ _ _); exact H.
  Qed.
  Lemma agree_step : forall s e, db_works e = true -> agree s -> agree (fst (astep cm oauth_parse oauth_failure s e)).
  Proof.
    intros s e He H. unfold astep. destruct (a_panic s); [exact H|].
    destruct e as [id|id|id cmd target text nick dbok|id us ds params dbok now|id uc params now|params|success params dbok now|params dbok now|command now|command now| |v];
      cbn [db_works] in He; subst; cbn [fst]; try exact H.
    - unfold on_message. destruct (_ && _); [|exact H]. destruct (parse_nickserv text nick) as [[u p]|]; [|exact H]. apply agree_save; exact H.
    - unfold on_auth. destruct (negb us); [exact H|]. pose proof (agree_handle s id ds params H) as Ha.
      destruct (handle_authenticate oauth_parse oauth_failure s id ds params) as [s1 [| |c]]; cbn [fst] in Ha; try exact Ha.
      destruct (a_uc s1); [exact Ha|]. destruct c as [z u p| |].
      + destruct (_ && _); exact Ha.
      + exact Ha.
      + destruct (_ && _); [reflexivity|exact Ha].
    - destruct (_ || _); exact H.
    - unfold on_challenge. destruct (a_uc s) as [[u p]|]; [|exact H]. destruct params; [exact H|].
      destruct (_ && _); [exact H|]. destruct (a_started s); exact H.
    - unfold on_reply. destruct (length params <? 2); [exact H|].
      pose proof (agree_dequeue (with_uc s None false) AUTHENTICATE now H) as Ha.
      destruct (dequeue_cmd (with_uc s None false) AUTHENTICATE now) as [[s1 dc] m]; cbn [fst] in Ha.
      destruct dc as [id|]; [|exact Ha]. destruct (a_sasl s1 id) as [x|]; [|exact Ha].
      destruct success; [|exact Ha]. destruct (d_plain x) as [[[z u] p]|]; [|exact Ha].
      exact (agree_save s1 u p Ha).
    - unfold on_registered. pose proof (agree_dequeue s REGISTER now H) as Ha.
      destruct (dequeue_cmd s REGISTER now) as [[s1 dc] m]; cbn [fst] in Ha.
      destruct dc; [|exact Ha]. destruct m as [[|m1 [|m2 [|m3 m]]]|]; try exact Ha.
      destruct params as [|p1 [|p2 params]]; try exact Ha. apply agree_save; exact Ha.
    - unfold on_error. assert (Hq : agree (match queue_of command with Some k => fst (fst (dequeue_cmd s k now)) | None => s end)).
      { destruct (queue_of command); [apply agree_dequeue|]; exact H. }
      destruct (_ && _); exact Hq.
    - unfold on_error. assert (Hq : agree (match queue_of command with Some k => fst (fst (dequeue_cmd s k now)) | None => s end)).
      { destruct (queue_of command); [apply agree_dequeue|]; exact H. }
      destruct (_ && _); exact Hq.
    - reflexivity.
  Qed.
  Lemma agree_run : forall es s, forallb db_works es = true -> agree s -> agree (fst (arun cm oauth_parse oauth_failure s es)).
  Proof.
    induction es as [|e es IH]; intros s He H; [exact H|]. cbn in He; apply andb_true_iff in He as [He1 He2].
    cbn. apply IH; [exact He2|apply agree_step; assumption].
  Qed.
End Runs.
