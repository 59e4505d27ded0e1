From Verif.Base Require Import Bytes.
From Verif.Model Require Import Identd.
From Verif.Spec Require Import Identd.
From Coq Require Import ZArith.

(** ** Numbers *)

Lemma digit_val_iff c d : digit_val c = Some d <-> is_digit c = true /\ d = (Z.of_N (code c) - 48)%Z.
Proof.
  assert (A : forallb (fun c => match digit_val c with
     | Some d => is_digit c && Z.eqb d (Z.of_N (code c) - 48) | None => negb (is_digit c) end) (map ascii_of_nat (seq 0 256)) = true)
    by (vm_compute; reflexivity).
  pose proof (byte_forall _ A c) as H. cbv beta in H. split.
  - intros E. rewrite E in H. apply andb_true_iff in H as [H1 H2]. apply Z.eqb_eq in H2. auto.
  - intros [H1 ->]. destruct (digit_val c) as [d|]; [|rewrite H1 in H; discriminate].
    apply andb_true_iff in H as [_ H2]. apply Z.eqb_eq in H2. congruence.
Qed.

Lemma digits_value_snoc s c : digits_value (s ++ [c]) = (10 * digits_value s + (Z.of_N (code c) - 48))%Z.
Proof. unfold digits_value. rewrite fold_left_app. cbn [fold_left]. lia. Qed.

Lemma decimal_iff v s : decimal v s <-> s <> [] /\ forallb is_digit s = true /\ v = digits_value s.
Proof.
  split.
  - induction 1 as [d c H|v s d c H IH Hc].
    + apply digit_val_iff in H as [H ->]. split; [discriminate|]. split; [cbn; rewrite H; reflexivity|].
      unfold digits_value. cbn [fold_left]. lia.
    + destruct IH as (I1 & I2 & ->). apply digit_val_iff in Hc as [Hc ->]. split; [destruct s; discriminate|].
      split; [rewrite forallb_app, I2; cbn; rewrite Hc; reflexivity|]. rewrite digits_value_snoc. reflexivity.
  - intros (Hne & Hd & ->). induction s as [|c s IH] using rev_ind; [contradiction|].
    rewrite forallb_app in Hd. apply andb_true_iff in Hd as [H1 H2]. cbn in H2. rewrite andb_true_r in H2.
    destruct s as [|x s].
    + apply d_one. apply digit_val_iff. split; [exact H2|]. unfold digits_value. cbn [fold_left app]. lia.
    + rewrite digits_value_snoc. apply d_more; [apply IH; [discriminate|exact H1]|]. apply digit_val_iff. auto.
Qed.

Lemma decimal_nonneg v s : decimal v s -> (0 <= v)%Z.
Proof.
  induction 1 as [d c H|v s d c H IH Hc].
  - apply digit_val_iff in H as [H ->]. unfold is_digit in H. apply andb_true_iff in H as [H _]. apply N.leb_le in H. lia.
  - apply digit_val_iff in Hc as [Hc ->]. unfold is_digit in Hc. apply andb_true_iff in Hc as [Hc _]. apply N.leb_le in Hc. lia.
Qed.

Lemma decimal_head v s : decimal v s -> exists c s', s = c :: s' /\ is_digit c = true.
Proof.
  intros H. apply decimal_iff in H as (H1 & H2 & _). destruct s as [|c s]; [contradiction|].
  exists c, s. cbn in H2. apply andb_true_iff in H2 as [H2 _]. auto.
Qed.

Lemma is_digit_not_sign c : is_digit c = true -> c <> "-"%char /\ c <> "+"%char.
Proof. intros H. split; intros ->; discriminate. Qed.

Lemma atoi_decimal v s : decimal v s -> (v < 2 ^ 63)%Z -> atoi s = Some v /\ atoi (B "+" ++ s) = Some v.
Proof.
  intros H Hv. pose proof (decimal_nonneg v s H) as H0. destruct (decimal_head v s H) as (c & s' & -> & Hc).
  pose proof (proj1 (decimal_iff v (c :: s')) H) as (_ & H2 & H3).
  assert (Hb : ((- 2 ^ 63 <=? v) && (v <? 2 ^ 63))%Z = true)
    by (apply andb_true_iff; split; [apply Z.leb_le|apply Z.ltb_lt]; lia).
  split.
  - unfold atoi. destruct (is_digit_not_sign c Hc) as [N1 N2].
    assert (E : match c :: s' with
                | "-"%char :: t => (true, t)
                | "+"%char :: t => (false, t)
                | _ => (false, c :: s')
                end = (false, c :: s')).
    { clear - N1 N2. destruct c as [[] [] [] [] [] [] [] []]; try reflexivity; exfalso; [apply N2|apply N1]; reflexivity. }
    rewrite E. rewrite H2, <- H3, Hb. reflexivity.
  - unfold atoi. change (B "+" ++ c :: s') with ("+"%char :: c :: s'). cbv iota beta. rewrite H2, <- H3, Hb. reflexivity.
Qed.

Lemma atoi_pos s v : atoi s = Some v -> (0 < v)%Z -> numeral v s /\ (v < 2 ^ 63)%Z.
Proof.
  unfold atoi. intros H Hv.
  assert (K : exists neg ds, match s with
                | "-"%char :: t => (true, t)
                | "+"%char :: t => (false, t)
                | _ => (false, s)
                end = (neg, ds) /\ (neg = false -> s = ds \/ s = B "+" ++ ds)).
  { destruct s as [|c s]; [exists false, []; auto|].
    destruct c as [[] [] [] [] [] [] [] []]; try (exists false; eexists; split; [reflexivity|auto]; fail).
    exists true; eexists; split; [reflexivity|discriminate]. }
  destruct K as (neg & ds & E & Hs). rewrite E in H. destruct ds as [|c ds]; [discriminate|].
  destruct (forallb is_digit (c :: ds)) eqn:Ed; [|discriminate].
  assert (Dz : decimal (digits_value (c :: ds)) (c :: ds)) by (apply decimal_iff; split; [discriminate|auto]).
  pose proof (decimal_nonneg _ _ Dz) as H0. destruct neg.
  - destruct ((_ <=? - digits_value (c :: ds)) && _)%Z; [|discriminate]. injection H as <-. lia.
  - destruct ((_ <=? digits_value (c :: ds)) && (digits_value (c :: ds) <? _))%Z eqn:Eb; [|discriminate]. injection H as <-.
    apply andb_true_iff in Eb as [_ Eb]. apply Z.ltb_lt in Eb. split; [|exact Eb].
    exists (c :: ds). split; [exact Dz|apply Hs; reflexivity].
Qed.

(** ** White space *)

Lemma is_ws_iff c : is_ws c = true <-> In c (map ascii_of_N [9; 10; 11; 12; 13; 32]%N).
Proof. unfold is_ws. apply amem_In. Qed.

Lemma trim_left_white s t : white s -> trim_left (s ++ t) = trim_left t.
Proof.
  induction s as [|c s IH]; intros H; [reflexivity|]. cbn [app trim_left].
  rewrite (proj2 (is_ws_iff c)) by (apply H; left; reflexivity). apply IH. intros x Hx. apply H. right. exact Hx.
Qed.

Lemma trim_left_stop c t : is_ws c = false -> trim_left (c :: t) = c :: t.
Proof. intros H. cbn [trim_left]. rewrite H. reflexivity. Qed.

Lemma trim_left_decomp s : exists w, white w /\ s = w ++ trim_left s.
Proof.
  induction s as [|c s IH]; [exists []; split; [intros c []|reflexivity]|]. cbn [trim_left].
  destruct (is_ws c) eqn:E; [|exists []; split; [intros x []|reflexivity]].
  destruct IH as (w & Hw & Hs). exists (c :: w). split; [|cbn; congruence].
  intros x [<-|Hx]; [apply is_ws_iff; exact E|apply Hw; exact Hx].
Qed.

Lemma white_rev s : white s -> white (rev s).
Proof. intros H c Hc. apply H. apply in_rev. exact Hc. Qed.

Lemma trim_decomp s : exists w1 w2, white w1 /\ white w2 /\ s = w1 ++ trim_space s ++ w2.
Proof.
  destruct (trim_left_decomp s) as (w1 & H1 & E1). destruct (trim_left_decomp (rev (trim_left s))) as (w2 & H2 & E2).
  exists w1, (rev w2). split; [exact H1|]. split; [apply white_rev; exact H2|]. unfold trim_space.
  rewrite <- rev_app_distr, <- E2, rev_involutive. exact E1.
Qed.

Lemma trim_space_exact w1 s w2 : white w1 -> white w2 ->
  (forall c s', s = c :: s' -> is_ws c = false) -> (forall c s', s = s' ++ [c] -> is_ws c = false) -> s <> [] ->
  trim_space (w1 ++ s ++ w2) = s.
Proof.
  intros H1 H2 Hf Hl Hne. unfold trim_space. rewrite trim_left_white by exact H1.
  destruct s as [|c s]; [contradiction|]. cbn [app]. rewrite trim_left_stop by (apply (Hf c s eq_refl)).
  change (c :: s ++ w2) with ((c :: s) ++ w2). rewrite rev_app_distr, trim_left_white by (apply white_rev; exact H2).
  destruct (exists_last (l := c :: s)) as (s' & x & E); [discriminate|]. rewrite E, rev_app_distr. cbn [rev app].
  rewrite trim_left_stop by (apply (Hl x s' E)). cbn [rev]. rewrite rev_involutive. reflexivity.
Qed.

Lemma num_char c : is_digit c = true \/ c = "+"%char -> is_ws c = false /\ c <> ","%char.
Proof.
  intros H. assert (A : forallb (fun c => if is_digit c || aeqb c "+" then negb (is_ws c) && negb (aeqb c ",") else true) (map ascii_of_nat (seq 0 256)) = true)
    by (vm_compute; reflexivity).
  pose proof (byte_forall _ A c) as K. cbv beta in K.
  assert (E : is_digit c || aeqb c "+" = true) by (apply orb_true_iff; destruct H as [H|H]; [left; exact H|right; apply aeqb_eq; exact H]).
  rewrite E in K. apply andb_true_iff in K as [K1 K2]. apply negb_true_iff in K1, K2. split; [exact K1|apply aeqb_neq; exact K2].
Qed.

Lemma numeral_chars v s : numeral v s -> s <> [] /\ forall c, In c s -> is_digit c = true \/ c = "+"%char.
Proof.
  intros (ds & Hd & Hs). apply decimal_iff in Hd as (H1 & H2 & _). rewrite forallb_forall in H2.
  destruct Hs as [->| ->]; split; try assumption; try (destruct ds; discriminate).
  - intros c Hc. left. apply H2. exact Hc.
  - intros c [<-|Hc]; [right; reflexivity|left; apply H2; exact Hc].
Qed.

Lemma trim_numeral v s w1 w2 : white w1 -> white w2 -> numeral v s -> trim_space (w1 ++ s ++ w2) = s.
Proof.
  intros H1 H2 Hn. destruct (numeral_chars v s Hn) as [Hne Hc]. apply trim_space_exact; try assumption.
  - intros c s' ->. apply (num_char c). apply Hc. left. reflexivity.
  - intros c s' ->. apply (num_char c). apply Hc. apply in_or_app. right. left. reflexivity.
Qed.

Lemma atoi_numeral v s : numeral v s -> (v < 2 ^ 63)%Z -> atoi s = Some v.
Proof. intros (ds & Hd & [->| ->]) Hv; apply (atoi_decimal v ds Hd Hv). Qed.

Lemma white_no_comma s : white s -> ~ In ","%char s.
Proof. intros H Hc. apply H in Hc. vm_compute in Hc. intuition discriminate. Qed.

Lemma parse_query_iff l lp rp : parse_ident_query l = Some (lp, rp) <-> is_query l lp rp.
Proof.
  split.
  - unfold parse_ident_query. intros H. pose proof (cut_on_spec "," l) as Hc. destruct (cut_on "," l) as [a [b|]]; [|discriminate].
    destruct (atoi (trim_space a)) as [x|] eqn:Ea; [|discriminate]. destruct (atoi (trim_space b)) as [y|] eqn:Eb; [|discriminate].
    destruct ((x <=? 0) || (y <=? 0))%Z eqn:E; [discriminate|]. injection H as <- <-.
    apply orb_false_iff in E as [E1 E2]. apply Z.leb_gt in E1, E2.
    destruct (atoi_pos _ _ Ea E1) as [Na La]. destruct (atoi_pos _ _ Eb E2) as [Nb Lb].
    destruct (trim_decomp a) as (s1 & s2 & W1 & W2 & Ta). destruct (trim_decomp b) as (s3 & s4 & W3 & W4 & Tb).
    exists s1, s2, s3, s4, (trim_space a), (trim_space b). repeat (split; [assumption|]).
    split; [|lia]. destruct Hc as [-> _]. rewrite <- Ta, <- Tb. reflexivity.
  - intros (s1 & s2 & s3 & s4 & a & b & W1 & W2 & W3 & W4 & Na & Nb & -> & L1 & L2).
    unfold parse_ident_query. change (B "," ++ s3 ++ b ++ s4) with (","%char :: s3 ++ b ++ s4).
    rewrite cut_on_app.
    + rewrite (trim_numeral lp a) by assumption. rewrite (trim_numeral rp b) by assumption.
      rewrite (atoi_numeral lp a), (atoi_numeral rp b) by (try assumption; lia).
      assert (E : ((lp <=? 0) || (rp <=? 0))%Z = false) by (apply orb_false_iff; split; apply Z.leb_gt; lia).
      rewrite E. reflexivity.
    + intros H. rewrite !in_app_iff in H. destruct H as [H|[H|H]].
      * exact (white_no_comma s1 W1 H).
      * destruct (numeral_chars lp a Na) as [_ Hc]. destruct (num_char _ (Hc _ H)) as [_ K]. apply K. reflexivity.
      * exact (white_no_comma s2 W2 H).
Qed.

(** ** Addresses *)

Lemma cut_last_app a b sep : ~ In sep b -> cut_last sep (a ++ sep :: b) = Some (a, b).
Proof.
  intros H. assert (N : cut_last sep b = None).
  { induction b as [|c b IH]; [reflexivity|]. cbn. rewrite IH by (intros K; apply H; right; exact K).
    destruct (aeqb_spec c sep) as [->|]; [exfalso; apply H; left; reflexivity|reflexivity]. }
  induction a as [|c a IH]; cbn.
  - rewrite N, aeqb_refl. reflexivity.
  - rewrite IH. reflexivity.
Qed.

Lemma decimal_no v s c : decimal v s -> is_digit c = false -> ~ In c s.
Proof. intros H Hc Hi. apply decimal_iff in H as (_ & H & _). rewrite forallb_forall in H. rewrite (H c Hi) in Hc. discriminate. Qed.

Lemma split_host_plain host port : ~ In ":"%char host -> is_host host ->
  ~ In ":"%char port -> ~ In "["%char port -> ~ In "]"%char port ->
  split_host_port (host ++ B ":" ++ port) = Some (host, port).
Proof.
  intros H1 [H2 H3] P1 P2 P3. unfold split_host_port. change (B ":" ++ port) with (":"%char :: port).
  rewrite cut_last_app by exact P1.
  assert (E : (if amem ":" host || amem "[" (host ++ ":"%char :: port) || amem "]" (host ++ ":"%char :: port) then None else Some (host, port)) = Some (host, port)).
  { rewrite (proj2 (amem_nIn _ _) H1).
    assert (A1 : amem "[" (host ++ ":"%char :: port) = false).
    { apply amem_nIn. rewrite in_app_iff. intros [K|[K|K]]; [exact (H2 K)|discriminate|exact (P2 K)]. }
    assert (A2 : amem "]" (host ++ ":"%char :: port) = false).
    { apply amem_nIn. rewrite in_app_iff. intros [K|[K|K]]; [exact (H3 K)|discriminate|exact (P3 K)]. }
    rewrite A1, A2. reflexivity. }
  destruct host as [|c host]; [exact E|]. cbn [app] in *.
  destruct c as [[] [] [] [] [] [] [] []]; try exact E.
  exfalso. apply H2. left. reflexivity.
Qed.

Lemma split_host_bracket host port : is_host host ->
  ~ In ":"%char port -> ~ In "["%char port -> ~ In "]"%char port ->
  split_host_port (B "[" ++ host ++ B "]:" ++ port) = Some (host, port).
Proof.
  intros [H2 H3] P1 P2 P3. unfold split_host_port.
  change (B "[" ++ host ++ B "]:" ++ port) with ("["%char :: host ++ "]"%char :: ":"%char :: port).
  assert (El : cut_last ":" ("["%char :: host ++ "]"%char :: ":"%char :: port) = Some ("["%char :: host ++ ["]"%char], port)).
  { replace ("["%char :: host ++ "]"%char :: ":"%char :: port) with (("["%char :: host ++ ["]"%char]) ++ ":"%char :: port)
      by (cbn [app]; rewrite <- app_assoc; reflexivity).
    apply cut_last_app. exact P1. }
  rewrite El. cbv iota beta. rewrite (cut_on_app "]" host) by exact H3. rewrite beqb_refl.
  assert (A1 : amem "[" (host ++ "]"%char :: ":"%char :: port) = false).
  { apply amem_nIn. rewrite in_app_iff. intros [K|[K|[K|K]]]; [exact (H2 K)|discriminate|discriminate|exact (P2 K)]. }
  assert (A2 : amem "]" (":"%char :: port) = false).
  { apply amem_nIn. intros [K|K]; [discriminate|exact (P3 K)]. }
  rewrite A1, A2. reflexivity.
Qed.

Lemma split_addr_of host v port : is_host host -> decimal v port -> (v < 65536)%Z ->
  split_addr (addr_of host port) = Some (host, v).
Proof.
  intros Hh Hd Hv. unfold split_addr, addr_of.
  assert (P1 : ~ In ":"%char port) by (apply (decimal_no v _ _ Hd); reflexivity).
  assert (P2 : ~ In "["%char port) by (apply (decimal_no v _ _ Hd); reflexivity).
  assert (P3 : ~ In "]"%char port) by (apply (decimal_no v _ _ Hd); reflexivity).
  assert (Ea : atoi port = Some v) by (apply (atoi_decimal v port Hd); lia).
  destruct (amem ":" host) eqn:E.
  - rewrite split_host_bracket by assumption. rewrite Ea. reflexivity.
  - apply amem_nIn in E. rewrite split_host_plain by assumption. rewrite Ea. reflexivity.
Qed.

Lemma key_of_conn c : is_conn c -> new_ident_key (remote_addr c) (local_addr c) = Some (IdentKey (c_rhost c) (c_rport c) (c_lport c)).
Proof.
  intros (H1 & H2 & H3 & H4 & H5 & H6). unfold new_ident_key, remote_addr, local_addr.
  rewrite (split_addr_of (c_rhost c) (c_rport c)) by (try assumption; lia).
  rewrite (split_addr_of (c_lhost c) (c_lport c)) by (try assumption; lia). reflexivity.
Qed.

(** ** The table *)

Lemma key_eqb_eq a b : key_eqb a b = true <-> a = b.
Proof.
  unfold key_eqb. rewrite !andb_true_iff, beqb_eq, !Z.eqb_eq. destruct a, b; cbn. split; [intros [[-> ->] ->]; reflexivity|].
  intros H. injection H. auto.
Qed.

Lemma key_eqb_refl k : key_eqb k k = true.
Proof. apply key_eqb_eq. reflexivity. Qed.

Lemma lookup_remove k k' m : lookup k (remove_key k' m) = if key_eqb k k' then [] else lookup k m.
Proof.
  unfold lookup, remove_key. induction m as [|e m IH]; [cbn; destruct (key_eqb k k'); reflexivity|].
  cbn [filter]. destruct (key_eqb k' (fst e)) eqn:E1; cbn [negb].
  - rewrite IH. apply key_eqb_eq in E1. subst k'. destruct (key_eqb k (fst e)) eqn:E2; [reflexivity|].
    cbn [find]. rewrite E2. reflexivity.
  - cbn [find]. destruct (key_eqb k (fst e)) eqn:E2; [|exact IH].
    apply key_eqb_eq in E2. subst k. destruct (key_eqb (fst e) k') eqn:E3; [|reflexivity].
    apply key_eqb_eq in E3. subst k'. rewrite key_eqb_refl in E1. discriminate.
Qed.

Lemma lookup_cons k k' i m : lookup k ((k', i) :: m) = if key_eqb k k' then i else lookup k m.
Proof. unfold lookup. cbn [find fst]. destruct (key_eqb k k'); reflexivity. Qed.

Definition tracks (m : entries) (h : list reg) : Prop :=
  forall host rp lp, exists o, identity host rp lp h o /\
    lookup (IdentKey host rp lp) m = match o with Some i => i | None => [] end.

Lemma concerns_key host rp lp c : key_eqb (IdentKey host rp lp) (IdentKey (c_rhost c) (c_rport c) (c_lport c)) = true <-> concerns host rp lp c.
Proof.
  rewrite key_eqb_eq. unfold concerns. split.
  - intros H. injection H. auto.
  - intros (-> & -> & ->). reflexivity.
Qed.

Lemma tracks_store m h c i : tracks m h -> is_conn c -> tracks (ident_store m (remote_addr c) (local_addr c) i) (Registered c i :: h).
Proof.
  intros H Hc host rp lp. unfold ident_store. rewrite (key_of_conn c Hc), lookup_cons, lookup_remove.
  destruct (key_eqb (IdentKey host rp lp) _) eqn:E.
  - exists (Some i). split; [apply id_hit; apply concerns_key; exact E|reflexivity].
  - destruct (H host rp lp) as (o & Ho & El). exists o. split; [|exact El]. apply id_other_reg; [|exact Ho].
    intros K. apply concerns_key in K. congruence.
Qed.

Lemma tracks_delete m h c : tracks m h -> is_conn c -> tracks (ident_delete m (remote_addr c) (local_addr c)) (Removed c :: h).
Proof.
  intros H Hc host rp lp. unfold ident_delete. rewrite (key_of_conn c Hc), lookup_remove.
  destruct (key_eqb (IdentKey host rp lp) _) eqn:E.
  - exists None. split; [apply id_gone; apply concerns_key; exact E|reflexivity].
  - destruct (H host rp lp) as (o & Ho & El). exists o. split; [|exact El]. apply id_other_rem; [|exact Ho].
    intros K. apply concerns_key in K. congruence.
Qed.

Definition event_ok (e : event) : Prop :=
  match e with EReg c _ => is_conn c | ERem c => is_conn c | EQuery _ => True end.

Lemma run_closed host ops : forall m, ident_run host m false ops = [].
Proof. induction ops as [|[r l i|r l|l] ops IH]; intros m; cbn [ident_run]; auto. Qed.

Lemma run_answers host es : Forall event_ok es -> forall m h, tracks m h ->
  answers host h es (ident_run host m true (map op_of es)).
Proof.
  induction 1 as [|e es He Hes IH]; intros m h Ht; [constructor|].
  destruct e as [c i|c|l]; cbn [map op_of ident_run].
  - apply a_reg. apply IH. apply tracks_store; assumption.
  - apply a_rem. apply IH. apply tracks_delete; assumption.
  - unfold ident_line. destruct (parse_ident_query l) as [[lp rp]|] eqn:Ep.
    + pose proof (proj1 (parse_query_iff l lp rp) Ep) as Hq. destruct (Ht host rp lp) as (o & Ho & El).
      destruct (lookup (IdentKey host rp lp) m) as [|x y] eqn:E.
      * rewrite run_closed. apply (a_nouser host h l lp rp es Hq).
        destruct o as [i|]; [subst i; right; exact Ho|left; exact Ho].
      * destruct o as [i|]; [|discriminate]. subst i. apply (a_user host h l lp rp (x :: y)); [exact Hq|exact Ho|discriminate|].
        apply IH. exact Ht.
    + rewrite run_closed. apply a_invalid. intros lp rp Hq. apply parse_query_iff in Hq. congruence.
Qed.

Lemma tracks_empty : tracks [] [].
Proof. intros host rp lp. exists None. split; [constructor|reflexivity]. Qed.
