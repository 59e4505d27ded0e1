(** Proofs about RPL_ISUPPORT. *)
From Verif.Base Require Import Bytes.
From Verif.Model Require Import Message CaseMap Membership Modes GenMsg Isupport.
From Verif.Spec Require Import GenMsg Isupport.
From Verif.Proof Require GenMsg.
From Coq Require Import Permutation.

(** ** Maps *)

Lemma im_get_del m k k' : im_get (im_del m k) k' = if beqb k k' then None else im_get m k'.
Proof.
  induction m as [|[x v] m IH]; cbn [im_del im_get]; [destruct (beqb k k'); reflexivity|].
  destruct (beqb_spec k x) as [->|Hn].
  - rewrite IH, (beqb_sym k' x). destruct (beqb x k'); reflexivity.
  - cbn [im_get]. rewrite IH. destruct (beqb_spec k' x) as [->|Hn']; [|reflexivity]. rewrite (proj2 (beqb_neq k x) Hn). reflexivity.
Qed.

Lemma im_get_set m k v k' : im_get (im_set m k v) k' = if beqb k k' then Some v else im_get m k'.
Proof. unfold im_set. cbn [im_get]. rewrite (beqb_sym k' k). destruct (beqb k k') eqn:E; [reflexivity|]. rewrite im_get_del, E. reflexivity. Qed.

Lemma learned_app a b k x : learned (a ++ b) k x = learned b k (learned a k x).
Proof. revert x. induction a as [|t a IH]; intros x; [reflexivity|]. cbn [learned app]. apply IH. Qed.

(** ** Tokens *)

Lemma split_sets t : sets t -> exists name value, read_token t = Plain name value /\ split_token t = (name, false, value, t).
Proof.
  unfold sets, read_token, split_token. destruct t as [|c rest]; intros H; [exists [], None; split; reflexivity|].
  destruct (aeqb c "-"); [destruct (H _ eq_refl)|]. destruct (cut_on "=" (c :: rest)) as [name [v|]]; eexists; eexists; split; reflexivity.
Qed.

Lemma split_negated c rest : aeqb c "-" = true -> split_token (c :: rest) = (to_upper (c :: rest), true, None, rest).
Proof. intros H. unfold split_token. rewrite H. reflexivity. Qed.

Lemma passthrough_plain : forallb (fun k => beqb (to_upper k) k && negb (amem "=" k) && match k with c :: _ => negb (aeqb c "-") | [] => false end) passthrough = true.
Proof. vm_compute. reflexivity. Qed.

Lemma passthrough_ok k : In k passthrough -> to_upper k = k /\ ~ In "="%char k /\ exists c k', k = c :: k' /\ aeqb c "-" = false.
Proof.
  intros H. pose proof passthrough_plain as P. rewrite forallb_forall in P. specialize (P k H).
  apply andb_prop in P. destruct P as [P P3]. apply andb_prop in P. destruct P as [P1 P2]. apply beqb_eq in P1. apply negb_true_iff in P2.
  split; [exact P1|]. split; [intros K; apply amem_In in K; congruence|]. destruct k as [|c k']; [discriminate|].
  exists c, k'. split; [reflexivity|]. apply negb_true_iff. exact P3.
Qed.

(** A negated token changes nothing. *)
Lemma bmem_upper_neg c rest : aeqb c "-" = true -> forall k, In k passthrough \/ k = B "SOJU.IM/SAFERATE" -> beqb (to_upper (c :: rest)) k = false.
Proof.
  intros H k Hk. apply beqb_neq. intros E. destruct (aeqb_spec c "-"%char) as [->|]; [|discriminate].
  destruct Hk as [Hk| ->].
  - destruct (passthrough_ok k Hk) as (_ & _ & x & k' & -> & Hx). cbn [to_upper map] in E. injection E as E _.
    change (upper_byte "-"%char) with "-"%char in E. rewrite <- E in Hx. discriminate.
  - discriminate.
Qed.

Lemma on_token_negated t rest s : t = ("-"%char :: rest) -> exists s', on_token t s = Some (s', []) /\
  s' = with_isupport (im_del (u_isupport s) (to_upper t)) s.
Proof.
  intros ->. assert (N : forall k, In k passthrough \/ k = B "SOJU.IM/SAFERATE" -> beqb (to_upper ("-"%char :: rest)) k = false)
    by (apply bmem_upper_neg; reflexivity).
  unfold on_token. rewrite split_negated by reflexivity. cbn [negb].
  assert (P : bmem (to_upper ("-"%char :: rest)) passthrough = false).
  { apply bmem_nIn. intros K. specialize (N _ (or_introl K)). rewrite beqb_refl in N. discriminate. }
  rewrite P. unfold apply_param.
  rewrite (N (B "CASEMAPPING")), (N (B "CHANMODES")), (N (B "CHANTYPES")), (N (B "STATUSMSG")), (N (B "PREFIX")), (N (B "SOJU.IM/SAFERATE"));
    try (left; apply bmem_In; vm_compute; reflexivity); [|right; reflexivity].
  eexists. split; reflexivity.
Qed.

(** ** What the parameters mean *)

Lemma al_get_set {V} (m : list (ascii * V)) k v k' : al_get (al_set m k v) k' = if aeqb k' k then Some v else al_get m k'.
Proof.
  induction m as [|[x w] m IH]; cbn [al_set al_get]; [reflexivity|].
  destruct (aeqb_spec k x) as [->|Hn]; cbn [al_get].
  - destruct (aeqb k' x); reflexivity.
  - rewrite IH. destruct (aeqb_spec k' x) as [->|Hn']; [|reflexivity]. destruct (aeqb_spec x k) as [E|]; [congruence|reflexivity].
Qed.

Lemma add_modes_get t l : forall m c, al_get (add_modes t l m) c = if amem c l then Some t else al_get m c.
Proof.
  unfold add_modes. induction l as [|x l IH]; intros m c; cbn [fold_left]; [reflexivity|]. rewrite IH, al_get_set.
  unfold amem. cbn [existsb]. destruct (aeqb c x), (existsb (aeqb c) l); reflexivity.
Qed.

Lemma chan_modes_mean v table : handle_chan_modes v = Some table -> chanmodes_mean v table.
Proof.
  unfold handle_chan_modes. intros H. pose proof (join_split ","%char v) as J.
  pose proof (Proof.GenMsg.split_on_nosep_all ","%char v) as NS. rewrite Forall_forall in NS.
  destruct (split_on "," v) as [|a [|b [|c [|d rest]]]]; try discriminate. injection H as <-.
  exists a, b, c, d. split; [|split].
  - destruct rest as [|e rest]; cbn [join] in J; [left|right; exists (join [","%char] (e :: rest))].
    + symmetry. exact J.
    + rewrite <- J. reflexivity.
  - intros x Hx. apply NS. destruct Hx as [<-|[<-|[<-|[<-|[]]]]]; cbn [In]; auto.
  - intros m. rewrite !add_modes_get. reflexivity.
Qed.

Lemma index_byte_some c s n : index_byte c s = Some n -> exists a b, s = a ++ c :: b /\ length a = n /\ ~ In c a.
Proof.
  revert n. induction s as [|x s IH]; intros n; cbn [index_byte]; [discriminate|].
  destruct (aeqb_spec x c) as [->|Hn].
  - intros H. injection H as <-. exists [], s. split; [reflexivity|]. split; [reflexivity|intros []].
  - destruct (index_byte c s) as [k|]; [|discriminate]. cbn [option_map]. intros H. injection H as <-.
    destruct (IH k eq_refl) as (a & b & -> & L & N). exists (x :: a), b. split; [reflexivity|]. split; [cbn [length]; congruence|].
    intros [E|E]; [congruence|exact (N E)].
Qed.

Lemma map_nth_seq (l : bytes) d : map (fun i => nth i l d) (seq 0 (length l)) = l.
Proof.
  induction l as [|x l IH]; [reflexivity|]. cbn [length seq map nth]. f_equal. rewrite <- seq_shift, map_map. exact IH.
Qed.

Lemma memberships_mean v l : handle_memberships v = Some l -> prefix_mean v l.
Proof.
  unfold handle_memberships, prefix_mean. destruct v as [|c v']; [intros H; injection H as <-; left; split; reflexivity|].
  destruct (aeqb_spec c "("%char) as [->|]; [|discriminate]. cbn [negb]. cbn [index_byte].
  destruct (aeqb "("%char ")"%char) eqn:P; [discriminate P|].
  destruct (index_byte ")" v') as [n|] eqn:E; [|discriminate]. cbn [option_map].
  destruct (Nat.eqb_spec (length ("("%char :: v')) (S n * 2)) as [L|]; [|discriminate]. cbn [negb]. match goal with |- Some ?x = Some l -> _ => intros H0; assert (H : x = l) by congruence; clear H0 end.
  apply index_byte_some in E. destruct E as (a & b & -> & La & Na).
  assert (Lb : length b = length a) by (cbn [length] in L; rewrite app_length in L; cbn [length] in L; lia).
  assert (Len : length ("("%char :: a ++ ")"%char :: b) / 2 - 1 = length a).
  { rewrite L. rewrite Nat.div_mul by lia. lia. }
  assert (M1 : map mb_mode l = a).
  { rewrite <- H; rewrite Len, map_map. cbn [mb_mode]. rewrite <- (map_nth_seq a "000"%char) at 2. apply map_ext_in. intros i Hi. apply in_seq in Hi.
    rewrite Nat.add_1_r. cbn [nth]. rewrite app_nth1 by lia. reflexivity. }
  assert (M2 : map mb_prefix l = b).
  { rewrite <- H; rewrite Len, map_map. cbn [mb_prefix]. rewrite <- Lb. rewrite <- (map_nth_seq b "000"%char) at 2. apply map_ext_in. intros i Hi. apply in_seq in Hi.
    rewrite <- La. replace (S (length a) + i + 1) with (S (length a + S i)) by lia. cbn [nth]. rewrite app_nth2 by lia.
    replace (length a + S i - length a) with (S i) by lia. reflexivity. }
  right. rewrite M1, M2. split; [reflexivity|exact Na].
Qed.

(** ** Settings *)

Definition cm_of (v : option (option bytes)) : casemapping :=
  match v with Some (Some v) => match parse_case_mapping v with Some cm => cm | None => CmRFC1459 end | _ => CmRFC1459 end.

Lemma cm_of_mean v : casemapping_mean v (cm_of v).
Proof.
  destruct v as [[v|]|]; cbn [cm_of casemapping_mean]; try reflexivity. unfold parse_case_mapping.
  destruct (beqb_spec v (B "ascii")) as [->|]; [reflexivity|].
  destruct (beqb_spec v (B "rfc1459")) as [->|]; [reflexivity|].
  destruct (beqb v (B "rfc1459-strict")); reflexivity.
Qed.

(** The state agrees with what was learned. *)
Record agrees (s : ust) (f : bytes -> option (option bytes)) : Prop := {
  ag_map : forall k, im_get (u_isupport s) k = f k;
  ag_cm : u_motd s = true \/ f (B "CASEMAPPING") <> None -> u_cm s = cm_of (f (B "CASEMAPPING"));
  ag_modes : match f (B "CHANMODES") with None => u_modes s = std_channel_modes | Some v => handle_chan_modes (value_of v) = Some (u_modes s) end;
  ag_types : u_types s = match f (B "CHANTYPES") with None => std_channel_types | Some v => value_of v end;
  ag_status : u_status s = match f (B "STATUSMSG") with None => [] | Some v => value_of v end;
  ag_members : match f (B "PREFIX") with None => u_members s = std_memberships | Some v => handle_memberships (value_of v) = Some (u_members s) end;
  ag_rate : u_rate s = match f (B "SOJU.IM/SAFERATE") with None => true | Some _ => false end }.

Definition upd (f : bytes -> option (option bytes)) (name : bytes) (value : option bytes) (k : bytes) : option (option bytes) :=
  if beqb name k then Some value else f k.

Lemma on_token_sets t s name value s' out : read_token t = Plain name value -> split_token t = (name, false, value, t) ->
  on_token t s = Some (s', out) -> out = (if bmem name passthrough then [t] else []) /\ u_motd s' = u_motd s /\
  forall f, agrees s f -> agrees s' (upd f name value).
Proof.
  intros _ Sp H. unfold on_token in H. rewrite Sp in H.
  assert (M : match value with Some v => im_set (u_isupport s) name (Some v) | None => im_set (u_isupport s) name None end = im_set (u_isupport s) name value)
    by (destruct value; reflexivity).
  change (match value with Some v => v | None => [] end) with (value_of value) in H. rewrite M in H.
  destruct (apply_param name false (value_of value) (with_isupport (im_set (u_isupport s) name value) s)) as [s1|] eqn:A; [|discriminate].
  injection H as <- <-. split; [reflexivity|].
  assert (Mo : u_motd s1 = u_motd s).
  { unfold apply_param in A. repeat match type of A with (if ?b then _ else _) = _ => destruct b end; try (injection A as <-; reflexivity);
      match type of A with match ?x with _ => _ end = _ => destruct x; [injection A as <-; reflexivity|discriminate] end. }
  split; [exact Mo|]. intros f [G1 G2 G3 G4 G5 G6 G7]. unfold apply_param in A.
  assert (Hm : forall k, im_get (im_set (u_isupport s) name value) k = upd f name value k)
    by (intros k; rewrite im_get_set; unfold upd; rewrite <- G1; reflexivity).
  assert (Other : forall k, beqb name k = false -> upd f name value k = f k) by (intros k E; unfold upd; rewrite E; reflexivity).
  destruct (beqb_spec name (B "CASEMAPPING")) as [->|N1].
  { injection A as <-. constructor; cbn [u_isupport u_cm u_modes u_types u_status u_members u_rate u_motd with_cm with_isupport];
      try (rewrite Other by (vm_compute; reflexivity)); try assumption.
    intros _. unfold upd. rewrite beqb_refl. destruct value as [v|]; reflexivity. }
  destruct (beqb_spec name (B "CHANMODES")) as [->|N2].
  { destruct (handle_chan_modes (value_of value)) as [m|] eqn:E; [|discriminate]. injection A as <-.
    constructor; cbn [u_isupport u_cm u_modes u_types u_status u_members u_rate u_motd with_modes with_isupport];
      try (rewrite Other by (vm_compute; reflexivity)); try assumption.
    all: unfold upd; rewrite beqb_refl; exact E. }
  destruct (beqb_spec name (B "CHANTYPES")) as [->|N3].
  { injection A as <-. constructor; cbn [u_isupport u_cm u_modes u_types u_status u_members u_rate u_motd with_types with_isupport];
      try (rewrite Other by (vm_compute; reflexivity)); try assumption.
    all: unfold upd; rewrite beqb_refl; reflexivity. }
  destruct (beqb_spec name (B "STATUSMSG")) as [->|N4].
  { injection A as <-. constructor; cbn [u_isupport u_cm u_modes u_types u_status u_members u_rate u_motd with_status with_isupport];
      try (rewrite Other by (vm_compute; reflexivity)); try assumption.
    all: unfold upd; rewrite beqb_refl; reflexivity. }
  destruct (beqb_spec name (B "PREFIX")) as [->|N5].
  { destruct (handle_memberships (value_of value)) as [m|] eqn:E; [|discriminate]. injection A as <-.
    constructor; cbn [u_isupport u_cm u_modes u_types u_status u_members u_rate u_motd with_members with_isupport];
      try (rewrite Other by (vm_compute; reflexivity)); try assumption.
    all: unfold upd; rewrite beqb_refl; exact E. }
  destruct (beqb_spec name (B "SOJU.IM/SAFERATE")) as [->|N6].
  { injection A as <-. constructor; cbn [u_isupport u_cm u_modes u_types u_status u_members u_rate u_motd with_rate with_isupport];
      try (rewrite Other by (vm_compute; reflexivity)); try assumption.
    all: unfold upd; rewrite beqb_refl; reflexivity. }
  injection A as <-. constructor; cbn [u_isupport u_cm u_modes u_types u_status u_members u_rate u_motd with_isupport];
    try (rewrite Other by (apply beqb_neq; assumption)); assumption.
Qed.

Lemma agrees_ext s f g : (forall k, f k = g k) -> agrees s f -> agrees s g.
Proof. intros E [G1 G2 G3 G4 G5 G6 G7]. constructor; [intros k; rewrite <- E; apply G1| | | | | |]; rewrite <- !E; assumption. Qed.

Lemma learned_cons t name value k x : read_token t = Plain name value ->
  learned [t] k x = if beqb name k then Some value else x.
Proof. intros E. cbn [learned]. rewrite E. reflexivity. Qed.

Lemma on_tokens_sets l : forall s s' out, Forall sets l -> on_tokens l s = Some (s', out) ->
  u_motd s' = u_motd s /\ (forall f, agrees s f -> agrees s' (fun k => learned l k (f k))) /\
  Forall sets out /\ (forall k x, In k passthrough -> learned out k x = learned l k x).
Proof.
  induction l as [|t l IH]; intros s s' out F H; cbn [on_tokens] in H.
  - injection H as <- <-. split; [reflexivity|]. split; [intros f A; exact A|]. split; [constructor|reflexivity].
  - inversion F as [|? ? Ft Fl]; subst. destruct (on_token t s) as [[s1 o1]|] eqn:E1; [|discriminate].
    destruct (on_tokens l s1) as [[s2 o2]|] eqn:E2; [|discriminate]. injection H as <- <-.
    destruct (split_sets t Ft) as (name & value & R & Sp). destruct (on_token_sets t s name value s1 o1 R Sp E1) as (-> & M & A).
    destruct (IH _ _ _ Fl E2) as (M' & A' & Fo & L). split; [congruence|]. split; [|split].
    + intros f Af. eapply agrees_ext; [|apply (A' _ (A f Af))]. intros k. cbn [learned]. rewrite R. reflexivity.
    + apply Forall_app. split; [|exact Fo]. destruct (bmem name passthrough); [constructor; [exact Ft|constructor]|constructor].
    + intros k x Hk. rewrite learned_app. rewrite L by exact Hk. cbn [learned]. rewrite R. f_equal.
      destruct (bmem name passthrough) eqn:Bm; [rewrite (learned_cons _ _ _ _ _ R); reflexivity|]. cbn [learned].
      destruct (beqb_spec name k) as [->|]; [|reflexivity]. apply bmem_In in Hk. congruence.
Qed.

Lemma sent_app a b : sent (a ++ b) = sent a ++ sent b.
Proof. apply flat_map_app. Qed.

Lemma client_reads l : flat_map read_isupport (generate_isupport l) = l.
Proof. exact (proj1 (Proof.GenMsg.isupport_loop_spec (length l) l (le_n _))). Qed.

Lemma on_events_sets l : forall s s' out, Forall sets (sent l) -> on_events l s = Some (s', out) ->
  u_motd s' = (u_motd s || ended l)%bool /\ (forall f, agrees s f -> agrees s' (fun k => learned (sent l) k (f k))) /\
  (forall k x, In k passthrough -> learned (flat_map read_isupport out) k x = learned (sent l) k x).
Proof.
  induction l as [|e l IH]; intros s s' out F H; cbn [on_events] in H.
  - injection H as <- <-. split; [cbn; rewrite orb_false_r; reflexivity|]. split; [intros f A; exact A|reflexivity].
  - destruct (on_event e s) as [[s1 o1]|] eqn:E1; [|discriminate].
    destruct (on_events l s1) as [[s2 o2]|] eqn:E2; [|discriminate]. injection H as <- <-.
    destruct e as [params|]; cbn [on_event] in E1.
    + destruct (Nat.ltb (length params) 2); [discriminate|].
      destruct (on_tokens (middle params) s) as [[s3 o3]|] eqn:E3; [|discriminate]. injection E1 as <- <-.
      change (sent (Isupport params :: l)) with (middle params ++ sent l) in *. apply Forall_app in F. destruct F as [F1 F2].
      destruct (on_tokens_sets _ _ _ _ F1 E3) as (M & A & _ & L). destruct (IH _ _ _ F2 E2) as (M' & A' & L').
      split; [rewrite M', M; reflexivity|]. split.
      * intros f Af. eapply agrees_ext; [|exact (A' _ (A f Af))]. intros k. cbn beta. rewrite learned_app. reflexivity.
      * intros k x Hk. rewrite flat_map_app, client_reads, !learned_app, L', L by exact Hk. reflexivity.
    + change (sent (EndOfMotd :: l)) with (sent l) in *. destruct (u_motd s) eqn:Em.
      * injection E1 as <- <-. destruct (IH _ _ _ F E2) as (M' & A' & L'). split; [rewrite M', Em; reflexivity|]. split; [exact A'|exact L'].
      * injection E1 as <- <-. destruct (IH _ _ _ F E2) as (M' & A' & L'). split; [|split].
        -- rewrite M'. cbn [with_motd u_isupport]. destruct (im_get _ _) as [[v|]|]; reflexivity.
        -- intros f Af. refine (A' f _). destruct Af as [G1 G2 G3 G4 G5 G6 G7]. cbn [with_motd u_isupport]. rewrite G1.
           match goal with |- agrees (match f ?k with _ => _ end) _ => change k with (B "CASEMAPPING") end.
           destruct (f (B "CASEMAPPING")) as [[v|]|] eqn:Ef;
             constructor; cbn [u_isupport u_cm u_modes u_types u_status u_members u_rate u_motd with_motd with_cm]; try assumption;
             rewrite ?Ef; try reflexivity; try exact G1.
           intros _. apply G2. right. discriminate.
        -- exact L'.
Qed.

Lemma new_agrees cm : agrees (new_ust cm) (fun _ => None).
Proof. constructor; cbn; try reflexivity. intros [H|H]; [discriminate|congruence]. Qed.

Theorem settings l cm s out : on_events l (new_ust cm) = Some (s, out) -> Forall sets (sent l) ->
  let f k := learned (sent l) k None in
  (forall k, im_get (u_isupport s) k = f k) /\
  (ended l = true \/ f (B "CASEMAPPING") <> None -> casemapping_mean (f (B "CASEMAPPING")) (u_cm s)) /\
  match f (B "CHANMODES") with None => u_modes s = std_channel_modes | Some v => chanmodes_mean (value_of v) (u_modes s) end /\
  u_types s = match f (B "CHANTYPES") with None => std_channel_types | Some v => value_of v end /\
  u_status s = match f (B "STATUSMSG") with None => [] | Some v => value_of v end /\
  match f (B "PREFIX") with None => u_members s = std_memberships | Some v => prefix_mean (value_of v) (u_members s) end /\
  u_rate s = match f (B "SOJU.IM/SAFERATE") with None => true | Some _ => false end.
Proof.
  intros H F f. destruct (on_events_sets l _ _ _ F H) as (M & A & _). destruct (A _ (new_agrees cm)) as [G1 G2 G3 G4 G5 G6 G7].
  fold (f (B "CASEMAPPING")) (f (B "CHANMODES")) (f (B "CHANTYPES")) (f (B "STATUSMSG")) (f (B "PREFIX")) (f (B "SOJU.IM/SAFERATE")) in *.
  split; [exact G1|]. split; [|split; [|split; [exact G4|split; [exact G5|split; [|exact G7]]]]].
  - intros K. rewrite G2; [apply cm_of_mean|]. destruct K as [K|K]; [left|auto]. cbn [new_ust u_motd] in M. rewrite K in M. exact M.
  - destruct (f (B "CHANMODES")); [|exact G3]. apply chan_modes_mean. exact G3.
  - destruct (f (B "PREFIX")); [|exact G6]. apply memberships_mean. exact G6.
Qed.

(** ** The view of clients *)

Lemma read_known k v : In k passthrough -> read_token (k ++ B "=" ++ v) = Plain k (Some v) /\ read_token k = Plain k None.
Proof.
  intros H. destruct (passthrough_ok k H) as (U & NE & c & k' & -> & Hc). split.
  - pose proof (cut_on_app "="%char (c :: k') v NE) as C. unfold read_token.
    change ((c :: k') ++ B "=" ++ v) with (c :: (k' ++ "="%char :: v)). cbn match. rewrite Hc.
    change ((c :: k') ++ "="%char :: v) with (c :: (k' ++ "="%char :: v)) in C. rewrite C, U. reflexivity.
  - unfold read_token. rewrite Hc, (cut_on_nosep _ _ NE), U. reflexivity.
Qed.

Lemma learned_passed s order k x : (forall k', In k' order -> In k' passthrough) ->
  learned (flat_map (fun k => match im_get (u_isupport s) k with None => [] | Some (Some v) => [k ++ B "=" ++ v] | Some None => [k] end) order) k x =
  if bmem k order then match im_get (u_isupport s) k with Some v => Some v | None => x end else x.
Proof.
  revert x. induction order as [|k' order IH]; intros x H; [reflexivity|]. cbn [flat_map]. rewrite learned_app.
  rewrite IH by (intros j Hj; apply H; right; exact Hj).
  destruct (read_known k' (match im_get (u_isupport s) k' with Some (Some v) => v | _ => [] end) (H k' (or_introl eq_refl))) as [R1 R2].
  cbn [bmem existsb]. rewrite (beqb_sym k k'). fold (bmem k order).
  destruct (im_get (u_isupport s) k') as [[v|]|] eqn:E; [rewrite (learned_cons _ _ _ _ _ R1)|rewrite (learned_cons _ _ _ _ _ R2)|cbn [learned]];
    (destruct (beqb_spec k' k) as [->|]; cbn [orb]; [rewrite E; destruct (bmem k order); reflexivity|reflexivity]).
Qed.

Definition own_ok (name : bytes) : bool := negb (bmem name passthrough).

Lemma learned_not l k x : (forall t, In t l -> exists name value, read_token t = Plain name value /\ name <> k) -> learned l k x = x.
Proof.
  revert x. induction l as [|t l IH]; intros x H; [reflexivity|]. destruct (H t (or_introl eq_refl)) as (name & value & R & N).
  cbn [learned]. rewrite R, (proj2 (beqb_neq _ _) N). apply IH. intros t' Ht. apply H. right. exact Ht.
Qed.

Lemma own_bound c id k x : w_netid c = Some id -> In k passthrough -> learned (own_tokens c) k x = x.
Proof.
  intros Hc Hk. apply learned_not. intros t Ht.
  assert (G : forall name v, bmem name passthrough = false -> ~ In "="%char name -> to_upper name = name -> match name with c :: _ => aeqb c "-" = false | [] => False end ->
            forall u, u = name ++ B "=" ++ v -> exists n value, read_token u = Plain n value /\ n <> k).
  { intros name v Bm NE U Hd u ->. exists name, (Some v). split; [|intros ->; apply bmem_In in Hk; congruence].
    destruct name as [|a name]; [destruct Hd|]. pose proof (cut_on_app "="%char (a :: name) v NE) as C. unfold read_token.
    change ((a :: name) ++ B "=" ++ v) with (a :: (name ++ "="%char :: v)). cbn match. rewrite Hd.
    change ((a :: name) ++ "="%char :: v) with (a :: (name ++ "="%char :: v)) in C. rewrite C, U. reflexivity. }
  assert (G' : forall u name value, read_token u = Plain name value -> bmem name passthrough = false -> exists n value, read_token u = Plain n value /\ n <> k).
  { intros u name value R Bm. exists name, value. split; [exact R|]. intros ->. apply bmem_In in Hk. congruence. }
  unfold own_tokens in Ht. rewrite Hc in Ht. cbn [negb andb app] in Ht. rewrite andb_true_r in Ht.
  destruct Ht as [<-|[<-|Ht]].
  - eapply G'; [reflexivity|vm_compute; reflexivity].
  - apply (G (B "BOUNCER_NETID") (dec id)); [vm_compute; reflexivity| |vm_compute; reflexivity|reflexivity|reflexivity].
    intros K. apply amem_In in K. vm_compute in K. discriminate.
  - apply in_app_or in Ht. destruct Ht as [Ht|Ht].
    + destruct (w_history c); [|destruct Ht]. destruct Ht as [<-|[<-|[]]]; (eapply G'; [vm_compute; reflexivity|vm_compute; reflexivity]).
    + apply in_app_or in Ht. destruct Ht as [Ht|Ht].
      * destruct (w_vapid c) as [v|]; [|destruct Ht]. destruct Ht as [<-|[]]. 
        apply (G (B "VAPID") v); [vm_compute; reflexivity| |vm_compute; reflexivity|reflexivity|reflexivity].
        intros K. apply amem_In in K. vm_compute in K. discriminate.
      * destruct (w_filehost c) as [v|]; [|destruct Ht]. destruct Ht as [<-|[]].
        exists (B "SOJU.IM/FILEHOST"), (Some v). split; [|intros E; rewrite <- E in Hk; apply bmem_In in Hk; vm_compute in Hk; discriminate].
        assert (C : cut_on "=" (B "soju.im/FILEHOST" ++ "="%char :: v) = (B "soju.im/FILEHOST", Some v))
          by (apply cut_on_app; intros K; apply amem_In in K; vm_compute in K; discriminate).
        unfold read_token. change (B "soju.im/FILEHOST=" ++ v) with ("s"%char :: (B "oju.im/FILEHOST" ++ "="%char :: v)). cbn match.
        change (aeqb "s" "-") with false. cbn match.
        change ("s"%char :: (B "oju.im/FILEHOST" ++ "="%char :: v)) with (B "soju.im/FILEHOST" ++ "="%char :: v). rewrite C. reflexivity.
Qed.

Theorem client_view l1 l2 cm s1 s2 o1 o2 conf id order (tags : bool) k :
  on_events l1 (new_ust cm) = Some (s1, o1) -> on_events l2 s1 = Some (s2, o2) ->
  Forall sets (sent (l1 ++ l2)) -> w_netid conf = Some id -> Permutation order passthrough -> In k passthrough ->
  (tags = true \/ k <> B "CLIENTTAGDENY") ->
  learned (flat_map read_isupport (welcome_isupport conf order (Some (s1, tags)) ++ o2)) k None = learned (sent (l1 ++ l2)) k None.
Proof.
  intros H1 H2 F Hc P Hk Ht. rewrite sent_app in F |- *. apply Forall_app in F. destruct F as [F1 F2].
  destruct (on_events_sets l1 _ _ _ F1 H1) as (_ & A & _). pose proof (ag_map _ _ (A _ (new_agrees cm))) as G.
  destruct (on_events_sets l2 _ _ _ F2 H2) as (_ & _ & L).
  unfold welcome_isupport. rewrite flat_map_app, client_reads, learned_app, L by exact Hk.
  rewrite (learned_app (sent l1)). apply f_equal.
  rewrite learned_app, (own_bound _ _ _ _ Hc Hk). unfold passed_tokens. rewrite learned_app.
  rewrite learned_passed by (intros k' Hk'; exact (Permutation_in _ P Hk')).
  assert (Bm : bmem k order = true) by (apply bmem_In; exact (Permutation_in _ (Permutation_sym P) Hk)). rewrite Bm, G.
  destruct (learned (sent l1) k None) as [v|] eqn:E; [reflexivity|].
  destruct (im_get (u_isupport s1) (B "CLIENTTAGDENY")) as [v|] eqn:Ed; [reflexivity|]. destruct tags; [reflexivity|].
  destruct Ht as [Ht|Ht]; [discriminate|]. apply learned_not. intros t [<-|[]]. exists (B "CLIENTTAGDENY"), (Some (B "*")).
  split; [vm_compute; reflexivity|auto].
Qed.

(** A client that was there before the server. *)
Theorem client_waiting l cm s out conf id order k :
  on_events l (new_ust cm) = Some (s, out) -> Forall sets (sent l) -> w_netid conf = Some id -> In k passthrough ->
  learned (flat_map read_isupport (welcome_isupport conf order None ++ out)) k None = learned (sent l) k None.
Proof.
  intros H F Hc Hk. destruct (on_events_sets l _ _ _ F H) as (_ & _ & L).
  unfold welcome_isupport. rewrite flat_map_app, client_reads, learned_app, L, app_nil_r, (own_bound _ _ _ _ Hc Hk) by exact Hk. reflexivity.
Qed.

Lemma decode_plain t : ~ In "\"%char t -> isupport_decode t = t.
Proof.
  induction t as [|c t IH]; intros H; [reflexivity|]. cbn [isupport_decode].
  assert (Hc : aeqb c "\" = false) by (destruct (aeqb_spec c "\"%char) as [->|]; [destruct H; left; reflexivity|reflexivity]).
  rewrite IH by (intros K; apply H; right; exact K). rewrite Hc. cbn [andb]. destruct t as [|x [|h [|l s3]]]; reflexivity.
Qed.

Lemma decode_all l : Forall (fun t => ~ In "\"%char t) l -> map isupport_decode l = l.
Proof. induction 1 as [|t l H _ IH]; [reflexivity|]. cbn [map]. rewrite (decode_plain t H), IH. reflexivity. Qed.
