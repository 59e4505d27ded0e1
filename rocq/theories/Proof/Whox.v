From Verif.Base Require Import Bytes.
From Verif.Model Require Import Message Whox.
From Verif.Spec Require Import Wire Whox.
From Verif.Proof Require Import Wire.



Lemma whox_set_get i k v (k' : ascii) p :
  In (k', p) info_fields ->
  p (whox_set i k v) = if aeqb k' k then v else p i.
Proof.
  intros Hin. destruct i as [t c u h s n f a r]. unfold whox_set.
  simpl in Hin.
  repeat (destruct Hin as [Hin|Hin];
    [injection Hin as <- <-;
     repeat match goal with |- context [aeqb k ?x] =>
       destruct (aeqb_spec k x) as [->|?]; [reflexivity|] end;
     repeat match goal with |- context [aeqb ?x k] =>
       destruct (aeqb_spec x k) as [<-|?]; [congruence|] end; reflexivity|]).
  destruct Hin.
Qed.

Lemma whox_fill_spec ks : forall i g rest,
  NoDup ks ->
  exists i', whox_fill i ks (map g ks ++ rest) = Some i' /\
    forall k p, In (k, p) info_fields -> p i' = if amem k ks then g k else p i.
Proof.
  induction ks as [|k ks IH]; intros i g rest Hnd.
  - exists i. split; [reflexivity|]. intros; reflexivity.
  - inversion Hnd as [|? ? H1 H2]; subst. cbn [map app whox_fill].
    destruct (IH (whox_set i k (g k)) g rest H2) as (i' & E & Hi). exists i'. split; [exact E|].
    intros k' p Hin. rewrite (Hi k' p Hin), (whox_set_get i k (g k) k' p Hin).
    unfold amem. cbn [existsb]. fold (amem k' ks). destruct (aeqb_spec k' k) as [->|Hn].
    + cbn [orb]. destruct (amem k ks) eqn:E'; [apply amem_In in E'; contradiction|reflexivity].
    + cbn [orb]. reflexivity.
Qed.

Lemma whox_fields_nodup : NoDup whox_fields.
Proof.
  unfold whox_fields. cbv [B list_ascii_of_string].
  repeat (constructor; [simpl; intuition discriminate|]). constructor.
Qed.

Lemma requested_nodup fields : NoDup (filter (fun k => amem k fields) whox_fields).
Proof. apply NoDup_filter. apply whox_fields_nodup. Qed.

Lemma whox_get_conveys i k p :
  In (k, p) info_fields -> conveys k (p i) (whox_get i k).
Proof.
  intros Hin. destruct i as [t c u h s n f a r]. simpl in Hin.
  repeat (destruct Hin as [Hin|Hin]; [injection Hin as <- <-; cbn [w_token w_channel w_username w_hostname w_server w_nickname w_flags w_account w_realname]|]);
    try (destruct Hin); unfold whox_get; cbn [aeqb Ascii.eqb Bool.eqb w_token w_channel w_username w_hostname w_server w_nickname w_flags w_account w_realname];
    try (constructor; discriminate).
  - destruct c as [|x c]; [constructor|]. apply conv_same; [discriminate|discriminate|discriminate].
  - destruct h as [|x h].
    + apply conv_same; [discriminate|discriminate|intros _ r0 H; discriminate].
    + unfold whox_host. destruct (has_prefix (x :: h) (B ":")) eqn:E.
      * apply has_prefix_iff in E as [r0 E]. simpl in E. injection E as -> ->. apply conv_host.
      * apply conv_same; [discriminate|discriminate|]. intros _ r0 H. injection H as -> ->. discriminate.
  - destruct (beqb_spec a []) as [->|H1]; [constructor|]. cbn [negb andb].
    destruct (beqb_spec a (B "*")) as [->|H2]; [apply conv_account_star|]. cbn [negb].
    apply conv_same; [discriminate|intros _; split; assumption|discriminate].
Qed.

Lemma whox_get_word i k :
  In k whox_fields -> k <> "r"%char ->
  (forall p, In (k, p) info_fields -> sendable k (p i)) -> word (whox_get i k).
Proof.
  intros Hk Hr Hs.
  assert (W0 : word (B "0")) by (split; [discriminate|split; [simpl; intuition discriminate|discriminate]]).
  assert (W1 : word (B "*")) by (split; [discriminate|split; [simpl; intuition discriminate|discriminate]]).
  assert (S : forall p, In (k, p) info_fields -> In k ["t"; "u"; "s"; "n"; "f"]%char -> word (p i)).
  { intros p Hp Hin. specialize (Hs p Hp). unfold sendable in Hs.
    destruct (aeqb_spec k "r"); [congruence|]. destruct Hs as (A & A2 & A3).
    split; [apply A2; destruct Hin as [<-|[<-|[<-|[<-|[<-|[]]]]]]; simpl; auto 8|]. split; [exact A|]. apply A3.
    intros ->. simpl in Hin. intuition discriminate. }
  unfold whox_fields in Hk. cbv [B list_ascii_of_string] in Hk. simpl in Hk.
  destruct i as [t c u h s n f a r].
  repeat (destruct Hk as [<-|Hk]); try contradiction; try congruence;
    unfold whox_get; cbn [aeqb Ascii.eqb Bool.eqb w_token w_channel w_username w_hostname w_server w_nickname w_flags w_account w_realname];
    try exact W0.
  - apply (S w_token); simpl; tauto.
  - specialize (Hs w_channel ltac:(simpl; tauto)). unfold sendable in Hs. simpl in Hs. destruct Hs as (A & A2 & A3).
    destruct c as [|x c]; [exact W1|]. split; [discriminate|]. split; [exact A|]. apply A3. discriminate.
  - apply (S w_username); simpl; tauto.
  - split; [discriminate|split; [simpl; intuition discriminate|discriminate]].
  - specialize (Hs w_hostname ltac:(simpl; tauto)). unfold sendable in Hs. simpl in Hs. destruct Hs as (A & A2 & A3).
    unfold whox_host. destruct (has_prefix h (B ":")) eqn:E.
    + split; [discriminate|]. split; [intros [H|H]; [discriminate|contradiction]|discriminate].
    + split; [apply A2; tauto|]. split; [exact A|]. intros r0 ->. discriminate.
  - apply (S w_server); simpl; tauto.
  - apply (S w_nickname); simpl; tauto.
  - apply (S w_flags); simpl; tauto.
  - specialize (Hs w_account ltac:(simpl; tauto)). unfold sendable in Hs. simpl in Hs. destruct Hs as (A & A2 & A3).
    destruct (beqb_spec a []) as [->|H1]; [exact W0|]. cbn [negb andb].
    destruct (beqb_spec a (B "*")); [exact W0|]. cbn [negb].
    split; [exact H1|]. split; [exact A|]. apply A3. discriminate.
Qed.

(** Everything but the real name comes before the last parameter. *)
Lemma requested_split fields :
  exists ks, ~ In "r"%char ks /\
    (forall k, In k ks -> In k whox_fields /\ In k fields) /\
    filter (fun k => amem k fields) whox_fields = ks ++ (if amem "r" fields then B "r" else []).
Proof.
  exists (filter (fun k => amem k fields) (B "tcuihsnfdlao")). split; [|split].
  - intros H. apply filter_In in H as [H _]. simpl in H. intuition discriminate.
  - intros k H. apply filter_In in H as [H H']. split; [|apply amem_In; exact H'].
    change whox_fields with (B "tcuihsnfdlao" ++ B "r"). apply in_or_app. left; exact H.
  - change whox_fields with (B "tcuihsnfdlao" ++ B "r"). rewrite filter_app. f_equal.
Qed.

Lemma whox_wire fields i :
  fields <> [] ->
  (forall k p, In (k, p) info_fields -> In k fields -> sendable k (p i)) ->
  parse_line (format_message (generate_whox fields i)) = Some (generate_whox fields i).
Proof.
  intros Hne Hs. destruct fields as [|c0 fields0]; [congruence|]. set (fields := c0 :: fields0) in *.
  unfold generate_whox at 1 2. change (match fields with [] => _ | _ => ?x end) with x.
  assert (Wc : word (B "354")) by (split; [discriminate|split; [simpl; intuition discriminate|discriminate]]).
  assert (Ws : word (B "*")) by (split; [discriminate|split; [simpl; intuition discriminate|discriminate]]).
  destruct (requested_split fields) as (ks & Hr & Hk & E). rewrite E.
  assert (Wk : Forall word (map (whox_get i) ks)).
  { apply Forall_forall. intros v Hv. apply in_map_iff in Hv as [k [<- Hin]].
    destruct (Hk k Hin) as [H1 H2]. apply whox_get_word; [exact H1|intros ->; contradiction|].
    intros p Hp. apply Hs; assumption. }
  rewrite map_app. destruct (amem "r" fields).
  - rewrite app_comm_cons. apply parse_format; [exact Wc|constructor; assumption].
  - cbn [map]. rewrite app_nil_r. apply parse_format_all; [exact Wc|constructor; assumption|discriminate].
Qed.
