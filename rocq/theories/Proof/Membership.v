From Verif.Base Require Import Bytes.
From Verif.Model Require Import Membership.
From Verif.Spec Require Import Membership.

Lemma mb_eqb_eq a b : mb_eqb a b = true <-> a = b.
Proof.
  unfold mb_eqb. rewrite andb_true_iff, !aeqb_eq. destruct a, b; simpl. split.
  - intros [-> ->]; reflexivity.
  - intros H; injection H as -> ->; split; reflexivity.
Qed.

Lemma mb_eqb_spec a b : reflect (a = b) (mb_eqb a b).
Proof. destruct (mb_eqb a b) eqn:E; constructor; [apply mb_eqb_eq; exact E|]. rewrite <- mb_eqb_eq. congruence. Qed.

Lemma mb_eqb_refl a : mb_eqb a a = true.
Proof. apply mb_eqb_eq; reflexivity. Qed.

Lemma in_order_In {A} (l avail : list A) x : in_order l avail -> In x l -> In x avail.
Proof. induction 1 as [|y l av H IH|y l av H IH]; simpl; intuition. Qed.

Lemma in_order_nodup {A} (l avail : list A) : in_order l avail -> NoDup avail -> NoDup l.
Proof.
  induction 1 as [|y l av H IH|y l av H IH]; intros Hnd; [constructor| |];
    inversion Hnd; subst; [|auto].
  constructor; [|auto]. intros Hin. apply H2. eapply in_order_In; eassumption.
Qed.

Lemma in_order_tail {A} (x : A) l avail : in_order (x :: l) avail -> in_order l avail.
Proof.
  intros H. remember (x :: l) as xl eqn:E. revert x l E.
  induction H as [|y l' av H IH|y l' av H IH]; intros x l E; [discriminate| |].
  - injection E as -> ->. apply IoSkip. exact H.
  - apply IoSkip. eapply IH. exact E.
Qed.

Lemma in_order_refl {A} (l : list A) : in_order l l.
Proof. induction l; constructor; assumption. Qed.

(** Recursive form of Add on the suffix of the set that is still to match. *)
Fixpoint add_rec (avail l : list membership) (new : membership) : list membership :=
  match avail with
  | [] => new :: l
  | a :: avail' =>
      match l with
      | [] => [new]
      | x :: l' =>
          if mb_eqb x a then
            if mb_eqb a new then l else x :: add_rec avail' l' new
          else if mb_eqb a new then new :: l
          else add_rec avail' l new
      end
  end.

Lemma add_index_rec avail pre l new :
  match add_index avail (pre ++ l) new (length pre) with
  | None => pre ++ l
  | Some i => firstn i (pre ++ l) ++ new :: skipn i (pre ++ l)
  end = pre ++ add_rec avail l new.
Proof.
  revert pre l; induction avail as [|a avail IH]; intros pre l; simpl.
  - rewrite firstn_app, firstn_all, Nat.sub_diag, skipn_app, skipn_all, Nat.sub_diag. simpl.
    rewrite app_nil_r. reflexivity.
  - destruct (nth_error (pre ++ l) (length pre)) as [li|] eqn:E.
    + rewrite nth_error_app2, Nat.sub_diag in E by lia.
      destruct l as [|x l]; [discriminate|]. injection E as ->.
      destruct (mb_eqb_spec li a) as [->|Hn].
      * destruct (mb_eqb_spec a new) as [->|Hn']; [reflexivity|].
        specialize (IH (pre ++ [a]) l). rewrite app_length in IH. simpl in IH.
        replace (length pre + 1) with (S (length pre)) in IH by lia.
        rewrite <- !app_assoc in IH. simpl in IH. exact IH.
      * destruct (mb_eqb_spec a new) as [->|Hn'].
        -- rewrite firstn_app, firstn_all, Nat.sub_diag, skipn_app, skipn_all, Nat.sub_diag. simpl.
           rewrite app_nil_r. reflexivity.
        -- apply (IH pre (li :: l)).
    + rewrite nth_error_app2, Nat.sub_diag in E by lia.
      destruct l as [|x l]; [|discriminate].
      rewrite firstn_app, firstn_all, Nat.sub_diag, skipn_app, skipn_all, Nat.sub_diag. simpl.
      rewrite app_nil_r. reflexivity.
Qed.

Lemma ms_add_rec avail l new : ms_add avail l new = add_rec avail l new.
Proof. apply (add_index_rec avail [] l new). Qed.

Lemma add_rec_In avail l new x :
  in_order l avail -> In x (add_rec avail l new) <-> x = new \/ In x l.
Proof.
  revert l; induction avail as [|a avail IH]; intros l Hio; simpl.
  - split; intros H; [destruct H; auto|destruct H; auto].
  - destruct l as [|y l].
    + simpl. split; [intros [<-|[]]; auto|intros [->|[]]; auto].
    + destruct (mb_eqb_spec y a) as [->|Hn].
      * destruct (mb_eqb_spec a new) as [->|Hn'].
        -- split; [intros H; right; exact H|]. intros [->|H]; [left; reflexivity|exact H].
        -- assert (Hl : in_order l avail).
           { inversion Hio; subst; [assumption|]. eapply in_order_tail; eassumption. }
           specialize (IH l Hl). simpl. rewrite IH. intuition.
      * destruct (mb_eqb_spec a new) as [->|Hn'].
        -- simpl. intuition.
        -- apply IH. inversion Hio; subst; [congruence|assumption].
Qed.

Lemma add_rec_in_order avail l new :
  NoDup avail -> in_order l avail -> In new avail -> in_order (add_rec avail l new) avail.
Proof.
  revert l; induction avail as [|a avail IH]; intros l Hnd Hio Hin; simpl; [destruct Hin|].
  inversion Hnd as [|? ? Hna Hnd']; subst.
  destruct l as [|y l].
  - clear -Hin. revert Hin. generalize (a :: avail) as av. clear. induction av as [|b av IH].
    + intros [].
    + intros [->|H]; [apply IoTake; constructor|apply IoSkip; apply IH; exact H].
  - destruct (mb_eqb_spec y a) as [->|Hn].
    + destruct (mb_eqb_spec a new) as [->|Hn']; [exact Hio|].
      apply IoTake. apply IH; [exact Hnd'| |destruct Hin; [congruence|assumption]].
      inversion Hio; subst; [assumption|]. eapply in_order_tail; eassumption.
    + assert (Hio' : in_order (y :: l) avail) by (inversion Hio; subst; [congruence|assumption]).
      destruct (mb_eqb_spec a new) as [->|Hn'].
      * apply IoTake. exact Hio'.
      * apply IoSkip. apply IH; [exact Hnd'|exact Hio'|destruct Hin; [congruence|assumption]].
Qed.

Lemma ms_remove_In l m x : NoDup l -> In x (ms_remove l m) <-> x <> m /\ In x l.
Proof.
  induction l as [|y l IH]; intros Hnd; simpl; [tauto|].
  inversion Hnd as [|? ? H1 H2]; subst. destruct (mb_eqb_spec y m) as [->|Hn].
  - split; [intros H; split; [intros ->; exact (H1 H)|right; exact H]|].
    intros [Hne [->|H]]; [congruence|exact H].
  - simpl. rewrite (IH H2). split.
    + intros [->|[Ha Hb]]; [split; [exact Hn|left; reflexivity]|split; [exact Ha|right; exact Hb]].
    + intros [Ha [->|Hb]]; [left; reflexivity|right; split; assumption].
Qed.

Lemma ms_remove_in_order l m avail : in_order l avail -> in_order (ms_remove l m) avail.
Proof.
  induction 1 as [|y l av H IH|y l av H IH]; simpl; [constructor| |apply IoSkip; exact IH].
  destruct (mb_eqb y m); [apply IoSkip; exact H|apply IoTake; exact IH].
Qed.

Definition ms_run avail h := fold_left (ms_step avail) h [].

Lemma ms_run_app avail h o : ms_run avail (h ++ [o]) = ms_step avail (ms_run avail h) o.
Proof. unfold ms_run. rewrite fold_left_app. reflexivity. Qed.

Lemma adds_known_app avail h o : adds_known avail (h ++ [o]) -> adds_known avail h.
Proof. intros H m Hm. apply H. apply in_or_app. left; exact Hm. Qed.

Lemma ms_run_in_order avail h :
  NoDup avail -> adds_known avail h -> in_order (ms_run avail h) avail.
Proof.
  intros Hnd. induction h as [|o h IH] using rev_ind; intros Hk; [constructor|].
  rewrite ms_run_app. specialize (IH (adds_known_app _ _ _ Hk)). destruct o as [m|m]; simpl.
  - rewrite ms_add_rec. apply add_rec_in_order; [exact Hnd|exact IH|].
    apply Hk. apply in_or_app. right; left; reflexivity.
  - apply ms_remove_in_order. exact IH.
Qed.

Lemma held_app_add h m m' : held (h ++ [MsAdd m]) m' <-> m' = m \/ held h m'.
Proof.
  split.
  - intros (h1 & h2 & He & Hn). destruct h2 as [|o h2] using rev_ind.
    + apply app_inj_tail in He as [_ He]. left. congruence.
    + clear IHh2. right. rewrite app_comm_cons, app_assoc in He.
      apply app_inj_tail in He as [He _]. exists h1, h2. split; [exact He|].
      intros Hin. apply Hn. apply in_or_app. left; exact Hin.
  - intros [->|(h1 & h2 & -> & Hn)].
    + exists h, []. split; [reflexivity|intros []].
    + exists h1, (h2 ++ [MsAdd m]). split; [rewrite <- app_assoc; reflexivity|].
      intros Hin. apply in_app_or in Hin as [Hin|[Hin|[]]]; [exact (Hn Hin)|discriminate].
Qed.

Lemma held_app_remove h m m' : held (h ++ [MsRemove m]) m' <-> m' <> m /\ held h m'.
Proof.
  split.
  - intros (h1 & h2 & He & Hn). destruct h2 as [|o h2] using rev_ind.
    + apply app_inj_tail in He as [_ He]. discriminate.
    + clear IHh2. rewrite app_comm_cons, app_assoc in He.
      apply app_inj_tail in He as [He <-]. split.
      * intros ->. apply Hn. apply in_or_app. right; left; reflexivity.
      * exists h1, h2. split; [exact He|]. intros Hin. apply Hn. apply in_or_app. left; exact Hin.
  - intros [Hne (h1 & h2 & -> & Hn)].
    exists h1, (h2 ++ [MsRemove m]). split; [rewrite <- app_assoc; reflexivity|].
    intros Hin. apply in_app_or in Hin as [Hin|[Hin|[]]]; [exact (Hn Hin)|congruence].
Qed.

Lemma ms_run_held avail h m :
  NoDup avail -> adds_known avail h -> In m (ms_run avail h) <-> held h m.
Proof.
  intros Hnd. revert m. induction h as [|o h IH] using rev_ind; intros m Hk.
  - split; [intros []|]. intros (h1 & h2 & He & _). destruct h1; discriminate.
  - pose proof (adds_known_app _ _ _ Hk) as Hk'. specialize (fun m => IH m Hk').
    pose proof (ms_run_in_order avail h Hnd Hk') as Hio.
    rewrite ms_run_app. destruct o as [x|x]; simpl.
    + rewrite ms_add_rec, (add_rec_In _ _ _ _ Hio), held_app_add, IH. reflexivity.
    + rewrite ms_remove_In by (eapply in_order_nodup; eassumption).
      rewrite held_app_remove, IH. reflexivity.
Qed.

(** Prefix parsing. *)
Lemma parse_format avail l nick :
  in_order l avail -> NoDup (map mb_prefix avail) ->
  (forall c r, nick = c :: r -> ~ In c (map mb_prefix avail)) ->
  parse_membership_prefix avail (map mb_prefix l ++ nick) = (l, nick).
Proof.
  intros Hio. revert nick. induction Hio as [avail|x l avail H IH|x l avail H IH];
    intros nick Hnd Hnick.
  - simpl. induction avail as [|a avail IHa]; simpl; [reflexivity|].
    destruct nick as [|c r]; [reflexivity|].
    destruct (aeqb_spec c (mb_prefix a)) as [->|Hn].
    + exfalso. eapply Hnick; [reflexivity|]. left; reflexivity.
    + apply IHa; [inversion Hnd; assumption|]. intros c' r' Hc Hin.
      eapply Hnick; [exact Hc|]. right; exact Hin.
  - inversion Hnd as [|? ? H1 H2]; subst. simpl. rewrite aeqb_refl. rewrite IH.
    + reflexivity.
    + exact H2.
    + intros c r Hc Hin. eapply Hnick; [exact Hc|]. right; exact Hin.
  - inversion Hnd as [|? ? H1 H2]; subst.
    assert (Hrec : parse_membership_prefix avail (map mb_prefix l ++ nick) = (l, nick)).
    { apply IH; [exact H2|]. intros c r Hc Hin. eapply Hnick; [exact Hc|]. right; exact Hin. }
    simpl. destruct (map mb_prefix l ++ nick) as [|c s] eqn:E.
    + apply app_eq_nil in E as [E1 ->]. apply map_eq_nil in E1. subst. reflexivity.
    + destruct (aeqb_spec c (mb_prefix x)) as [->|Hn]; [|exact Hrec].
      exfalso. destruct l as [|y l].
      * simpl in E. subst nick. eapply Hnick; [reflexivity|]. left; reflexivity.
      * simpl in E. injection E as E1 E2. apply H1. rewrite <- E1.
        apply in_map. eapply in_order_In; [exact H|]. left; reflexivity.
Qed.

Lemma parse_in_order avail s : in_order (fst (parse_membership_prefix avail s)) avail.
Proof.
  revert s; induction avail as [|a avail IH]; intros s; simpl; [constructor|].
  destruct s as [|c s]; [constructor|].
  destruct (aeqb c (mb_prefix a)).
  - specialize (IH s). destruct (parse_membership_prefix avail s). simpl in *. apply IoTake; exact IH.
  - apply IoSkip. apply IH.
Qed.

Lemma parse_concat avail s :
  let (ms, nick) := parse_membership_prefix avail s in map mb_prefix ms ++ nick = s.
Proof.
  revert s; induction avail as [|a avail IH]; intros s; simpl; [reflexivity|].
  destruct s as [|c s]; [reflexivity|].
  destruct (aeqb_spec c (mb_prefix a)) as [->|Hn].
  - specialize (IH s). destruct (parse_membership_prefix avail s). simpl. congruence.
  - apply IH.
Qed.

Lemma utf8_of_byte_ascii c : (code c < 128)%N -> utf8_of_byte c = [c].
Proof. intros H. unfold utf8_of_byte. apply N.ltb_lt in H. rewrite H. reflexivity. Qed.
