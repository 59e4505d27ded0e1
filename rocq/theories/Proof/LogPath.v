From Verif.Base Require Import Bytes Path.
From Verif.Model Require Import LogPath.
From Verif.Spec Require Import LogPath.

Lemma escape_char_slash c : escape_char c <> "/"%char.
Proof.
  unfold escape_char. destruct (aeqb_spec c "/"); [discriminate|]. destruct (aeqb c "\"); [discriminate|assumption].
Qed.

Lemma escape_safe s : s <> [] -> safe_name (escape_filename s).
Proof.
  intros Hs. unfold escape_filename.
  destruct (beqb_spec s (B ".")) as [->|H1].
  { split; [discriminate|]. split; [discriminate|]. split; [discriminate|]. simpl. intuition discriminate. }
  destruct (beqb_spec s (B "..")) as [->|H2].
  { split; [discriminate|]. split; [discriminate|]. split; [discriminate|]. simpl. intuition discriminate. }
  assert (D : forall c, escape_char c = "."%char -> c = "."%char).
  { intros c. unfold escape_char. destruct (aeqb c "/"); [discriminate|]. destruct (aeqb c "\"); [discriminate|auto]. }
  split; [destruct s; [congruence|discriminate]|]. split; [|split].
  - intros E. destruct s as [|a [|b s]]; try discriminate. injection E as Ea. apply D in Ea. subst. apply H1. reflexivity.
  - intros E. destruct s as [|a [|b [|c s]]]; try discriminate. injection E as Ea Eb.
    apply D in Ea, Eb. subst. apply H2. reflexivity.
  - intros H. apply in_map_iff in H as [c [E _]]. exact (escape_char_slash c E).
Qed.

Lemma escape_nil : escape_filename [] = [].
Proof. reflexivity. Qed.

Lemma escape_plain s : plain s -> escape_filename s = s.
Proof.
  intros (_ & H1 & H2 & H3 & H4). unfold escape_filename.
  apply beqb_neq in H1, H2. rewrite H1, H2.
  rewrite <- (map_id s) at 2. apply map_ext_in. intros c Hc. unfold escape_char.
  destruct (aeqb_spec c "/") as [->|_]; [contradiction|].
  destruct (aeqb_spec c "\") as [->|_]; [contradiction|reflexivity].
Qed.

Lemma zero_pad_digits n x c : In c (zero_pad n x) -> is_digit c = true.
Proof.
  unfold zero_pad. intros H. apply in_app_or in H as [H|H].
  - apply repeat_spec in H. subst. reflexivity.
  - pose proof (dec_digits x) as D. rewrite Forall_forall in D. apply D. exact H.
Qed.

Lemma zero_pad_nin n x c : is_digit c = false -> ~ In c (zero_pad n x).
Proof. intros H Hin. apply zero_pad_digits in Hin. congruence. Qed.

Lemma undec_zeros k x : undec (repeat "0"%char k ++ dec x) = Some x.
Proof.
  induction k as [|k IH]; [apply undec_dec|].
  cbn [repeat app]. unfold undec. cbn [uint_of_bytes].
  change (digit_of "0") with (Some Decimal.D0).
  unfold undec in IH. destruct (repeat "0"%char k ++ dec x) as [|c r] eqn:E.
  - discriminate.
  - destruct (uint_of_bytes (c :: r)) as [u|]; [|discriminate]. injection IH as IH. f_equal.
    rewrite <- IH. reflexivity.
Qed.

Lemma zero_pad_inj n x y : zero_pad n x = zero_pad n y -> x = y.
Proof.
  intros H. unfold zero_pad in H. pose proof (undec_zeros (n - length (dec x)) x) as E.
  rewrite H, undec_zeros in E. congruence.
Qed.

Definition day_file y m d := zero_pad 4 y ++ B "-" ++ zero_pad 2 m ++ B "-" ++ zero_pad 2 d ++ B ".log".

Lemma day_file_safe y m d : safe_name (day_file y m d).
Proof.
  assert (L : 4 < length (day_file y m d)).
  { unfold day_file. rewrite !app_length. cbn [length B list_ascii_of_string]. lia. }
  split; [intros E; rewrite E in L; simpl in L; lia|].
  split; [intros E; rewrite E in L; simpl in L; lia|].
  split; [intros E; rewrite E in L; simpl in L; lia|].
  unfold day_file. intros H.
  repeat (apply in_app_or in H as [H|H]; [first [eapply zero_pad_nin; [|exact H]; reflexivity|simpl in H; intuition discriminate]|]).
  simpl in H. intuition discriminate.
Qed.

Lemma app_sep_inj (sep : ascii) a b x y :
  ~ In sep a -> ~ In sep x -> a ++ sep :: b = x ++ sep :: y -> a = x /\ b = y.
Proof.
  revert x; induction a as [|c a IH]; intros x Ha Hx E; destruct x as [|z x]; simpl in *.
  - injection E as E. auto.
  - injection E as E1 E2. exfalso. apply Hx. left. auto.
  - injection E as E1 E2. exfalso. apply Ha. left. auto.
  - injection E as -> E. destruct (IH x) as [-> ->]; auto.
Qed.

Lemma day_file_inj y m d y' m' d' : day_file y m d = day_file y' m' d' -> y = y' /\ m = m' /\ d = d'.
Proof.
  unfold day_file. intros E.
  apply (app_sep_inj "-") in E as [E1 E]; [|apply zero_pad_nin; reflexivity|apply zero_pad_nin; reflexivity].
  apply (app_sep_inj "-") in E as [E2 E]; [|apply zero_pad_nin; reflexivity|apply zero_pad_nin; reflexivity].
  apply (app_sep_inj ".") in E as [E3 _]; [|apply zero_pad_nin; reflexivity|apply zero_pad_nin; reflexivity].
  apply zero_pad_inj in E1, E2, E3. auto.
Qed.

(** Joining drops empty names. *)
Lemma path_join_drop root l l' :
  filter nonempty l = filter nonempty l' -> path_join (root :: l) = path_join (root :: l').
Proof. intros E. unfold path_join. cbn [filter]. rewrite E. reflexivity. Qed.

Lemma filter_nonempty_safe l :
  Forall (fun n => n = [] \/ safe_name n) l ->
  Forall safe_name (filter nonempty l) /\ filter nonempty (filter nonempty l) = filter nonempty l.
Proof.
  induction 1 as [|n l H _ [IH1 IH2]]; [split; [constructor|reflexivity]|].
  destruct n as [|c n]; simpl; [split; assumption|].
  split; [constructor; [destruct H as [H|H]; [discriminate|exact H]|exact IH1]|]. rewrite IH2. reflexivity.
Qed.

Lemma path_join_names root l :
  Forall (fun n => n = [] \/ safe_name n) l -> filter nonempty l <> [] ->
  path_join (root :: l) = place (clean root) (filter nonempty l).
Proof.
  intros H Hne. destruct (filter_nonempty_safe l H) as [H1 H2].
  rewrite (path_join_drop root l (filter nonempty l)) by (symmetry; exact H2).
  apply path_join_safe; assumption.
Qed.

Lemma escape_ok s : escape_filename s = [] \/ safe_name (escape_filename s).
Proof. destruct s as [|c s]; [left; reflexivity|right; apply escape_safe; discriminate]. Qed.

Lemma log_path_names storeroot net entity y m d :
  exists names, Forall safe_name names /\
    log_path storeroot net entity y m d = place (clean storeroot) (names ++ [day_file y m d]).
Proof.
  exists (filter nonempty [escape_filename net; escape_filename entity]).
  assert (H : Forall (fun n => n = [] \/ safe_name n) [escape_filename net; escape_filename entity]).
  { constructor; [apply escape_ok|constructor; [apply escape_ok|constructor]]. }
  split; [apply filter_nonempty_safe; exact H|].
  unfold log_path. fold (day_file y m d).
  assert (Hd : day_file y m d <> []) by apply day_file_safe.
  assert (E : filter nonempty [escape_filename net; escape_filename entity; day_file y m d] =
    filter nonempty [escape_filename net; escape_filename entity] ++ [day_file y m d]).
  { change [escape_filename net; escape_filename entity; day_file y m d]
      with ([escape_filename net; escape_filename entity] ++ [day_file y m d]).
    rewrite filter_app. f_equal. destruct (day_file y m d); [congruence|reflexivity]. }
  rewrite path_join_names.
  - f_equal. exact E.
  - inversion H as [|? ? Ha Hb]; subst. inversion Hb as [|? ? Hc Hd']; subst.
    constructor; [exact Ha|]. constructor; [exact Hc|]. constructor; [right; apply day_file_safe|constructor].
  - rewrite E. destruct (filter nonempty [escape_filename net; escape_filename entity]); discriminate.
Qed.

Lemma log_path_below storeroot net entity y m d : below (clean storeroot) (log_path storeroot net entity y m d).
Proof.
  destruct (log_path_names storeroot net entity y m d) as (names & H & E).
  exists (names ++ [day_file y m d]). split; [destruct names; discriminate|]. split; [|exact E].
  apply Forall_app. split; [exact H|]. constructor; [apply day_file_safe|constructor].
Qed.

Lemma clean_idem root : clean (clean root) = clean root.
Proof.
  pose proof (clean_comps_parts root) as Hp. unfold clean at 2 3.
    destruct (is_rooted root) eqn:Er.
    - pose proof (clean_comps_safe root Er) as Hsafe.
      unfold clean. change (is_rooted (B "/" ++ ?x)) with true. cbv iota. f_equal. f_equal.
      unfold clean_comps at 1. change (is_rooted (B "/" ++ ?x)) with true.
      change (B "/" ++ ?x) with ([] ++ "/"%char :: x). rewrite split_on_app2. cbn [split_on app fold_left].
      change (clean_step true [] []) with (@nil bytes).
      destruct (clean_comps root) as [|c cs]; [reflexivity|].
      rewrite split_safe by (assumption || discriminate). rewrite safe_fold by exact Hsafe.
      rewrite app_nil_r. apply rev_involutive.
    - (* relative: the components are some ".." followed by safe names *)
      assert (Hshape : exists k ns, clean_comps root = repeat (B "..") k ++ ns /\ Forall safe_name ns).
      { unfold clean_comps. rewrite Er.
        assert (G : forall l acc, Forall (fun w => ~ In "/"%char w) l ->
          (exists k ns, rev acc = repeat (B "..") k ++ ns /\ Forall safe_name ns) ->
          exists k ns, rev (fold_left (clean_step false) l acc) = repeat (B "..") k ++ ns /\ Forall safe_name ns).
        { induction l as [|w l IH]; intros acc Hl Ha; [exact Ha|]. inversion Hl as [|? ? Hw Hl']; subst.
          cbn [fold_left]. apply IH; [exact Hl'|]. unfold clean_step.
          destruct (beqb_spec w []) as [|H1]; [exact Ha|]. cbn [orb].
          destruct (beqb_spec w (B ".")) as [|H2]; [exact Ha|].
          destruct Ha as (k & ns & Ha & Hns).
          destruct (beqb_spec w (B "..")) as [->|H3].
          - destruct acc as [|top acc].
            + exists 1, []. split; [reflexivity|constructor].
            + cbn [rev] in Ha. destruct (beqb_spec top (B "..")) as [->|Ht].
              * destruct ns as [|n0 ns0] using rev_ind; [|clear IHns0].
                -- exists (S k), []. split; [|constructor]. cbn [rev]. rewrite Ha, !app_nil_r.
                   symmetry. apply repeat_cons.
                -- rewrite app_assoc in Ha. apply app_inj_tail in Ha as [_ Ha].
                   apply Forall_app in Hns as [_ Hn0]. inversion Hn0 as [|? ? (_ & _ & Hb & _) _]; congruence.
              * destruct ns as [|n0 ns0] using rev_ind; [|clear IHns0].
                -- exfalso. rewrite app_nil_r in Ha. destruct k as [|k]; [destruct (rev acc); discriminate|].
                   cbn [repeat] in Ha. rewrite repeat_cons in Ha. apply app_inj_tail in Ha as [_ Ha]. congruence.
                -- rewrite app_assoc in Ha. apply app_inj_tail in Ha as [Ha _].
                   apply Forall_app in Hns as [Hn0 _]. exists k, ns0. split; assumption.
          - exists k, (ns ++ [w]). split; [cbn [rev]; rewrite Ha, <- app_assoc; reflexivity|].
            apply Forall_app. split; [exact Hns|]. constructor; [|constructor].
            split; [assumption|]. split; [assumption|]. split; assumption. }
        apply G; [apply split_on_elems|]. exists 0, []. split; [reflexivity|constructor]. }
      destruct Hshape as (k & ns & Esh & Hns).
      destruct (clean_comps root) as [|c cs] eqn:Ec; [reflexivity|].
      assert (Hnr : is_rooted (join (B "/") (c :: cs)) = false).
      { inversion Hp as [|? ? (P1 & P2 & P3) _]; subst. unfold is_rooted.
        destruct c as [|x c]; [congruence|].
        assert (Hx : aeqb "/" x = false) by (apply aeqb_neq; intros <-; apply P3; left; reflexivity).
        destruct cs; cbn [join app B list_ascii_of_string has_prefix]; rewrite Hx; reflexivity. }
      unfold clean. rewrite Hnr.
      assert (Ecc : clean_comps (join (B "/") (c :: cs)) = c :: cs).
      { unfold clean_comps. rewrite Hnr.
        change (B "/") with ["/"%char]. rewrite split_join.
        - rewrite Esh. rewrite fold_left_app.
          assert (Hdots : forall j i, fold_left (clean_step false) (repeat (B "..") j) (repeat (B "..") i) = repeat (B "..") (j + i)).
          { induction j as [|j IH]; intros i; [reflexivity|]. cbn [repeat fold_left].
            replace (clean_step false (repeat (B "..") i) (B "..")) with (repeat (B "..") (S i)) by (destruct i; reflexivity).
            rewrite IH. f_equal. lia. }
          pose proof (Hdots k 0) as Hd0. rewrite Nat.add_0_r in Hd0. change (repeat (B "..") 0) with (@nil bytes) in Hd0. rewrite Hd0. rewrite safe_fold by exact Hns.
          rewrite rev_app_distr, rev_involutive.
          assert (Hrev : forall j, rev (repeat (B "..") j) = repeat (B "..") j).
          { induction j as [|j IH]; [reflexivity|]. cbn [repeat rev]. rewrite IH. symmetry. apply repeat_cons. }
          rewrite Hrev. reflexivity.
        - discriminate.
        - eapply Forall_impl; [|exact Hp]. intros w (_ & _ & H). exact H. }
      rewrite Ecc. reflexivity.
Qed.

(** The canonical path of a placed name is itself. *)
Lemma clean_place root names :
  names <> [] -> Forall safe_name names -> clean (place (clean root) names) = place (clean root) names.
Proof.
  intros Hn Hs. pose proof (split_safe names Hn Hs) as Esp.
  pose proof (clean_idem root) as Hcc.
  assert (Hr : clean root <> []).
  { unfold clean. destruct (is_rooted root); [discriminate|].
    pose proof (clean_comps_parts root) as Hp. destruct (clean_comps root) as [|c cs]; [discriminate|].
    inversion Hp as [|? ? (P1 & _) _]; subst. destruct c; [congruence|]. destruct cs; discriminate. }
  pose proof (path_join_safe (clean root) names Hn Hs) as Ej. rewrite Hcc in Ej.
  rewrite <- Ej at 1. unfold path_join. cbn [filter].
  destruct (clean root) as [|c r] eqn:Ecl; [congruence|]. cbn [nonempty].
  (* clean is idempotent on the joined path *)
  assert (Ejn : join (B "/") ((c :: r) :: filter nonempty names) = (c :: r) ++ "/"%char :: join (B "/") names).
  { assert (F : filter nonempty names = names).
    { clear -Hs. induction Hs as [|n names (H & _) _ IH]; [reflexivity|]. destruct n; [congruence|]. simpl. rewrite IH. reflexivity. }
    rewrite F. destruct names; [congruence|]. reflexivity. }
  rewrite Ejn. rewrite clean_below by (rewrite ?Esp; (assumption || discriminate)).
  rewrite Hcc, Esp.
  (* now by cases on the directory *)
  unfold place. destruct (beqb_spec (c :: r) (B "/")) as [E0|E0].
  - rewrite <- (path_join_safe (B "/") names Hn Hs) at 2.
    change (B "/" ++ ?x) with ([] ++ "/"%char :: x).
    unfold clean at 1. change (is_rooted ([] ++ "/"%char :: ?x)) with true. cbv iota.
    unfold clean_comps. change (is_rooted ([] ++ "/"%char :: ?x)) with true.
    rewrite split_on_app2. cbn [split_on app fold_left]. change (clean_step true [] []) with (@nil bytes).
    rewrite Esp, safe_fold by exact Hs. rewrite app_nil_r, rev_involutive.
    rewrite path_join_safe by assumption. reflexivity.
  - destruct (beqb_spec (c :: r) (B ".")) as [E1|E1].
    + pose proof (path_join_safe [] names Hn Hs) as E2. change (place (clean []) names) with (join (B "/") names) in E2.
      unfold path_join in E2. cbn [filter nonempty] in E2.
      assert (F : filter nonempty names = names).
      { clear -Hs. induction Hs as [|n names (H & _) _ IH]; [reflexivity|]. destruct n; [congruence|]. simpl. rewrite IH. reflexivity. }
      rewrite F in E2. destruct names; [congruence|]. exact E2.
    + change (B "/" ++ ?x) with ("/"%char :: x).
      rewrite clean_below by (rewrite ?Esp; (assumption || discriminate)). rewrite Hcc, Esp.
      unfold place. apply beqb_neq in E0, E1. rewrite E0, E1. reflexivity.
Qed.

Lemma place_app dir a b : a <> [] -> b <> [] -> Forall safe_name a -> place (place dir a) b = place dir (a ++ b).
Proof.
  intros Ha Hb Hs. unfold place at 2 3.
  assert (Hj : forall l, l <> [] -> Forall safe_name l -> join (B "/") l <> B "/" /\ join (B "/") l <> B "." /\ join (B "/") l <> []).
  { intros l Hl Hsl. destruct Hsl as [|n l (P1 & P2 & P3 & P4) Hl2]; [congruence|].
    destruct n as [|x n]; [congruence|].
    split; [intros E; apply P4; destruct l; injection E as -> _; left; reflexivity|].
    split; [|destruct l; discriminate].
    intros E. destruct l as [|n2 l]; [cbn [join] in E; congruence|].
    cbn [join] in E. injection E as -> E. destruct n; discriminate. }
  destruct (Hj a Ha Hs) as (J1 & J2 & J3).
  destruct (beqb dir (B "/")) eqn:E0.
  - unfold place. destruct (beqb_spec (B "/" ++ join (B "/") a) (B "/")) as [E|_].
    { exfalso. change (B "/" ++ ?x) with ("/"%char :: x) in E. injection E as E. exact (J3 E). }
    destruct (beqb_spec (B "/" ++ join (B "/") a) (B ".")) as [E|_]; [discriminate|].
    rewrite join_app by assumption. rewrite <- app_assoc. reflexivity.
  - destruct (beqb dir (B ".")) eqn:E1.
    + unfold place. apply beqb_neq in J1, J2. rewrite J1, J2. rewrite join_app by assumption. reflexivity.
    + unfold place.
      destruct (beqb_spec (dir ++ B "/" ++ join (B "/") a) (B "/")) as [E|_].
      { exfalso. destruct dir as [|c dir]; [|destruct dir; discriminate].
        change ([] ++ B "/" ++ ?x) with ("/"%char :: x) in E. injection E as E. exact (J3 E). }
      destruct (beqb_spec (dir ++ B "/" ++ join (B "/") a) (B ".")) as [E|_].
      { exfalso. destruct dir as [|c [|]]; discriminate. }
      rewrite join_app by assumption. rewrite <- !app_assoc. reflexivity.
Qed.

Lemma log_path_below_root root user net entity y m d :
  below (clean root) (log_path (fs_root root user) net entity y m d).
Proof.
  destruct user as [|u0 user0].
  { assert (Ef : clean (fs_root root []) = clean root).
    { unfold fs_root, path_join. rewrite escape_nil. destruct root as [|c root]; [reflexivity|].
      cbn [filter nonempty join]. apply clean_idem. }
    rewrite <- Ef. apply log_path_below. }
  set (user := u0 :: user0). assert (Hu : user <> []) by discriminate. clearbody user.
  destruct (log_path_names (fs_root root user) net entity y m d) as (names & H & E).
  pose proof (escape_safe user Hu) as He.
  assert (Er : fs_root root user = place (clean root) [escape_filename user]).
  { unfold fs_root. apply path_join_safe; [discriminate|]. constructor; [exact He|constructor]. }
  assert (Hf : Forall safe_name (names ++ [day_file y m d])).
  { apply Forall_app. split; [exact H|]. constructor; [apply day_file_safe|constructor]. }
  rewrite Er, clean_place in E by (discriminate || (constructor; [exact He|constructor])).
  rewrite place_app in E; [|discriminate|destruct names; discriminate|constructor; [exact He|constructor]].
  exists ([escape_filename user] ++ names ++ [day_file y m d]). split; [discriminate|].
  split; [|rewrite Er; exact E].
  constructor; [exact He|exact Hf].
Qed.

Lemma log_path_plain root user net entity y m d :
  plain user -> plain net -> plain entity ->
  log_path (fs_root root user) net entity y m d = place (clean root) [user; net; entity; day_file y m d].
Proof.
  intros Hu Hn He.
  assert (P : forall s, plain s -> safe_name s) by (intros s (A & B & C & D & _); split; [exact A|split; [exact B|split; [exact C|exact D]]]).
  unfold log_path. fold (day_file y m d). rewrite !escape_plain by assumption.
  rewrite path_join_safe; [|discriminate|].
  - unfold fs_root. rewrite escape_plain by exact Hu.
    rewrite path_join_safe by (discriminate || (constructor; [apply P; exact Hu|constructor])).
    rewrite clean_place by (discriminate || (constructor; [apply P; exact Hu|constructor])).
    rewrite place_app; [reflexivity|discriminate|discriminate|constructor; [apply P; exact Hu|constructor]].
  - constructor; [apply P; exact Hn|]. constructor; [apply P; exact He|]. constructor; [apply day_file_safe|constructor].
Qed.

Lemma log_path_inj root u1 n1 e1 y1 m1 d1 u2 n2 e2 y2 m2 d2 :
  plain u1 -> plain n1 -> plain e1 -> plain u2 -> plain n2 -> plain e2 ->
  log_path (fs_root root u1) n1 e1 y1 m1 d1 = log_path (fs_root root u2) n2 e2 y2 m2 d2 ->
  u1 = u2 /\ n1 = n2 /\ e1 = e2 /\ y1 = y2 /\ m1 = m2 /\ d1 = d2.
Proof.
  intros U1 N1 E1 U2 N2 E2 H. rewrite !log_path_plain in H by assumption.
  assert (P : forall s, plain s -> safe_name s) by (intros s (A & B & C & D & _); split; [exact A|split; [exact B|split; [exact C|exact D]]]).
  assert (F : forall u n e y m d, plain u -> plain n -> plain e -> Forall safe_name [u; n; e; day_file y m d]).
  { intros u n e y m d A1 A2 A3. constructor; [apply P; exact A1|]. constructor; [apply P; exact A2|].
    constructor; [apply P; exact A3|]. constructor; [apply day_file_safe|constructor]. }
  apply place_inj in H; [|discriminate|discriminate|apply F; assumption|apply F; assumption].
  injection H as -> -> -> H. apply day_file_inj in H. tauto.
Qed.
