(** Proofs about accepting connections. *)
From Verif.Base Require Import Bytes.
From Verif.Model Require Import Accept.
From Verif.Spec Require Import Accept.
From Coq Require Import NArith Lia.

Definition delay_of (k : nat) : N := match k with O => 0%N | S k => N.min 1000 (5 * 2 ^ N.of_nat k) end.

Lemma next_delay_of k : next_delay (delay_of k) = N.min 1000 (5 * 2 ^ N.of_nat k).
Proof.
  unfold next_delay. destruct k as [|k]; [reflexivity|]. cbn [delay_of]. rewrite Nat2N.inj_succ, N.pow_succ_r'.
  assert (P : (2 ^ N.of_nat k <> 0)%N) by (apply N.pow_nonzero; discriminate). revert P. generalize (2 ^ N.of_nat k)%N. intros p P.
  destruct (N.eqb_spec (N.min 1000 (5 * p)) 0); [lia|]. destruct (N.ltb_spec 1000 (N.min 1000 (5 * p) * 2)); lia.
Qed.

(** Serve in one piece. *)
Fixpoint acts (k : nat) (l : list outcome) : list act :=
  match l with
  | [] => []
  | Temporary :: l => Sleep (N.min 1000 (5 * 2 ^ N.of_nat k)) :: acts (S k) l
  | Conn c :: l => Handle c :: acts O l
  | IsClosed :: _ => [Return true]
  | Fatal :: _ => [Return false]
  end.

Lemma accept_acts l : forall k, let '(ds, r) := accept (delay_of k) l in
  acts k l = map Sleep ds ++ match r with
                             | None => []
                             | Some (Conn c, _, l) => Handle c :: acts O l
                             | Some (IsClosed, _, _) => [Return true]
                             | Some (_, _, _) => [Return false]
                             end /\
  match r with Some (_, d, l') => d = 0%N /\ length l' < length l | None => True end.
Proof.
  induction l as [|[c| | |] l IH]; intros k; cbn [accept acts]; try (split; [reflexivity|split; [reflexivity|cbn; lia]]); [split; [reflexivity|exact I]|].
  rewrite next_delay_of. change (N.min 1000 (5 * 2 ^ N.of_nat k)) with (delay_of (S k)). specialize (IH (S k)).
  destruct (accept (delay_of (S k)) l) as [ds r]. destruct IH as [A C]. split; [cbn [map app]; rewrite <- A; reflexivity|].
  destruct r as [[[o d] l']|]; [|exact I]. cbn [length]. destruct C. split; [assumption|lia].
Qed.

Lemma serve_acts fuel : forall k l, length l < fuel -> serve fuel (delay_of k) l = acts k l.
Proof.
  induction fuel as [|fuel IH]; intros k l L; [lia|]. cbn [serve]. pose proof (accept_acts l k) as A. destruct (accept (delay_of k) l) as [ds r]. destruct A as [A C].
  rewrite A. f_equal. destruct r as [[[o d] l']|]; [|reflexivity]. destruct C as [-> C]. destruct o; try reflexivity. f_equal. apply (IH O). lia.
Qed.

Lemma acts_answer l : forall k past i o, lately past 0 = k -> nth_error l i = Some o ->
  (forall j o', j < i -> nth_error l j = Some o' -> goes_on o') -> nth_error (acts k l) i = Some (answer (past ++ firstn i l) o).
Proof.
  assert (LA : forall a k o, lately (a ++ [o]) k = match o with Temporary => S (lately a k) | _ => O end).
  { induction a as [|x a IH]; intros k o; cbn [app lately]; [destruct o; reflexivity|]. destruct x; apply IH. }
  induction l as [|x l IH]; intros k past i o P H G; [destruct i; discriminate H|]. destruct i as [|i].
  - cbn [nth_error] in H. injection H as ->. cbn [firstn]. rewrite app_nil_r. destruct o; cbn [acts nth_error answer]; rewrite ?P; reflexivity.
  - cbn [nth_error] in H. assert (Gx : goes_on x) by (apply (G O); [lia|reflexivity]). cbn [firstn].
    assert (G' : forall j o', j < i -> nth_error l j = Some o' -> goes_on o') by (intros j o' L E; apply (G (S j)); [lia|exact E]).
    replace (past ++ x :: firstn i l) with ((past ++ [x]) ++ firstn i l) by (rewrite <- app_assoc; reflexivity).
    destruct x; [| |destruct Gx|destruct Gx]; cbn [acts nth_error]; apply IH; try assumption; rewrite LA; [reflexivity|]. rewrite P. reflexivity.
Qed.

Theorem served l i o : nth_error l i = Some o -> (forall j o', j < i -> nth_error l j = Some o' -> goes_on o') ->
  nth_error (serve (S (length l)) 0 l) i = Some (answer (firstn i l) o).
Proof. intros H G. change 0%N with (delay_of O). rewrite serve_acts by lia. exact (acts_answer l O [] i o eq_refl H G). Qed.

Lemma acts_end l : forall k i o, nth_error l i = Some o -> ~ goes_on o -> forall j, i < j -> nth_error (acts k l) j = None.
Proof.
  induction l as [|x l IH]; intros k i o H G j J; [destruct i; discriminate H|]. destruct j as [|j]; [lia|].
  destruct i as [|i].
  - cbn [nth_error] in H. injection H as ->. destruct o; try (destruct G; exact I); cbn [acts nth_error]; destruct j; reflexivity.
  - cbn [nth_error] in H. destruct x; cbn [acts nth_error]; try (apply (IH _ i o H G); lia); destruct j; reflexivity.
Qed.

Theorem ended l i o : nth_error l i = Some o -> ~ goes_on o -> forall j, i < j -> nth_error (serve (S (length l)) 0 l) j = None.
Proof. intros H G j J. change 0%N with (delay_of O). rewrite serve_acts by lia. exact (acts_end l O i o H G j J). Qed.

(** ** Stopping *)
Definition known (s : sys) : Prop := a_serve s <> Fresh.
Definition good (s : sys) : Prop := a_phase s <> Running -> a_closed s = true.

Lemma good_step s x s' : known s -> good s -> step s x = Some s' -> (a_serve s = Gone -> a_closed s = true) -> (a_serve s = Left -> a_closed s = true) ->
  known s' /\ good s' /\ (a_serve s' = Gone -> a_closed s' = true) /\ (a_serve s' = Left -> a_closed s' = true).
Proof.
  unfold known, good. intros K G H A L. destruct s as [p c f g]. destruct x as [|n|]; cbn [step a_serve a_closed a_phase a_got] in *.
  - destruct p; [contradiction| | | |discriminate]; [|destruct c; [|discriminate]|]; injection H as <-; cbn [a_serve a_closed a_phase]; repeat split; try discriminate; auto.
  - destruct p; try discriminate. destruct c; [discriminate|]. injection H as <-. cbn [a_serve a_closed a_phase]. repeat split; try discriminate; auto.
  - destruct f; [| |discriminate].
    + injection H as <-. cbn [a_serve a_closed a_phase]. destruct p; [contradiction| | | |]; repeat split; try discriminate; auto.
    + destruct p; try discriminate; injection H as <-; cbn [a_serve a_closed a_phase]; repeat split; try discriminate; intros; try (apply G; discriminate); auto.
Qed.

(** No client is accepted any more, and every step brings the end nearer. *)
Definition left (p : serving) : nat := match p with Fresh => 4 | Known => 3 | Counted => 2 | Left => 1 | Gone => 0 end.
Definition shut (p : phase) : nat := match p with Running => 2 | Waiting => 1 | Done => 0 end.

Lemma stop_run l : forall s s', known s -> good s -> (a_serve s = Gone -> a_closed s = true) -> (a_serve s = Left -> a_closed s = true) ->
  a_phase s <> Running -> run s l = Some s' ->
  length l + left (a_serve s') + shut (a_phase s') = left (a_serve s) + shut (a_phase s) /\ a_got s' = a_got s /\
  ((a_serve s' = Gone /\ a_phase s' = Done) \/ exists x s2, step s' x = Some s2).
Proof.
  induction l as [|x l IH]; intros s s' K G A L R H; cbn [run] in H.
  - injection H as <-. split; [reflexivity|]. split; [reflexivity|]. pose proof (G R) as C. destruct s as [p c f g]. cbn [a_serve a_closed a_phase] in *. subst c.
    destruct p; [contradiction| | | |]; try (right; exists Go; eexists; reflexivity). destruct f; [contradiction| |left; auto]. right. exists Shut. eexists. reflexivity.
  - destruct (step s x) as [s1|] eqn:E; [|discriminate]. destruct (good_step s x s1 K G E A L) as (K1 & G1 & A1 & L1).
    assert (P : a_phase s1 <> Running /\ a_got s1 = a_got s /\ S (left (a_serve s1) + shut (a_phase s1)) = left (a_serve s) + shut (a_phase s)).
    { pose proof (G R) as C. destruct s as [p c f g]. cbn [a_serve a_closed a_phase a_got] in *. subst c. destruct x as [|n|]; cbn [step a_serve a_closed a_phase a_got] in E.
      - destruct p; try discriminate; try contradiction; injection E as <-; cbn; auto.
      - destruct p; discriminate.
      - destruct f; [contradiction| |discriminate]. destruct p; try discriminate; injection E as <-; cbn; (split; [discriminate|split; [reflexivity|try lia]]). }
    destruct P as (P1 & P2 & P3). destruct (IH s1 s' K1 G1 A1 L1 P1 H) as (Q1 & Q2 & Q3). split; [cbn [length]; lia|]. split; [congruence|exact Q3].
Qed.

Lemma before l : forall s s', (a_phase s = Running -> (a_serve s = Fresh \/ a_serve s = Known \/ a_serve s = Counted) /\ a_closed s = false) ->
  run s l = Some s' -> a_phase s' = Running -> (a_serve s' = Fresh \/ a_serve s' = Known \/ a_serve s' = Counted) /\ a_closed s' = false.
Proof.
  induction l as [|x l IH]; intros s s' P H R; cbn [run] in H; [injection H as <-; exact (P R)|].
  destruct (step s x) as [s1|] eqn:E; [|discriminate]. apply (IH s1 s'); [|exact H|exact R]. intros R1.
  destruct s as [p c f g]. destruct x as [|n|]; cbn [step a_serve a_closed a_phase a_got] in *.
  - assert (F : f = Running) by (destruct p; try destruct c; try discriminate; injection E as <-; exact R1). destruct (P F) as [Q ->].
    destruct p; try discriminate; injection E as <-; cbn; auto. destruct Q as [?|[?|?]]; discriminate.
  - destruct p; try discriminate. destruct c; [discriminate|]. injection E as <-. cbn. auto.
  - destruct f; [| |discriminate]; [injection E as <-; discriminate R1|]. destruct p; try discriminate; injection E as <-; discriminate R1.
Qed.

Theorem stops l1 s l2 s' : run fresh l1 = Some s -> a_phase s = Running -> a_serve s <> Fresh -> run s (Shut :: l2) = Some s' ->
  length l2 <= 4 /\ a_got s' = a_got s /\ ((a_serve s' = Gone /\ a_phase s' = Done) \/ exists x s2, step s' x = Some s2).
Proof.
  intros H R K H2. destruct (before l1 fresh s ltac:(cbn; auto) H R) as [P C]. destruct s as [p c f g]. cbn [a_serve a_closed a_phase a_got] in *. subst f c.
  cbn [run step a_serve a_closed a_phase a_got] in H2. assert (E : match p with Known | Counted => true | _ => false end = true) by (destruct P as [->|[->| ->]]; [contradiction|reflexivity|reflexivity]).
  rewrite E in H2. assert (LE : left p <= 3) by (destruct P as [->|[->| ->]]; [contradiction|cbn; lia|cbn; lia]).
  destruct (stop_run l2 (Sys p true Waiting g) s') as (Q1 & Q2 & Q3); try assumption; try (intros; reflexivity); try discriminate.
  { intros _. reflexivity. }
  cbn [a_serve a_phase shut a_got] in *. split; [lia|]. split; assumption.
Qed.

Lemma clients_run cs : forall f g, run (Sys Counted false f g) (map Client cs) = Some (Sys Counted false f (g ++ cs)).
Proof.
  induction cs as [|c cs IH]; intros f g; cbn [map run]; [rewrite app_nil_r; reflexivity|]. cbn [step a_serve a_closed a_phase a_got]. rewrite IH, <- app_assoc. reflexivity.
Qed.
