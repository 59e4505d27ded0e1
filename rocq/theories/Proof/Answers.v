(** Proofs for C103. *)
From Verif.Base Require Import Bytes.
From Coq Require Import Lia ZArith NArith Permutation.
From Verif.Model Require Import CaseMap Pending Answers.
From Verif.Proof Require Pending.
From Verif.Spec Require Import Answers.
Open Scope nat_scope.

Definition waits (k : kind) (j : job) : bool := match w_kind (j_cmd j) with Some k' => kind_eqb k' k && negb (j_done j) | None => false end.
Definition N64 : N := (2 ^ 64)%N.
Definition fits (n : N) : Prop := (n < N64)%N.

Record InvB (labels : bool) (s : bst) (jobs : list job) : Prop := {
  i_labels : b_labels s = labels;
  i_ids : fits (b_ids s);
  i_clients : forall c, In c (b_clients s) -> (0 < c <= b_ids s)%N;
  i_nodup : NoDup (b_clients s);
  i_next : fits (b_next s);
  i_job : forall j, In j jobs -> (0 < w_client (j_cmd j))%N /\ fits (w_client (j_cmd j)) /\
            (exists n, fits n /\ w_label (j_cmd j) = if labels then label (w_client (j_cmd j)) n else []) /\
            (labels = false -> j_refs j = []) /\ (j_refs j = [] -> j_done j = false);
  i_batch : forall r lb, b_batches s r = Some lb <-> exists j, In j jobs /\ In r (j_refs j) /\ lb = w_label (j_cmd j);
  i_refs : NoDup (flat_map j_refs jobs)
}.
Record InvQ (qs : queues (list bytes)) (jobs : list job) : Prop := {
  i_queue : forall k, match qs k with
                      | [] => filter (waits k) jobs = []
                      | p :: _ => exists j, filter (waits k) jobs = [j] /\ w_client (j_cmd j) = p_client p /\ snd (w_body (j_cmd j)) = p_msg p
                      end;
  i_pend : forall k p, In p (qs k) -> In k queries /\ (0 < p_client p)%N /\ fits (p_client p) /\ (p_sent p = None \/ p_sent p = Some 0%Z)
}.
Definition Inv (labels : bool) (s : bst) (jobs : list job) : Prop := InvB labels s jobs /\ InvQ (b_queues s) jobs.

Lemma NoDup_app_snoc {X} (l : list X) x : NoDup l -> ~ In x l -> NoDup (l ++ [x]).
Proof. intros A D. eapply Permutation.Permutation_NoDup; [apply Permutation.Permutation_cons_append|]. constructor; assumption. Qed.
Lemma kind_eqb_eq a b : kind_eqb a b = true <-> a = b.
Proof. split; [destruct a, b; (reflexivity || discriminate)|intros ->; destruct b; reflexivity]. Qed.
Lemma kind_eqb_refl a : kind_eqb a a = true.
Proof. destruct a; reflexivity. Qed.

Lemma set_same {M} (q : queues M) k l : set_q q k l k = l.
Proof. unfold set_q. rewrite kind_eqb_refl. reflexivity. Qed.
Lemma set_other {M} (q : queues M) k l k' : k' <> k -> set_q q k l k' = q k'.
Proof. unfold set_q. intro H. destruct (kind_eqb k' k) eqn:E; [apply kind_eqb_eq in E; contradiction|reflexivity]. Qed.

Lemma kind_dec (a b : kind) : {a = b} + {a <> b}.
Proof. decide equality. Qed.

(** ** Tags *)
Section Fix.
  Variable cm : casemapping.
  Variable labels : bool.

  Lemma label_ne c n : label c n <> [].
  Proof. unfold label. discriminate. Qed.

  Lemma kinds_named k k' : kind_name k = kind_name k' -> k = k'.
  Proof. destruct k, k'; (reflexivity || discriminate). Qed.
  Lemma kind_of_name k : kind_of (kind_name k) = Some k.
  Proof. destruct k; reflexivity. Qed.
  Lemma kind_of_none x : (forall k, x <> kind_name k) -> kind_of x = None.
  Proof.
    intro H. unfold kind_of. destruct (find _ kinds) as [k|] eqn:F; [|reflexivity]. apply find_some in F as [_ F]. apply beqb_eq in F. exfalso. exact (H k (eq_sym F)).
  Qed.

  (** The label under which a line of a job is handled. *)
  Definition id_of (j : job) : N := if labels then w_client (j_cmd j) else 0%N.
  Lemma handle_tagged s jobs j l : InvB labels s jobs -> In j jobs -> tagged j l -> handle cm s l = dispatch cm s (w_label (j_cmd j)) (id_of j) (l_cmd l) (l_params l).
  Proof.
    intros I Hj T. destruct (i_job _ _ _ I j Hj) as (J1 & J2 & (n & Jn & Jl) & _ & _). unfold handle, tagged, id_of in *.
    destruct labels; rewrite Jl in *.
    - destruct (label (w_client (j_cmd j)) n) as [|x y] eqn:E; [exfalso; exact (label_ne _ _ E)|]. rewrite <- E in *. clear x y E.
      destruct T as [(_ & -> & ->)|(r & R & -> & ->)].
      + rewrite Proof.Pending.parse_label_label by assumption. reflexivity.
      + rewrite (proj2 (i_batch _ _ _ I r (label (w_client (j_cmd j)) n)) (ex_intro _ j (conj Hj (conj R (eq_sym Jl))))).
        rewrite Proof.Pending.parse_label_label by assumption. reflexivity.
    - destruct T as [-> ->]. reflexivity.
  Qed.

  (** ** Deliveries *)
  Lemma filter_one c l : NoDup l -> filter (N.eqb c) l = if existsb (N.eqb c) l then [c] else [].
  Proof.
    induction l as [|x l IH]; intro N; [reflexivity|]. inversion N as [|? ? N1 N2]; subst. cbn [filter existsb]. destruct (N.eqb_spec c x) as [<-|D]; cbn [orb]; [|exact (IH N2)].
    f_equal. rewrite (IH N2). destruct (existsb (N.eqb c) l) eqn:E; [|reflexivity]. exfalso. apply existsb_exists in E as (y & Hy & E). apply N.eqb_eq in E. subst. contradiction.
  Qed.
  Lemma delivered_deliver s c m : NoDup (b_clients s) -> delivered (deliver s c m) = map (fun c => (c, m)) (filter (N.eqb c) (b_clients s)).
  Proof. intro N. rewrite (filter_one c _ N). unfold deliver, present. destruct (existsb _ _); reflexivity. Qed.
  Lemma delivered_map m l : delivered (map (fun c => Deliver c m) l) = map (fun c => (c, m)) l.
  Proof. induction l as [|x l IH]; [reflexivity|]. unfold delivered in *. cbn [map flat_map app]. rewrite IH. reflexivity. Qed.
  Lemma delivered_forward s c m : c <> 0%N -> delivered (forward s c m) = map (fun c => (c, m)) (filter (N.eqb c) (b_clients s)).
  Proof. intro H. unfold forward. rewrite delivered_map, (Proof.Pending.routed_one c _ H). f_equal. apply filter_ext. intro x. apply N.eqb_sym. Qed.
  Lemma delivered_forward_all s m : delivered (forward s 0 m) = map (fun c => (c, m)) (b_clients s).
  Proof. unfold forward. rewrite delivered_map, Proof.Pending.routed_all. reflexivity. Qed.
  Lemma fault_deliver s c m : no_fault (deliver s c m).
  Proof. unfold deliver, no_fault. destruct (present s c); [intros [E|[]]; discriminate|intros []]. Qed.
  Lemma fault_forward s c m : no_fault (forward s c m).
  Proof. unfold forward, no_fault. intro H. apply in_map_iff in H as (x & E & _). discriminate. Qed.
  Lemma sent_deliver s c m : sent_of (deliver s c m) = [].
  Proof. unfold deliver. destruct (present s c); reflexivity. Qed.
  Lemma sent_forward s c m : sent_of (forward s c m) = [].
  Proof. unfold forward. induction (routed_to c (b_clients s)) as [|x l IH]; [reflexivity|exact IH]. Qed.
  Lemma delivered_app a b : delivered (a ++ b) = delivered a ++ delivered b.
  Proof. apply flat_map_app. Qed.
  Lemma sent_app a b : sent_of (a ++ b) = sent_of a ++ sent_of b.
  Proof. apply flat_map_app. Qed.
  Lemma fault_app a b : no_fault a -> no_fault b -> no_fault (a ++ b).
  Proof. unfold no_fault. intros A D H. apply in_app_or in H. tauto. Qed.

  (** ** Queues *)
  Definition bump (s : bst) : bst := Bst (b_labels s) (b_next s + 1) (b_batches s) (b_queues s) (b_ids s) (b_clients s).
  Definition next_cmd (s : bst) (c : N) (k : option kind) (m : body) : sent_cmd := Sent c (if b_labels s then label c (b_next s) else []) k m.

  Lemma take_one s k p : b_queues s k = [p] -> take s k = (with_queues s (set_q (b_queues s) k []), []).
  Proof. intro E. unfold take, dequeue. rewrite E. unfold send_next. rewrite set_same. reflexivity. Qed.
  Lemma take_more s k p p2 q : b_queues s k = p :: p2 :: q ->
    take s k = (bump (with_queues s (set_q (set_q (b_queues s) k (p2 :: q)) k (Pcmd (p_client p2) (p_msg p2) (Some 0%Z) :: q))),
                [Send (next_cmd s (p_client p2) (Some k) (kind_name k, p_msg p2))]).
  Proof. intro E. unfold take, dequeue. rewrite E. unfold send_next. rewrite set_same. reflexivity. Qed.

  Lemma ask_idle s c k ps : b_queues s k = [] ->
    ask s c k ps = (bump (with_queues s (set_q (set_q (b_queues s) k [Pcmd c ps None]) k [Pcmd c ps (Some 0%Z)])), [Send (next_cmd s c (Some k) (kind_name k, ps))]).
  Proof. intro E. unfold ask, enqueue. rewrite E. cbn [app length Nat.eqb]. unfold send_next. rewrite set_same. reflexivity. Qed.
  Lemma ask_busy s c k ps p q : b_queues s k = p :: q -> (p_sent p = None \/ p_sent p = Some 0%Z) ->
    ask s c k ps = (with_queues s (set_q (b_queues s) k (p :: q ++ [Pcmd c ps None])), []).
  Proof.
    intros E H. unfold ask, enqueue. rewrite E. cbn [app]. destruct p as [pc pm pt]. cbn [p_sent] in H.
    assert (match pt with Some t => if (stale_after <? 0 - t)%Z then copy_down (Pcmd pc pm pt :: q ++ [Pcmd c ps None]) else Pcmd pc pm pt :: q ++ [Pcmd c ps None] | None => Pcmd pc pm pt :: q ++ [Pcmd c ps None] end = Pcmd pc pm pt :: q ++ [Pcmd c ps None]) as A by (destruct H as [-> | ->]; reflexivity).
    destruct pt; cbn iota in A |- *; rewrite ?A; cbn [length]; rewrite app_length, Nat.add_comm; reflexivity.
  Qed.

  (** ** The invariant *)
  Lemma start_inv : Inv labels (new_bst labels) [].
  Proof.
    split; split; cbn.
    - reflexivity.
    - reflexivity.
    - intros c [].
    - constructor.
    - reflexivity.
    - intros j [].
    - intros r lb. split; [discriminate|intros (j & [] & _)].
    - constructor.
    - reflexivity.
    - intros k p [].
  Qed.

  Lemma B_queues s q jobs : InvB labels s jobs -> InvB labels (with_queues s q) jobs.
  Proof. intros [A1 A2 A3 A4 A5 A6 A7 A8]. split; assumption. Qed.
  Lemma B_add s jobs c k m : InvB labels s jobs -> (0 < c)%N -> fits c -> (b_next s + 1 < N64)%N -> InvB labels (bump s) (jobs ++ [Job (next_cmd s c k m) [] false]).
  Proof.
    intros [A1 A2 A3 A4 A5 A6 A7 A8] H1 H2 H3. split; try assumption.
    - intros j H. apply in_app_or in H as [H|[<-|[]]]; [exact (A6 j H)|]. cbn [j_cmd w_client w_label next_cmd j_refs j_done]. split; [exact H1|]. split; [exact H2|].
      split; [exists (b_next s); rewrite A1; split; [exact A5|reflexivity]|]. split; reflexivity.
    - intros r lb. cbn [bump b_batches]. rewrite A7. split.
      + intros (j & J1 & J2). exists j. split; [apply in_or_app; left; exact J1|exact J2].
      + intros (j & J1 & J2 & J3). apply in_app_or in J1 as [J1|[<-|[]]]; [exists j; auto|destruct J2].
    - rewrite flat_map_app. cbn [flat_map j_refs app]. rewrite app_nil_r. exact A8.
  Qed.
  Lemma waits_new s c k k' m : waits k' (Job (next_cmd s c (Some k) m) [] false) = kind_eqb k k'.
  Proof. unfold waits. cbn. apply andb_true_r. Qed.

  Lemma Q_pass s jobs c m : InvQ (b_queues s) jobs -> InvQ (b_queues s) (jobs ++ [Job (next_cmd s c None m) [] false]).
  Proof.
    intros [A D]. split; [|exact D]. intro k. rewrite filter_app. specialize (A k). cbn [filter waits j_cmd w_kind next_cmd]. rewrite app_nil_r. exact A.
  Qed.

  Lemma arrive_inv s jobs : (b_ids s + 1 < N64)%N -> Inv labels s jobs -> Inv labels (arrive s) jobs.
  Proof.
    intros H [[A1 A2 A3 A4 A5 A6 A7 A8] Q]. split; [|exact Q]. split; try assumption; cbn [arrive b_ids b_clients].
    - intros c J. apply in_app_or in J as [J|[<-|[]]]; [specialize (A3 c J)|]; lia.
    - apply NoDup_app_snoc; [exact A4|]. intro J. specialize (A3 _ J). lia.
  Qed.
  Lemma leave_inv s jobs c : Inv labels s jobs -> Inv labels (leave s c) jobs.
  Proof.
    intros [[A1 A2 A3 A4 A5 A6 A7 A8] [Q1 Q2]]. split; split; try assumption; cbn [leave b_clients b_queues].
    - intros x J. apply filter_In in J as [J _]. exact (A3 x J).
    - apply NoDup_filter. exact A4.
    - intro k. specialize (Q1 k). unfold cancel. destruct (b_queues s k) as [|p q]; exact Q1.
    - intros k p J. apply (Q2 k). unfold cancel in J. destruct (b_queues s k) as [|p0 q]; [exact J|]. destruct J as [->|J]; [left; reflexivity|right]. apply filter_In in J as [J _]. exact J.
  Qed.

  Lemma ask_inv s jobs c k ps : In c (b_clients s) -> In k queries -> (b_next s + 1 < N64)%N -> Inv labels s jobs -> Inv labels (fst (ask s c k ps)) (jobs ++ sent_of (snd (ask s c k ps))).
  Proof.
    intros Hc Hk Hn [Bi [Q1 Q2]]. destruct (i_clients _ _ _ Bi c Hc) as [C1 C2]. assert (fits c) as C3 by (pose proof (i_ids _ _ _ Bi); unfold fits in *; lia).
    destruct (b_queues s k) as [|p q] eqn:E.
    - rewrite (ask_idle s c k ps E). cbn [fst snd sent_of flat_map app]. split; [exact (B_add (with_queues s _) jobs c (Some k) _ (B_queues _ _ _ Bi) C1 C3 Hn)|].
      cbn [bump with_queues b_queues]. split.
      + intro k'. destruct (kind_dec k' k) as [->|D].
        * rewrite set_same. specialize (Q1 k). rewrite E in Q1. eexists. rewrite filter_app, Q1. cbn [filter app]. rewrite waits_new, kind_eqb_refl. split; [reflexivity|]. split; reflexivity.
        * rewrite !set_other by exact D. specialize (Q1 k'). rewrite filter_app. cbn [filter]. rewrite waits_new. destruct (kind_eqb k k') eqn:Ek; [apply kind_eqb_eq in Ek; congruence|]. rewrite app_nil_r. exact Q1.
      + intros k' p J. destruct (kind_dec k' k) as [->|D]; [rewrite set_same in J|rewrite !set_other in J by exact D; exact (Q2 k' p J)].
        destruct J as [<-|[]]. cbn. auto.
    - destruct (Q2 k p) as (P1 & P2 & P3 & P4); [rewrite E; left; reflexivity|]. rewrite (ask_busy s c k ps p q E P4). cbn [fst snd sent_of flat_map]. rewrite app_nil_r.
      split; [exact (B_queues _ _ _ Bi)|]. cbn [with_queues b_queues]. split.
      + intro k'. destruct (kind_dec k' k) as [->|D]; [rewrite set_same; specialize (Q1 k); rewrite E in Q1; exact Q1|rewrite set_other by exact D; exact (Q1 k')].
      + intros k' p' J. destruct (kind_dec k' k) as [->|D]; [rewrite set_same in J|rewrite set_other in J by exact D; exact (Q2 k' p' J)].
        rewrite app_comm_cons, <- E in J. apply in_app_or in J as [J|[<-|[]]]; [exact (Q2 k p' J)|]. cbn. auto.
  Qed.

  (** Replacing a job. *)
  Definition keep (after : option job) : list job := match after with Some j => [j] | None => [] end.
  Lemma take_inv s a j b k after : (b_next s + 1 < N64)%N -> InvB labels s (a ++ keep after ++ b) -> InvQ (b_queues s) (a ++ j :: b) ->
    w_kind (j_cmd j) = Some k -> waiting j -> (forall k', filter (waits k') (keep after) = []) ->
    exists p q, b_queues s k = p :: q /\ p_client p = w_client (j_cmd j) /\ p_msg p = snd (w_body (j_cmd j)) /\
      Inv labels (fst (take s k)) (a ++ keep after ++ b ++ sent_of (snd (take s k))) /\
      delivered (snd (take s k)) = [] /\ no_fault (snd (take s k)) /\ b_clients (fst (take s k)) = b_clients s.
  Proof.
    intros Hn Bi [Q1 Q2] Hk Hw Hf. assert (waits k j = true) as W by (unfold waits; rewrite Hk, Hw, kind_eqb_refl; reflexivity).
    pose proof (Q1 k) as K. rewrite filter_app in K. cbn [filter] in K. rewrite W in K.
    destruct (b_queues s k) as [|p q] eqn:E; [destruct (filter (waits k) a); discriminate|]. destruct K as (j0 & K & K1 & K2).
    assert (filter (waits k) a = [] /\ j = j0 /\ filter (waits k) b = []) as (Fa & <- & Fb).
    { destruct (filter (waits k) a) as [|x [|y l]]; cbn [app] in K; [injection K as -> ->; auto|discriminate|discriminate]. }
    exists p, q. split; [reflexivity|]. split; [congruence|]. split; [congruence|].
    assert (O : forall k', k' <> k -> filter (waits k') (a ++ keep after ++ b) = filter (waits k') (a ++ j :: b)).
    { intros k' D. rewrite !filter_app, (Hf k'). cbn [filter app]. assert (waits k' j = false) as ->; [|reflexivity].
      unfold waits. rewrite Hk. destruct (kind_eqb k k') eqn:Ek; [apply kind_eqb_eq in Ek; congruence|reflexivity]. }
    destruct q as [|p2 q].
    - rewrite (take_one s k p E). cbn [fst snd sent_of flat_map]. rewrite app_nil_r. split; [|split; [reflexivity|split; [intros []|reflexivity]]].
      split; [exact (B_queues _ _ _ Bi)|]. cbn [with_queues b_queues]. split.
      + intro k'. destruct (kind_dec k' k) as [->|D].
        * rewrite set_same, !filter_app, Fa, Fb, (Hf k). reflexivity.
        * rewrite set_other by exact D. rewrite (O k' D). exact (Q1 k').
      + intros k' p' J. destruct (kind_dec k' k) as [->|D]; [rewrite set_same in J; destruct J|rewrite set_other in J by exact D; exact (Q2 k' p' J)].
    - rewrite (take_more s k p p2 q E). cbn [fst snd sent_of flat_map app]. split; [|split; [reflexivity|split; [intros [X|[]]; discriminate|reflexivity]]].
      destruct (Q2 k p2) as (P1 & P2 & P3 & P4); [rewrite E; right; left; reflexivity|].
      replace (a ++ keep after ++ b ++ _) with ((a ++ keep after ++ b) ++ [Job (next_cmd s (p_client p2) (Some k) (kind_name k, p_msg p2)) [] false]) by (rewrite <- !app_assoc; reflexivity).
      split; [exact (B_add (with_queues s _) _ _ (Some k) _ (B_queues _ _ _ Bi) P2 P3 Hn)|]. cbn [bump with_queues b_queues]. split.
      + intro k'. rewrite filter_app. cbn [filter]. rewrite waits_new. destruct (kind_dec k' k) as [->|D].
        * rewrite set_same, kind_eqb_refl, !filter_app, Fa, Fb, (Hf k). cbn [app]. eexists. split; [reflexivity|]. split; reflexivity.
        * rewrite !set_other by exact D. rewrite (O k' D). destruct (kind_eqb k k') eqn:Ek; [apply kind_eqb_eq in Ek; congruence|]. rewrite app_nil_r. exact (Q1 k').
      + intros k' p' J. destruct (kind_dec k' k) as [->|D]; [rewrite set_same in J|rewrite !set_other in J by exact D; exact (Q2 k' p' J)].
        destruct J as [<-|J]; [cbn; auto|]. apply (Q2 k). rewrite E. right. right. exact J.
  Qed.

  (** ** Lines *)
  Ltac lit := repeat match goal with
    | |- context [beqb (B ?a) (B ?b)] => let v := eval vm_compute in (beqb (B a) (B b)) in change (beqb (B a) (B b)) with v
    | |- context [bmem (B ?a) ?l] => let v := eval vm_compute in (bmem (B a) l) in change (bmem (B a) l) with v end; cbn iota.
  Ltac each H := repeat (destruct H as [H|H]; [|]); try (destruct H; fail).

  Lemma d_part s lb id k p q cmd ps : part_of k (cmd, ps) -> b_queues s k = p :: q -> dispatch cm s lb id cmd ps = (s, deliver s (p_client p) (cmd, ps)).
  Proof.
    intros H E. unfold dispatch. destruct k; cbn [part_of fst snd] in H; try contradiction.
    - destruct H as [<-|[<-|[]]]; lit; unfold to_current; rewrite E; reflexivity.
    - destruct H as [->|(-> & L & Sp)]; lit; [unfold to_current; rewrite E; reflexivity|]. destruct (Nat.ltb_spec (length ps) 8); [lia|]. rewrite E.
      apply amem_In in Sp. rewrite Sp. cbn [negb]. rewrite andb_false_r. unfold to_current. rewrite E. reflexivity.
    - repeat (destruct H as [<-|H]; [lit; unfold to_current; rewrite E; reflexivity|]). destruct H.
  Qed.
  Lemma d_end s lb id k p q cmd ps : is_end k (cmd, ps) -> b_queues s k = p :: q ->
    dispatch cm s lb id cmd ps = (fst (take s k), snd (take s k) ++ deliver (fst (take s k)) (p_client p) (cmd, ps)).
  Proof.
    intros H E. unfold dispatch. destruct k; cbn [is_end fst] in H; try contradiction; subst cmd; lit; unfold to_last; rewrite E; destruct (take s _); reflexivity.
  Qed.
  Lemma d_error s lb id command cmd ps : error_about command (cmd, ps) -> dispatch cm s lb id cmd ps = to_failed s id command (cmd, ps).
  Proof.
    intros [(H & L & Nc)|(H & L & Nc)]; cbn [fst snd] in *; unfold dispatch.
    - repeat (destruct H as [<-|H]; [lit; destruct (Nat.ltb_spec (length ps) 3); [lia|rewrite Nc; reflexivity]|]). destruct H.
    - subst cmd. lit. destruct (Nat.ltb_spec (length ps) 2); [lia|rewrite Nc; reflexivity].
  Qed.
  Lemma d_noone s lb id nick cmd ps : no_one nick (cmd, ps) -> dispatch cm s lb id cmd ps =
    match b_queues s WHOIS with
    | p :: _ => if beqb (casemap cm (last_param (p_msg p))) (casemap cm nick) then to_last s WHOIS (cmd, ps) [] else (s, forward s id (cmd, ps))
    | [] => (s, forward s id (cmd, ps))
    end.
  Proof.
    intros (H & L & Nc). cbn [fst snd] in *. unfold dispatch.
    repeat (destruct H as [<-|H]; [lit; destruct (Nat.ltb_spec (length ps) 3); [lia|rewrite Nc; reflexivity]|]). destruct H.
  Qed.
  Lemma d_341 s lb id ps : 3 <= length ps -> dispatch cm s lb id (B "341") ps = (s, forward s id (B "341", ps)).
  Proof. intro L. unfold dispatch. lit. destruct (Nat.ltb_spec (length ps) 3); [lia|reflexivity]. Qed.
  Lemma d_rest s lb id cmd ps : ~ In cmd (B "BATCH" :: B "FAIL" :: B "341" :: [B "400"; B "421"; B "461"; B "263"] ++ [B "401"; B "402"] ++ query_lines ++ ignored ++ elsewhere) ->
    dispatch cm s lb id cmd ps = (s, forward s id (cmd, ps)).
  Proof.
    intro H. assert (F : forall x, In x (B "BATCH" :: B "FAIL" :: B "341" :: [B "400"; B "421"; B "461"; B "263"] ++ [B "401"; B "402"] ++ query_lines ++ ignored ++ elsewhere) -> beqb cmd x = false).
    { intros x J. apply beqb_neq. intros ->. exact (H J). }
    assert (G : forall l, (forall x, In x l -> In x (B "BATCH" :: B "FAIL" :: B "341" :: [B "400"; B "421"; B "461"; B "263"] ++ [B "401"; B "402"] ++ query_lines ++ ignored ++ elsewhere)) -> bmem cmd l = false).
    { intros l J. destruct (bmem cmd l) eqn:E; [|reflexivity]. exfalso. apply H, J. apply bmem_In. exact E. }
    assert (S : forall l, forallb (fun x => bmem x (B "BATCH" :: B "FAIL" :: B "341" :: [B "400"; B "421"; B "461"; B "263"] ++ [B "401"; B "402"] ++ query_lines ++ ignored ++ elsewhere)) l = true -> bmem cmd l = false).
    { intros l J. apply G. intros x I. rewrite forallb_forall in J. apply bmem_In. exact (J x I). }
    assert (T : forall x, bmem x (B "BATCH" :: B "FAIL" :: B "341" :: [B "400"; B "421"; B "461"; B "263"] ++ [B "401"; B "402"] ++ query_lines ++ ignored ++ elsewhere) = true -> beqb cmd x = false).
    { intros x J. apply F. apply bmem_In. exact J. }
    unfold dispatch. rewrite (T (B "BATCH")), (S list_lines), (T (B "323")), (T (B "352")), (S who_lines), (T (B "315")), (S whois_lines), (T (B "318")), (T (B "341")), (S no_such), (S failed), (T (B "FAIL")), (S ignored), (S elsewhere) by (vm_compute; reflexivity).
    reflexivity.
  Qed.
  Lemma d_ack s lb id ps : dispatch cm s lb id (B "ACK") ps = (s, []).
  Proof. unfold dispatch. lit. reflexivity. Qed.
  Lemma d_batch s lb id ps : dispatch cm s lb id (B "BATCH") ps = batch s lb ps.
  Proof. unfold dispatch. lit. reflexivity. Qed.

  (** ** Replacing a job *)
  Lemma in_mid {X} (a b : list X) x y : In x (a ++ y :: b) <-> In x a \/ x = y \/ In x b.
  Proof. rewrite in_app_iff. cbn [In]. intuition congruence. Qed.
  Lemma in_keep (a b : list job) after x : In x (a ++ keep after ++ b) <-> In x a \/ after = Some x \/ In x b.
  Proof. rewrite !in_app_iff. destruct after as [j|]; cbn [keep In]; intuition congruence. Qed.

  Lemma B_replace s a j b after : InvB labels s (a ++ j :: b) ->
    match after with Some j' => j_cmd j' = j_cmd j /\ j_refs j' = j_refs j /\ (j_refs j = [] -> j_done j' = false) | None => j_refs j = [] end ->
    InvB labels s (a ++ keep after ++ b).
  Proof.
    intros [A1 A2 A3 A4 A5 A6 A7 A8] H. split; try assumption.
    - intros x J. apply in_keep in J as [J|[J|J]]; [apply A6, in_mid; auto| |apply A6, in_mid; auto]. subst after. destruct H as (H1 & H2 & H3).
      destruct (A6 j) as (B1 & B2 & B3 & B4 & B5); [apply in_mid; auto|]. rewrite H1, H2. auto.
    - intros r lb. rewrite A7. split; intros (x & J & R & L).
      + apply in_mid in J as [J|[->|J]]; [exists x; split; [apply in_keep; auto|auto]| |exists x; split; [apply in_keep; auto|auto]].
        destruct after as [j'|]; [|rewrite H in R; destruct R]. destruct H as (H1 & H2 & H3). exists j'. split; [apply in_keep; auto|]. rewrite H1, H2. auto.
      + apply in_keep in J as [J|[J|J]]; [exists x; split; [apply in_mid; auto|auto]| |exists x; split; [apply in_mid; auto|auto]].
        subst after. destruct H as (H1 & H2 & H3). exists j. split; [apply in_mid; auto|]. rewrite <- H1, <- H2. auto.
    - rewrite flat_map_app in A8. cbn [flat_map] in A8. rewrite !flat_map_app. destruct after as [j'|]; cbn [keep flat_map].
      + destruct H as (_ & -> & _). rewrite app_nil_r. exact A8.
      + rewrite H in A8. exact A8.
  Qed.

  Lemma in_refs (r : bytes) jobs : In r (flat_map j_refs jobs) <-> exists j, In j jobs /\ In r (j_refs j).
  Proof. rewrite in_flat_map. reflexivity. Qed.

  Lemma B_open s a j b r : InvB labels s (a ++ j :: b) -> w_label (j_cmd j) <> [] -> (forall x, In x (a ++ j :: b) -> ~ In r (j_refs x)) ->
    InvB labels (with_batches s (fun t => if beqb t r then Some (w_label (j_cmd j)) else b_batches s t)) (a ++ keep (Some (Job (j_cmd j) (r :: j_refs j) (j_done j))) ++ b).
  Proof.
    intros [A1 A2 A3 A4 A5 A6 A7 A8] Hl F. split; try assumption.
    - intros x J. apply in_keep in J as [J|[J|J]]; [apply A6, in_mid; auto| |apply A6, in_mid; auto]. injection J as <-. cbn [j_cmd j_refs j_done].
      destruct (A6 j) as (B1 & B2 & (n & B3 & B3') & B4 & B5); [apply in_mid; auto|]. split; [exact B1|]. split; [exact B2|]. split; [exists n; auto|]. split; [|discriminate].
      intros ->. rewrite B3' in Hl. contradiction.
    - intros t lb. cbn [with_batches b_batches]. destruct (beqb_spec t r) as [->|D].
      + split.
        * intro E. injection E as <-. exists (Job (j_cmd j) (r :: j_refs j) (j_done j)). split; [apply in_keep; auto|]. split; [left; reflexivity|reflexivity].
        * intros (x & J & R & ->). apply in_keep in J as [J|[J|J]]; [exfalso; apply (F x); [apply in_mid; auto|exact R]| |exfalso; apply (F x); [apply in_mid; auto|exact R]].
          injection J as <-. reflexivity.
      + rewrite A7. split; intros (x & J & R & ->).
        * apply in_mid in J as [J|[->|J]]; [exists x; split; [apply in_keep; auto|auto]| |exists x; split; [apply in_keep; auto|auto]].
          eexists. split; [apply in_keep; right; left; reflexivity|]. cbn. auto.
        * apply in_keep in J as [J|[J|J]]; [exists x; split; [apply in_mid; auto|auto]| |exists x; split; [apply in_mid; auto|auto]].
          injection J as <-. destruct R as [R|R]; [congruence|]. exists j. split; [apply in_mid; auto|auto].
    - eapply Permutation_NoDup with (l := r :: flat_map j_refs (a ++ j :: b)).
      + rewrite !flat_map_app. cbn [keep flat_map j_refs app]. rewrite app_nil_r. apply Permutation_middle.
      + constructor; [|exact A8]. intro J. apply in_refs in J as (x & J & R). exact (F x J R).
  Qed.

  Lemma B_close s a j b r refs : InvB labels s (a ++ j :: b) -> j_refs j = r :: refs ->
    InvB labels (with_batches s (fun t => if beqb t r then None else b_batches s t)) (a ++ keep (match refs with [] => None | _ => Some (Job (j_cmd j) refs (j_done j)) end) ++ b).
  Proof.
    intros [A1 A2 A3 A4 A5 A6 A7 A8] Hr.
    assert (P : Permutation (flat_map j_refs (a ++ j :: b)) (r :: flat_map j_refs (a ++ keep (match refs with [] => None | _ => Some (Job (j_cmd j) refs (j_done j)) end) ++ b))).
    { rewrite !flat_map_app. cbn [flat_map]. rewrite Hr. symmetry. etransitivity; [apply Permutation_middle|]. apply Permutation_app_head.
      destruct refs; cbn [keep flat_map j_refs app]; rewrite ?app_nil_r; reflexivity. }
    pose proof (Permutation_NoDup P A8) as N. apply NoDup_cons_iff in N as [N1 N2]. split; try assumption.
    - intros x J. apply in_keep in J as [J|[J|J]]; [apply A6, in_mid; auto| |apply A6, in_mid; auto]. destruct refs as [|r2 refs]; [discriminate|]. injection J as <-. cbn [j_cmd j_refs j_done].
      destruct (A6 j) as (B1 & B2 & B3 & B4 & B5); [apply in_mid; auto|]. split; [exact B1|]. split; [exact B2|]. split; [exact B3|]. split; [|discriminate].
      intro E. specialize (B4 E). congruence.
    - intros t lb. cbn [with_batches b_batches]. destruct (beqb_spec t r) as [->|D].
      + split; [discriminate|]. intros (x & J & R & ->). exfalso. apply N1. apply in_refs. exists x. auto.
      + rewrite A7. split; intros (x & J & R & ->).
        * apply in_mid in J as [J|[->|J]]; [exists x; split; [apply in_keep; auto|auto]| |exists x; split; [apply in_keep; auto|auto]].
          rewrite Hr in R. destruct R as [R|R]; [congruence|]. destruct refs as [|r2 refs]; [destruct R|]. eexists. split; [apply in_keep; right; left; reflexivity|]. cbn [j_refs j_cmd]. auto.
        * apply in_keep in J as [J|[J|J]]; [exists x; split; [apply in_mid; auto|auto]| |exists x; split; [apply in_mid; auto|auto]].
          destruct refs as [|r2 refs]; [discriminate|]. injection J as <-. exists j. split; [apply in_mid; auto|]. rewrite Hr. split; [right; exact R|reflexivity].
  Qed.

  Lemma Q_replace qs a j b after : InvQ qs (a ++ j :: b) -> (forall k, filter (waits k) (keep after) = if waits k j then [match after with Some j' => j' | None => j end] else []) ->
    match after with Some j' => j_cmd j' = j_cmd j | None => True end -> InvQ qs (a ++ keep after ++ b).
  Proof.
    intros [Q1 Q2] F C. split; [|exact Q2]. intro k. specialize (Q1 k). specialize (F k). rewrite !filter_app. rewrite filter_app in Q1. cbn [filter] in Q1. rewrite F.
    destruct (waits k j).
    - destruct (qs k) as [|p q]; [destruct (filter (waits k) a); discriminate|]. destruct Q1 as (j0 & K & K1 & K2).
      destruct (filter (waits k) a) as [|x [|y l]]; cbn [app] in K |- *; [injection K as -> ->|discriminate|discriminate].
      eexists. split; [reflexivity|]. destruct after as [j'|]; [rewrite C; auto|auto].
    - exact Q1.
  Qed.

  (** ** A line *)
  Lemma head_of s a j b k : InvQ (b_queues s) (a ++ j :: b) -> w_kind (j_cmd j) = Some k -> waiting j ->
    exists p q, b_queues s k = p :: q /\ p_client p = w_client (j_cmd j) /\ p_msg p = snd (w_body (j_cmd j)).
  Proof.
    intros [Q1 _] Hk Hw. specialize (Q1 k). rewrite filter_app in Q1. cbn [filter] in Q1. assert (waits k j = true) as W by (unfold waits; rewrite Hk, Hw, kind_eqb_refl; reflexivity).
    rewrite W in Q1. destruct (b_queues s k) as [|p q]; [destruct (filter (waits k) a); discriminate|]. destruct Q1 as (j0 & K & K1 & K2).
    destruct (filter (waits k) a) as [|x [|y l]]; cbn [app] in K; [injection K as <- _|discriminate|discriminate]. exists p, q. auto.
  Qed.

  Definition to_asker (s : bst) (j : job) (m : body) : list (N * body) := map (fun c => (c, m)) (filter (N.eqb (w_client (j_cmd j))) (b_clients s)).
  Definition to_all (s : bst) (m : body) : list (N * body) := map (fun c => (c, m)) (b_clients s).

  Definition good (s : bst) (a : list job) (j : job) (b : list job) (l : line) (after : option job) (r : bst * list output) : Prop :=
    Inv labels (fst r) (a ++ keep after ++ b ++ sent_of (snd r)) /\ no_fault (snd r) /\
    (l_cmd l = B "BATCH" \/ l_cmd l = B "ACK" -> delivered (snd r) = []) /\
    (l_cmd l <> B "BATCH" -> l_cmd l <> B "ACK" -> labels = true -> delivered (snd r) = to_asker s j (body_of l)) /\
    (labels = false -> l_cmd l <> B "BATCH" -> l_cmd l <> B "ACK" -> of_query cm j (body_of l) ->
       In (w_client (j_cmd j)) (b_clients s) \/ (forall x, ~ error_about x (body_of l)) -> delivered (snd r) = to_asker s j (body_of l)) /\
    (labels = false -> l_cmd l <> B "BATCH" -> l_cmd l <> B "ACK" -> ~ of_query cm j (body_of l) -> delivered (snd r) = to_all s (body_of l)).

  Lemma present_in s c : present s c = true <-> In c (b_clients s).
  Proof. unfold present. rewrite existsb_exists. split; [intros (x & J & E); apply N.eqb_eq in E; subst; exact J|intro J; exists c; split; [exact J|apply N.eqb_refl]]. Qed.

  Lemma ask_part k m : part_of k m -> fst m <> B "BATCH" /\ fst m <> B "ACK".
  Proof. destruct m as [c ps]. destruct k; cbn [part_of fst snd]; try contradiction; intro H; repeat (destruct H as [H|H]; [subst c; split; discriminate|]); try destruct H as (-> & _); try contradiction; split; discriminate. Qed.

  (** ** Which lines are which *)
  Definition errs : list bytes := [B "400"; B "421"; B "461"; B "263"; B "FAIL"].
  Lemma apart L1 L2 (c : bytes) : forallb (fun x => negb (bmem x L2)) L1 = true -> In c L1 -> In c L2 -> False.
  Proof. intros H A D. rewrite forallb_forall in H. specialize (H c A). apply bmem_In in D. rewrite D in H. discriminate. Qed.
  Lemma part_lines k m : part_of k m -> In (fst m) query_lines.
  Proof.
    intro H. apply bmem_In. destruct m as [c ps]. destruct k; cbn [part_of fst snd] in *; try contradiction.
    - repeat (destruct H as [<-|H]; [vm_compute; reflexivity|]). destruct H.
    - destruct H as [->|(-> & _)]; vm_compute; reflexivity.
    - repeat (destruct H as [<-|H]; [vm_compute; reflexivity|]). destruct H.
  Qed.
  Lemma end_lines k m : is_end k m -> In (fst m) query_lines.
  Proof. intro H. apply bmem_In. destruct m as [c ps]. destruct k; cbn [is_end fst] in *; try contradiction; subst c; vm_compute; reflexivity. Qed.
  Lemma error_lines x m : error_about x m -> In (fst m) errs.
  Proof. intros [(H & _)|(-> & _)]; apply bmem_In; [|vm_compute; reflexivity]. repeat (destruct H as [<-|H]; [vm_compute; reflexivity|]). destruct H. Qed.
  Lemma noone_lines x m : no_one x m -> In (fst m) [B "401"; B "402"].
  Proof. intros (H & _). exact H. Qed.
  Lemma ends_lines k ps m : ends cm k ps m -> In (fst m) (query_lines ++ errs ++ [B "401"; B "402"]).
  Proof.
    intros [H|[H|(_ & nick & H & _)]]; apply in_or_app; [left; exact (end_lines _ _ H)|right|right]; apply in_or_app; [left; exact (error_lines _ _ H)|right; exact (noone_lines _ _ H)].
  Qed.
  Lemma error_one x y m : error_about x m -> error_about y m -> x = y.
  Proof.
    intros [(A1 & A2 & A3)|(A1 & A2 & A3)] [(C1 & C2 & C3)|(C1 & C2 & C3)]; [congruence| | |congruence]; exfalso.
    - rewrite C1 in A1. repeat (destruct A1 as [A1|A1]; [discriminate|]). destruct A1.
    - rewrite A1 in C1. repeat (destruct C1 as [C1|C1]; [discriminate|]). destruct C1.
  Qed.
  Lemma plain_tags jobs m : plain cm jobs m -> ~ In (fst m) (B "BATCH" :: query_lines).
  Proof.
    intros [(x & H & _)|[(x & H & _)|[(H & _)|H]]].
    - apply error_lines in H. intro J. revert H J. apply apart. vm_compute. reflexivity.
    - apply noone_lines in H. intro J. revert H J. apply apart. vm_compute. reflexivity.
    - rewrite H. apply bmem_nIn. vm_compute. reflexivity.
    - intro J. apply H. destruct J as [J|J]; [left; exact J|]. right. right. right. apply in_or_app. right. apply in_or_app. right. apply in_or_app. left. exact J.
  Qed.
  Lemma plain_not_query jobs j m : In j jobs -> waiting j -> plain cm jobs m -> ~ of_query cm j m.
  Proof.
    intros Hj Hw P (k & Hk & [H|[H|[H|(-> & nick & H & E)]]]); pose proof (plain_tags _ _ P) as T.
    - apply T. right. exact (part_lines _ _ H).
    - apply T. right. exact (end_lines _ _ H).
    - destruct P as [(x & P & N)|[(x & P & _)|[(P & _)|P]]].
      + apply (N k). exact (error_one _ _ _ P H).
      + apply error_lines in H. apply noone_lines in P. revert P H. apply apart. vm_compute. reflexivity.
      + apply error_lines in H. rewrite P in H. apply bmem_In in H. vm_compute in H. discriminate.
      + apply P. apply error_lines in H. unfold errs in H. apply bmem_In. apply bmem_In in H. revert H. destruct m as [c ps]. cbn [fst]. intro H. apply bmem_In in H. apply bmem_In.
        repeat (destruct H as [<-|H]; [apply bmem_In; vm_compute; reflexivity|]). destruct H.
    - destruct P as [(x & P & N)|[(x & P & F)|[(P & _)|P]]].
      + apply error_lines in P. apply noone_lines in H. revert H P. apply apart. vm_compute. reflexivity.
      + apply (F j Hj Hw Hk). rewrite <- E. f_equal. destruct H as (_ & _ & <-). destruct P as (_ & _ & P). exact P.
      + apply noone_lines in H. rewrite P in H. apply bmem_In in H. vm_compute in H. discriminate.
      + apply P. apply noone_lines in H. do 3 right. apply in_or_app. right. apply in_or_app. left. exact H.
  Qed.

  Lemma handle_good s a j b l after : Inv labels s (a ++ j :: b) -> (b_next s + 1 < N64)%N -> answers cm (a ++ j :: b) j l after -> good s a j b l after (handle cm s l).
  Proof.
    intros [Bi Qi] Hn A. assert (Hj : In j (a ++ j :: b)) by (apply in_mid; auto). destruct (i_job _ _ _ Bi j Hj) as (J1 & J2 & (n & J3 & J3') & J4 & J5).
    pose proof (i_nodup _ _ _ Bi) as Nd.
    assert (Hid : labels = true -> id_of j <> 0%N) by (intros E; unfold id_of; rewrite E; lia).
    assert (Hid' : labels = true -> id_of j = w_client (j_cmd j)) by (intros E; unfold id_of; rewrite E; reflexivity).
    assert (Hid0 : labels = false -> id_of j = 0%N) by (intros E; unfold id_of; rewrite E; reflexivity).
    destruct A as [k l Hk Hw T Tr P|l after T P Af|k l Hk Hw T E|l r typ more Hl Hw T Lc Lp F|l r refs Hr Lb Ll Lc Lp Fin|l Hk Hr T Hl Lc].
    - (* part *)
      destruct (head_of s a j b k Qi Hk Hw) as (p & q & E & Ec & Em). rewrite (handle_tagged s _ j l Bi Hj T).
      rewrite (d_part s _ _ k p q _ _ P E). unfold good. cbn [fst snd keep]. rewrite sent_deliver, !app_nil_r, Ec. split; [split; assumption|]. split; [apply fault_deliver|].
      destruct (ask_part _ _ P) as [P1 P2]. cbn [fst] in P1, P2. split; [intros [X|X]; contradiction|].
      assert (D : delivered (deliver s (w_client (j_cmd j)) (l_cmd l, l_params l)) = to_asker s j (body_of l)) by (rewrite (delivered_deliver _ _ _ Nd); reflexivity).
      split; [intros; exact D|]. split; [intros; exact D|]. intros _ _ _ X. exfalso. apply X. exists k. split; [exact Hk|left; exact P].
    - (* plain *)
      rewrite (handle_tagged s _ j l Bi Hj T).
      assert (D : dispatch cm s (w_label (j_cmd j)) (id_of j) (l_cmd l) (l_params l) = (s, forward s (id_of j) (body_of l))).
      { destruct P as [(x & P & N)|[(x & P & F)|[(P & L)|P]]].
        - rewrite (d_error s _ _ x _ _ P). unfold to_failed. rewrite (kind_of_none x N). reflexivity.
        - rewrite (d_noone s _ _ x _ _ P). destruct (b_queues s WHOIS) as [|p q] eqn:E; [reflexivity|].
          pose proof (i_queue _ _ Qi WHOIS) as K. rewrite E in K. destruct K as (j0 & K & K1 & K2). assert (In j0 (filter (waits WHOIS) (a ++ j :: b))) as I0 by (rewrite K; left; reflexivity).
          apply filter_In in I0 as [I1 I2]. unfold waits in I2. destruct (w_kind (j_cmd j0)) as [k0|] eqn:K0; [|discriminate]. apply andb_prop in I2 as [I2 I3]. apply kind_eqb_eq in I2 as ->.
          assert (waiting j0) as I4 by (unfold waiting; destruct (j_done j0); [discriminate|reflexivity]). pose proof (F j0 I1 I4 K0) as F0. rewrite K2 in F0.
          destruct (beqb_spec (casemap cm (last_param (p_msg p))) (casemap cm x)) as [X|X]; [exfalso; exact (F0 X)|reflexivity].
        - unfold body_of in *. cbn [fst snd] in P, L. rewrite P. apply d_341. exact L.
        - exact (d_rest s _ _ _ _ P). }
      rewrite D. unfold good. cbn [fst snd]. rewrite sent_forward, app_nil_r.
      pose proof (plain_tags _ _ P) as Tg. cbn [body_of fst] in Tg.
      split.
      { split.
        - apply (B_replace s a j b after Bi). destruct Af as [(-> & _)|(-> & Ar & _)]; [auto|exact Ar].
        - apply (Q_replace _ a j b after Qi).
          + intro k. destruct Af as [(-> & _)|(-> & _ & Ak)]; cbn [keep filter]; [destruct (waits k j); reflexivity|]. unfold waits. rewrite Ak. reflexivity.
          + destruct Af as [(-> & _)|(-> & _)]; [reflexivity|exact I]. }
      split; [apply fault_forward|].
      split; [intros [X|X]; [exfalso; apply Tg; left; symmetry; exact X|]|].
      { exfalso. unfold body_of in P. rewrite X in P. destruct P as [(x & P & _)|[(x & P & _)|[(P & _)|P]]].
        - apply error_lines in P. cbn [fst] in P. apply bmem_In in P. vm_compute in P. discriminate.
        - apply noone_lines in P. cbn [fst] in P. apply bmem_In in P. vm_compute in P. discriminate.
        - cbn [fst] in P. discriminate.
        - apply P. cbn [fst]. apply bmem_In. vm_compute. reflexivity. }
      split; [intros _ _ L; rewrite (delivered_forward _ _ _ (Hid L)), (Hid' L); reflexivity|].
      split.
      + intros L _ _ X _. exfalso. exact (plain_not_query _ _ _ Hj (J5 (J4 L)) P X).
      + intros L _ _ _. rewrite (Hid0 L). apply delivered_forward_all.
    - (* last line *)
      rewrite (handle_tagged s _ j l Bi Hj T). set (after := match j_refs j with [] => None | _ => _ end).
      assert (Ba : InvB labels s (a ++ keep after ++ b)).
      { apply (B_replace s a j b after Bi). unfold after. destruct (j_refs j) eqn:Er; [reflexivity|]. cbn [j_cmd j_refs j_done]. split; [reflexivity|]. split; [reflexivity|]. discriminate. }
      assert (Fa : forall k', filter (waits k') (keep after) = []).
      { intro k'. unfold after. destruct (j_refs j); [reflexivity|]. cbn [keep filter]. unfold waits. cbn [j_cmd j_done]. destruct (w_kind (j_cmd j)); [|reflexivity]. rewrite andb_false_r. reflexivity. }
      destruct (take_inv s a j b k after Hn Ba Qi Hk Hw Fa) as (p & q & Eq & Ec & Em & Ia & Da & Na & Ca).
      assert (X1 : l_cmd l <> B "BATCH" /\ l_cmd l <> B "ACK").
      { apply ends_lines in E. cbn [fst body_of] in E. split; intros X; rewrite X in E; apply bmem_In in E; vm_compute in E; discriminate. }
      assert (Oq : of_query cm j (body_of l)) by (exists k; split; [exact Hk|right; exact E]).
      assert (G : forall o, (delivered o = to_asker s j (body_of l) \/ (labels = false /\ present s (w_client (j_cmd j)) = false /\ error_about (kind_name k) (body_of l))) -> no_fault o -> sent_of o = [] ->
        good s a j b l after (fst (take s k), snd (take s k) ++ o)).
      { intros o Od On Os. unfold good. cbn [fst snd]. rewrite sent_app, Os, app_nil_r. split; [exact Ia|]. split; [exact (fault_app _ _ Na On)|].
        split; [intros [X|X]; [destruct X1; contradiction|destruct X1; contradiction]|]. rewrite delivered_app, Da. cbn [app].
        split; [intros _ _ L; destruct Od as [Od|(Od & _)]; [exact Od|congruence]|]. split; [|intros _ _ _ X; contradiction].
        intros L _ _ _ C. destruct Od as [Od|(_ & Od & Oe)]; [exact Od|]. destruct C as [C|C]; [apply present_in in C; congruence|exfalso; exact (C _ Oe)]. }
      assert (Hp : forall c, present (fst (take s k)) c = present s c) by (intro c; unfold present; rewrite Ca; reflexivity).
      assert (Dd : delivered (deliver (fst (take s k)) (p_client p) (body_of l)) = to_asker s j (body_of l)).
      { rewrite delivered_deliver by (rewrite Ca; exact Nd). rewrite Ca, Ec. reflexivity. }
      destruct E as [E|[E|(-> & nick & E & En)]].
      + rewrite (d_end s _ _ k p q _ _ E Eq). apply G; [left; exact Dd|apply fault_deliver|apply sent_deliver].
      + rewrite (d_error s _ _ _ _ _ E). unfold to_failed. rewrite kind_of_name, Eq. destruct (take s k) as [s' o'] eqn:Et. cbn [fst snd] in *. rewrite Hp, Ec.
        apply G; [|apply fault_forward|apply sent_forward]. fold (body_of l). destruct labels eqn:El.
        * left. unfold id_of. rewrite El. destruct (N.eqb_spec (w_client (j_cmd j)) 0); [lia|]. rewrite andb_false_r. rewrite delivered_forward by exact n0. rewrite Ca. reflexivity.
        * unfold id_of. rewrite El. cbn [N.eqb]. rewrite andb_true_r. destruct (present s (w_client (j_cmd j))) eqn:Ep; [left|right; auto].
          rewrite delivered_forward by lia. rewrite Ca. reflexivity.
      + rewrite (d_noone s _ _ nick _ _ E), Eq, Em. unfold last_param. destruct (beqb_spec (casemap cm (last (snd (w_body (j_cmd j))) [])) (casemap cm nick)) as [X|X]; [|exfalso; apply X; symmetry; exact En].
        unfold to_last. rewrite Eq. destruct (take s WHOIS) as [s' o'] eqn:Et. cbn [fst snd] in *. apply G; [left; exact Dd|apply fault_deliver|apply sent_deliver].
    - (* open *)
      rewrite (handle_tagged s _ j l Bi Hj T), Lc, d_batch, Lp. cbn [batch]. change (aeqb "+" "+") with true. cbn iota.
      assert (b_batches s r = None) as Fr.
      { destruct (b_batches s r) as [lb|] eqn:Eb; [|reflexivity]. apply (i_batch _ _ _ Bi) in Eb as (x & Hx & Rx & _). exfalso. exact (F x Hx Rx). }
      rewrite Fr. cbn [is_set]. unfold good. cbn [fst snd sent_of flat_map delivered]. rewrite app_nil_r. split.
      { split; [exact (B_open s a j b r Bi Hl F)|]. apply (Q_replace _ a j b _ Qi); [|reflexivity]. intro k. cbn [keep filter]. change (waits k (Job (j_cmd j) (r :: j_refs j) (j_done j))) with (waits k j). reflexivity. }
      split; [intros []|]. split; [reflexivity|]. split; [intros X; contradiction|]. split; [intros _ X; contradiction|intros _ X; contradiction].
    - (* close *)
      assert (Sr : b_batches s r = Some (w_label (j_cmd j))).
      { apply (i_batch _ _ _ Bi). exists j. split; [exact Hj|]. split; [rewrite Hr; left; reflexivity|reflexivity]. }
      assert (D : exists lb, handle cm s l = batch s lb ["-"%char :: r]).
      { unfold handle. rewrite Ll. destruct Lb as [->|(r' & R & ->)].
        - exists []. cbn [parse_label]. rewrite Lc, Lp. apply d_batch.
        - assert (b_batches s r' = Some (w_label (j_cmd j))) as -> by (apply (i_batch _ _ _ Bi); exists j; split; [exact Hj|split; [rewrite Hr; right; exact R|reflexivity]]).
          exists (w_label (j_cmd j)). destruct labels eqn:El; [|exfalso; specialize (J4 eq_refl); congruence]. rewrite J3', Proof.Pending.parse_label_label by assumption.
          rewrite Lc, Lp. apply d_batch. }
      destruct D as [lb ->]. cbn [batch]. change (aeqb "-" "+") with false. change (aeqb "-" "-") with true. cbn iota. rewrite Sr. cbn [is_set]. unfold good. cbn [fst snd sent_of flat_map delivered]. rewrite app_nil_r. split.
      { split; [exact (B_close s a j b r refs Bi Hr)|]. apply (Q_replace _ a j b _ Qi).
        - intro k. destruct refs as [|r2 refs].
          + cbn [keep filter]. unfold waits. destruct (w_kind (j_cmd j)) eqn:Hk; [|reflexivity]. rewrite Fin by (try reflexivity; discriminate). rewrite andb_false_r. reflexivity.
          + cbn [keep filter]. change (waits k (Job (j_cmd j) (r2 :: refs) (j_done j))) with (waits k j). reflexivity.
        - destruct refs; [exact I|reflexivity]. }
      split; [intros []|]. split; [reflexivity|]. split; [intros X; contradiction|]. split; [intros _ X; contradiction|intros _ X; contradiction].
    - (* ack *)
      rewrite (handle_tagged s _ j l Bi Hj T), Lc, d_ack. unfold good. cbn [fst snd sent_of flat_map delivered]. rewrite app_nil_r. split.
      { split; [apply (B_replace s a j b None Bi); exact Hr|]. apply (Q_replace _ a j b None Qi); [|exact I]. intro k. unfold waits. rewrite Hk. reflexivity. }
      split; [intros []|]. split; [reflexivity|]. split; [intros _ X; contradiction|]. split; [intros _ _ X; contradiction|intros _ _ X; contradiction].
  Qed.

  Lemma step_inv y e y' : Inv labels (s_b y) (s_jobs y) -> sstep cm y e y' -> Inv labels (s_b y') (s_jobs y').
  Proof.
    intros I St. destruct St as [s jobs Hi|s jobs c|s jobs c k ps Hc Hk Hn|s jobs c m Hc Hn|s a j b l after A Hn]; cbn [s_b s_jobs] in *.
    - apply arrive_inv; [exact Hi|exact I].
    - apply leave_inv. exact I.
    - apply ask_inv; assumption.
    - destruct I as [Bi Qi]. destruct (i_clients _ _ _ Bi c Hc) as [C1 C2]. assert (fits c) as C3 by (pose proof (i_ids _ _ _ Bi); unfold fits in *; lia).
      split; [exact (B_add s jobs c None m Bi C1 C3 Hn)|exact (Q_pass s jobs c m Qi)].
    - exact (proj1 (handle_good s a j b l after I Hn A)).
  Qed.
  Lemma reached_inv y : reached cm labels y -> Inv labels (s_b y) (s_jobs y).
  Proof. induction 1 as [|y e y' R IH St]; [apply start_inv|]. exact (step_inv y e y' IH St). Qed.

  Theorem answered y j l os y' : reached cm labels y -> sstep cm y (EAnswer j l os) y' ->
    no_fault os /\
    (l_cmd l = B "BATCH" \/ l_cmd l = B "ACK" -> delivered os = []) /\
    (l_cmd l <> B "BATCH" -> l_cmd l <> B "ACK" -> labels = true -> delivered os = map (fun c => (c, body_of l)) (asker y j)) /\
    (labels = false -> l_cmd l <> B "BATCH" -> l_cmd l <> B "ACK" -> of_query cm j (body_of l) ->
       In (w_client (j_cmd j)) (b_clients (s_b y)) \/ (forall x, ~ error_about x (body_of l)) -> delivered os = map (fun c => (c, body_of l)) (asker y j)) /\
    (labels = false -> l_cmd l <> B "BATCH" -> l_cmd l <> B "ACK" -> ~ of_query cm j (body_of l) -> delivered os = map (fun c => (c, body_of l)) (b_clients (s_b y))).
  Proof. intros R St. pose proof (reached_inv y R) as I. inversion St; subst. cbn [s_b s_jobs] in *. match goal with A : answers _ _ _ _ _, Hn : (b_next _ + 1 < _)%N |- _ => exact (proj2 (handle_good _ _ _ _ _ _ I Hn A)) end. Qed.

  Theorem no_two y j : reached cm labels y -> length (asker y j) <= 1.
  Proof. intro R. destruct (reached_inv y R) as [Bi _]. unfold asker. rewrite (filter_one _ _ (i_nodup _ _ _ Bi)). destruct (existsb _ _); cbn; lia. Qed.

  Theorem all_sent y k : reached cm labels y -> (forall j, In j (s_jobs y) -> w_kind (j_cmd j) = Some k -> j_done j = true) -> b_queues (s_b y) k = [].
  Proof.
    intros R H. destruct (reached_inv y R) as [_ Qi]. pose proof (i_queue _ _ Qi k) as Q. destruct (b_queues (s_b y) k) as [|p q]; [reflexivity|]. destruct Q as (j & F & _).
    assert (In j (filter (waits k) (s_jobs y))) as J by (rewrite F; left; reflexivity). apply filter_In in J as [J W]. unfold waits in W.
    destruct (w_kind (j_cmd j)) as [k'|] eqn:E; [|discriminate]. apply andb_prop in W as [W1 W2]. apply kind_eqb_eq in W1 as ->. rewrite (H j J E) in W2. discriminate.
  Qed.
End Fix.
