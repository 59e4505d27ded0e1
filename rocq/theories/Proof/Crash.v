(** Proofs for C100. *)
From Verif.Base Require Import Bytes.
From Coq Require Import Lia.
From Verif.Model Require Import Message CaseMap Roster.
From Verif.Model Require Robust Service AutoSave.
From Verif.Model Require Import Crash.
From Verif.Proof Require Modes.
From Verif.Spec Require Import Crash.
Open Scope nat_scope.

Definition ok_q (q : qc) : Prop :=
  is_one_of (q_cmd q) supported = true
  /\ (is_one_of (q_cmd q) ["WHOIS"; "REGISTER"; "VERIFY"]%string = true -> q_params q <> []).

Definition nets_ok (l : list nw) : Prop := forall n k q, In n l -> w_conn n = Some k -> In q (pending k) -> ok_q q.
Definition clients_ok (nets : list nw) (l : list cl) : Prop :=
  forall c id, In c l -> d_closed c = false -> d_net c = Some id -> d_listed c = true /\ by_id nets id <> None.
Record Inv (u : ust) : Prop := mkInv {
  inv_ids : forall n, In n (u_nets u) -> w_id n <> 0%N;
  inv_clients : clients_ok (u_nets u) (u_clients u);
  inv_nets : nets_ok (u_nets u);
  inv_gone : nets_ok (u_gone u) }.

(** ** Lists *)
Lemma by_id_In l id n : by_id l id = Some n -> In n l /\ w_id n = id.
Proof. intro F. apply find_some in F. destruct F as [I E]. apply N.eqb_eq in E. auto. Qed.
Lemma by_id_some l n : In n l -> by_id l (w_id n) <> None.
Proof. intros I E. apply find_none with (x := n) in E; [|exact I]. cbv beta in E. rewrite N.eqb_refl in E. discriminate. Qed.
Lemma by_id_map f l id : (forall n, w_id (f n) = w_id n) -> by_id (map f l) id = option_map f (by_id l id).
Proof.
  intro F. unfold by_id. induction l as [|n l IH]; [reflexivity|]. cbn [map find]. rewrite F.
  destruct (N.eqb (w_id n) id); [reflexivity|exact IH].
Qed.
Lemma by_id_none l id : by_id l id = None <-> ~ In id (map w_id l).
Proof.
  unfold by_id. induction l as [|n l IH]; cbn [find map In]; [tauto|].
  destruct (N.eqb_spec (w_id n) id) as [E|E]; [split; [discriminate|intro H; exfalso; apply H; left; exact E]|].
  rewrite IH. split; tauto.
Qed.
Lemma by_id_ids l l' id : map w_id l' = map w_id l -> by_id l id <> None -> by_id l' id <> None.
Proof. intros E H G. apply H. apply by_id_none. apply by_id_none in G. rewrite E in G. exact G. Qed.

Lemma map_net_ids f id l : (forall n, w_id (f n) = w_id n) -> map w_id (map_net f id l) = map w_id l.
Proof.
  intro F. unfold map_net. rewrite map_map. apply map_ext. intro n. destruct (N.eqb (w_id n) id); [apply F|reflexivity].
Qed.
Lemma map_net_In f id l n : In n (map_net f id l) -> In n l \/ exists n', In n' l /\ w_id n' = id /\ n = f n'.
Proof.
  intro I. apply in_map_iff in I. destruct I as (n' & E & I). destruct (N.eqb_spec (w_id n') id) as [G|G]; subst.
  - right. exists n'. auto.
  - left. exact I.
Qed.

(** [keeps u u']: what was reachable still is; [stays u u']: the networks are still there. *)
Definition keeps (u u' : ust) : Prop := forall id, deref u id <> None -> deref u' id <> None.
Definition stays (u u' : ust) : Prop := forall id, by_id (u_nets u) id <> None -> by_id (u_nets u') id <> None.
Lemma deref_none u id : deref u id = None <-> by_id (u_nets u) id = None /\ by_id (u_gone u) id = None.
Proof. unfold deref. destruct (by_id (u_nets u) id); [split; [discriminate|intros [E _]; discriminate]|tauto]. Qed.
Lemma deref_In u id n : deref u id = Some n -> (In n (u_nets u) \/ In n (u_gone u)) /\ w_id n = id.
Proof.
  unfold deref. destruct (by_id (u_nets u) id) eqn:E; intro F.
  - injection F as ->. apply by_id_In in E. tauto.
  - apply by_id_In in F. tauto.
Qed.
Lemma keeps_ids u u' : map w_id (u_nets u') = map w_id (u_nets u) -> map w_id (u_gone u') = map w_id (u_gone u) -> keeps u u'.
Proof.
  intros E F id H G. apply H. apply deref_none in G. destruct G as [G1 G2]. apply deref_none.
  apply by_id_none in G1. apply by_id_none in G2. rewrite E in G1. rewrite F in G2. split; apply by_id_none; assumption.
Qed.
Lemma stays_ids u u' : map w_id (u_nets u') = map w_id (u_nets u) -> stays u u'.
Proof. intros E id H. eapply by_id_ids; eauto. Qed.

(** ** Small changes *)
Lemma inv_on_net f id u : Inv u -> (forall n, w_id (f n) = w_id n) ->
  (forall n k q, In n (u_nets u) \/ In n (u_gone u) -> w_id n = id -> w_conn (f n) = Some k -> In q (pending k) -> ok_q q) -> Inv (on_net f id u).
Proof.
  intros [A C D E] F P. assert (X : map w_id (map_net f id (u_nets u)) = map w_id (u_nets u)) by (apply map_net_ids; exact F). split.
  - intros n I. cbn [on_net with_gone with_nets u_nets] in I. apply map_net_In in I. destruct I as [I|(n' & I & _ & ->)]; [auto|rewrite F; auto].
  - intros c i I K N. destruct (C c i I K N) as [L H]. split; [exact L|]. eapply by_id_ids; [|exact H]. exact X.
  - intros n k q I K Q. cbn [on_net with_gone with_nets u_nets] in I. apply map_net_In in I. destruct I as [I|(n' & I & W & ->)]; [eauto|eapply P; eauto].
  - intros n k q I K Q. cbn [on_net with_gone with_nets u_gone] in I. apply map_net_In in I. destruct I as [I|(n' & I & W & ->)]; [eauto|eapply P; eauto].
Qed.
Lemma ids_on_net f id u : (forall n, w_id (f n) = w_id n) ->
  map w_id (u_nets (on_net f id u)) = map w_id (u_nets u) /\ map w_id (u_gone (on_net f id u)) = map w_id (u_gone u).
Proof. intro F. split; apply map_net_ids; exact F. Qed.
Lemma inv_clients_map f u : Inv u -> (forall c, d_net (f c) = d_net c /\ d_listed (f c) = d_listed c) -> (forall c, d_closed (f c) = false -> d_closed c = false) ->
  Inv (with_clients u (map f (u_clients u))).
Proof.
  intros [A C D E] F G. split; auto. intros c id I K N. cbn [with_clients u_clients] in I. apply in_map_iff in I.
  destruct I as (c' & <- & I). destruct (F c') as [F1 F2]. rewrite F1 in N. rewrite F2. apply (C c' id I); auto.
Qed.
Lemma inv_on_client f id u : Inv u -> (forall c, d_net (f c) = d_net c /\ d_listed (f c) = d_listed c) -> (forall c, d_closed (f c) = false -> d_closed c = false) -> Inv (on_client f id u).
Proof.
  intros I F G. apply inv_clients_map; [exact I| |]; intro c; destruct (N.eqb (d_id c) id); auto.
Qed.
Lemma inv_end_sasl id u : Inv u -> Inv (end_sasl id u).
Proof. intro I. apply inv_on_client; auto. Qed.

(** ** Aborting what is pending *)
Lemma abort_one_ok u q : ok_q q -> exists u', abort_one u q = Some u' /\ u_nets u' = u_nets u /\ u_gone u' = u_gone u /\ (Inv u -> Inv u').
Proof.
  intros [S P]. unfold abort_one. destruct (listed u (q_client q)) as [c|]; [|exists u; auto].
  destruct (is_one_of (q_cmd q) ["LIST"; "WHO"]%string) eqn:L; [exists u; auto|].
  destruct (beqb (q_cmd q) (B "WHOIS")) eqn:W.
  - apply beqb_eq in W. rewrite W in P. specialize (P eq_refl).
    destruct (nth_error (q_params q) (length (q_params q) - 1)) eqn:E; [exists u; auto|].
    apply nth_error_None in E. destruct (q_params q); [congruence|cbn [length] in E; lia].
  - destruct (beqb (q_cmd q) (B "AUTHENTICATE")) eqn:A.
    + exists (end_sasl (d_id c) u). split; [reflexivity|]. split; [reflexivity|]. split; [reflexivity|]. apply inv_end_sasl.
    + destruct (is_one_of (q_cmd q) ["REGISTER"; "VERIFY"]%string) eqn:R.
      * assert (q_params q <> []) as Q.
        { apply P. unfold is_one_of in *. cbn [map] in *. unfold bmem in *. cbn [existsb] in *. rewrite R. apply orb_true_r. }
        destruct (q_params q); [congruence|exists u; auto].
      * exfalso. revert S L W A R. unfold is_one_of, supported. cbn [map].
        generalize (q_cmd q). intro x. unfold bmem. cbn [existsb].
        repeat match goal with |- context [beqb x ?y] => destruct (beqb x y); [discriminate|] end. intros; discriminate.
Qed.

Lemma abort_list_ok l : forall u, (forall q, In q l -> ok_q q) ->
  exists u', abort_list u l = Some u' /\ u_nets u' = u_nets u /\ u_gone u' = u_gone u /\ (Inv u -> Inv u').
Proof.
  induction l as [|q l IH]; intros u H; cbn [abort_list]; [exists u; auto|].
  destruct (abort_one_ok u q (H q (or_introl eq_refl))) as (u1 & -> & A1 & A2 & A3).
  destruct (IH u1 (fun x I => H x (or_intror I))) as (u2 & -> & B1 & B2 & B3). exists u2.
  rewrite B1, B2, A1, A2. auto 6.
Qed.

Lemma disconnected_ok id k u : Inv u -> (forall q, In q (pending k) -> ok_q q) ->
  exists u', disconnected id k u = Some u' /\ Inv u' /\ map w_id (u_nets u') = map w_id (u_nets u) /\ map w_id (u_gone u') = map w_id (u_gone u).
Proof.
  intros I Q. unfold disconnected. destruct (abort_list_ok (pending k) (on_net (fun n => set_conn n None) id u) Q) as (u' & -> & E1 & E2 & E3).
  exists u'. split; [reflexivity|]. split.
  - apply E3. apply inv_on_net; [exact I|reflexivity|]. intros n k0 q _ _ W. discriminate.
  - rewrite E1, E2. apply ids_on_net. reflexivity.
Qed.

Lemma update_network_ok refused dbfail id name u : Inv u -> by_id (u_nets u) id <> None ->
  exists u' b, update_network refused dbfail id name u = Some (u', b) /\ Inv u' /\ stays u u' /\ keeps u u'.
Proof.
  intros I H. unfold update_network. destruct (by_id (u_nets u) id) as [n|] eqn:E; [|congruence].
  destruct (by_id_In _ _ _ E) as [J W].
  assert (id <> 0%N) as Z by (rewrite <- W; apply (inv_ids u I); exact J). apply N.eqb_neq in Z. rewrite Z.
  destruct refused; [exists u, false; split; [reflexivity|split; [exact I|split; intros x G; exact G]]|].
  destruct dbfail; [exists u, false; split; [reflexivity|split; [exact I|split; intros x G; exact G]]|].
  assert (exists u1, (match w_conn n with Some k => disconnected id k u | None => Some u end) = Some u1 /\ Inv u1
            /\ map w_id (u_nets u1) = map w_id (u_nets u) /\ map w_id (u_gone u1) = map w_id (u_gone u)) as (u1 & -> & I1 & E1 & E2).
  { destruct (w_conn n) as [k|] eqn:K; [|exists u; auto]. apply disconnected_ok; [exact I|]. intros q Q. exact (inv_nets u I n k q J K Q). }
  set (n' := Nw id name _ None). exists (with_nets u1 (filter (fun n => negb (N.eqb (w_id n) id)) (u_nets u1) ++ [n'])), true.
  assert (forall i, by_id (u_nets u1) i <> None -> by_id (filter (fun n => negb (N.eqb (w_id n) id)) (u_nets u1) ++ [n']) i <> None) as K.
  { intros i G X. apply by_id_none in X. apply X. rewrite map_app. apply in_or_app.
    destruct (N.eq_dec i id) as [->|D]; [right; left; reflexivity|]. left.
    destruct (by_id (u_nets u1) i) as [m|] eqn:Q; [|congruence]. apply by_id_In in Q. destruct Q as [Q <-]. apply in_map. apply filter_In. split; [exact Q|].
    apply negb_true_iff. apply N.eqb_neq. exact D. }
  split; [reflexivity|]. split; [|split].
  - destruct I1 as [A C D F]. split.
    + intros m G. cbn [with_nets u_nets] in G. apply in_app_or in G. destruct G as [G|[<-|[]]]; [apply filter_In in G; apply A, G|].
      cbn [n' w_id]. apply N.eqb_neq. exact Z.
    + intros c i G1 G2 G3. destruct (C c i G1 G2 G3) as [L G]. split; [exact L|]. apply K. exact G.
    + intros m k q G. cbn [with_nets u_nets] in G. apply in_app_or in G. destruct G as [G|[<-|[]]]; [|discriminate].
      apply filter_In in G. apply D, G.
    + exact F.
  - intros i G. apply K. eapply by_id_ids; eauto.
  - intros i G X. apply deref_none in X. destruct X as [X1 X2]. cbn [with_nets u_nets u_gone] in *. apply G. apply deref_none. split.
    + destruct (by_id (u_nets u) i) eqn:Q; [|reflexivity]. exfalso. revert X1. apply K. eapply by_id_ids; [exact E1|rewrite Q; discriminate].
    + destruct (by_id (u_gone u) i) eqn:Q; [|reflexivity]. exfalso. revert X2. eapply by_id_ids; [exact E2|rewrite Q; discriminate].
Qed.

Lemma delete_network_ok dbfail id u : Inv u -> by_id (u_nets u) id <> None ->
  exists u' b, delete_network dbfail id u = Some (u', b) /\ Inv u' /\ keeps u u'.
Proof.
  intros I H. unfold delete_network, remove_network. destruct (by_id (u_nets u) id) as [n|] eqn:E; [|congruence].
  destruct dbfail; [exists u, false; split; [reflexivity|split; [exact I|intros x G; exact G]]|].
  destruct (by_id_In _ _ _ E) as [J W]. eexists _, true. split; [reflexivity|].
  destruct I as [A C D F]. split; [split|].
  - intros m G. cbn [with_gone with_nets u_nets with_clients] in G. apply filter_In in G. apply A, G.
  - intros c i G1 G2 G3. cbn [with_gone with_nets u_nets with_clients u_clients] in *. apply in_map_iff in G1. destruct G1 as (c' & <- & G1).
    destruct (d_listed c' && bound_to id c') eqn:B; [cbn [shut d_closed] in G2; discriminate|].
    destruct (C c' i G1 G2 G3) as [L Y]. split; [exact L|]. destruct (by_id (u_nets u) i) as [m|] eqn:Q; [|congruence]. apply by_id_In in Q. destruct Q as [Q Q'].
    intro X. apply by_id_none in X. apply X. rewrite <- Q'.
    apply in_map. apply filter_In. split; [exact Q|]. apply negb_true_iff. apply N.eqb_neq. intro Z.
    rewrite L in B. unfold bound_to in B. rewrite G3 in B. rewrite <- Q', Z, N.eqb_refl in B. discriminate.
  - intros m k q G. cbn [with_gone with_nets u_nets with_clients] in G. apply filter_In in G. apply D, G.
  - intros m k q G. cbn [with_gone with_nets u_gone with_clients] in G. destruct G as [<-|G]; [apply D; exact J|apply F; exact G].
  - intros i G X. apply deref_none in X. cbn [with_gone with_nets u_nets u_gone with_clients] in X. destruct X as [X1 X2].
    apply G. apply deref_none. apply by_id_none in X1. apply by_id_none in X2. cbn [map] in X2. split; apply by_id_none; intro Y.
    + apply in_map_iff in Y. destruct Y as (m & <- & Y). apply X1. apply in_map. apply filter_In. split; [exact Y|].
      apply negb_true_iff. apply N.eqb_neq. intro Z. apply X2. left. congruence.
    + apply X2. right. exact Y.
Qed.

(** ** Channels *)
Definition whole (u : ust) : Prop := forall n, In n (u_nets u) \/ In n (u_gone u) -> ~ half_joined n.

Lemma inv_saved (g : nw -> cmmap Robust.saved) id u : Inv u -> Inv (on_net (fun n => set_saved n (g n)) id u).
Proof.
  intro I. apply inv_on_net; [exact I|reflexivity|]. intros n k q [J|J] _ K Q.
  - exact (inv_nets u I n k q J K Q).
  - exact (inv_gone u I n k q J K Q).
Qed.
Lemma ids_saved (g : nw -> cmmap Robust.saved) id u :
  map w_id (u_nets (on_net (fun n => set_saved n (g n)) id u)) = map w_id (u_nets u)
  /\ map w_id (u_gone (on_net (fun n => set_saved n (g n)) id u)) = map w_id (u_gone u).
Proof. apply ids_on_net. reflexivity. Qed.
Lemma whole_set name c id u : Robust.sv_detached c = false -> whole u -> whole (on_net (fun n => set_saved n (cm_set (w_saved n) name c)) id u).
Proof.
  intros D W n I.
  assert ((In n (u_nets u) \/ In n (u_gone u)) \/ exists n', (In n' (u_nets u) \/ In n' (u_gone u)) /\ n = set_saved n' (cm_set (w_saved n') name c)) as [J|(n' & J & ->)].
  { destruct I as [I|I]; apply map_net_In in I; destruct I as [I|(n' & I & _ & ->)]; eauto. }
  - exact (W n J).
  - intros (k & x & c' & h & K & G & E & F). apply (W n' J). exists k, x, c', h. split; [exact K|]. split; [|auto].
    cbn [set_saved w_saved] in G. rewrite Modes.cm_get_set in G. destruct (beqb _ _); [|exact G]. injection G as <-. congruence.
Qed.

Lemma attach_ok id c u n name : Inv u -> whole u -> deref u id = Some n -> cm_get (w_saved n) name = Some c ->
  exists u', attach id c u = Some u' /\ Inv u' /\ whole u'
    /\ map w_id (u_nets u') = map w_id (u_nets u) /\ map w_id (u_gone u') = map w_id (u_gone u).
Proof.
  intros I W D G. unfold attach. destruct (Robust.sv_detached c) eqn:E; cbn [negb]; [|exists u; auto].
  set (u' := on_net _ id u). assert (Inv u' /\ whole u' /\ map w_id (u_nets u') = map w_id (u_nets u) /\ map w_id (u_gone u') = map w_id (u_gone u)) as J.
  { split; [apply inv_saved; exact I|]. split; [apply whole_set; [reflexivity|exact W]|]. apply ids_saved. }
  rewrite D. destruct (deref_In _ _ _ D) as [X _]. pose proof (W n X) as H. destruct n as [a b s k]. cbn [w_saved] in G.
  destruct k as [k|]; [|exists u'; auto]. destruct (clients_of u id); [exists u'; auto|].
  destruct (cm_get (r_chans (k_ro k)) (Robust.sv_name c)) as [h|] eqn:F; [|exists u'; auto].
  destruct (uh_complete h) eqn:C; [exists u'; auto|]. exfalso. apply H. exists k, name, c, h. auto.
Qed.

Lemma enqueue_ok late net id cmd params u : Inv u -> ok_q (Qc cmd id params) ->
  exists u', enqueue late net id cmd params u = Some u' /\ Inv u'
    /\ map w_id (u_nets u') = map w_id (u_nets u) /\ map w_id (u_gone u') = map w_id (u_gone u).
Proof.
  intros I Q. unfold enqueue. destruct Q as [S P]. cbn [q_cmd q_params] in *. rewrite S. eexists. split; [reflexivity|]. split.
  - apply inv_on_net; [exact I|reflexivity|]. intros n k q J _ K R. cbn [set_conn w_conn] in K. destruct (w_conn n) as [k0|] eqn:E; [|discriminate].
    injection K as <-. assert (In q (pending k0) \/ q = Qc cmd id params) as [X|X].
    { revert R. unfold pending. cbn [k_pend]. generalize (k_pend k0). intro l. induction l as [|[c l'] l IH]; cbn [pend_add flat_map snd].
      - intros [<-|[]]. auto.
      - cbn [q_cmd]. destruct (beqb c cmd); cbn [flat_map snd]; intro R; apply in_app_or in R.
        + rewrite !in_app_iff. destruct R as [R|R]; [|auto]. assert (In q (l' ++ [Qc cmd id params])) as R'.
          { destruct late; [|exact R]. apply in_app_or in R. destruct R as [R|R]; [|apply in_or_app; auto].
            destruct (l' ++ [Qc cmd id params]); [exact R|right; exact R]. }
          apply in_app_or in R'. destruct R' as [R'|[<-|[]]]; auto.
        + rewrite !in_app_iff. destruct R as [R|R]; [auto|]. destruct (IH R); auto. }
    + destruct J as [J|J]; [exact (inv_nets u I n k0 q J E X)|exact (inv_gone u I n k0 q J E X)].
    + subst q. split; assumption.
  - apply ids_on_net. reflexivity.
Qed.

Section Proofs.
  Variable words_of : bytes -> option (list bytes).
  Variable b64 : bytes -> option bytes.
  Variable plain_ok oauth_ok : bytes -> bool.
  Variable host : bytes.

  (** ** The service *)
  Definition good (u : ust) (r : option ust) : Prop := exists u', r = Some u' /\ Inv u' /\ keeps u u'.

  Lemma good_same u : Inv u -> good u (Some u).
  Proof. intro I. exists u. split; [reflexivity|]. split; [exact I|]. intros x G. exact G. Qed.
  Lemma keeps_stays_ids u u' : map w_id (u_nets u') = map w_id (u_nets u) /\ map w_id (u_gone u') = map w_id (u_gone u) -> keeps u u'.
  Proof. intros [A C]. apply keeps_ids; assumption. Qed.
  Lemma good_saved g id u : Inv u -> good u (Some (on_net (fun n => set_saved n (g n)) id u)).
  Proof. intro I. eexists. split; [reflexivity|]. split; [apply inv_saved; exact I|]. apply keeps_stays_ids. apply ids_saved. Qed.

  Lemma create_ok refused id name u : Inv u -> id <> 0%N -> exists u' b, create_network refused 0 id name u = Some (u', b) /\ Inv u' /\ stays u u' /\ keeps u u'.
  Proof.
    intros [A C D F] Z. unfold create_network. cbn [N.eqb negb]. destruct refused.
    - exists u, false. split; [reflexivity|]. split; [split; assumption|]. split; intros x G; exact G.
    - eexists _, true. split; [reflexivity|]. set (n := Nw id name _ None).
      assert (forall i, by_id (u_nets u) i <> None -> by_id (u_nets u ++ [n]) i <> None) as K.
      { intros i G X. apply G. apply by_id_none. apply by_id_none in X. intro Y. apply X. rewrite map_app. apply in_or_app. auto. }
      split; [split|split].
      + intros m G. cbn [with_nets u_nets] in G. apply in_app_or in G. destruct G as [G|[<-|[]]]; [auto|exact Z].
      + intros c i G1 G2 G3. destruct (C c i G1 G2 G3) as [L G]. split; [exact L|]. apply K. exact G.
      + intros m k q G. cbn [with_nets u_nets] in G. apply in_app_or in G. destruct G as [G|[<-|[]]]; [apply D; exact G|discriminate].
      + exact F.
      + exact K.
      + intros i G X. apply deref_none in X. cbn [with_nets u_nets u_gone] in X. destruct X as [X1 X2]. apply G. apply deref_none. split; [|exact X2].
        destruct (by_id (u_nets u) i) eqn:Q; [|reflexivity]. exfalso. revert X1. apply K. rewrite Q. discriminate.
  Qed.

  Lemma by_name_In u name n : by_name (u_nets u) name = Some n -> by_id (u_nets u) (w_id n) <> None.
  Proof. intro F. apply find_some in F. apply by_id_some. apply F. Qed.
  Lemma net_from_arg_ok u net params id : (forall i, net = Some i -> by_id (u_nets u) i <> None) -> net_from_arg u net params = Some id -> by_id (u_nets u) id <> None.
  Proof.
    intros H F. unfold net_from_arg in F. destruct (fst (Service.pop_arg params)) as [|a l]; [auto|].
    destruct (by_name (u_nets u) (a :: l)) as [n|] eqn:E; [|discriminate]. injection F as <-. eapply by_name_In; eauto.
  Qed.
  Lemma strip_suffix_ok u net name : (forall i, net = Some i -> by_id (u_nets u) i <> None) ->
    exists r, strip_suffix u net name = Some r /\ forall a id, r = Some (a, id) -> by_id (u_nets u) id <> None.
  Proof.
    intro H. unfold strip_suffix. destruct net as [i|].
    - eexists. split; [reflexivity|]. intros a id E. injection E as <- <-. auto.
    - destruct (cut_on "/" name) as [a [b|]]; cbn [length Nat.eqb negb nth_error].
      + eexists. split; [reflexivity|]. intros x id E. destruct (by_name (u_nets u) b) as [n|] eqn:F; [|discriminate]. injection E as <- <-. eapply by_name_In; eauto.
      + eexists. split; [reflexivity|]. intros; discriminate.
  Qed.
  Lemma by_id_deref u id : by_id (u_nets u) id <> None -> exists n, deref u id = Some n.
  Proof. unfold deref. destruct (by_id (u_nets u) id) as [n|]; [eauto|congruence]. Qed.

  Lemma local_ok v i net path params u : v_id v <> 0%N -> Inv u -> whole u -> (forall i, net = Some i -> by_id (u_nets u) i <> None) ->
    good u (local v i net path params u).
  Proof.
    intros Z I W H. pose proof (good_same u I) as G. unfold local. destruct path as [|g [|c [|x y]]]; try exact G.
    assert (forall r : option (ust * bool), (exists u' b, r = Some (u', b) /\ Inv u' /\ keeps u u') -> good u (match r with Some (u, _) => Some u | None => None end)) as OK.
    { intros r (u' & b & -> & A & C). exists u'. auto. }
    destruct (beqb g (B "network")).
    - destruct (beqb c (B "create")).
      { destruct (v_ask v i "usage"); [exact G|]. apply OK. destruct (create_ok (v_ask v i "refused") (v_id v) (v_name v) u I Z) as (u' & b & E & A & _ & C).
        exists u', b. auto. }
      destruct (beqb c (B "update")).
      { destruct (net_from_arg u net params) as [id|] eqn:F; [|exact G]. destruct (v_ask v i "usage"); [exact G|]. apply OK.
        pose proof (net_from_arg_ok _ _ _ _ H F) as K.
        destruct (update_network_ok (v_ask v i "refused") (v_ask v i "db") id (v_name v) u I K) as (u' & b & E & A & _ & C). exists u', b. auto. }
      destruct (beqb c (B "delete")).
      { destruct (length params =? 1); [|exact G]. cbn [negb]. destruct (net_from_arg u net params) as [id|] eqn:F; [|exact G]. apply OK.
        exact (delete_network_ok (v_ask v i "db") id u I (net_from_arg_ok _ _ _ _ H F)). }
      destruct (beqb c (B "quote")); [|exact G].
      destruct ((length params =? 1) || (length params =? 2)) eqn:L; [|exact G]. cbn [negb].
      destruct (nth_error params (length params - 1)) eqn:E; [exact G|]. exfalso. apply nth_error_None in E.
      apply orb_prop in L. destruct L as [L|L]; apply Nat.eqb_eq in L; lia.
    - destruct (beqb g (B "channel")); [|exact G].
      destruct (beqb c (B "create")).
      { destruct params as [|name params']; [exact G|]. cbn [nth_error]. destruct (v_ask v i "usage"); [exact G|].
        destruct (strip_suffix_ok u net name H) as (r & -> & R). destruct r as [[nm id]|]; [|exact G].
        destruct (v_ask v i "refused"); [exact G|]. apply good_saved. exact I. }
      destruct (beqb c (B "update")).
      { destruct params as [|name params']; [exact G|]. cbn [nth_error]. destruct (v_ask v i "usage"); [exact G|].
        destruct (strip_suffix_ok u net name H) as (r & -> & R). destruct r as [[nm id]|]; [|exact G].
        destruct (by_id_deref u id (R _ _ eq_refl)) as [n D]. rewrite D. destruct (cm_get (w_saved n) nm) as [ch|] eqn:K; [|exact G].
        destruct (v_ask v i "refused"); [exact G|]. destruct (v_ask v i "attach").
        - destruct (attach_ok id ch u n nm I W D K) as (u' & -> & A & _ & E). exists u'. split; [reflexivity|]. split; [exact A|]. apply keeps_stays_ids. exact E.
        - destruct (v_ask v i "detach"); [|exact G]. apply good_saved. exact I. }
      destruct (beqb c (B "delete")); [|exact G].
      destruct (length params =? 1) eqn:L; [|exact G]. cbn [negb]. apply Nat.eqb_eq in L.
      destruct params as [|name params']; [discriminate|]. cbn [nth_error].
      destruct (strip_suffix_ok u net name H) as (r & -> & R). destruct r as [[nm id]|]; [|exact G].
      destruct (v_ask v i "db"); [exact G|]. apply good_saved. exact I.
  Qed.

  Lemma keeps_trans u1 u2 u3 : keeps u1 u2 -> keeps u2 u3 -> keeps u1 u3.
  Proof. intros A C x G. auto. Qed.

  Lemma update_all_ok v l : forall u, Inv u -> good u (update_all v l u).
  Proof.
    induction l as [|id l IH]; intros u I; cbn [update_all]; [apply good_same; exact I|].
    destruct (by_id (u_nets u) id) as [n|] eqn:E; [|apply IH; exact I].
    assert (by_id (u_nets u) id <> None) as K by (rewrite E; discriminate).
    destruct (update_network_ok (v_ask v (N.to_nat id) "refused") (v_ask v (N.to_nat id) "db") id (w_name n) u I K) as (u1 & b & -> & A & _ & C).
    destruct (IH u1 A) as (u2 & -> & A2 & C2). exists u2. split; [reflexivity|]. split; [exact A2|]. eapply keeps_trans; eauto.
  Qed.
  Lemma update_user_ok v i u : Inv u -> good u (update_user v i u).
  Proof.
    intro I. unfold update_user. destruct (v_ask v i "db"); [apply good_same; exact I|].
    assert (good u (if v_ask v i "realname" then update_all v (ids u) u else Some u)) as (u1 & -> & A & C).
    { destruct (v_ask v i "realname"); [apply update_all_ok; exact I|apply good_same; exact I]. }
    eexists. split; [reflexivity|]. destruct (v_ask v i "disabled"); [|auto]. split; [|exact C].
    apply inv_clients_map; [exact A| |]; intro c; destruct (d_listed c) eqn:L; auto.
    cbn [shut d_closed]. discriminate.
  Qed.

  Lemma get_nonempty cmds words r : Service.get cmds words = inl r -> words <> [].
  Proof. destruct words; [discriminate|discriminate]. Qed.

  Lemma service_ok v i net : v_id v <> 0%N -> forall fuel admin words u, Inv u -> whole u -> (forall i, net = Some i -> by_id (u_nets u) i <> None) ->
    good u (service fuel v i admin net words u).
  Proof.
    intros Z fuel. induction fuel as [|fuel IH]; intros admin words u I W H; cbn [service]; [apply good_same; exact I|].
    pose proof (good_same u I) as G.
    destruct (Service.get Service.service_commands words) as [[c params]|] eqn:E; [|exact G].
    destruct (Service.c_admin c && negb admin); [exact G|].
    assert (forall l : list bytes, l <> [] -> exists x, nth_error l 0 = Some x) as P0.
    { intros [|x l] K; [congruence|]. exists x. reflexivity. }
    destruct (Service.c_handle c) as [h|].
    - destruct h; try exact G.
      + apply local_ok; assumption.
      + destruct (Nat.ltb_spec 1 (length params)); [exact G|]. destruct params as [|x l]; exact G.
      + destruct (v_ask v i "usage"); [exact G|]. destruct (negb _ && negb _); [exact G|]. apply update_user_ok. exact I.
      + destruct (length params =? 1) eqn:L1; cbn [orb negb].
        * apply Nat.eqb_eq in L1. destruct params as [|x [|y l]]; try discriminate. exact G.
        * destruct (length params =? 2) eqn:L2; [|exact G]. apply Nat.eqb_eq in L2. destruct params as [|x [|y [|z l]]]; try discriminate. exact G.
      + destruct (Nat.ltb_spec (length params) 2); [exact G|]. destruct params as [|x l]; [cbn [length] in *; lia|]. cbn [nth_error skipn].
        destruct (beqb x (u_name u)); [apply IH; assumption|exact G].
      + destruct params as [|x [|y l]]; exact G.
      + destruct params as [|x [|y l]]; exact G.
    - destruct (Service.c_children c); [|exact G]. destruct (P0 words (get_nonempty _ _ _ E)) as [x ->]. exact G.
  Qed.

  (** ** The messages of a client *)
  Definition fine (o : out) : Prop := match o with Done u _ => Inv u | Panic => False end.

  Section Client.
    Variable v : env.
    Variable c : cl.
    Hypothesis Hz : v_id v <> 0%N.
    Hypothesis Hu : d_user c = true.

    Lemma fine_at l i k : i < length l -> (forall x, nth_error l i = Some x -> fine (k x)) -> fine (at_ l i k).
    Proof.
      intros L H. unfold at_. destruct (nth_error l i) eqn:E; [apply H; reflexivity|]. apply nth_error_None in E. lia.
    Qed.
    Lemma fine_from l i k : i <= length l -> (forall x, length x = length l - i -> fine (k x)) -> fine (from_ l i k).
    Proof. intros L H. unfold from_. apply Nat.leb_le in L. rewrite L. apply H. rewrite skipn_length. reflexivity. Qed.
    Lemma fine_need n m u k : Inv u -> (n <= length (m_params m) -> fine k) -> fine (need n m u k).
    Proof. intros I H. unfold need. destruct (Nat.leb_spec n (length (m_params m))); [auto|exact I]. Qed.
    Lemma fine_usr k : fine k -> fine (usr c k).
    Proof. unfold usr. rewrite Hu. auto. Qed.
    Lemma fine_upstream u none k : (forall id, d_net c = Some id -> deref u id <> None) -> fine none ->
      (forall id n x, d_net c = Some id -> deref u id = Some n -> w_conn n = Some x -> fine (k id x)) -> fine (upstream c u none k).
    Proof.
      intros H A F. unfold upstream. destruct (d_net c) as [id|]; [|exact A].
      destruct (deref u id) as [n|] eqn:D; [|exfalso; exact (H id eq_refl D)].
      destruct (w_conn n) as [x|] eqn:W; [eauto|exact A].
    Qed.
    Lemma fine_lift u r : good u r -> fine (lift r).
    Proof. intros (u' & -> & A & _). exact A. Qed.

    Definition seated (u : ust) : Prop := forall id, d_net c = Some id -> by_id (u_nets u) id <> None.
    Definition held (u : ust) : Prop := forall id, d_net c = Some id -> deref u id <> None.
    Lemma seated_held u : seated u -> held u.
    Proof. intros S id E. destruct (by_id_deref u id (S id E)) as [n ->]. discriminate. Qed.

    Ltac lens := repeat match goal with
      | H : (_ <? _) = true |- _ => apply Nat.ltb_lt in H
      | H : (_ <? _) = false |- _ => apply Nat.ltb_ge in H
      | H : (_ =? _) = true |- _ => apply Nat.eqb_eq in H
      | H : (_ =? _) = false |- _ => apply Nat.eqb_neq in H
      end.
    Ltac fin := lens; first [assumption | lia].
    Ltac go := repeat first
      [ assumption
      | match goal with
        | |- fine (need _ _ _ _) => apply fine_need; [assumption|intro]
        | |- fine (at_ _ _ _) => apply fine_at; [fin|intros ? ?]
        | |- fine (from_ _ _ _) => apply fine_from; [fin|intros ? ?]
        | |- fine (usr _ _) => apply fine_usr
        | |- fine (upstream _ _ _ _) => apply fine_upstream; [assumption| |intros ? ? ? ? ? ?]
        | |- fine (if ?b then _ else _) => destruct b eqn:?
        end ].

    Lemma queue_ok m id u : Inv u -> is_one_of (m_command m) supported = true ->
      (is_one_of (m_command m) ["WHOIS"; "REGISTER"; "VERIFY"]%string = true -> m_params m <> []) -> fine (queue v c m id u).
    Proof.
      intros I S P. unfold queue. destruct (enqueue_ok (ask v 0 "late") id (d_id c) (m_command m) (m_params m) u I (conj S P)) as (u' & -> & A & _). exact A.
    Qed.

    Lemma join_ok id keys names : forall i u, Inv u -> whole u -> deref u id <> None -> fine (join_loop v id keys i names u).
    Proof.
      induction names as [|name names IH]; intros i u I W D; cbn [join_loop]; [exact I|].
      assert (fine (if ask v i "bad" then join_loop v id keys (S i) names u
            else match deref u id with
                 | None => Panic
                 | Some n =>
                     match cm_get (w_saved n) name with
                     | Some ch => match attach id ch u with Some u' => join_loop v id keys (S i) names u' | None => Panic end
                     | None => join_loop v id keys (S i) names (add_saved id name false u)
                     end
                 end)) as F.
      { destruct (ask v i "bad"); [apply IH; assumption|]. destruct (deref u id) as [n|] eqn:E; [|congruence].
        destruct (cm_get (w_saved n) name) as [ch|] eqn:G.
        - destruct (attach_ok id ch u n name I W E G) as (u' & -> & A & W' & X). apply IH; [exact A|exact W'|].
          apply (keeps_stays_ids u u' X). rewrite E. discriminate.
        - apply IH; [apply inv_saved; exact I|apply whole_set; [reflexivity|exact W]|].
          apply (keeps_stays_ids u _ (ids_saved _ _ _)). rewrite E. discriminate. }
      destruct (i <? length keys) eqn:L; [|exact F]. apply fine_at; [lens; exact L|]. intros x _. exact F.
    Qed.

    Lemma part_ok id reason names : forall i u, Inv u -> deref u id <> None -> fine (part_loop v id reason i names u).
    Proof.
      induction names as [|name names IH]; intros i u I D; cbn [part_loop]; [exact I|].
      destruct (deref u id) as [n|] eqn:E; [|congruence].
      assert (forall g, fine (part_loop v id reason (S i) names (on_net (fun n => set_saved n (g n)) id u))) as K.
      { intro g. apply IH; [apply inv_saved; exact I|]. apply (keeps_stays_ids u _ (ids_saved _ _ _)). rewrite E. discriminate. }
      destruct (beqb (to_lower reason) (B "detach")).
      - destruct (cm_get (w_saved n) name); apply K.
      - destruct (ask v i "db"); [apply IH; [exact I|rewrite E; discriminate]|apply K].
    Qed.

    Lemma nickserv_ok text k : fine k -> fine (nickserv text k).
    Proof.
      intro F. unfold nickserv. set (fields := AutoSave.ufields text 0 []).
      destruct (length fields <? 2) eqn:L; [exact F|]. lens. apply fine_at; [lia|]. intros cmd _. apply fine_from; [lia|]. intros params P.
      destruct (beqb (AutoSave.upper cmd) (B "REGISTER")); [apply fine_at; [lia|auto]|].
      destruct (beqb (AutoSave.upper cmd) (B "IDENTIFY")).
      { destruct (length params =? 1) eqn:Q; lens; [apply fine_at; [lia|auto]|].
        apply fine_at; [lia|]. intros x _. apply fine_at; [lia|auto]. }
      destruct (beqb (AutoSave.upper cmd) (B "SET")); [|exact F].
      destruct (length params =? 2) eqn:Q; lens; [|exact F]. apply fine_at; [lia|]. intros x _.
      destruct (beqb (AutoSave.upper x) (B "PASSWORD")); [|exact F]. apply fine_at; [lia|auto].
    Qed.

    Local Notation text_loop := (text_loop words_of host v c).

    Lemma text_later cmd text names : forall i u, Inv u -> held u ->
      (cmd = B "PRIVMSG" -> forall name, In name names -> is_service v name = false) -> fine (text_loop cmd text i names u).
    Proof.
      induction names as [|name names IH]; intros i u I H S; cbn [Crash.text_loop]; [exact I|].
      assert (forall j, fine (text_loop cmd text j names u)) as K by (intro j; apply IH; [exact I|exact H|intros E x J; apply S; [exact E|right; exact J]]).
      destruct (beqb name ("$"%char :: host) || (beqb name (B "$*") && negb (bound c))).
      { apply fine_usr. destruct (u_admin u); [apply K|exact I]. }
      destruct (negb (bound c) && ask v i "own"); [apply K|].
      destruct (is_service v name) eqn:Sv.
      { destruct (beqb cmd (B "PRIVMSG")) eqn:E.
        - exfalso. apply beqb_eq in E. rewrite (S E name (or_introl eq_refl)) in Sv. discriminate.
        - destruct (ask v i "echo"); [apply fine_usr|]; apply K. }
      apply fine_upstream; [exact H|exact I|]. intros id n x _ _ _.
      assert (fine (if ask v i "upstream echo" then text_loop cmd text (Datatypes.S i) names u else usr c (text_loop cmd text (Datatypes.S i) names u))) as F.
      { destruct (ask v i "upstream echo"); [|apply fine_usr]; apply K. }
      destruct (beqb cmd (B "PRIVMSG") && ask v i "nickserv"); [apply nickserv_ok|]; exact F.
    Qed.

    Lemma text_ok cmd text names : forall i u, Inv u -> seated u -> (cmd = B "PRIVMSG" -> whole u) ->
      (cmd = B "PRIVMSG" -> forall l1 a l2 b l3, names = l1 ++ a :: l2 ++ b :: l3 -> is_service v a = true -> is_service v b = true -> False) ->
      fine (text_loop cmd text i names u).
    Proof.
      induction names as [|name names IH]; intros i u I H W S; cbn [Crash.text_loop]; [exact I|].
      assert (forall j, fine (text_loop cmd text j names u)) as K.
      { intro j. apply IH; [exact I|exact H|exact W|]. intros E l1 a l2 b l3 F. apply (S E (name :: l1) a l2 b l3). rewrite F. reflexivity. }
      destruct (beqb name ("$"%char :: host) || (beqb name (B "$*") && negb (bound c))).
      { apply fine_usr. destruct (u_admin u); [apply K|exact I]. }
      destruct (negb (bound c) && ask v i "own"); [apply K|].
      destruct (is_service v name) eqn:Sv.
      { destruct (beqb cmd (B "PRIVMSG")) eqn:E; [|destruct (ask v i "echo"); [apply fine_usr|]; apply K].
        apply beqb_eq in E. apply fine_usr. unfold service_text.
        assert (good u (match words_of text with None => Some u | Some words => service (Datatypes.S (length words)) v i (u_admin u) (d_net c) words u end)) as (u' & -> & A & X).
        { destruct (words_of text) as [words|]; [|apply good_same; exact I]. apply service_ok; [exact Hz|exact I|exact (W E)|exact H]. }
        apply text_later; [exact A|intros id G; apply X; exact (seated_held u H id G)|].
        intros _ x J. destruct (is_service v x) eqn:Y; [|reflexivity]. exfalso. apply in_split in J. destruct J as (l1 & l2 & ->).
        exact (S E [] name l1 x l2 eq_refl Sv Y). }
      apply fine_upstream; [exact (seated_held u H)|exact I|]. intros id n x _ _ _.
      assert (fine (if ask v i "upstream echo" then text_loop cmd text (Datatypes.S i) names u else usr c (text_loop cmd text (Datatypes.S i) names u))) as F.
      { destruct (ask v i "upstream echo"); [|apply fine_usr]; apply K. }
      destruct (beqb cmd (B "PRIVMSG") && ask v i "nickserv"); [apply nickserv_ok|]; exact F.
    Qed.

    Lemma handle_auth_ok cap s params : exists s' a, handle_auth b64 plain_ok oauth_ok cap s params = Some (s', a)
      /\ (a = ACreds -> exists y, s' = Some y /\ (x_mech y = Plain -> x_plain y = true)).
    Proof.
      unfold handle_auth. destruct cap; cbn [negb]; [|eexists _, _; split; [reflexivity|discriminate]].
      destruct params as [|p params]; cbn [length Nat.eqb nth_error]; [eexists _, _; split; [reflexivity|discriminate]|].
      destruct (beqb p (B "*")); [eexists _, _; split; [reflexivity|discriminate]|].
      destruct s as [x|].
      - destruct (_ <? _)%N; [eexists _, _; split; [reflexivity|discriminate]|].
        destruct (_ =? _)%N; [eexists _, _; split; [reflexivity|discriminate]|].
        destruct (b64 _) as [r|]; [|eexists _, _; split; [reflexivity|discriminate]].
        cbn [next x_failed x_done x_mech x_pend x_plain].
        destruct (x_failed x); [eexists _, _; split; [reflexivity|discriminate]|].
        destruct (x_done x); [eexists _, _; split; [reflexivity|discriminate]|].
        destruct (x_mech x).
        + destruct (plain_ok r); eexists _, _; (split; [reflexivity|]); intro E; [|discriminate]. eexists. split; [reflexivity|]. reflexivity.
        + destruct (oauth_ok r); eexists _, _; (split; [reflexivity|]); intro E; [|discriminate]. eexists. split; [reflexivity|]. discriminate.
        + eexists _, _. split; [reflexivity|]. intros _. eexists. split; [reflexivity|]. discriminate.
      - destruct (beqb (to_upper p) (B "PLAIN")); [eexists _, _; split; [reflexivity|discriminate]|].
        destruct (beqb (to_upper p) (B "OAUTHBEARER")); [eexists _, _; split; [reflexivity|discriminate]|].
        destruct (beqb (to_upper p) (B "ANONYMOUS")); eexists _, _; (split; [reflexivity|discriminate]).
    Qed.

    Lemma seated_client f id u : seated u -> seated (on_client f id u).
    Proof. intros H i E. exact (H i E). Qed.

    Lemma authenticate_ok m u : Inv u -> seated u -> fine (on_authenticate b64 plain_ok oauth_ok v c m u).
    Proof.
      intros I H. unfold on_authenticate. apply fine_upstream; [exact (seated_held u H)|exact I|]. intros id n x Ec En Ex.
      destruct (ask v 0 "sasl"); cbn [negb]; [|exact I].
      destruct (handle_auth_ok (ask v 0 "cap") (d_sasl c) (m_params m)) as (s' & a & -> & P).
      set (u1 := on_client (fun c => set_sasl c s') (d_id c) u).
      assert (Inv u1) as I1 by (apply inv_on_client; [exact I|auto|auto]).
      assert (Inv (end_sasl (d_id c) u1)) as I2 by (apply inv_end_sasl; exact I1).
      destruct a; try exact I1. destruct (k_sasl x); [exact I2|]. destruct (P eq_refl) as (y & -> & Q).
      destruct (x_mech y).
      - rewrite (Q eq_refl). cbn [negb]. destruct (ask v 0 "identity"); [exact I1|].
        set (u2 := on_net _ id u1). assert (Inv u2) as I3.
        { apply inv_on_net; [exact I1|reflexivity|]. intros w k q J _ K R. cbn [set_conn w_conn] in K. destruct (w_conn w) as [k0|] eqn:E; [|discriminate].
          injection K as <-. destruct J as [J|J]; [exact (inv_nets u1 I1 w k0 q J E R)|exact (inv_gone u1 I1 w k0 q J E R)]. }
        destruct (enqueue_ok (ask v 0 "late") id (d_id c) (B "AUTHENTICATE") [B "PLAIN"] u2 I3) as (u3 & -> & A & _); [|exact A].
        split; [reflexivity|discriminate].
      - exact I2.
      - destruct (ask v 0 "saved"); [|exact I2].
        destruct (update_network_ok (ask v 0 "refused") (ask v 0 "db") id (v_name v) u1 I1 (H id Ec)) as (u3 & b & -> & A & _). apply inv_end_sasl. exact A.
    Qed.

    Lemma who_ok m u : Inv u -> seated u -> is_one_of (m_command m) supported = true ->
      (is_one_of (m_command m) ["WHOIS"; "REGISTER"; "VERIFY"]%string = false) ->
      (forall mask n k, hd_error (m_params m) = Some mask -> In n (u_nets u) \/ In n (u_gone u) -> w_conn n = Some k ->
         (is_channel (k_ro k) mask = true -> cm_get (r_users (k_ro k)) mask = None)
         /\ (forall h nick ms uu, cm_get (r_chans (k_ro k)) mask = Some h -> In (nick, ms) (cm_entries (uh_members h)) ->
               cm_get (r_users (k_ro k)) nick = Some uu -> cm_get (uh_members h) (uu_nick uu) <> None)) ->
      fine (on_who v c m u).
    Proof.
      intros I H S S' O. pose proof (seated_held u H) as H'. unfold on_who.
      destruct (m_params m) as [|mask rest] eqn:Ep; [exact I|]. cbn [length Nat.eqb]. change (at_ (mask :: rest) 0 ?k) with (k mask). cbv beta zeta.
      set (body := fun _ : bytes => _).
      assert (forall x, fine (body x)) as F.
      { intro x0. unfold body. clear body.
        destruct (negb (bound c) && ask v 0 "own"); [apply fine_usr; exact I|].
        destruct (is_service v mask); [apply fine_upstream; [exact H'|exact I|intros; exact I]|].
        destruct (negb (bound c)); [exact I|].
        apply fine_upstream; [exact H'|exact I|]. intros id n k Ec En Ek.
        destruct (deref_In _ _ _ En) as [J _]. destruct (O mask n k eq_refl J Ek) as [O1 O2].
        destruct (cached_who v k mask) as [l|] eqn:C; [|apply queue_ok; [exact I|exact S|intro X; congruence]].
        unfold cached_who in C. destruct (ask v 0 "caps"); [|discriminate]. cbn [negb] in C.
        destruct (cm_get (r_users (k_ro k)) mask) as [uu|] eqn:U.
        - destruct (ask v 0 "fields"); [|discriminate]. injection C as <-. cbn [who_lines].
          destruct (is_channel (k_ro k) mask); [specialize (O1 eq_refl); discriminate|exact I].
        - destruct (cm_get (r_chans (k_ro k)) mask) as [h|] eqn:Eh; [|discriminate]. specialize (O2 h).
          assert (forall uu, In uu l -> cm_get (uh_members h) (uu_nick uu) <> None) as M.
          { assert (forall (ms : list (bytes * entry (list Membership.membership))) l, (forall e, In e ms -> In (original_key (snd e), entry_value (snd e)) (cm_entries (uh_members h))) ->
                fold_right (fun e acc => match cm_get (r_users (k_ro k)) (original_key (snd e)), acc with
                     | Some uu, Some l => if ask v 0 "fields" then Some (uu :: l) else None
                     | _, _ => None
                     end) (Some []) ms = Some l -> forall uu, In uu l -> cm_get (uh_members h) (uu_nick uu) <> None) as M.
            { clear C l. induction ms as [|e ms IH]; cbn [fold_right]; intros l K C uu L; [injection C as <-; destruct L|].
              destruct (cm_get (r_users (k_ro k)) (original_key (snd e))) as [w|] eqn:Ew; [|discriminate].
              destruct (fold_right _ _ ms) as [l'|] eqn:El; [|discriminate]. destruct (ask v 0 "fields"); [|discriminate]. injection C as <-.
              destruct L as [<-|L].
              - eapply O2; [reflexivity|apply K; left; reflexivity|exact Ew].
              - apply (IH l'); [intros e' Q; apply K; right; exact Q|reflexivity|exact L]. }
            apply (M (cm_m (uh_members h)) l); [|exact C]. intros e Q. unfold cm_entries.
            apply (in_map (fun ke => (original_key (snd ke), entry_value (snd ke)))). exact Q. }
          clear C. induction l as [|uu l IH]; cbn [who_lines]; [exact I|].
          destruct (is_channel (k_ro k) mask); [|apply IH; intros w L; apply M; right; exact L].
          rewrite Eh. destruct (cm_get (uh_members h) (uu_nick uu)) eqn:Q; [|exact (M uu (or_introl eq_refl) Q)].
          apply IH. intros w L. apply M. right. exact L. }
      destruct (1 <? _) eqn:L; [|apply (F [])]. lens. apply fine_at; [exact L|]. intros x _. apply F.
    Qed.

    Lemma handle_ok m u : Inv u -> seated u ->
      (m_command m = B "JOIN" \/ m_command m = B "PRIVMSG" -> whole u) ->
      (m_command m = B "PRIVMSG" -> forall targets l1 a l2 b l3, hd_error (m_params m) = Some targets -> split_on "," targets = l1 ++ a :: l2 ++ b :: l3 ->
         is_service v a = true -> is_service v b = true -> False) ->
      (m_command m = B "WHO" -> forall mask n k, hd_error (m_params m) = Some mask -> In n (u_nets u) \/ In n (u_gone u) -> w_conn n = Some k ->
         (is_channel (k_ro k) mask = true -> cm_get (r_users (k_ro k)) mask = None)
         /\ (forall h nick ms uu, cm_get (r_chans (k_ro k)) mask = Some h -> In (nick, ms) (cm_entries (uh_members h)) ->
               cm_get (r_users (k_ro k)) nick = Some uu -> cm_get (uh_members h) (uu_nick uu) <> None)) ->
      fine (handle words_of b64 plain_ok oauth_ok host v c m u).
    Proof.
      intros I H W T O. pose proof (seated_held u H) as H'. unfold handle.
      assert (forall b, fine (Done u b)) as D by (intro b; exact I). pose proof (D false) as D0.
      assert (forall id, d_net c = Some id -> fine (lift (match update_network (ask v 0 "refused") (ask v 0 "db") id (v_name v) u with Some (u, _) => Some u | None => None end))) as UP.
      { intros id E. destruct (update_network_ok (ask v 0 "refused") (ask v 0 "db") id (v_name v) u I (H id E)) as (u' & b & -> & A & _). exact A. }
      destruct (beqb (m_command m) (B "QUIT")); [apply D|].
      destruct (beqb (m_command m) (B "CAP")).
      { unfold on_cap. go. }
      destruct (beqb (m_command m) (B "PING")); [go|].
      destruct (beqb (m_command m) (B "PONG")); [unfold on_pong; go|].
      destruct (beqb (m_command m) (B "NICK")); [go|].
      destruct (beqb (m_command m) (B "SETNAME")).
      { unfold on_setname. go. destruct (d_net c) as [id|] eqn:E.
        - go; apply UP; reflexivity.
        - apply fine_usr. apply (fine_lift u). apply update_user_ok. exact I. }
      destruct (beqb (m_command m) (B "JOIN")) eqn:EJ.
      { apply beqb_eq in EJ. unfold on_join. go; (apply join_ok; [exact I|apply W; left; exact EJ|]);
        match goal with E : deref _ _ = Some _ |- _ => rewrite E; discriminate end. }
      destruct (beqb (m_command m) (B "PART")).
      { unfold on_part. go; (apply part_ok; [exact I|]); match goal with E : deref _ _ = Some _ |- _ => rewrite E; discriminate end. }
      destruct (beqb (m_command m) (B "MODE")).
      { unfold on_mode. apply fine_need; [exact I|]. intro L. apply fine_at; [lia|]. intros name _. cbv zeta.
        destruct (1 <? length (m_params m)) eqn:L1.
        - lens. apply fine_at; [lia|]. intros modes _. destruct (ask v 0 "own").
          + destruct modes; [exact I|go].
          + apply fine_upstream; [exact H'|exact I|]. intros. destruct (negb _); [exact I|]. destruct modes; [exact I|go].
        - destruct (ask v 0 "own"); [exact I|]. apply fine_upstream; [exact H'|exact I|]. intros. destruct (negb _); exact I. }
      destruct (beqb (m_command m) (B "TOPIC")); [unfold on_topic; go|].
      destruct (beqb (m_command m) (B "LIST")) eqn:EL.
      { apply beqb_eq in EL. go. apply queue_ok; [exact I|rewrite EL; reflexivity|rewrite EL; discriminate]. }
      destruct (beqb (m_command m) (B "NAMES")); [go|].
      destruct (beqb (m_command m) (B "WHO")) eqn:EW.
      { apply beqb_eq in EW. apply who_ok; [exact I|exact H|rewrite EW; reflexivity|rewrite EW; reflexivity|exact (O EW)]. }
      destruct (beqb (m_command m) (B "WHOIS")) eqn:EI.
      { apply beqb_eq in EI. unfold on_whois. destruct (length (m_params m) =? 0) eqn:L0; [exact I|]. lens.
        apply fine_at; [destruct (length (m_params m) =? 1) eqn:L1; lens; lia|]. intros mask _. cbv zeta. go.
        apply queue_ok; [exact I|rewrite EI; reflexivity|]. intros _ X. rewrite X in L0. apply L0. reflexivity. }
      destruct (is_one_of (m_command m) ["PRIVMSG"; "NOTICE"; "TAGMSG"]%string).
      { unfold on_text. destruct (beqb (m_command m) (B "TAGMSG")) eqn:ET.
        - apply beqb_eq in ET. apply fine_need; [exact I|]. intro L. apply fine_at; [lia|]. intros names _.
          apply text_ok; [exact I|exact H|rewrite ET; discriminate|rewrite ET; discriminate].
        - apply fine_need; [exact I|]. intro L. apply fine_at; [lia|]. intros names En. apply fine_at; [lia|]. intros text _.
          apply text_ok; [exact I|exact H|auto|]. intros E l1 a l2 b l3. apply (T E names).
          destruct (m_params m); [discriminate|exact En]. }
      destruct (beqb (m_command m) (B "AUTHENTICATE")); [apply authenticate_ok; assumption|].
      destruct (is_one_of (m_command m) ["REGISTER"; "VERIFY"]%string) eqn:ER.
      { unfold on_register.
        assert (m_command m = B "REGISTER" \/ m_command m = B "VERIFY") as R.
        { unfold is_one_of in ER. apply bmem_In in ER. cbn [map In] in ER. destruct ER as [E|[E|[]]]; auto. }
        assert (is_one_of (m_command m) supported = true) as S by (destruct R as [R|R]; rewrite R; reflexivity).
        destruct (_ || _) eqn:G; [exact I|]. apply orb_false_iff in G. destruct G as [G1 G2].
        assert (1 < length (m_params m)) as L.
        { destruct R as [R|R]; rewrite R in G1, G2; cbv beta in G1, G2; rewrite beqb_refl in *; cbn [andb] in *; lens; lia. }
        go. apply queue_ok; [exact I|exact S|]. intros _ X. rewrite X in L. cbn [length] in L. lia. }
      destruct (beqb (m_command m) (B "AWAY")); [go|].
      destruct (beqb (m_command m) (B "MONITOR")); [unfold on_monitor; go|].
      destruct (beqb (m_command m) (B "CHATHISTORY")).
      { unfold on_chathistory. apply fine_need; [exact I|]. intro L. apply fine_at; [lia|]. intros sub _. cbv zeta. go. }
      destruct (is_one_of (m_command m) ["READ"; "MARKREAD"]%string).
      { unfold on_markread. apply fine_need; [exact I|]. intro L. apply fine_at; [lia|]. intros target _. cbv zeta.
        assert (forall criteria, fine (if is_service v target then Done u false
          else if negb (bound c) then Done u false
          else match criteria with
               | [] => Done u false
               | _ =>
                   let parts := match cut_on "=" criteria with (a, Some b) => [a; b] | (a, None) => [a] end in
                   if negb (length parts =? 2) then Done u false
                   else at_ parts 0 (fun a => if negb (beqb a (B "timestamp")) then Done u false else at_ parts 1 (fun _ => Done u false))
               end)) as K.
        { intro criteria. destruct (is_service v target); [exact I|]. destruct (negb (bound c)); [exact I|]. destruct criteria as [|x y]; [exact I|].
          destruct (cut_on "=" (x :: y)) as [a [b|]]; cbv zeta; cbn [length Nat.eqb negb]; [|exact I].
          change (at_ [a; b] 0 ?k) with (k a). cbv beta. destruct (negb _); exact I. }
        destruct (1 <? length (m_params m)) eqn:L1; [|apply (K [])]. lens. apply fine_at; [lia|]. intros x _. apply K. }
      destruct (beqb (m_command m) (B "SEARCH")); [go|].
      destruct (beqb (m_command m) (B "BOUNCER")).
      { unfold on_bouncer. cbv zeta. apply fine_need; [exact I|]. intro L. apply fine_at; [lia|]. intros sub _.
        destruct (beqb (to_upper sub) (B "LISTNETWORKS")); [go|].
        destruct (beqb (to_upper sub) (B "ADDNETWORK")).
        { go. destruct (create_ok (ask v 0 "refused") (v_id v) (v_name v) u I Hz) as (u' & b & -> & A & _). exact A. }
        destruct (beqb (to_upper sub) (B "CHANGENETWORK")).
        { go. destruct (undec _) as [id|]; [|exact I]. apply fine_usr. destruct (by_id (u_nets u) id) as [n|] eqn:E; [|exact I].
          destruct (ask v 0 "usage"); [exact I|].
          assert (by_id (u_nets u) id <> None) as K by (rewrite E; discriminate).
          destruct (update_network_ok (ask v 0 "refused") (ask v 0 "db") id (v_name v) u I K) as (u' & b & -> & A & _). exact A. }
        destruct (beqb (to_upper sub) (B "DELNETWORK")); [|exact I].
        go. destruct (undec _) as [id|]; [|exact I]. apply fine_usr. destruct (by_id (u_nets u) id) as [n|] eqn:E; [|exact I].
        apply by_id_In in E. destruct E as [E _].
        destruct (delete_network_ok (ask v 0 "db") (w_id n) u I (by_id_some _ _ E)) as (u' & b & -> & A & _). exact A. }
      destruct (beqb (m_command m) (B "WEBPUSH")); [unfold on_webpush; go|].
      apply fine_upstream; [exact H'|exact I|intros; exact I].
    Qed.
  End Client.

  (** ** The user's goroutine *)
  Local Notation step := (step words_of b64 plain_ok oauth_ok host).
  Local Notation run := (run words_of b64 plain_ok oauth_ok host).

  Lemma inv_conn f id u : Inv u -> (forall n, w_id (f n) = w_id n) ->
    (forall n k, w_conn (f n) = Some k -> pending k = [] \/ exists k0, w_conn n = Some k0 /\ incl (pending k) (pending k0)) -> Inv (on_net f id u).
  Proof.
    intros I F P. apply inv_on_net; [exact I|exact F|]. intros n k q J _ K Q. destruct (P n k K) as [E|(k0 & E & L)]; [rewrite E in Q; destruct Q|].
    destruct J as [J|J]; [exact (inv_nets u I n k0 q J E (L q Q))|exact (inv_gone u I n k0 q J E (L q Q))].
  Qed.
  Lemma pop_incl cmd l : incl (flat_map snd (pend_pop cmd l)) (flat_map snd l).
  Proof.
    induction l as [|[x l'] l IH]; [intros q Q; exact Q|]. unfold pend_pop. cbn [map flat_map fst snd]. fold (pend_pop cmd l).
    intros q Q. apply in_app_or in Q. apply in_or_app. destruct Q as [Q|Q]; [left|right; apply IH; exact Q].
    destruct (beqb x cmd); [|exact Q]. cbn [snd] in Q. destruct l'; [exact Q|right; exact Q].
  Qed.
  Lemma cancel_incl id l : incl (flat_map snd (pend_cancel id l)) (flat_map snd l).
  Proof.
    induction l as [|[x l'] l IH]; [intros q Q; exact Q|]. unfold pend_cancel. cbn [map flat_map fst snd]. fold (pend_cancel id l).
    intros q Q. apply in_app_or in Q. apply in_or_app. destruct Q as [Q|Q]; [left|right; apply IH; exact Q].
    destruct l'; [exact Q|]. destruct Q as [Q|Q]; [left; exact Q|right]. apply filter_In in Q. apply Q.
  Qed.

  Lemma step_ok u e : Inv u -> numbered e -> ~ bad_moment u e -> exists u', step u e = Alive u' /\ Inv u'.
  Proof.
    intros I Z NB. assert (~ unwelcomed u e) as N1 by (unfold bad_moment in NB; tauto). assert (~ twice u e) as N2 by (unfold bad_moment in NB; tauto).
    assert (~ halfway u e) as N3 by (unfold bad_moment in NB; tauto). assert (~ odd_who u e) as N4 by (unfold bad_moment in NB; tauto).
    assert (~ other_login u e) as N5 by (unfold bad_moment in NB; tauto). clear NB.
    assert (attaching u e -> whole u) as W by (intros A n J X; apply N3; split; [exact A|exists n; auto]).
    destruct e as [id v m|id enabled net|id|net r|net|net r t cmd|net success|v|v words]; cbn [Crash.step].
    - destruct (find_client u id) as [c|] eqn:F; [|eauto]. apply find_some in F. destruct F as [F E]. apply N.eqb_eq in E.
      destruct (d_closed c) eqn:C; [eauto|].
      assert (d_user c = true) as U. { destruct (d_user c) eqn:U; [reflexivity|]. exfalso. apply N1. exists id, v, m, c. auto. }
      assert (fine (handle words_of b64 plain_ok oauth_ok host v c m u)) as G.
      { apply handle_ok; [exact Z|exact U|exact I| | | |].
        - intros i Ei. exact (proj2 (inv_clients u I c i F C Ei)).
        - intro X. apply W. left. exists id, v, m. auto.
        - intros X targets l1 a l2 b l3 Hd Sp Sa Sb. apply N2. exists id, v, m, targets, l1, a, l2, b, l3.
          unfold is_service in Sa, Sb. apply beqb_eq in Sa. apply beqb_eq in Sb. auto 10.
        - intros X mask n k Hd J K. split.
          + intro Ch. destruct (cm_get (r_users (k_ro k)) mask) as [uu|] eqn:Q; [|reflexivity]. exfalso. apply N4.
            exists id, v, m, mask, n, k. repeat (split; [auto; fail|]). left. eauto.
          + intros h nick ms uu Q1 Q2 Q3 Q4. apply N4. exists id, v, m, mask, n, k. repeat (split; [auto; fail|]). right. exists h, nick, ms, uu. auto. }
      destruct (handle words_of b64 plain_ok oauth_ok host v c m u) as [u' close|]; [|destruct G]. cbn [fine] in G.
      eexists. split; [reflexivity|]. destruct close; [|exact G]. apply inv_on_client; [exact G|auto|]. intro c0. cbn [shut d_closed]. discriminate.
    - destruct (find_client u id); [eauto|]. eexists. split; [reflexivity|]. destruct I as [A C D E]. split; try assumption.
      intros c i J K N. cbn [with_clients u_clients] in J. apply in_app_or in J. destruct J as [J|[<-|[]]]; [exact (C c i J K N)|].
      unfold handover in *. destruct enabled; cbn [negb] in *; [|discriminate]. destruct net as [[j|]|]; [|discriminate|discriminate].
      destruct (by_id (u_nets u) j) eqn:Q; cbn [d_net d_listed] in *; [|discriminate]. injection N as <-. split; [reflexivity|]. cbn [with_clients u_nets]. rewrite Q. discriminate.
    - eexists. split; [reflexivity|]. destruct I as [A C D E]. set (f := fun n : nw => _).
      assert (map w_id (map f (u_nets u)) = map w_id (u_nets u)) as X by (rewrite map_map; apply map_ext; reflexivity). split.
      + intros n J. cbn [with_clients with_nets u_nets] in J. apply in_map_iff in J. destruct J as (n' & <- & J). exact (A n' J).
      + intros c i J K N. cbn [with_clients with_nets u_clients] in J. apply filter_In in J. destruct (C c i (proj1 J) K N) as [L Y]. split; [exact L|].
        eapply by_id_ids; [exact X|exact Y].
      + intros n k q J K Q. cbn [with_clients with_nets u_nets] in J. apply in_map_iff in J. destruct J as (n' & <- & J). unfold f in K. cbn [set_conn w_conn] in K.
        destruct (w_conn n') as [k0|] eqn:Y; [|discriminate]. injection K as <-. apply (D n' k0 q J Y). exact (cancel_incl id (k_pend k0) q Q).
      + exact E.
    - eexists. split; [reflexivity|]. apply inv_conn; [exact I|reflexivity|]. intros n k K. injection K as <-. left. reflexivity.
    - destruct (deref u net) as [n|] eqn:D; [|eauto]. destruct (w_conn n) as [k|] eqn:K; [|eauto].
      destruct (deref_In _ _ _ D) as [J _].
      destruct (disconnected_ok net k u I) as (u' & -> & A & _); [|exists u'; auto].
      intros q Q. destruct J as [J|J]; [exact (inv_nets u I n k q J K Q)|exact (inv_gone u I n k q J K Q)].
    - eexists. split; [reflexivity|]. apply inv_conn; [exact I|reflexivity|]. intros n k K. cbn [set_conn set_saved w_conn] in K.
      destruct (w_conn n) as [k0|]; [|discriminate]. injection K as <-. right. exists k0. split; [reflexivity|]. exact (pop_incl cmd (k_pend k0)).
    - destruct (deref u net) as [n|] eqn:D; [|eauto]. destruct (w_conn n) as [k|] eqn:K; [|eauto].
      set (u1 := on_net _ net u). assert (Inv u1) as I1.
      { apply inv_conn; [exact I|reflexivity|]. intros w x E. cbn [set_conn w_conn] in E. destruct (w_conn w) as [k0|]; [|discriminate]. injection E as <-.
        right. exists k0. split; [reflexivity|]. exact (pop_incl (B "AUTHENTICATE") (k_pend k0)). }
      destruct (pend_first (B "AUTHENTICATE") (k_pend k)) as [q|] eqn:P; [|eauto].
      destruct (listed u (q_client q)) as [c|] eqn:L; [|eauto]. destruct (d_sasl c) as [x|] eqn:X; [|eauto].
      destruct (success && negb (x_plain x)) eqn:S.
      + exfalso. apply andb_prop in S. destruct S as [-> S]. apply negb_true_iff in S. apply N5.
        unfold pend_first in P. destruct (find _ (k_pend k)) as [[cmd [|q0 l]]|] eqn:F; try discriminate. injection P as ->.
        apply find_some in F. destruct F as [F G]. cbn [fst] in G. apply beqb_eq in G. subst cmd.
        unfold listed in L. apply find_some in L. destruct L as [L1 L2]. apply andb_prop in L2. destruct L2 as [L2 _]. apply N.eqb_eq in L2.
        destruct (deref_In _ _ _ D) as [J _]. exists net, n, k, q, l, c, x. auto 10.
      + eexists. split; [reflexivity|]. apply inv_end_sasl. exact I1.
    - destruct (update_user_ok v 0 u I) as (u' & -> & A & _). exists u'. auto.
    - destruct (service_ok v 0 None Z (Datatypes.S (length words)) true words u I) as (u' & -> & A & _); [apply W; right; eauto|discriminate|]. exists u'. auto.
  Qed.

  Lemma loaded_inv name admin nets : (forall p, In p nets -> fst (fst p) <> 0%N) -> Inv (loaded name admin nets).
  Proof.
    intro Z. split; try (intros ? ? ? []; fail).
    - intros n J. cbn [loaded u_nets] in J. apply in_map_iff in J. destruct J as ([[id nm] l] & <- & J). exact (Z _ J).
    - intros c id [].
    - intros n k q J K. cbn [loaded u_nets] in J. apply in_map_iff in J. destruct J as ([[id nm] l] & <- & J). discriminate.
  Qed.

  Lemma run_alive l : forall u, Inv u -> Forall numbered l ->
    (forall l1 e l2 u', l = l1 ++ e :: l2 -> run u l1 = Alive u' -> ~ bad_moment u' e) -> exists u', run u l = Alive u' /\ Inv u'.
  Proof.
    induction l as [|e l IH]; intros u I Z Q; cbn [Crash.run]; [eauto|]. inversion Z as [|? ? Z1 Z2]; subst.
    destruct (step_ok u e I Z1 (Q [] e l u eq_refl eq_refl)) as (u1 & S & I1). rewrite S. apply IH; [exact I1|exact Z2|].
    intros l1 e' l2 u' -> R. apply (Q (e :: l1) e' l2 u' eq_refl). cbn [Crash.run]. rewrite S. exact R.
  Qed.
End Proofs.
