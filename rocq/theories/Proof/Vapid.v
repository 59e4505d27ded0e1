(** Proofs about the keys of push messages. *)
From Verif.Base Require Import Bytes.
From Verif.Model Require Import Vapid.
From Verif.Spec Require Import Vapid.
From Coq Require Import NArith.

Lemma get_del {V} p q (l : list (N * V)) v : get q (del p l) = Some v -> get q l = Some v /\ q <> p.
Proof.
  unfold del. induction l as [|[x w] l IH]; [discriminate|]. cbn [filter fst]. destruct (N.eqb_spec x p) as [->|E]; cbn [negb].
  - intros H. destruct (IH H) as [G N]. cbn [get]. destruct (N.eqb_spec p q) as [->|]; [exfalso; apply N; reflexivity|]. auto.
  - cbn [get]. destruct (N.eqb_spec x q) as [->|]; [intros H; injection H as ->; auto|exact IH].
Qed.

Lemma get_set {V} p (v : V) l q w : get q ((p, v) :: del p l) = Some w -> (q = p /\ w = v) \/ (q <> p /\ get q l = Some w).
Proof.
  cbn [get]. destruct (N.eqb_spec p q) as [->|E]; [intros H; injection H as ->; auto|]. intros H. apply get_del in H. right. tauto.
Qed.

(** What holds with one process: [G] are the pairs that were made. *)
Definition bound (k : pair) (s : st) : Prop :=
  (forall p k', get p (v_procs s) = Some (Up k') -> k' = k) /\ (forall id key, get id (v_subs s) = Some key -> key = fst k).

Definition inv (G : pair -> Prop) (s : st) : Prop :=
  (v_procs s = [] \/ exists p f, v_procs s = [(p, f)]) /\
  match v_table s with
  | [] => (forall p k, get p (v_procs s) <> Some (Up k)) /\ v_subs s = [] /\ (forall p k, get p (v_procs s) = Some (Made k) -> G k)
  | [k] => G k /\ bound k s /\ (forall p f, get p (v_procs s) = Some f -> exists k', f = Up k')
  | _ => False
  end.

Definition fine (k : pair) (o : out) : Prop :=
  match o with Shown _ a => a = fst k | Signed _ _ k' => k' = k | Unsent _ _ => False end.

Lemma del_one p (l : list (N * phase)) : (l = [] \/ exists q f, l = [(q, f)]) -> get p l <> None -> del p l = [].
Proof.
  intros [->|(q & f & ->)] H; [reflexivity|]. unfold del. cbn in *. destruct (N.eqb q p); [reflexivity|contradiction].
Qed.

Lemma del_small p (l : list (N * phase)) : (l = [] \/ exists q f, l = [(q, f)]) -> del p l = [] \/ exists q f, del p l = [(q, f)].
Proof.
  intros [->|(q & f & ->)]; [left; reflexivity|]. unfold del. cbn. destruct (N.eqb q p); cbn; [left; reflexivity|right; eauto].
Qed.

Lemma inv_stop G p s : inv G s -> inv G (stop p s).
Proof.
  intros [S I]. split; [apply del_small; exact S|]. unfold stop. cbn [v_table v_procs v_subs].
  destruct (v_table s) as [|k [|k2 l]]; [| |exact I].
  - destruct I as (I1 & I2 & I3). split; [intros q k H; apply get_del in H; exact (I1 q k (proj1 H))|]. split; [exact I2|].
    intros q k H. apply get_del in H. exact (I3 q k (proj1 H)).
  - destruct I as (I1 & [I2 I3] & I4). split; [exact I1|]. split; [split; [|exact I3]|].
    + intros q k' H. apply get_del in H. exact (I2 q k' (proj1 H)).
    + intros q f H. apply get_del in H. exact (I4 q f (proj1 H)).
Qed.

Lemma inv_weaken (G G' : pair -> Prop) s : (forall k, G k -> G' k) -> inv G s -> inv G' s.
Proof.
  intros H [S I]. split; [exact S|]. destruct (v_table s) as [|k [|k2 l]]; [| |exact I].
  - destruct I as (I1 & I2 & I3). split; [exact I1|]. split; [exact I2|]. intros p k E. apply H. exact (I3 p k E).
  - destruct I as (I1 & I2 & I3). auto.
Qed.

Lemma inv_set_one G p f s : inv G s -> get p (v_procs s) <> None \/ v_procs s = [] ->
  (v_table s = [] -> (forall k, f <> Up k) /\ forall k, f = Made k -> G k) ->
  (forall k, v_table s = [k] -> f = Up k) -> inv G (set_proc p f s).
Proof.
  intros [S I] N E T. assert (D : del p (v_procs s) = []) by (destruct N as [N| ->]; [exact (del_one p _ S N)|reflexivity]).
  unfold set_proc. split; cbn [v_procs v_table v_subs]; rewrite D; [right; eauto|].
  destruct (v_table s) as [|k [|k2 l]]; [| |exact I].
  - destruct I as (I1 & I2 & I3). destruct (E eq_refl) as [E1 E2]. split; [|split; [exact I2|]]; intros q k H; cbn [get] in H;
      destruct (N.eqb p q); try discriminate H; injection H as H; [exact (E1 k H)|exact (E2 k H)].
  - destruct I as (I1 & [I2 I3] & I4). rewrite (T k eq_refl). split; [exact I1|]. split; [split; [|exact I3]|].
    + intros q k' H. cbn [get v_procs] in H. destruct (N.eqb p q); [|discriminate H]. injection H as <-. reflexivity.
    + intros q f' H. cbn [get] in H. destruct (N.eqb p q); [|discriminate H]. injection H as <-. eauto.
Qed.

(** One step. *)
Lemma step_inv G s o : inv G s -> match o with Begin _ _ => v_procs s = [] | _ => True end ->
  let G' k := G k \/ exists p, o = Generate p (Some k) in
  inv G' (fst (step s o)) /\ (forall k, v_table s = [k] -> v_table (fst (step s o)) = [k]) /\
  (forall x, In x (snd (step s o)) -> exists k, v_table (fst (step s o)) = [k] /\ fine k x).
Proof.
  intros I A G'. assert (W : inv G' s) by (apply (inv_weaken G); [left; assumption|exact I]).
  assert (Q : inv G' s /\ (forall k, v_table s = [k] -> v_table s = [k]) /\ forall x : out, In x [] -> exists k, v_table s = [k] /\ fine k x)
    by (split; [exact W|]; split; [auto|intros x []]).
  assert (P : forall p, inv G' (stop p s) /\ (forall k, v_table s = [k] -> v_table (stop p s) = [k]) /\
    forall x : out, In x [] -> exists k, v_table (stop p s) = [k] /\ fine k x)
    by (intros p; split; [apply inv_stop; exact W|]; split; [auto|intros x []]).
  destruct o as [p ok|p k|p written told|p|p|p id|p id]; cbn [step].
  - destruct (get p (v_procs s)) eqn:E; [exact Q|]. destruct ok; [|exact Q]. cbn [negb].
    destruct (v_table s) as [|k [|k2 l]] eqn:T; [| |cbn [fst snd]; rewrite T; exact Q]; cbn [fst snd].
    + split; [|split; [intros k H; discriminate|intros x []]]. apply inv_set_one; [exact W|right; exact A| |rewrite T; discriminate].
      intros _. split; [discriminate|]. intros k H. discriminate H.
    + split; [|split; [intros k' H; exact (eq_trans T H)|intros x []]]. apply inv_set_one; [exact W|right; exact A|rewrite T; discriminate|].
      intros k' H. rewrite T in H. injection H as ->. reflexivity.
  - destruct (get p (v_procs s)) as [[|k0|k0]|] eqn:E; try (destruct k; exact Q). destruct k as [k|]; [|exact (P p)]. cbn [fst snd].
    split; [|split; [auto|intros x []]]. apply inv_set_one; [exact W|left; congruence| |].
    + intros _. split; [discriminate|]. intros k' H. injection H as <-. right. exists p. reflexivity.
    + intros k' T. exfalso. destruct I as [_ I]. rewrite T in I. destruct I as (_ & _ & I4). destruct (I4 p Listed E) as (k'' & H). discriminate H.
  - destruct (get p (v_procs s)) as [[|k|k]|] eqn:E; try exact Q. destruct written; [|exact (P p)].
    assert (T : v_table s = []).
    { destruct I as [_ I]. destruct (v_table s) as [|k1 [|k2 l]]; [reflexivity| |contradiction]. destruct I as (_ & _ & I4).
      destruct (I4 p (Made k) E) as (k'' & H). discriminate H. }
    rewrite T. cbn [existsb insert]. unfold insert. cbn [existsb app].
    destruct W as [S W]. rewrite T in W. destruct W as (W1 & W2 & W3).
    assert (D : del p (v_procs s) = []) by (apply del_one; [exact S|congruence]).
    destruct told; unfold set_proc, stop; cbn [fst snd v_table v_procs v_subs]; rewrite D.
    + split; [|split; [intros k' H; discriminate H|intros x []]]. split; cbn [v_table v_procs v_subs]; [right; eauto|].
      split; [exact (W3 p k E)|]. split; [split|].
      * cbn [v_procs]. intros q k' H. cbn [get] in H. destruct (N.eqb p q); [|discriminate H]. injection H as <-. reflexivity.
      * cbn [v_subs]. rewrite W2. discriminate.
      * intros q f H. cbn [get] in H. destruct (N.eqb p q); [|discriminate H]. injection H as <-. eauto.
    + split; [|split; [intros k' H; discriminate H|intros x []]]. split; cbn [v_table v_procs v_subs]; [left; reflexivity|].
      split; [exact (W3 p k E)|]. split; [split|].
      * discriminate.
      * cbn [v_subs]. rewrite W2. discriminate.
      * discriminate.
  - exact (P p).
  - destruct (get p (v_procs s)) as [[|k|k]|] eqn:E; try exact Q. cbn [fst snd]. split; [exact W|]. split; [auto|].
    intros x [<-|[]]. destruct I as [_ I]. destruct (v_table s) as [|k1 [|k2 l]] eqn:T; [|exists k1|contradiction].
    + exfalso. destruct I as (I1 & _). exact (I1 p k E).
    + split; [reflexivity|]. destruct I as (_ & [I2 _] & _). cbn. rewrite (I2 p k E). reflexivity.
  - destruct (get p (v_procs s)) as [[|k|k]|] eqn:E; try exact Q. cbn [fst snd]. 
    destruct W as [S W]. destruct (v_table s) as [|k1 [|k2 l]] eqn:T; [|cbn [v_table]|contradiction].
    + exfalso. destruct W as (I1 & _). exact (I1 p k E).
    + destruct W as (I1 & [I2 I3] & I4). pose proof (I2 p k E) as ->. split; [|split; [auto|intros x [<-|[]]; exists k1; split; reflexivity]].
      split; [exact S|]. cbn [v_table]. split; [exact I1|]. split; [split; [exact I2|]|exact I4].
      cbn [v_subs]. intros i key H. apply get_set in H. destruct H as [[_ ->]|[_ H]]; [reflexivity|exact (I3 i key H)].
  - destruct (get p (v_procs s)) as [[|k|k]|] eqn:E; try exact Q. destruct (get id (v_subs s)) as [key|] eqn:K; [|exact Q]. cbn [fst snd].
    split; [exact W|]. split; [auto|]. intros x [<-|[]]. destruct I as [_ I]. destruct (v_table s) as [|k1 [|k2 l]] eqn:T; [|exists k1|contradiction].
    + exfalso. destruct I as (I1 & _). exact (I1 p k E).
    + split; [reflexivity|]. destruct I as (_ & [I2 I3] & _). pose proof (I2 p k E) as ->. rewrite (I3 id key K), beqb_refl. reflexivity.
Qed.

Lemma run_inv ops : forall G s, inv G s -> one_at_a_time s ops ->
  let G' k := G k \/ exists p, In (Generate p (Some k)) ops in
  inv G' (fst (run s ops)) /\ (forall k, v_table s = [k] -> v_table (fst (run s ops)) = [k]) /\
  (forall x, In x (snd (run s ops)) -> exists k, v_table (fst (run s ops)) = [k] /\ fine k x).
Proof.
  induction ops as [|o ops IH]; intros G s I A; cbn [run].
  - cbn [fst snd]. split; [apply (inv_weaken G); [left; assumption|exact I]|]. split; [auto|intros x []].
  - destruct A as [A1 A2]. destruct (step_inv G s o I A1) as (I1 & K1 & O1). destruct (step s o) as [s1 a] eqn:E. cbn [fst snd] in *.
    destruct (IH _ s1 I1 A2) as (I2 & K2 & O2). destruct (run s1 ops) as [s2 b] eqn:F. cbn [fst snd] in *. split; [|split].
    + eapply inv_weaken; [|exact I2]. intros k [[H|(p & H)]|(p & H)]; [left; exact H|right; exists p; left; exact H|right; exists p; right; exact H].
    + intros k H. apply K2. apply K1. exact H.
    + intros x Hx. apply in_app_or in Hx. destruct Hx as [Hx|Hx]; [|exact (O2 x Hx)]. destruct (O1 x Hx) as (k & T & Fx).
      exists k. split; [apply K2; exact T|exact Fx].
Qed.

Lemma start_inv : inv (fun _ => False) start.
Proof. split; [left; reflexivity|]. cbn. split; [discriminate|]. split; [reflexivity|discriminate]. Qed.

Theorem same_key ops : one_at_a_time start ops -> one_key ops (snd (run start ops)).
Proof.
  intros A. destruct (run_inv ops _ start start_inv A) as (I & _ & O). destruct (run start ops) as [s outs]. cbn [fst snd] in *.
  assert (U : forall x y kx ky, v_table s = [kx] -> v_table s = [ky] -> fine kx x -> fine ky y -> kx = ky) by (intros; congruence).
  split; [|split; [|split; [|split]]].
  - intros p q a b Ha Hb. destruct (O _ Ha) as (k1 & T1 & ->), (O _ Hb) as (k2 & T2 & ->). congruence.
  - intros p q a id k Ha Hb. destruct (O _ Ha) as (k1 & T1 & ->), (O _ Hb) as (k2 & T2 & ->). congruence.
  - intros p q id id' k k' Ha Hb. destruct (O _ Ha) as (k1 & T1 & ->), (O _ Hb) as (k2 & T2 & ->). congruence.
  - intros p id k Ha. destruct (O _ Ha) as (k1 & T1 & F). cbn in F. subst k1. destruct I as [_ I]. rewrite T1 in I. destruct I as ([[]|(q & H)] & _).
    exists q. exact H.
  - intros p id Ha. destruct (O _ Ha) as (k1 & _ & []).
Qed.

(** A start works if the database does. *)
Theorem start_works ops p k : one_at_a_time start ops -> let s := fst (run start ops) in v_procs s = [] ->
  exists k', get p (v_procs (fst (run s [Begin p true; Generate p (Some k); Store p true true]))) = Some (Up k') /\
  (v_table s = [] /\ k' = k \/ v_table s = [k']).
Proof.
  intros A s N. destruct (run_inv ops _ start start_inv A) as (I & _ & _). fold s in I. destruct I as [_ I].
  cbn [run step fst]. rewrite N. cbn [get negb]. destruct (v_table s) as [|k1 [|k2 l]] eqn:T; [exists k|exists k1|contradiction].
  - unfold set_proc. rewrite N, T. cbn [del filter v_procs v_table v_subs get fst snd]. rewrite N.eqb_refl.
    unfold set_proc. cbn [v_procs v_table v_subs get fst snd del filter]. rewrite !N.eqb_refl. cbn [existsb v_procs fst get negb filter].
    rewrite ?N.eqb_refl. cbn [existsb v_procs fst get negb filter insert app v_table]. rewrite ?N.eqb_refl. split; [reflexivity|]. left. auto.
  - unfold set_proc. rewrite N. cbn [del filter v_procs get fst snd]. rewrite N.eqb_refl. cbn [fst v_procs get]. rewrite N.eqb_refl.
    cbn [fst v_procs get]. rewrite N.eqb_refl. split; [reflexivity|]. right. reflexivity.
Qed.

(** With two rows no process comes up any more. *)
Lemma dead_for_ever ops : forall s a b l, v_table s = a :: b :: l -> v_procs s = [] -> snd (run s ops) = [].
Proof.
  induction ops as [|o ops IH]; intros s a b l T N; [reflexivity|]. cbn [run].
  assert (E : step s o = (s, []) \/ step s o = (stop (match o with Kill p => p | _ => 0%N end) s, [])).
  { destruct o as [p ok|p k|p w t|p|p|p id|p id]; cbn [step]; rewrite ?N, ?T; cbn [get]; try (left; reflexivity); [|right; reflexivity].
    destruct ok; left; reflexivity. }
  destruct E as [-> | ->].
  - specialize (IH s a b l T N). destruct (run s ops). cbn [snd app] in *. exact IH.
  - specialize (IH (stop (match o with Kill p => p | _ => 0%N end) s) a b l T). destruct (run _ ops). cbn [snd app] in *. apply IH.
    unfold stop. cbn [v_procs]. rewrite N. reflexivity.
Qed.
