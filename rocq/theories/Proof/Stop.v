(** Proofs about the end of the server. *)
From Verif.Base Require Import Bytes.
From Verif.Model Require Import Stop.
From Verif.Spec Require Import Stop.
From Coq Require Import NArith Lia.

Lemma get_set u v x l : get v (set u x l) = if N.eqb u v then match get v l with None => None | Some _ => Some x end else get v l.
Proof.
  induction l as [|[w y] l IH]; cbn [set map get fst]; [destruct (N.eqb u v); reflexivity|]. fold (set u x l).
  destruct (N.eqb_spec w u) as [->|E]; cbn [get fst].
  - destruct (N.eqb_spec u v) as [->|F]; [reflexivity|]. rewrite IH. reflexivity.
  - destruct (N.eqb_spec w v) as [->|F]; [destruct (N.eqb_spec u v) as [->|]; [contradiction|reflexivity]|exact IH].
Qed.

Lemma get_del u v l : get v (del u l) = if N.eqb u v then None else get v l.
Proof.
  induction l as [|[w y] l IH]; cbn [del filter get fst]; [destruct (N.eqb u v); reflexivity|]. fold (del u l).
  destruct (N.eqb_spec w u) as [->|E]; cbn [negb get fst].
  - rewrite IH. destruct (N.eqb u v); reflexivity.
  - destruct (N.eqb_spec w v) as [->|F]; [destruct (N.eqb_spec u v) as [->|]; [contradiction|reflexivity]|exact IH].
Qed.

Lemma set_keys u x l : map fst (set u x l) = map fst l.
Proof. induction l as [|[w y] l IH]; cbn [set map fst]; [reflexivity|]. fold (set u x l). rewrite IH. destruct (N.eqb w u); reflexivity. Qed.

Lemma get_in u l x : get u l = Some x -> In u (map fst l).
Proof. induction l as [|[w y] l IH]; cbn [get map fst]; [discriminate|]. destruct (N.eqb_spec w u) as [->|]; [left; reflexivity|right; auto]. Qed.

Lemma in_get u l : In u (map fst l) -> exists x, get u l = Some x.
Proof.
  induction l as [|[w y] l IH]; cbn [get map fst]; [intros []|]. destruct (N.eqb_spec w u) as [->|E]; [eauto|]. intros [H|H]; [contradiction|auto].
Qed.

Lemma del_keys u l : NoDup (map fst l) -> NoDup (map fst (del u l)).
Proof.
  induction l as [|[w y] l IH]; cbn [del filter map fst]; intros N; [constructor|]. fold (del u l). inversion N; subst.
  destruct (N.eqb w u); cbn [negb map fst]; [auto|]. constructor; [|auto]. intros H. apply H1. unfold del in H. apply in_map_iff in H.
  destruct H as (p & <- & H). apply filter_In in H. apply in_map. tauto.
Qed.

(** ** Progress *)
Definition weight (x : entry) : nat := length (snd x) + 1.
Definition total (l : list (N * entry)) : nat := fold_right (fun p n => weight (snd p) + n) 0 l.
Definition left (p : phase) (l : list (N * entry)) : nat :=
  match p with Running => 2 * length l + 3 | Stopping r => 2 * length r + 2 | Waiting => 1 | Closed => 0 end.
Definition measure (s : sys) : nat := total (s_users s) + left (s_phase s) (s_users s).

Lemma total_set u x l y : NoDup (map fst l) -> get u l = Some y -> total (set u x l) + weight y = total l + weight x.
Proof.
  induction l as [|[w z] l IH]; intros N; [discriminate|]. change (set u x ((w, z) :: l)) with ((if N.eqb w u then (w, x) else (w, z)) :: set u x l).
  change (total ((w, z) :: l)) with (weight z + total l).
  change (total ((if N.eqb w u then (w, x) else (w, z)) :: set u x l)) with (weight (snd (if N.eqb w u then (w, x) else (w, z))) + total (set u x l)).
  cbn [get].
  inversion N as [|? ? H1 H2]; subst. destruct (N.eqb_spec w u) as [->|E]; cbn [snd].
  - intros H. injection H as ->. replace (set u x l) with l; [lia|]. clear - H1. induction l as [|[w z] l IH]; [reflexivity|].
    cbn [set map fst]. fold (set u x l). destruct (N.eqb_spec w u) as [->|]; [exfalso; apply H1; left; reflexivity|].
    rewrite <- IH; [reflexivity|]. intros K. apply H1. right. exact K.
  - intros H. specialize (IH H2 H). lia.
Qed.

Lemma total_del u l y : NoDup (map fst l) -> get u l = Some y -> total (del u l) + weight y = total l.
Proof.
  induction l as [|[w z] l IH]; intros N; [discriminate|]. change (total ((w, z) :: l)) with (weight z + total l). cbn [get del filter fst]. fold (del u l).
  inversion N as [|? ? H1 H2]; subst. destruct (N.eqb_spec w u) as [->|E]; cbn [negb].
  - intros H. injection H as ->. replace (del u l) with l; [lia|]. clear - H1. induction l as [|[w z] l IH]; [reflexivity|].
    cbn [del filter fst]. fold (del u l). destruct (N.eqb_spec w u) as [->|]; [exfalso; apply H1; left; reflexivity|]. cbn [negb].
    rewrite <- IH; [reflexivity|]. intros K. apply H1. right. exact K.
  - intros H. cbn [total fold_right snd]. fold (total (del u l)). specialize (IH H2 H). lia.
Qed.

(** What holds as long as nothing needs the lock. *)
Definition still (e : entry) : Prop := fst e = Idle /\ Forall (fun x => x = EWork) (snd e).
Definition told (e : entry) : Prop := fst e = Ended \/ (fst e = Idle /\ In EStop (snd e) /\ Forall (fun x => x = EWork \/ x = EStop) (snd e)).

Definition inv (s : sys) : Prop :=
  NoDup (map fst (s_users s)) /\
  match s_phase s with
  | Running => forall u e, get u (s_users s) = Some e -> still e
  | Stopping r => NoDup r /\ (forall u, In u r -> exists e, get u (s_users s) = Some e /\ still e) /\
                  (forall u e, get u (s_users s) = Some e -> In u r \/ told e)
  | Waiting => forall u e, get u (s_users s) = Some e -> told e
  | Closed => s_users s = []
  end.

Lemma start_inv users : NoDup users -> inv (start users).
Proof.
  intros N. split; cbn [start s_users s_phase].
  - rewrite map_map. cbn [fst]. rewrite map_id. exact N.
  - intros u e H. assert (e = (Idle, [])) as ->; [|split; [reflexivity|constructor]].
    clear N. induction users as [|v l IH]; [discriminate|]. cbn [map get] in H. destruct (N.eqb v u); [injection H as <-; reflexivity|auto].
Qed.

Lemma inv_update s u e e' : inv s -> get u (s_users s) = Some e -> (still e -> still e') -> (told e -> told e') ->
  inv (Sys (set u e' (s_users s)) (s_phase s)).
Proof.
  intros [N I] G S T. split; cbn [s_users s_phase]; [rewrite set_keys; exact N|].
  assert (K : forall v x, get v (set u e' (s_users s)) = Some x -> (v = u /\ x = e') \/ (v <> u /\ get v (s_users s) = Some x)).
  { intros v x H. rewrite get_set in H. destruct (N.eqb_spec u v) as [<-|F]; [rewrite G in H; injection H as <-; auto|right; auto]. }
  destruct (s_phase s) as [|r| |].
  - intros v x H. destruct (K v x H) as [[-> ->]|[_ H']]; [exact (S (I u e G))|exact (I v x H')].
  - destruct I as (I1 & I2 & I3). split; [exact I1|]. split.
    + intros v Hv. rewrite get_set. destruct (I2 v Hv) as (x & Hx & Sx). rewrite Hx. destruct (N.eqb_spec u v) as [<-|F]; [|eauto].
      exists e'. split; [reflexivity|]. apply S. rewrite G in Hx. injection Hx as ->. exact Sx.
    + intros v x H. destruct (K v x H) as [[-> ->]|[_ H']]; [|exact (I3 v x H')]. destruct (I3 u e G) as [L|L]; [left; exact L|right; exact (T L)].
  - intros v x H. destruct (K v x H) as [[-> ->]|[_ H']]; [exact (T (I u e G))|exact (I v x H')].
  - rewrite I in G. discriminate G.
Qed.

Lemma inv_known s u e : inv s -> get u (s_users s) = Some e -> still e \/ told e.
Proof.
  intros [_ I] G. destruct (s_phase s) as [|r| |].
  - left. exact (I u e G).
  - destruct I as (_ & I2 & I3). destruct (I3 u e G) as [L|L]; [|right; exact L]. destruct (I2 u L) as (x & Hx & Sx). left. congruence.
  - right. exact (I u e G).
  - rewrite I in G. discriminate G.
Qed.

Lemma step_inv s x s' : inv s -> plain x -> step s x = Some s' -> inv s'.
Proof.
  intros I P H. destruct x as [u e|u|u|]; cbn [step] in H.
  - cbn in P. subst e. destruct (get u (s_users s)) as [[p q]|] eqn:G; [|discriminate]. destruct (room q); [|discriminate]. injection H as <-.
    apply (inv_update _ _ _ _ I G).
    + intros [S1 S2]. split; [exact S1|]. cbn [snd] in *. apply Forall_app. auto.
    + intros [T|(T1 & T2 & T3)]; [left; exact T|right]. cbn [fst snd] in *. split; [exact T1|]. split; [apply in_or_app; left; exact T2|].
      apply Forall_app. auto.
  - destruct (get u (s_users s)) as [[[|w|] q]|] eqn:G; [| | |discriminate].
    + destruct q as [|e q]; [discriminate|]. injection H as <-. apply (inv_update _ _ _ _ I G).
      * intros [S1 S2]. cbn [snd] in S2. inversion S2; subst. split; [reflexivity|assumption].
      * intros [T|(T1 & T2 & T3)]; [discriminate T|]. cbn [fst snd] in *. inversion T3 as [|? ? [->| ->] T4]; subst; [right|left; reflexivity].
        split; [reflexivity|]. split; [destruct T2 as [T2|T2]; [discriminate T2|exact T2]|exact T4].
    + exfalso. destruct (inv_known s u _ I G) as [[S _]|[T|(T & _)]]; discriminate.
    + destruct (held (s_phase s)) eqn:Hh; [discriminate|]. injection H as <-. destruct I as [N I]. split; cbn [s_users s_phase]; [apply del_keys; exact N|].
      assert (K : forall v x, get v (del u (s_users s)) = Some x -> get v (s_users s) = Some x) by (intros v x Hx; rewrite get_del in Hx; destruct (N.eqb u v); [discriminate|exact Hx]).
      destruct (s_phase s) as [|r| |]; [|discriminate Hh| |].
      * intros v x Hx. exact (I v x (K v x Hx)).
      * intros v x Hx. exact (I v x (K v x Hx)).
      * rewrite I. reflexivity.
  - destruct P.
  - destruct I as [N I]. destruct (s_phase s) as [|[|u r]| |] eqn:Ph.
    + injection H as <-. split; cbn [s_users s_phase]; [exact N|]. split; [exact N|]. split.
      * intros u Hu. destruct (in_get u _ Hu) as (e & He). exists e. split; [exact He|exact (I u e He)].
      * intros u e He. left. exact (get_in u _ _ He).
    + injection H as <-. split; cbn [s_users s_phase]; [exact N|]. destruct I as (_ & _ & I3). intros u e He. destruct (I3 u e He) as [[]|T]. exact T.
    + destruct I as (I1 & I2 & I3). destruct (I2 u (or_introl eq_refl)) as ([p q] & G & S1 & S2). cbn [fst snd] in S1, S2. subst p.
      rewrite G in H. destruct (room q); [|discriminate]. injection H as <-. inversion I1 as [|? ? N1 N2]; subst.
      split; cbn [s_users s_phase]; [rewrite set_keys; exact N|]. split; [exact N2|]. split.
      * intros v Hv. rewrite get_set. destruct (N.eqb_spec u v) as [<-|F]; [contradiction|]. exact (I2 v (or_intror Hv)).
      * intros v x Hx. rewrite get_set in Hx. destruct (N.eqb_spec u v) as [<-|F].
        -- rewrite G in Hx. injection Hx as <-. right. right. cbn [fst snd]. split; [reflexivity|]. split; [apply in_or_app; right; left; reflexivity|].
           apply Forall_app. split; [|constructor; [right; reflexivity|constructor]]. revert S2. apply Forall_impl. auto.
        -- destruct (I3 v x Hx) as [[->|L]|L]; [contradiction|left; exact L|right; exact L].
    + destruct (s_users s); [|discriminate]. injection H as <-. split; [constructor|reflexivity].
    + discriminate.
Qed.

Lemma run_inv l : forall s s', inv s -> Forall plain l -> run s l = Some s' -> inv s'.
Proof.
  induction l as [|x l IH]; intros s s' I P H; cbn [run] in H; [injection H as <-; exact I|].
  destruct (step s x) as [s1|] eqn:E; [|discriminate]. inversion P; subst. apply (IH s1); [exact (step_inv s x s1 I H2 E)|assumption|exact H].
Qed.

Lemma silent_plain x : silent x -> plain x.
Proof. destruct x; cbn; tauto. Qed.

(** A silent step takes something away. *)
Lemma step_less s x s' : inv s -> silent x -> step s x = Some s' -> measure s' < measure s.
Proof.
  intros I P H. pose proof I as [N I']. destruct x as [u e|u|u|]; cbn [step] in H; [destruct P| |destruct P|].
  - destruct (get u (s_users s)) as [[[|w|] q]|] eqn:G; [| | |discriminate].
    + destruct q as [|e q]; [discriminate|]. injection H as <-. unfold measure. cbn [s_users s_phase].
      set (p := match e with EWork => Idle | _ => _ end). pose proof (total_set u (p, q) _ _ N G) as T. unfold weight in T. cbn [snd length] in T.
      assert (L : length (set u (p, q) (s_users s)) = length (s_users s)) by (unfold set; apply map_length).
      assert (Lf : left (s_phase s) (set u (p, q) (s_users s)) = left (s_phase s) (s_users s)) by (destruct (s_phase s); cbn [left]; congruence).
      rewrite Lf. lia.
    + exfalso. destruct (inv_known s u _ I G) as [[S _]|[T|(T & _)]]; discriminate.
    + destruct (held (s_phase s)); [discriminate|]. injection H as <-. unfold measure. cbn [s_users s_phase].
      pose proof (total_del u _ _ N G) as T. unfold weight in T. cbn [snd] in T.
      assert (L : length (del u (s_users s)) <= length (s_users s)) by (unfold del; clear; induction (s_users s) as [|p l IH]; cbn [filter length]; [lia|]; destruct (negb _); cbn [length]; lia).
      assert (Lf : left (s_phase s) (del u (s_users s)) <= left (s_phase s) (s_users s)) by (destruct (s_phase s); cbn [left]; lia).
      lia.
  - unfold measure. destruct (s_phase s) as [|[|u r]| |] eqn:Ph.
    + injection H as <-. cbn [s_users s_phase left]. rewrite map_length. lia.
    + injection H as <-. cbn [s_users s_phase left length]. lia.
    + destruct (get u (s_users s)) as [[p q]|] eqn:G; [|discriminate]. destruct (room q); [|discriminate]. injection H as <-.
      cbn [s_users s_phase left length]. pose proof (total_set u (p, q ++ [EStop]) _ _ N G) as T. unfold weight in T. cbn [snd] in T.
      rewrite app_length in T. cbn [length] in T. lia.
    + destruct (s_users s); [|discriminate]. injection H as <-. cbn. lia.
    + discriminate.
Qed.

(** Somebody can go on. *)
Lemma progress s : inv s -> s_phase s <> Running -> s_phase s = Closed \/ exists x s2, silent x /\ step s x = Some s2.
Proof.
  intros I R. destruct (s_phase s) as [|[|u r]| |] eqn:Ph; [contradiction| | | |left; reflexivity]; right.
  - exists Shut. cbn [step]. rewrite Ph. eexists. split; [exact Logic.I|reflexivity].
  - pose proof I as [_ I']. rewrite Ph in I'. destruct I' as (_ & I2 & _). destruct (I2 u (or_introl eq_refl)) as ([p q] & G & S1 & S2). cbn [fst snd] in *. subst p.
    destruct (room q) eqn:Rq.
    + exists Shut. cbn [step]. rewrite Ph, G, Rq. eexists. split; [exact Logic.I|reflexivity].
    + exists (Go u). cbn [step]. rewrite G. destruct q as [|e q]; [discriminate Rq|]. eexists. split; [exact Logic.I|reflexivity].
  - pose proof I as [_ I']. rewrite Ph in I'. destruct (s_users s) as [|[u e] l] eqn:U.
    + exists Shut. cbn [step]. rewrite Ph, U. eexists. split; [exact Logic.I|reflexivity].
    + exists (Go u). cbn [step]. rewrite U, Ph. cbn [get held]. rewrite N.eqb_refl.
      assert (T : told e) by (apply (I' u); cbn [get]; rewrite N.eqb_refl; reflexivity). destruct e as [p q]. destruct T as [T|(T1 & T2 & _)]; cbn [fst snd] in *; subst p.
      * eexists. split; [exact Logic.I|reflexivity].
      * destruct q as [|e q]; [destruct T2|]. eexists. split; [exact Logic.I|reflexivity].
Qed.

Lemma phase_on s x s' : s_phase s <> Running -> step s x = Some s' -> s_phase s' <> Running.
Proof.
  intros R H. destruct x as [u e|u|u|]; cbn [step] in H.
  - destruct e; destruct (get u (s_users s)) as [[p q]|]; try discriminate; destruct (room q); try discriminate; injection H as <-; exact R.
  - destruct (get u (s_users s)) as [[[|w|] q]|]; [| | |discriminate].
    + destruct q; [discriminate|]. injection H as <-. exact R.
    + destruct (held _); [discriminate|]. injection H as <-. exact R.
    + destruct (held _); [discriminate|]. injection H as <-. exact R.
  - destruct (get u (s_users s)) as [[[|w|] [|[] q]]|]; try discriminate. injection H as <-. exact R.
  - destruct (s_phase s) as [|[|u r]| |]; try contradiction; try (injection H as <-; discriminate).
    + destruct (get u (s_users s)) as [[p q]|]; [|discriminate]. destruct (room q); [|discriminate]. injection H as <-. discriminate.
    + destruct (s_users s); [|discriminate]. injection H as <-. discriminate.
    + discriminate.
Qed.

Lemma silent_run l : forall s s', inv s -> s_phase s <> Running -> Forall silent l -> run s l = Some s' ->
  length l + measure s' <= measure s /\ inv s' /\ s_phase s' <> Running.
Proof.
  induction l as [|x l IH]; intros s s' I R P H; cbn [run] in H; [injection H as <-; auto|].
  destruct (step s x) as [s1|] eqn:E; [|discriminate]. inversion P as [|? ? P1 P2]; subst.
  pose proof (step_less s x s1 I P1 E) as L. pose proof (step_inv s x s1 I (silent_plain x P1) E) as I1.
  destruct (IH s1 s' I1 (phase_on s x s1 R E) P2 H) as (A & B & C). cbn [length]. split; [lia|auto].
Qed.

Theorem stopping users h s : NoDup users -> Forall plain h -> run (start users) h = Some s -> s_phase s <> Running -> stops s.
Proof.
  intros N P H R. pose proof (run_inv h _ _ (start_inv users N) P H) as I. exists (measure s). intros l s' Pl Hl.
  destruct (silent_run l s s' I R Pl Hl) as (A & B & C). split; [lia|]. exact (progress s' B C).
Qed.

(** The database is closed when nobody is left. *)
Theorem closed_last h : forall s s', (s_phase s = Closed -> all_gone s) -> run s h = Some s' -> s_phase s' = Closed -> all_gone s'.
Proof.
  induction h as [|x h IH]; intros s s' I H C; cbn [run] in H; [injection H as <-; auto|].
  destruct (step s x) as [s1|] eqn:E; [|discriminate]. apply (IH s1 s'); [|exact H|exact C]. intros C1. unfold all_gone in *. clear IH H C.
  destruct x as [u e|u|u|]; cbn [step] in E.
  - destruct (get u (s_users s)) as [[p q]|] eqn:G; [|destruct e; discriminate].
    destruct e; try discriminate; (destruct (room q); [|discriminate]); injection E as <-; cbn [s_phase] in C1; rewrite (I C1) in G; discriminate G.
  - destruct (get u (s_users s)) as [[[|w|] q]|] eqn:G; [| | |discriminate].
    + destruct q; [discriminate|]. injection E as <-. cbn [s_phase] in C1. rewrite (I C1) in G. discriminate G.
    + destruct (held _); [discriminate|]. injection E as <-. cbn [s_phase] in C1. rewrite (I C1) in G. discriminate G.
    + destruct (held _); [discriminate|]. injection E as <-. cbn [s_phase] in C1. rewrite (I C1) in G. discriminate G.
  - destruct (get u (s_users s)) as [[[|w|] [|[] q]]|] eqn:G; try discriminate. injection E as <-. cbn [s_phase] in C1. rewrite (I C1) in G. discriminate G.
  - destruct (s_phase s) as [|[|u r]| |]; try (injection E as <-; discriminate C1).
    + destruct (get u (s_users s)) as [[p q]|]; [|discriminate]. destruct (room q); [|discriminate]. injection E as <-. discriminate C1.
    + destruct (s_users s); [|discriminate]. injection E as <-. reflexivity.
    + discriminate.
Qed.

(** ** For ever *)
(** Shutdown waits for room in the channel of a goroutine that waits for the lock. *)
Definition jammed (u : N) (s : sys) : Prop :=
  exists r p q, s_phase s = Stopping (u :: r) /\ get u (s_users s) = Some (p, q) /\ p <> Idle /\ room q = false.

Lemma jammed_step u s x s' : jammed u s -> step s x = Some s' -> jammed u s'.
Proof.
  intros (r & p & q & Ph & G & P & R) H. 
  assert (O : forall v y, v <> u -> jammed u (Sys (set v y (s_users s)) (s_phase s))).
  { intros v y F. exists r, p, q. cbn [s_phase s_users]. split; [exact Ph|]. rewrite get_set. apply N.eqb_neq in F. rewrite F. auto. }
  destruct x as [v e|v|v|]; cbn [step] in H.
  - destruct (N.eq_dec v u) as [->|F]; [rewrite G, R in H; destruct e; discriminate|].
    destruct (get v (s_users s)) as [[p' q']|]; [|destruct e; discriminate].
    destruct e; try discriminate; (destruct (room q'); [|discriminate]); injection H as <-; apply O; exact F.
  - rewrite Ph in H. cbn [held] in H. destruct (N.eq_dec v u) as [->|F].
    + rewrite G in H. destruct p; [contradiction|discriminate|discriminate].
    + destruct (get v (s_users s)) as [[[|w|] q']|]; try discriminate. destruct q'; [discriminate|]. injection H as <-. rewrite <- Ph. apply O. exact F.
  - destruct (N.eq_dec v u) as [->|F]; [rewrite G in H; destruct p; [contradiction|discriminate|discriminate]|].
    destruct (get v (s_users s)) as [[[|w|] [|[] q']]|]; try discriminate. injection H as <-. apply O. exact F.
  - rewrite Ph, G, R in H. discriminate.
Qed.

Theorem jammed_hangs u s : jammed u s -> hangs false s.
Proof.
  intros J l. revert s J. induction l as [|x l IH]; intros s J s' H _; cbn [run] in H.
  - injection H as <-. destruct J as (r & p & q & Ph & _). rewrite Ph. discriminate.
  - destruct (step s x) as [s1|] eqn:E; [|discriminate]. apply (IH s1 (jammed_step u s x s1 J E) s' H). discriminate.
Qed.

(** Shutdown waits for somebody who was not told. *)
Definition unaware (u : N) (s : sys) : Prop :=
  s_phase s = Waiting /\ exists p q, get u (s_users s) = Some (p, q) /\ p <> Ended /\ ~ In EStop q.

Lemma get_app u l1 l2 x : get u l1 = Some x -> get u (l1 ++ l2) = Some x.
Proof. induction l1 as [|[w y] l IH]; cbn [get app]; [discriminate|]. destruct (N.eqb w u); auto. Qed.

Lemma unaware_step u s x s' : unaware u s -> x <> Crash u -> step s x = Some s' -> unaware u s'.
Proof.
  intros (Ph & p & q & G & P & Q) X H. 
  assert (O : forall v y, (v = u -> exists p' q', y = (p', q') /\ p' <> Ended /\ ~ In EStop q') ->
    exists p' q', get u (set v y (s_users s)) = Some (p', q') /\ p' <> Ended /\ ~ In EStop q').
  { intros v y F. rewrite get_set, G. destruct (N.eqb_spec v u) as [->|E]; [|eauto]. destruct (F eq_refl) as (p' & q' & -> & A & B). eauto. }
  destruct x as [v e|v|v|]; cbn [step] in H.
  - destruct (get v (s_users s)) as [[p' q']|] eqn:Gv; [|destruct e; discriminate]. destruct e; try discriminate;
      (destruct (room q'); [|discriminate]); injection H as <-; (split; [exact Ph|]); apply O; intros ->; rewrite G in Gv; injection Gv as <- <-;
      eexists; eexists; (split; [reflexivity|]); (split; [exact P|]); intros K; apply in_app_or in K; destruct K as [K|[K|[]]]; [exact (Q K)|discriminate K|exact (Q K)|discriminate K|exact (Q K)|discriminate K].
  - rewrite Ph in H. cbn [held] in H. destruct (get v (s_users s)) as [[[|w|] q']|] eqn:Gv; [| | |discriminate].
    + destruct q' as [|e q']; [discriminate|]. injection H as <-. split; [reflexivity|]. apply O. intros ->. rewrite G in Gv. injection Gv as -> ->.
      eexists. eexists. split; [reflexivity|]. split; [destruct e; try discriminate; exfalso; apply Q; left; reflexivity|]. intros K. apply Q. right. exact K.
    + injection H as <-. split; [reflexivity|]. cbn [s_users].
      destruct (O v (Idle, q')) as (p1 & q1 & A & B & C).
      { intros ->. rewrite G in Gv. injection Gv as _ <-. exists Idle, q. split; [reflexivity|]. split; [discriminate|exact Q]. }
      exists p1, q1. split; [|auto]. destruct w as [w|]; [|exact A]. destruct (get w _); [exact A|]. apply get_app. exact A.
    + injection H as <-. split; [reflexivity|]. exists p, q. cbn [s_users]. rewrite get_del. destruct (N.eqb_spec v u) as [->|E]; [|auto].
      rewrite G in Gv. injection Gv as -> _. contradiction.
  - destruct (N.eq_dec v u) as [->|F]; [contradiction|]. destruct (get v (s_users s)) as [[[|w|] [|[] q']]|]; try discriminate. injection H as <-.
    split; [exact Ph|]. apply O. intros ->. contradiction.
  - rewrite Ph in H. destruct (s_users s); [discriminate G|discriminate].
Qed.

Theorem unaware_hangs u s : unaware u s -> hangs true s.
Proof.
  intros J l. revert s J. induction l as [|x l IH]; intros s J s' H C; cbn [run] in H.
  - injection H as <-. destruct J as (Ph & _). rewrite Ph. discriminate.
  - destruct (step s x) as [s1|] eqn:E; [|discriminate]. apply (IH s1) with (s' := s'); [|exact H|].
    + apply (unaware_step u s x s1 J); [|exact E]. intros ->. exact (C eq_refl u (or_introl eq_refl)).
    + intros _ v Hv. exact (C eq_refl v (or_intror Hv)).
Qed.

(** ** What was given is dealt with *)
Definition sends (u : N) (s : sys) (x : label) : list ev :=
  match x with
  | Push v e => if N.eqb v u then [e] else []
  | Shut => match s_phase s with Stopping (v :: _) => if N.eqb v u then [EStop] else [] | _ => [] end
  | _ => []
  end.
Fixpoint sent (u : N) (s : sys) (h : list label) : list ev :=
  match h with
  | [] => []
  | x :: h => sends u s x ++ match step s x with Some s' => sent u s' h | None => [] end
  end.

(** [a] has been taken of [b]; the rest is in the channel. *)
Definition track (u : N) (s : sys) (a b : list ev) : Prop :=
  (forall v w q, get v (s_users s) = Some (Needs (Some w), q) -> False) /\
  (forall v p q w, get v (s_users s) = Some (p, q) -> ~ In (ECreate w) q) /\
  match get u (s_users s) with
  | Some (p, q) => a ++ q = b /\ (p = Ended -> In EStop a)
  | None => In EStop a /\ exists r, b = a ++ r
  end.

Lemma track_others u s v p q : forall a b p0 q0, track u s a b -> get v (s_users s) = Some (p0, q0) ->
  (forall w, p <> Needs (Some w)) -> (forall w, ~ In (ECreate w) q) ->
  (forall v' w q', get v' (set v (p, q) (s_users s)) = Some (Needs (Some w), q') -> False) /\
  (forall v' p' q' w, get v' (set v (p, q) (s_users s)) = Some (p', q') -> ~ In (ECreate w) q').
Proof.
  intros a b p0 q0 (T1 & T2 & _) G P Q. split.
  - intros v' w q' H. rewrite get_set in H. destruct (N.eqb_spec v v') as [<-|]; [rewrite G in H; injection H as H _; exact (P w H)|exact (T1 _ _ _ H)].
  - intros v' p' q' w H. rewrite get_set in H. destruct (N.eqb_spec v v') as [<-|]; [rewrite G in H; injection H as _ <-; exact (Q w)|exact (T2 _ _ _ w H)].
Qed.

Lemma track_step u s x s' a b : track u s a b -> same_users x -> step s x = Some s' -> track u s' (a ++ takes u s x) (b ++ sends u s x).
Proof.
  intros T S H. pose proof T as (T1 & T2 & T3). destruct x as [v e|v|v|]; cbn [step takes sends] in *.
  - rewrite app_nil_r. destruct (get v (s_users s)) as [[p q]|] eqn:G; [|destruct e; discriminate].
    assert (E : e <> EStop /\ (forall w, e <> ECreate w) /\ s' = Sys (set v (p, q ++ [e]) (s_users s)) (s_phase s)).
    { destruct e; try contradiction; try discriminate; (destruct (room q); [|discriminate]); injection H as <-; repeat split; discriminate. }
    destruct E as (E1 & E2 & ->). unfold track. cbn [s_users].
    destruct (track_others u s v p (q ++ [e]) a b p q T G) as [A B].
    { intros w ->. exact (T1 _ _ _ G). }
    { intros w K. apply in_app_or in K. destruct K as [K|[K|[]]]; [exact (T2 _ _ _ w G K)|exact (E2 w K)]. }
    split; [exact A|]. split; [exact B|]. rewrite get_set. destruct (N.eqb_spec v u) as [->|F].
    + rewrite G in *. destruct T3 as [<- T4]. split; [rewrite app_assoc; reflexivity|exact T4].
    + rewrite app_nil_r. exact T3.
  - rewrite app_nil_r. destruct (get v (s_users s)) as [[[|w|] q]|] eqn:G; [| | |discriminate].
    + destruct q as [|e q]; [discriminate|]. injection H as <-. unfold track. cbn [s_users].
      assert (EC : forall w, e <> ECreate w) by (intros w ->; exact (T2 _ _ _ w G (or_introl eq_refl))).
      match goal with |- context [set v (?p, q) _] => set (p0 := p) end.
      destruct (track_others u s v p0 q a b Idle (e :: q) T G) as [A B].
      { intros w. subst p0. destruct e; try discriminate. destruct (EC w0 eq_refl). }
      { intros w K. exact (T2 _ _ _ w G (or_intror K)). }
      split; [exact A|]. split; [exact B|]. rewrite get_set. destruct (N.eqb_spec v u) as [->|F].
      * rewrite G in *. destruct T3 as [<- T4]. split; [rewrite <- app_assoc; reflexivity|]. intros Pe. apply in_or_app. right. left. subst p0. destruct e; try discriminate. reflexivity.
      * rewrite app_nil_r. exact T3.
    + destruct (held (s_phase s)); [discriminate|]. destruct w as [w|]; [destruct (T1 _ _ _ G)|]. injection H as <-. unfold track. cbn [s_users].
      destruct (track_others u s v Idle q a b (Needs None) q T G) as [A B]; [discriminate|intros w; exact (T2 _ _ _ w G)|].
      split; [exact A|]. split; [exact B|]. rewrite get_set. destruct (N.eqb_spec v u) as [->|F].
      * rewrite G in *. rewrite app_nil_r. destruct T3 as [T3 T4]. split; [exact T3|discriminate].
      * rewrite app_nil_r. exact T3.
    + destruct (held (s_phase s)); [discriminate|]. injection H as <-. unfold track. cbn [s_users].
      split; [intros v' w q' H; rewrite get_del in H; destruct (N.eqb v v'); [discriminate|exact (T1 _ _ _ H)]|].
      split; [intros v' p' q' w H; rewrite get_del in H; destruct (N.eqb v v'); [discriminate|exact (T2 _ _ _ w H)]|].
      rewrite get_del. destruct (N.eqb_spec v u) as [->|F].
      * rewrite G in *. rewrite app_nil_r. destruct T3 as [<- T4]. split; [exact (T4 eq_refl)|eauto].
      * rewrite app_nil_r. exact T3.
  - destruct S.
  - rewrite app_nil_r. destruct (s_phase s) as [|[|v r]| |]; try (rewrite app_nil_r; injection H as <-; exact T).
    + destruct (get v (s_users s)) as [[p q]|] eqn:G; [|discriminate]. destruct (room q); [|discriminate]. injection H as <-. unfold track. cbn [s_users].
      destruct (track_others u s v p (q ++ [EStop]) a b p q T G) as [A B].
      { intros w ->. exact (T1 _ _ _ G). }
      { intros w K. apply in_app_or in K. destruct K as [K|[K|[]]]; [exact (T2 _ _ _ w G K)|discriminate K]. }
      split; [exact A|]. split; [exact B|]. rewrite get_set. destruct (N.eqb_spec v u) as [->|F].
      * rewrite G in *. destruct T3 as [<- T4]. split; [rewrite app_assoc; reflexivity|exact T4].
      * rewrite app_nil_r. exact T3.
    + rewrite app_nil_r. destruct (s_users s) eqn:U; [|discriminate]. injection H as <-. unfold track. cbn [s_users get].
      split; [discriminate|]. split; [discriminate|exact T3].
    + discriminate.
Qed.

Lemma track_run u h : forall s s' a b, track u s a b -> Forall same_users h -> run s h = Some s' ->
  track u s' (a ++ handled u s h) (b ++ sent u s h).
Proof.
  induction h as [|x h IH]; intros s s' a b T S H; cbn [run handled sent] in *; [injection H as <-; rewrite !app_nil_r; exact T|].
  destruct (step s x) as [s1|] eqn:E; [|discriminate]. inversion S; subst. rewrite !app_assoc. apply (IH s1); [|assumption|exact H].
  apply track_step; assumption.
Qed.

Lemma sent_app u h1 : forall h2 s, (forall s1, run s h1 = Some s1 -> sent u s (h1 ++ h2) = sent u s h1 ++ sent u s1 h2).
Proof.
  induction h1 as [|x h1 IH]; intros h2 s s1 H; cbn [run app sent] in *; [injection H as <-; reflexivity|].
  destruct (step s x) as [s2|]; [|discriminate]. rewrite (IH h2 s2 s1 H), app_assoc. reflexivity.
Qed.

Lemma run_app h1 : forall h2 s s', run s (h1 ++ h2) = Some s' -> exists s1, run s h1 = Some s1 /\ run s1 h2 = Some s'.
Proof.
  induction h1 as [|x h1 IH]; intros h2 s s' H; cbn [run app] in *; [eauto|]. destruct (step s x) as [s2|]; [|discriminate]. exact (IH h2 s2 s' H).
Qed.

Lemma sent_given u h : forall s s', ~ In Shut h -> run s h = Some s' -> sent u s h = given u h /\ ~ In EStop (given u h).
Proof.
  induction h as [|x h IH]; intros s s' N H; cbn [run sent given] in *; [split; [reflexivity|intros []]|].
  destruct (step s x) as [s1|] eqn:E; [|discriminate]. destruct (IH s1 s') as [A B]; [intros K; apply N; right; exact K|exact H|].
  destruct x as [v e|v|v|]; cbn [sends app]; [|auto|auto|destruct N; left; reflexivity].
  destruct (N.eqb v u); cbn [app]; [|auto]. rewrite A. split; [reflexivity|]. intros [->|K]; [discriminate E|exact (B K)].
Qed.

Theorem all_handled users h1 h2 s u : Forall same_users (h1 ++ h2) -> ~ In Shut h1 -> In u users ->
  run (start users) (h1 ++ h2) = Some s -> s_phase s = Closed -> exists rest, handled u (start users) (h1 ++ h2) = given u h1 ++ rest.
Proof.
  intros S N Hu H C.
  assert (G : forall v x, get v (s_users (start users)) = Some x -> x = (Idle, [])).
  { cbn [start s_users]. intros v x. clear. induction users as [|w l IH]; cbn [map get]; [discriminate|]. destruct (N.eqb w v); [congruence|exact IH]. }
  assert (T0 : track u (start users) [] []).
  { split; [intros v w q K; apply G in K; discriminate K|]. split; [intros v p q w K; apply G in K; injection K as _ ->; intros []|].
    destruct (in_get u (s_users (start users))) as [[p q] E]; [cbn [start s_users]; rewrite map_map; cbn [fst]; rewrite map_id; exact Hu|].
    rewrite E. apply G in E. injection E as -> ->. split; [reflexivity|discriminate]. }
  pose proof (track_run u _ _ _ _ _ T0 S H) as (_ & _ & T). cbn [app] in T.
  assert (Ga : s_users s = []) by (apply (closed_last (h1 ++ h2) (start users) s); [discriminate|exact H|exact C]). rewrite Ga in T. cbn [get] in T. destruct T as (I & r & E).
  destruct (run_app _ _ _ _ H) as (s1 & H1 & H2). rewrite (sent_app u h1 h2 _ s1 H1) in E. destruct (sent_given u h1 _ _ N H1) as [A B]. rewrite A in E.
  revert I E B. generalize (given u h1) as g. generalize (handled u (start users) (h1 ++ h2)) as a. clear. intros a g. revert a.
  induction g as [|e g IH]; intros a I E B; [exists a; reflexivity|]. destruct a as [|e' a]; [destruct I|].
  cbn [app] in E. injection E as <- E. destruct I as [->|I]; [exfalso; apply B; left; reflexivity|].
  destruct (IH a I E) as (rest & ->); [intros K; apply B; right; exact K|]. exists rest. reflexivity.
Qed.
