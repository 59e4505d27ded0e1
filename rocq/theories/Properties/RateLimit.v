(** Property C87: the rate of messages to a server. *)
From Coq Require Import ZArith List Bool Lia.
From Verif.Model Require Import RateLimit.
From Verif.Proof Require RateLimit.
From Verif.Spec Require Import RateLimit.
Import ListNotations.
Local Open Scope Z_scope.

(** C87: in any period, however messages are queued and however long writes take, at most burst + 1 messages under the
    limit are written, and one more for every delay. *)
Theorem C87_window : forall delay burst now es a b,
  0 < delay -> 0 < burst -> Forall forward es -> a <= b ->
  (count (in_window a b) (snd (turns delay burst (new_conn delay burst now) es)) - 1 - burst) * delay <= b - a.
Proof.
  intros delay burst now es a b Hd Hb F Hab. destruct (turns delay burst (new_conn delay burst now) es) as [c' os] eqn:E.
  pose proof (Proof.RateLimit.window delay burst Hd Hb a b es _ (Proof.RateLimit.good_new delay burst Hd Hb now) F Hab os c' E). cbn [snd]. nia.
Qed.
Print Assumptions C87_window.

(** C87: when writes take no time, at most burst. *)
Theorem C87_window_prompt : forall delay burst now es a b,
  0 < delay -> 0 < burst -> Forall forward es -> Forall prompt es -> a <= b ->
  (count (in_window a b) (snd (turns delay burst (new_conn delay burst now) es)) - burst) * delay <= b - a.
Proof.
  intros delay burst now es a b Hd Hb F P Hab. destruct (turns delay burst (new_conn delay burst now) es) as [c' os] eqn:E.
  pose proof (Proof.RateLimit.window_prompt delay burst Hd Hb a b es _ (Proof.RateLimit.good_new delay burst Hd Hb now) F P Hab os c' E). cbn [snd]. nia.
Qed.
Print Assumptions C87_window_prompt.

(** That many are possible: one whose write is slow does not count any more when it is done. *)
Theorem C87_tight : exists es, Forall forward es /\
  count (in_window 100 100) (snd (turns 2 10 (new_conn 2 10 0) es)) = 11.
Proof.
  exists (Msg 0 100 :: repeat (Msg 0 0) 20). split; [|vm_compute; reflexivity].
  constructor; [split; lia|]. apply Forall_forall. intros e H. apply repeat_spec in H. subst e. split; lia.
Qed.
Print Assumptions C87_tight.

(** C87: a message that is next waits at most one delay, and not at all when there is no limit; so that all messages are written
    within a delay for each, apart from the time to queue and write them. *)
Theorem C87_wait : forall delay burst now es,
  0 < delay -> 0 < burst -> Forall forward es ->
  let '(c, os) := turns delay burst (new_conn delay burst now) es in
  (forall m, In m os -> s_taken m <= s_allowed m <= s_taken m + delay /\ (s_limited m = false -> s_allowed m = s_taken m)) /\
  c_now c <= now + waiting es + count limited_only os * delay.
Proof.
  intros delay burst now es Hd Hb F. destruct (turns delay burst (new_conn delay burst now) es) as [c os] eqn:E.
  pose proof (Proof.RateLimit.good_new delay burst Hd Hb now) as G. split.
  - exact (Proof.RateLimit.each delay burst Hd Hb es _ G F os c E).
  - exact (Proof.RateLimit.total delay burst Hd Hb es _ G F os c E).
Qed.
Print Assumptions C87_wait.

(** C87: a message waits only if, written at once, there would be more than burst messages since some moment, and one for every delay since
    then. *)
Theorem C87_needed : forall delay burst now es l1 m l2,
  0 < delay -> 0 < burst -> Forall forward es ->
  snd (turns delay burst (new_conn delay burst now) es) = l1 ++ m :: l2 -> s_taken m < s_allowed m ->
  exists a, a <= s_taken m /\ s_taken m - a < (count (since a) l1 + 1 - burst) * delay.
Proof.
  intros delay burst now es l1 m l2 Hd Hb F Eo Hw. destruct (turns delay burst (new_conn delay burst now) es) as [c os] eqn:E. cbn [snd] in Eo.
  destruct (Proof.RateLimit.needed delay burst Hd Hb es [] _ (Proof.RateLimit.good_new delay burst Hd Hb now) F (Proof.RateLimit.spent_new delay burst now) os c E l1 m l2 Eo Hw)
    as (a & A1 & A2).
  exists a. split; [exact A1|]. cbn [app] in A2. nia.
Qed.
Print Assumptions C87_needed.

(** No limit for clients and administrators, whose connections have no delay. *)
Theorem C87_clients : forall burst now es m, Forall forward es ->
  In m (snd (turns 0 burst (new_conn 0 burst now) es)) -> s_allowed m = s_taken m.
Proof.
  intros burst now es m F H. destruct (turns 0 burst (new_conn 0 burst now) es) as [c os] eqn:E.
  exact (Proof.RateLimit.unlimited burst es _ F os c E m H).
Qed.
Print Assumptions C87_clients.

(** No message is lost or moved by the limiter. *)
Theorem C87_each_once : forall delay burst c es,
  length (snd (turns delay burst c es)) = length (filter (fun e => match e with Msg _ _ => true | Rate _ => false end) es).
Proof.
  intros delay burst c es. revert c. induction es as [|e es IH]; intros c; [reflexivity|]. cbn [turns filter].
  destruct e as [gap late|b]; cbn [turn].
  - destruct (if c_rate c && negb (delay =? 0) then _ else _) as [l t]. 
    match goal with |- context [turns delay burst ?x es] => specialize (IH x); destruct (turns delay burst x es) end. cbn [snd app length] in *. rewrite IH. reflexivity.
  - match goal with |- context [turns delay burst ?x es] => specialize (IH x); destruct (turns delay burst x es) end. cbn [snd app] in *. exact IH.
Qed.
Print Assumptions C87_each_once.

(** Thirteen messages at once with the limit of soju: ten at once and then one every two seconds; and all at once when
    the server says that it is safe. *)
Example C87_nonvacuous :
  map s_written (snd (turns upstream_delay upstream_burst (new_conn upstream_delay upstream_burst 0) (repeat (Msg 0 0) 13)))
    = repeat 0 10 ++ [upstream_delay; 2 * upstream_delay; 3 * upstream_delay] /\
  map s_written (snd (turns upstream_delay upstream_burst (new_conn upstream_delay upstream_burst 0) (Rate false :: repeat (Msg 0 0) 13))) = repeat 0 13 /\
  0 < upstream_delay /\ 0 < upstream_burst.
Proof. split; [vm_compute; reflexivity|]. split; [vm_compute; reflexivity|]. split; vm_compute; reflexivity. Qed.
