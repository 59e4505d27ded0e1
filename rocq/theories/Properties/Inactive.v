(** C118: users who have not been there for long. *)
From Verif.Base Require Import Bytes.
From Verif.Model Require Import Message TimeFmt Sql SqlQuery Inactive.
From Verif.Spec Require Import TimeFmt Sql SqlQuery Inactive.
From Verif.Proof Require Inactive TimeFmt.
From Coq Require Import ZArith NArith Lia.

(** The users listed are those whose last interaction, or creation if there was none, is
    before the limit, by milliseconds. *)
Theorem C118_listed : forall raw_of d name created last limit, seen raw_of d name created last -> in_years limit -> limit <> 0%Z ->
  (In name (inactive_usernames limit d) <-> (millis (if Z.eqb last 0 then created else last) < millis limit)%Z).
Proof. exact Proof.Inactive.listed. Qed.
Print Assumptions C118_listed.

(** So nobody who was there since then is listed, and whoever is listed is a user. *)
Theorem C118_long_gone : forall raw_of d limit name, dated raw_of d -> in_years limit -> limit <> 0%Z -> In name (inactive_usernames limit d) ->
  exists created last, seen raw_of d name created last /\ (millis (if Z.eqb last 0 then created else last) < millis limit)%Z.
Proof.
  intros raw_of d limit name D Y L H.
  assert (Hr : exists r, In r (d_users d) /\ ur_username r = name).
  { unfold inactive_usernames in H. destruct (sqlite_value limit); [|destruct H]. apply in_map_iff in H as (r & E & H'). apply filter_In in H' as [H' _]. exists r. auto. }
  destruct Hr as (r & Hr & <-). destruct (Proof.Inactive.everyone_seen raw_of d r D Hr) as (a & b & S). exists a, b. split; [exact S|].
  apply (Proof.Inactive.listed raw_of d (ur_username r) a b limit S Y L). exact H.
Qed.
Print Assumptions C118_long_gone.

(** ** A case: alice was created long ago and came back, bob never came. *)
Definition ex_raw (m : message) : bytes := [].
Definition ms (n : Z) : Z := (63000000000000 + n)%Z * 1000000.
Definition ex_user (id : N) (name : bytes) (t : Z) : guser := GUser id name [] [] [] false true t (-1).
Definition ex1 : db := step_db ex_raw empty_db (StoreUser (ms 1) (ex_user 0 (B "alice") 0)).
Definition ex2 : db := step_db ex_raw ex1 (StoreUser (ms 2) (ex_user 0 (B "bob") 0)).
Definition ex3 : db := step_db ex_raw ex2 (StoreUser (ms 9) (ex_user 1 (B "alice") (ms 9))).

Lemma ex_years n : (0 <= n <= 9)%Z -> in_years (ms n).
Proof. unfold in_years, ms. lia. Qed.

Lemma ex_seen1 : seen ex_raw ex1 (B "alice") (ms 1) 0.
Proof.
  apply (seen_new ex_raw empty_db (ms 1) (ex_user 0 (B "alice") 0) ex1 1%N); [apply reach_empty|apply ex_years; lia|unfold in_years; cbn; lia|reflexivity|vm_compute; reflexivity].
Qed.

Lemma ex_dated : dated ex_raw ex3.
Proof.
  repeat (apply dated_step; [|exact I|split; [apply ex_years; lia|first [apply ex_years; lia|unfold in_years; cbn; lia]]]). apply dated_empty.
Qed.

Example C118_nonvacuous : dated ex_raw ex3 /\
  seen ex_raw ex3 (B "alice") (ms 1) (ms 9) /\ seen ex_raw ex3 (B "bob") (ms 2) 0 /\ in_years (ms 5) /\
  inactive_usernames (ms 5) ex3 = [B "bob"] /\ inactive_usernames (ms 5) ex2 = [B "alice"; B "bob"] /\ inactive_usernames (ms 2) ex3 = [].
Proof.
  split; [exact ex_dated|]. split.
  { apply (seen_again ex_raw ex2 (B "alice") (ms 1) 0 (ms 9) (ex_user 1 (B "alice") (ms 9)) ex3 1%N); [|apply ex_years; lia|discriminate|reflexivity|vm_compute; reflexivity].
    apply seen_still; [exact ex_seen1|exact I|intros [H _]; apply H; reflexivity]. }
  split.
  { apply seen_still; [|exact I|intros [_ H]; discriminate H].
    apply (seen_new ex_raw ex1 (ms 2) (ex_user 0 (B "bob") 0) ex2 2%N); [exact (Proof.Inactive.seen_reachable _ _ _ _ _ ex_seen1)|apply ex_years; lia|unfold in_years; cbn; lia|reflexivity|vm_compute; reflexivity]. }
  split; [apply ex_years; lia|]. vm_compute. repeat split.
Qed.
