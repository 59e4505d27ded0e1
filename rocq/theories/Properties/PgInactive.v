(** C118: users who have not been there for long, in PostgreSQL. *)
From Verif.Base Require Import Bytes.
From Verif.Model Require Import Message Sql Postgres PgInactive.
From Verif.Spec Require Import Postgres PgInactive.
From Verif.Proof Require PgInactive.
From Coq Require Import ZArith NArith Lia.

(** The users listed are those whose last interaction, or creation if there was none, is
    before the limit: exactly for times of whole microseconds, and otherwise but for one
    microsecond. *)
Theorem C118_postgres_listed : forall raw_of p id name created last limit, p_seen raw_of p id name created last ->
  let t := if Z.eqb last 0 then created else last in
  ((t + 1000 < limit)%Z -> In name (p_inactive_usernames limit p)) /\ (In name (p_inactive_usernames limit p) -> (t < limit + 1000)%Z) /\
  ((t mod 1000 = 0)%Z -> (limit mod 1000 = 0)%Z -> (In name (p_inactive_usernames limit p) <-> (t < limit)%Z)).
Proof. exact Proof.PgInactive.p_listed. Qed.
Print Assumptions C118_postgres_listed.

Theorem C118_postgres_long_gone : forall raw_of p limit name, p_fitting raw_of p -> In name (p_inactive_usernames limit p) ->
  exists id created last, p_seen raw_of p id name created last /\ ((if Z.eqb last 0 then created else last) < limit + 1000)%Z.
Proof.
  intros raw_of p limit name D H.
  assert (Hr : exists r, In r (p_users p) /\ pu_username r = name).
  { unfold p_inactive_usernames in H. apply in_map_iff in H as (r & E & H'). apply filter_In in H' as [H' _]. exists r. auto. }
  destruct Hr as (r & Hr & <-). destruct (Proof.PgInactive.p_everyone_seen raw_of p r D Hr) as (a & b & S). exists (pu_id r), a, b. split; [exact S|].
  apply (Proof.PgInactive.p_listed raw_of p _ _ a b limit S). exact H.
Qed.
Print Assumptions C118_postgres_long_gone.

(** ** A case: alice was created long ago and came back, bob never came. *)
Definition ex_raw (m : message) : bytes := [].
Definition ms (n : Z) : Z := (63000000000000 + n)%Z * 1000000.
Definition ex_user (id : N) (name : bytes) (t : Z) : guser := GUser id name [] [] [] false true t (-1).
Definition ex1 : pg := p_step ex_raw empty_pg (PStoreUser (ms 1) 1 (ex_user 0 (B "alice") 0)).
Definition ex2 : pg := p_step ex_raw ex1 (PStoreUser (ms 2) 2 (ex_user 0 (B "bob") 0)).
Definition ex3 : pg := p_step ex_raw ex2 (PStoreUser (ms 9) 7 (ex_user 1 (B "alice") (ms 9))).

Lemma alice_short : short 255 (B "alice").
Proof. exists [97; 108; 105; 99; 101]%N. split; [split; [|reflexivity]|cbn; lia]. intros c H. cbn in H. unfold scalar. intuition lia. Qed.
Lemma bob_short : short 255 (B "bob").
Proof. exists [98; 111; 98]%N. split; [split; [|reflexivity]|cbn; lia]. intros c H. cbn in H. unfold scalar. intuition lia. Qed.

Lemma ex_seen1 : p_seen ex_raw ex1 1 (B "alice") (ms 1) 0.
Proof. apply (p_seen_new ex_raw empty_pg (ms 1) 1 (ex_user 0 (B "alice") 0) ex1 1%N); [apply p_reach_empty|reflexivity|exact alice_short|vm_compute; reflexivity]. Qed.

Example C118_postgres_nonvacuous : p_fitting ex_raw ex3 /\
  p_seen ex_raw ex3 1 (B "alice") (ms 1) (ms 9) /\ p_seen ex_raw ex3 2 (B "bob") (ms 2) 0 /\
  p_inactive_usernames (ms 5) ex3 = [B "bob"] /\ p_inactive_usernames (ms 5) ex2 = [B "alice"; B "bob"] /\ p_inactive_usernames (ms 2) ex3 = [].
Proof.
  split. { apply p_fit_step; [apply p_fit_step; [apply p_fit_step; [apply p_fit_empty|]|]|]; first [exact alice_short|exact bob_short]. }
  split.
  { apply (p_seen_again ex_raw ex2 1 (B "alice") (ms 1) 0 (ms 9) 7 (ex_user 1 (B "alice") (ms 9)) ex3 1%N); [|discriminate|reflexivity|vm_compute; reflexivity].
    apply p_seen_still; [exact ex_seen1|intros [H _]; apply H; reflexivity]. }
  split.
  { apply p_seen_still; [|intros [_ H]; discriminate H].
    apply (p_seen_new ex_raw ex1 (ms 2) 2 (ex_user 0 (B "bob") 0) ex2 2%N); [exact (Proof.PgInactive.p_seen_reachable _ _ _ _ _ _ ex_seen1)|reflexivity|exact bob_short|vm_compute; reflexivity]. }
  vm_compute. repeat split.
Qed.
