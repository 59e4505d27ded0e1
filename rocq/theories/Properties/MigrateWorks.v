(** C109: the copy of a database to PostgreSQL gets to its end. *)
From Verif.Base Require Import Bytes.
From Verif.Model Require Import Message TimeFmt Sql Postgres MigrateDb.
From Verif.Proof Require MigrateDb MigrateWorks MigrateSqlite.
From Verif.Properties Require MigrateDb.
From Verif.Spec Require Import Sql Postgres MigrateDb.
From Coq Require Import ZArith NArith Lia.
Open Scope N_scope.

(** If what the source lists is within the constraints of the tables of PostgreSQL, no
    statement fails: the program copies every user, and the push keys. *)
Theorem C109_works src now : holdable src -> exists d, migrate src now = (d, true) /\
  length (p_list_users (t_pg d)) = length (s_users src) /\
  (forall i x, nth_error (s_users src) i = Some x -> exists x', nth_error (p_list_users (t_pg d)) i = Some x' /\
     psaved_user (N.of_nat (S i)) x x' /\ copied src (N.of_nat (S i)) (t_pg d) (N.of_nat (S i))) /\
  t_configs d = s_configs src.
Proof.
  intros H. destruct (Proof.MigrateWorks.works src now H) as [d E]. exists d. split; [exact E|].
  destruct (Proof.MigrateDb.migrate_spec src now (h_fits _ H) d E) as (L & Y & C & _). auto.
Qed.
Print Assumptions C109_works.

(** For a SQLite database that was written through its interface, the rest follows from its
    schema: only what has no limit there can make the copy fail. *)
Theorem C109_sqlite_works raw_of d configs now : reachable raw_of d -> widths (sqlite_source d configs) ->
  exists d', migrate (sqlite_source d configs) now = (d', true).
Proof. intros R W. exact (Proof.MigrateWorks.works _ now (Proof.MigrateSqlite.holds raw_of d configs R W)). Qed.
Print Assumptions C109_sqlite_works.

(** ** A case *)

Import Properties.MigrateDb.

Lemma ascii_text s : asciib 255 s = true -> text s.
Proof. intros E. destruct (ascii_short 255 s E) as (l & T & _). exists l. exact T. Qed.

Ltac sweep k := destruct k as [|[k|[k|k|]|]].
Ltac each H := vm_compute in H; repeat (destruct H as [<-|H]); try contradiction H.
Ltac nodup := repeat (constructor; [cbn; intuition discriminate|]); try constructor.

Example C109_works_nonvacuous : holdable ex_source /\ s_users ex_source <> [] /\ s_nets ex_source 2 <> [] /\ s_chans ex_source 1 <> [] /\
  s_drcpts ex_source 1 <> [] /\ s_subs ex_source 2 1 <> [] /\ s_configs ex_source <> [].
Proof.
  split; [|repeat split; vm_compute; discriminate]. constructor.
  - apply sqlite_fits; vm_compute; reflexivity.
  - vm_compute. nodup.
  - intros u Hu. each Hu; unfold int32; cbn; lia.
  - intros v n Hn. sweep v; each Hn; cbn; auto.
  - intros v. sweep v; vm_compute; repeat constructor.
  - intros k. sweep k; vm_compute; nodup.
  - intros k c Hc. sweep k; each Hc; unfold int32; cbn; lia.
  - intros k. sweep k; vm_compute; nodup.
  - intros v n Hn. sweep v; each Hn; vm_compute; nodup.
  - intros v k s Hs. sweep v; sweep k; each Hs; repeat split; apply ascii_text; reflexivity.
  - vm_compute. nodup.
  - intros c Hc. each Hc. split; apply ascii_text; reflexivity.
Qed.

Lemma ex_reachable : reachable ex_raw ex_db.
Proof.
  unfold ex_db. cbn [fold_left].
  apply reach_step; [|left; reflexivity]. apply reach_step; [|right; eexists; split; [vm_compute; left; reflexivity|split; reflexivity]].
  do 9 (apply reach_step; [|exact I]). apply reach_empty.
Qed.
Example C109_sqlite_nonvacuous : reachable ex_raw ex_db /\ widths (sqlite_source ex_db [(B "public", B "private")]).
Proof. split; [exact ex_reachable|]. destruct C109_works_nonvacuous as [[] _]. constructor; assumption. Qed.

(** SQLite has no limit for texts: a user with a real name that is too long ends the copy,
    and the users after them are not in the new database. *)
Definition ex_long : db := fold_left (step_db ex_raw)
  [StoreUser 1000 (ex_user (B "alice")); StoreUser 1000 (GUser 0 (B "bob") [] [] (repeat "b"%char 256) false true 0 (-1)); StoreUser 1000 (ex_user (B "carol"))] empty_db.
Theorem C109_too_long_refuted : exists d, migrate (sqlite_source ex_long []) 7000 = (d, false) /\
  map gu_username (s_users (sqlite_source ex_long [])) = [B "alice"; B "bob"; B "carol"] /\ map gu_username (p_list_users (t_pg d)) = [B "alice"].
Proof. eexists. split; [vm_compute; reflexivity|]. split; vm_compute; reflexivity. Qed.
Print Assumptions C109_too_long_refuted.
