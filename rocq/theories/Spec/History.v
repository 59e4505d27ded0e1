(** History requests: their form and meaning. *)
From Verif.Base Require Import Bytes.
From Verif.Model Require Import Message CaseMap TimeFmt Identd Sql SqlQuery History.
From Verif.Spec Require Import TimeFmt SqlQuery.
From Coq Require Import ZArith NArith.
Open Scope Z_scope.

Inductive request :=
| RBefore (target : bytes) (t : Z) (n : nat)
| RAfter (target : bytes) (t : Z) (n : nat)
| RLatest (target : bytes) (t : option Z) (n : nat)
| RBetween (target : bytes) (t1 t2 : Z) (n : nat)
| RTargets (t1 t2 : Z) (n : nat).

(** A timestamp, and a limit that the server allows. *)
Definition bound_is (s : bytes) (t : Z) : Prop := exists x, s = B "timestamp=" ++ x /\ parse_time x = Some t /\ t <> 0.
Definition limit_is (s : bytes) (n : nat) : Prop := atoi s = Some (Z.of_nat n) /\ Z.of_nat n <= 1000.

Inductive reads : list bytes -> request -> Prop :=
| RdBefore target s l t n rest : bound_is s t -> limit_is l n -> reads (B "BEFORE" :: target :: s :: l :: rest) (RBefore target t n)
| RdAfter target s l t n rest : bound_is s t -> limit_is l n -> reads (B "AFTER" :: target :: s :: l :: rest) (RAfter target t n)
| RdLatest target s l t n rest : bound_is s t -> limit_is l n -> reads (B "LATEST" :: target :: s :: l :: rest) (RLatest target (Some t) n)
| RdNewest target l n rest : limit_is l n -> reads (B "LATEST" :: target :: B "*" :: l :: rest) (RLatest target None n)
| RdBetween target s1 s2 l t1 t2 n rest : bound_is s1 t1 -> bound_is s2 t2 -> limit_is l n ->
    reads (B "BETWEEN" :: target :: s1 :: s2 :: l :: rest) (RBetween target t1 t2 n)
| RdTargets s1 s2 l t1 t2 n rest : bound_is s1 t1 -> bound_is s2 t2 -> limit_is l n -> reads (B "TARGETS" :: s1 :: s2 :: l :: rest) (RTargets t1 t2 n).

(** The limit in a request, well formed or not, and its second bound. *)
Definition limit_param (params : list bytes) : option bytes :=
  match params with [] => None | sub :: _ => nth_error params (if beqb sub (B "BETWEEN") then 4 else 3)%nat end.
Definition second_bound (params : list bytes) : option bytes :=
  match params with
  | [] => None
  | sub :: _ => if beqb sub (B "BETWEEN") then nth_error params 3 else if beqb sub (B "TARGETS") then nth_error params 2 else None
  end.
Definition target_param (params : list bytes) : bytes :=
  match params with sub :: target :: _ => if beqb sub (B "TARGETS") then [] else target | _ => [] end.

(** What a request asks for: a target, after a time (0 for no bound) and before a
    time, how many messages, and whether the newest ones or the oldest ones. *)
Definition asked_for (cm : casemapping) (now : Z) (r : request) : bytes * Z * Z * nat * bool :=
  match r with
  | RBefore e t n => (casemap cm e, 0, t, n, true)
  | RAfter e t n => (casemap cm e, t, now, n, false)
  | RLatest e t n => (casemap cm e, match t with Some t => t | None => 0 end, now, n, true)
  | RBetween e t1 t2 n => if t1 <? t2 then (casemap cm e, t1, t2, n, false) else (casemap cm e, t2, t1, n, true)
  | RTargets _ _ _ => ([], 0, 0, 0%nat, true)
  end.

(** A store that gives right answers. *)
Definition gives {M} (st : hstore M) (right : bytes -> bool -> Z -> Z -> nat -> bool -> list M -> Prop) : Prop :=
  (forall e hi lo n ev, in_years lo -> in_years hi -> hi <> 0 -> exists l, h_before st e hi lo n ev = Some l /\ right e ev lo hi n true l) /\
  (forall e lo hi n ev, in_years lo -> in_years hi -> lo <> 0 -> hi <> 0 -> exists l, h_after st e lo hi n ev = Some l /\ right e ev lo hi n false l).

(** Right answers of the database: the messages of the target between the times. *)
Definition db_right (raw_of : message -> bytes) (d : db) (net : N) (e : bytes) (ev : bool) (lo hi : Z) (n : nat) (newest : bool) (l : list message) : Prop :=
  exists rows, Forall2 (fun r m => mr_raw r = raw_of m) rows l /\
    best not_later (fun r => In r (d_msgs d) /\ stored_for d net e r /\ counts ev r /\
                             forall t, row_at r t -> (lo = 0 \/ millis lo < millis t) /\ millis t < millis hi) n newest rows.

(** A store that gives as many results as allowed at most. *)
Definition keeps_limit {M} (st : hstore M) : Prop :=
  (forall e hi lo n ev l, h_before st e hi lo n ev = Some l -> (length l <= n)%nat) /\
  (forall e lo hi n ev l, h_after st e lo hi n ev = Some l -> (length l <= n)%nat) /\
  (forall lo hi n ev l, h_targets st lo hi n ev = Some l -> (length l <= n)%nat).
Definition search_keeps_limit {M} (st : search -> option (list M)) : Prop :=
  forall q l, 0 <= q_limit q -> st q = Some l -> Z.of_nat (length l) <= q_limit q.

(** The number of results in an answer. *)
Definition results {M} (a : hanswer M) : nat := match a with HRefuse _ _ => 0 | HBatch _ _ l => length l | HTargets l => length l end.
