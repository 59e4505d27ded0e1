(** Property C46. *)
From Verif.Base Require Import Bytes.
From Verif.Model Require Import Message Away.
From Verif.Spec Require Import Away.
From Verif.Proof Require Away.
From Coq Require Import NArith.

(** C46: on a network with automatic away, the server has the user marked as away
    exactly if every client present on that network is away, that is, was last told
    so. *)
Theorem C46_away : forall tr s n, aruns tr s -> connected n true s ->
  (server_away n tr = true <-> forall c, present n c tr -> client_away c tr = true).
Proof. exact Proof.Away.away. Qed.
Print Assumptions C46_away.

(** C46: clients that never give an empty text are away exactly if their last AWAY
    had a text. *)
Theorem C46_asked : forall tr s c, aruns tr s -> (forall params o, In (AAway c ([] :: params), o) tr -> False) -> client_away c tr = asked_away c tr.
Proof. exact Proof.Away.asked_told. Qed.
Print Assumptions C46_asked.

(** C46: AWAY is sent to servers of networks with automatic away only, and only to
    change what the server thinks. *)
Theorem C46_sparing : forall tr s e s' o n p, aruns tr s -> astep e s = Some (s', o) -> In (ASend n p) o ->
  connected n true s' /\ server_away n ((e, o) :: tr) = negb (fresh n e (server_away n tr)).
Proof. exact Proof.Away.sparing. Qed.
Print Assumptions C46_sparing.

(** Running events, to write examples. *)
Fixpoint arun (l : list aev) (tr : atrace) (s : ast) : option (atrace * ast) :=
  match l with
  | [] => Some (tr, s)
  | e :: r => match astep e s with Some (s', o) => arun r ((e, o) :: tr) s' | None => None end
  end.
Lemma arun_runs l tr s tr' s' : aruns tr s -> arun l tr s = Some (tr', s') -> aruns tr' s'.
Proof.
  revert tr s. induction l as [|e r IH]; cbn; intros tr s H E; [congruence|]. destruct (astep e s) as [[s1 o]|] eqn:E1; [|discriminate].
  apply (IH _ _ (ACons tr s e s1 o H E1) E).
Qed.

(** Beside them: with no client present, the user is away; two clients come, one of
    them away already; the other one leaves; a network without automatic away is
    left alone. *)
Definition away_script : list aev :=
  [AAdd true; AAdd false; AUp 0 true; AUp 1 false; AOpen; AOpen; AAway 1 [B "lunch"]; ARegister 0 (Some 0%N) true; ARegister 1 (Some 0%N) true; AClose 0].
Example C46_nonvacuous :
  exists tr s, arun away_script [] new_ast = Some (tr, s) /\ aruns tr s /\ connected 0 true s /\ server_away 0 tr = true /\ present 0 1 tr /\
    map snd tr = [[ASend 0 [B "*"]]; []; [ASend 0 []]; [ATell 1 true]; []; []; []; [ASend 0 [B "*"]]; []; []].
Proof.
  destruct (arun away_script [] new_ast) as [[tr s]|] eqn:E; [|vm_compute in E; discriminate].
  exists tr, s. split; [reflexivity|]. split; [exact (arun_runs _ _ _ _ _ ANil E)|].
  vm_compute in E. injection E as <- <-. split; [exists (AConn true true); cbn; auto|]. split; [reflexivity|]. split; [|reflexivity].
  eexists [_], _, _. split; [reflexivity|]. intros e [<-|[]]. discriminate.
Qed.

(** A client that sends AWAY with an empty text, which for servers means that it is
    back, is taken to be away. *)
Theorem C46_empty_refuted :
  exists tr s n c, aruns tr s /\ connected n true s /\ present n c tr /\ asked_away c tr = false /\ server_away n tr = true.
Proof.
  destruct (arun [AAdd true; AUp 0 false; AOpen; ARegister 0 (Some 0%N) true; AAway 0 [[]]] [] new_ast) as [[tr s]|] eqn:E; [|vm_compute in E; discriminate].
  exists tr, s, 0%N, 0%N. split; [exact (arun_runs _ _ _ _ _ ANil E)|].
  vm_compute in E. injection E as <- <-. split; [exists (AConn false true); cbn; auto|]. split; [|split; reflexivity].
  eexists [_], _, _. split; [reflexivity|]. intros e [<-|[]]. discriminate.
Qed.
Print Assumptions C46_empty_refuted.
