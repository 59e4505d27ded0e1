(** Being away, as servers and clients see it. *)
From Verif.Base Require Import Bytes.
From Verif.Model Require Import Message Away.
From Coq Require Import NArith.

(** A run, latest event first, with what came out. *)
Definition atrace := list (aev * list aout).
Inductive aruns : atrace -> ast -> Prop :=
| ANil : aruns [] new_ast
| ACons tr s e s' o : aruns tr s -> astep e s = Some (s', o) -> aruns ((e, o) :: tr) s'.

(** What a server has understood of the messages sent to it since the connection
    to network [n] was made: AWAY with a text marks the user as away. *)
Definition hear (n : N) (o : aout) (b : bool) : bool :=
  match o with ASend m params => if N.eqb m n then match params with (_ :: _) :: _ => true | _ => false end else b | ATell _ _ => b end.
Definition fresh (n : N) (e : aev) (b : bool) : bool := match e with AUp m _ => if N.eqb m n then false else b | _ => b end.
Fixpoint server_away (n : N) (tr : atrace) : bool :=
  match tr with
  | [] => false
  | (e, outs) :: r => fold_left (fun b o => hear n o b) outs (fresh n e (server_away n r))
  end.

(** What client [c] was last told. *)
Definition told (c : N) (o : aout) (b : bool) : bool := match o with ATell d a => if N.eqb d c then a else b | ASend _ _ => b end.
Fixpoint client_away (c : N) (tr : atrace) : bool :=
  match tr with [] => false | (_, outs) :: r => fold_left (fun b o => told c o b) outs (client_away c r) end.

(** What client [c] last asked for: AWAY with a text marks it as away. *)
Fixpoint asked_away (c : N) (tr : atrace) : bool :=
  match tr with
  | [] => false
  | (AAway d params, _) :: r => if N.eqb d c then match params with (_ :: _) :: _ => true | _ => false end else asked_away c r
  | _ :: r => asked_away c r
  end.

(** Client [c] was let in, on network [n], and did not leave. *)
Definition present (n c : N) (tr : atrace) : Prop :=
  exists tr2 o tr1, tr = tr2 ++ (ARegister c (Some n) true, o) :: tr1 /\ forall e, In e tr2 -> fst e <> AClose c.

(** Network [n] is connected and has automatic away. *)
Definition connected (n : N) (auto : bool) (s : ast) : Prop := exists c, In (ANet n auto (Some c)) (a_nets s).
