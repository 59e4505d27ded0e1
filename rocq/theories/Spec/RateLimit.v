(** A limit on the number of messages: at most [burst] at once, and one more for every [delay]. *)
From Coq Require Import ZArith List Bool.
From Verif.Model Require Import RateLimit.
Import ListNotations.
Local Open Scope Z_scope.

(** Time does not go back. *)
Definition forward (e : ev) : Prop := match e with Msg gap late => 0 <= gap /\ 0 <= late | Rate _ => True end.
(** Every write is done at once. *)
Definition prompt (e : ev) : Prop := match e with Msg _ late => late = 0 | Rate _ => True end.

Definition count (p : sent -> bool) (l : list sent) : Z := Z.of_nat (length (filter p l)).
(** The messages under the limit that were written from [a] to [b]. *)
Definition in_window (a b : Z) (m : sent) : bool := s_limited m && (a <=? s_written m) && (s_written m <=? b).
(** Those allowed since [a]. *)
Definition since (a : Z) (m : sent) : bool := s_limited m && (a <=? s_allowed m).
Definition limited_only (m : sent) : bool := s_limited m.
Definition waiting (es : list ev) : Z := fold_right (fun e n => match e with Msg gap late => gap + late + n | Rate _ => n end) 0 es.
