(** When a channel should be detached by itself (doc/soju.1.scd:438-461): after the duration has elapsed without activity. *)
From Coq Require Import ZArith List Bool.
From Verif.Model Require Import AutoDetach.
Import ListNotations.
Local Open Scope Z_scope.

Definition attached (s : st) : Prop := exists c, s_chan s = Some c /\ c_detached c = false.
Definition is_detached (s : st) : Prop := exists c, s_chan s = Some c /\ c_detached c = true.

(** Which messages count: of -detach-on and of -reattach-on. *)
Definition counts (default : bool) (f : mfilter) (highlight : bool) : bool :=
  match f with FMessage => true | FHighlight => highlight | FNone => false | FDefault => default end.

(** "Joining, reattaching, sending a message, or changing any channel option will reset the timer, in addition to the
    messages specified by the mode." *)
Definition activity (s : st) (o : op) : bool :=
  match o, s_chan s with
  | UJoin, _ => s_conn s
  | CJoin, Some c => s_conn s && c_detached c
  | CJoin, None => s_conn s
  | Msg h, Some c =>
      s_conn s && (counts true (c_on c) h || (c_detached c && counts false (c_reattach c) h))
  | Say _, _ => s_conn s
  | SCreate a _ _, None => 0 <=? a
  | SUpdate _ a _ _, Some _ => match a with Some a => 0 <=? a | None => true end
  | _, _ => false
  end.

(** The time of the last activity. *)
Definition last_step (s : st) (o : op) (t : Z) : Z := if activity s o then s_now s else t.
Fixpoint last (s : st) (os : list op) (t : Z) : Z :=
  match os with [] => t | o :: os => last (step s o) os (last_step s o t) end.

(** Executions where events about timers are handled before there is activity, the user is not kicked, the
    server sends JOIN once for a channel, and messages are sent to all of the channel. *)
Definition orderly_step (s : st) (o : op) : Prop :=
  (s_pending s <> [] -> activity s o = false) /\
  match o with UKick => False | UJoin => s_up s = None | Say sigil => sigil = false | _ => True end.
Fixpoint orderly (s : st) (os : list op) : Prop :=
  match os with [] => True | o :: os => orderly_step s o /\ orderly (step s o) os end.

(** Executions where channels that are joined already are not created, and the database works. *)
Definition plain_step (s : st) (o : op) : Prop :=
  match o with
  | SCreate _ _ _ => s_up s = None
  | CPart dbok | SDelete dbok => dbok = true
  | _ => True
  end.
Fixpoint plain (s : st) (os : list op) : Prop :=
  match os with [] => True | o :: os => plain_step s o /\ plain (step s o) os end.

(** A setting of the channel that is loaded. *)
Definition valid (c : option chan) : Prop := match c with Some c => 0 <= c_after c | None => True end.
