(** Which messages are written to logs, and what reading them back should give. *)
From Verif.Base Require Import Bytes.
From Verif.Model Require Import Message.
From Coq Require Import ZArith.

Definition clock (h m s : Z) : Prop := (0 <= h < 24 /\ 0 <= m < 60 /\ 0 <= s < 60)%Z.

Definition word (s : bytes) : Prop := ~ In " "%char s.

(** A text of an ordinary message, of a CTCP query that is not an ACTION, or of
    an ACTION in its usual form: 0x01 ACTION, a space, the text, 0x01. *)
Inductive chat_text : bytes -> Prop :=
| t_plain t : (forall t', t <> "001"%char :: t') -> chat_text t
| t_ctcp w rest : word w -> ~ In "001"%char w -> w <> [] -> Forall (fun c => (code c < 128)%N) w ->
    to_upper w <> B "ACTION" -> chat_text ("001"%char :: w ++ " "%char :: rest)
| t_action ps : (forall ps', ps <> ps' ++ ["001"%char]) -> chat_text ("001"%char :: B "ACTION " ++ ps ++ ["001"%char]).
