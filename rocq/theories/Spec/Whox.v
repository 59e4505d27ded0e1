(** What a WHOX reply is supposed to convey. *)
From Verif.Base Require Import Bytes.
From Verif.Model Require Import Message Whox.
From Verif.Spec Require Import Wire.

(** The information a reply carries, by field letter. *)
Definition info_fields : list (ascii * (whox_info -> bytes)) :=
  [("t", w_token); ("c", w_channel); ("u", w_username); ("h", w_hostname); ("s", w_server);
   ("n", w_nickname); ("f", w_flags); ("a", w_account); ("r", w_realname)]%char.

(** Documented normalisations: no channel is "*", no account is "0", and a host
    name that starts with a colon gets a leading zero. *)
Inductive conveys : ascii -> bytes -> bytes -> Prop :=
| conv_channel : conveys "c" [] (B "*")
| conv_account_none : conveys "a" [] (B "0")
| conv_account_star : conveys "a" (B "*") (B "0")
| conv_host r : conveys "h" (":"%char :: r) (B "0:" ++ r)
| conv_same k v :
    (k = "c"%char -> v <> []) -> (k = "a"%char -> v <> [] /\ v <> B "*") ->
    (k = "h"%char -> forall r, v <> ":"%char :: r) -> conveys k v v.

(** Values that fit in a non-trailing parameter. *)
Definition sendable (k : ascii) (v : bytes) : Prop :=
  if aeqb k "r" then True
  else ~ In " "%char v /\
       (In k ["t"; "u"; "h"; "s"; "n"; "f"]%char -> v <> []) /\
       (k <> "h"%char -> forall r, v <> ":"%char :: r).
