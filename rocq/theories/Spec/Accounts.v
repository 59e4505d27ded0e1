(** What the commands that change an account are told, and what they should do. *)
From Verif.Base Require Import Bytes.
From Verif.Model Require Import Service.
From Coq Require Import ZArith.
Open Scope nat_scope.

(** A setting of an account; the password comes with its hash, the limit with its text. *)
Inductive setting :=
| Password (p hash : bytes) | NoPassword | Nick (n : bytes) | Realname (r : bytes)
| Admin (b : bool) | Enabled (b : bool) | Max (text : bytes) (z : Z).

(** The account with one setting changed. *)
Definition apply (a : account) (x : setting) : account :=
  match x with
  | Password _ h => Account (a_name a) h (a_nick a) (a_real a) (a_admin a) (a_enabled a) (a_max a)
  | NoPassword => Account (a_name a) [] (a_nick a) (a_real a) (a_admin a) (a_enabled a) (a_max a)
  | Nick n => Account (a_name a) (a_pass a) n (a_real a) (a_admin a) (a_enabled a) (a_max a)
  | Realname r => Account (a_name a) (a_pass a) (a_nick a) r (a_admin a) (a_enabled a) (a_max a)
  | Admin b => Account (a_name a) (a_pass a) (a_nick a) (a_real a) b (a_enabled a) (a_max a)
  | Enabled b => Account (a_name a) (a_pass a) (a_nick a) (a_real a) (a_admin a) b (a_max a)
  | Max _ z => Account (a_name a) (a_pass a) (a_nick a) (a_real a) (a_admin a) (a_enabled a) z
  end.

(** One setting after the other. *)
Definition apply_all (a : account) (l : list setting) : account := fold_left apply l a.

(** The ways to write a boolean. *)
Definition means (text : bytes) (b : bool) : Prop :=
  In text (if b then [B "1"; B "t"; B "T"; B "TRUE"; B "true"; B "True"]
           else [B "0"; B "f"; B "F"; B "FALSE"; B "false"; B "False"]).

(** A flag and its value are written "-name value", "--name value", "-name=value" or
    "--name=value". *)
Definition flag_words (name value : bytes) (words : list bytes) : Prop :=
  exists d, (d = B "-" \/ d = B "--") /\
    (words = [d ++ name; value] \/ words = [d ++ name ++ "="%char :: value]).
(** A switch is written "-name", "--name", "-name=true" or "--name=true". *)
Definition switch_words (name : bytes) (words : list bytes) : Prop :=
  exists d, (d = B "-" \/ d = B "--") /\
    (words = [d ++ name] \/ exists t, means t true /\ words = [d ++ name ++ "="%char :: t]).
Definition switch_or_not (name : bytes) (b : bool) (words : list bytes) : Prop :=
  exists d, (d = B "-" \/ d = B "--") /\
    ((b = true /\ words = [d ++ name]) \/ exists t, means t b /\ words = [d ++ name ++ "="%char :: t]).

(** The words for a setting, for "user update". *)
Definition written (e : env) (x : setting) (words : list bytes) : Prop :=
  match x with
  | Password p h => flag_words (B "password") p words /\ e_hash e p = Some h
  | NoPassword => switch_words (B "disable-password") words
  | Nick n => flag_words (B "nick") n words
  | Realname r => flag_words (B "realname") r words
  | Admin b => exists t, means t b /\ flag_words (B "admin") t words
  | Enabled b => exists t, means t b /\ flag_words (B "enabled") t words
  | Max t z => flag_words (B "max-networks") t words /\ e_atoi e t = Some z
  end.

(** The words for a setting, for "user create": the booleans are switches. *)
Definition written_new (e : env) (x : setting) (words : list bytes) : Prop :=
  match x with
  | Admin b => switch_or_not (B "admin") b words
  | Enabled b => switch_or_not (B "enabled") b words
  | Max t z => flag_words (B "max-networks") t words /\ e_parseint e t = Some z
  | _ => written e x words
  end.

(** A password is set or disabled, not both. *)
Definition is_password (x : setting) : bool := match x with Password _ _ => true | _ => false end.
Definition is_no_password (x : setting) : bool := match x with NoPassword => true | _ => false end.
Definition one_password (l : list setting) : Prop := existsb is_password l = false \/ existsb is_no_password l = false.

(** Which settings of another user an administrator may change, and which of their own account an
    administrator and an ordinary user may. *)
Definition for_other (x : setting) : bool := match x with Nick _ | Realname _ => false | _ => true end.
Definition for_self (admin : bool) (x : setting) : bool :=
  match x with Admin _ | Enabled _ => false | Max _ _ => admin | _ => true end.

(** Only the account of this name is changed, in memory and in the database. *)
Definition changed {D} (s : server D) (name : bytes) (a : account) (s' : server D) : Prop :=
  map (fun u => us_acc u) (sv_users s') = map (fun u => if beqb (a_name (us_acc u)) name then a else us_acc u) (sv_users s) /\
  sv_db s' = map (fun b => if beqb (a_name b) name then a else b) (sv_db s) /\
  sv_debug s' = sv_debug s /\ sv_notices s' = sv_notices s /\ sv_hung s' = sv_hung s.
