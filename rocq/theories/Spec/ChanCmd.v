(** What the channel commands are told, and what they should do. *)
From Verif.Base Require Import Bytes.
From Verif.Model Require Import CaseMap Service ChanCmd.
From Verif.Spec Require Import Accounts.
From Coq Require Import ZArith Permutation Sorting.Sorted.
Open Scope nat_scope.

(** A setting of a channel; a duration comes with its text. *)
Inductive setting := Detached (b : bool) | Relay (f : filter) | Reattach (f : filter) | After (text : bytes) (z : Z) | DetachOn (f : filter).

Definition apply (c : channel) (x : setting) : channel :=
  match x with
  | Detached b => Chan (c_id c) (c_name c) (c_key c) b (c_relay c) (c_reattach c) (c_after c) (c_on c)
  | Relay f => Chan (c_id c) (c_name c) (c_key c) (c_detached c) f (c_reattach c) (c_after c) (c_on c)
  | Reattach f => Chan (c_id c) (c_name c) (c_key c) (c_detached c) (c_relay c) f (c_after c) (c_on c)
  | After _ z => Chan (c_id c) (c_name c) (c_key c) (c_detached c) (c_relay c) (c_reattach c) z (c_on c)
  | DetachOn f => Chan (c_id c) (c_name c) (c_key c) (c_detached c) (c_relay c) (c_reattach c) (c_after c) f
  end.
(** One setting after the other. *)
Definition apply_all (c : channel) (l : list setting) : channel := fold_left apply l c.

Definition filter_word (f : filter) : bytes :=
  match f with FDefault => B "default" | FNone => B "none" | FHighlight => B "highlight" | FMessage => B "message" end.

(** The words for a setting. *)
Definition written (duration : bytes -> option Z) (x : setting) (words : list bytes) : Prop :=
  match x with
  | Detached b => exists t, means t b /\ flag_words (B "detached") t words
  | Relay f => flag_words (B "relay-detached") (filter_word f) words
  | Reattach f => flag_words (B "reattach-on") (filter_word f) words
  | After t z => flag_words (B "detach-after") t words /\ duration t = Some z /\ (0 <= z)%Z
  | DetachOn f => flag_words (B "detach-on") (filter_word f) words
  end.
Definition is_detached (x : setting) : bool := match x with Detached _ => true | _ => false end.

(** Two names of the same channel. *)
Definition alike (n : network) (a b : bytes) : Prop := casemap (n_cm n) a = casemap (n_cm n) b.

(** How a channel of the network at position [i] is written: its name, from a client that is bound to
    this network; its name, a slash and the name of the network from an unbound one. *)
Definition addressed (u : user) (bound : option nat) (p : bytes) (i : nat) (name : bytes) : Prop :=
  match bound with
  | Some j => i = j /\ name = p
  | None => ~ In "/"%char name /\ exists n, nth_error (u_nets u) i = Some n /\ p = name ++ "/"%char :: get_name n
  end.

(** What the database has of a channel: everything, with the duration rounded up to seconds. *)
Definition stored_as (c r : channel) : Prop :=
  c_id r = c_id c /\ c_name r = c_name c /\ c_key r = c_key c /\ c_detached r = c_detached c /\
  c_relay r = c_relay c /\ c_reattach r = c_reattach c /\ c_on r = c_on c /\
  (exists k, c_after r = 1000000000 * k)%Z /\ (c_after c <= c_after r < c_after c + 1000000000)%Z.

(** The channels of a network have different names and identifiers that are in use, and the database
    has exactly these channels. *)
Definition net_ok (next : N) (n : network) : Prop :=
  NoDup (map (fun c => casemap (n_cm n) (c_name c)) (n_mem n)) /\
  NoDup (map c_id (n_mem n)) /\
  (forall c, In c (n_mem n) -> exists i, c_id c = Some i /\ (i < next)%N) /\
  (exists cs, Permutation cs (n_mem n) /\ Forall2 stored_as cs (n_db n)).
Definition consistent (u : user) : Prop := Forall (net_ok (u_next u)) (u_nets u).
(** user.go:1049-1053 *)
Definition names_differ (u : user) : Prop := NoDup (map get_name (u_nets u)).

(** Only the channels of the network at position [i] may have changed. *)
Definition only_at (i : nat) (u u' : user) : Prop :=
  length (u_nets u') = length (u_nets u) /\
  (forall j, j <> i -> nth_error (u_nets u') j = nth_error (u_nets u) j) /\
  (forall n, nth_error (u_nets u) i = Some n -> exists n', nth_error (u_nets u') i = Some n' /\
     n_name n' = n_name n /\ n_addr n' = n_addr n /\ n_cm n' = n_cm n /\ n_conn n' = n_conn n).
(** The channels of the network at position [i]. *)
Definition has (u : user) (i : nat) (c : channel) : Prop := exists n, nth_error (u_nets u) i = Some n /\ In c (n_mem n).

(** How a channel is shown: the name, and the network unless only one is shown, then whether it is
    joined and detached. *)
Definition shows (full : bool) (n : network) (c : channel) (text : bytes) : Prop :=
  exists st, text = c_name c ++ (if full then "/"%char :: get_name n else []) ++ B " [" ++ st ++ (if c_detached c then B ", detached" else []) ++ B "]" /\
  match n_conn n with
  | None => st = B "disconnected"
  | Some k => (exists x, In x (k_joined k) /\ alike n x (c_name c)) /\ st = B "joined" \/
              ~ (exists x, In x (k_joined k) /\ alike n x (c_name c)) /\ st = B "parted"
  end.
(** The order: by name, ignoring the hash signs, byte by byte. *)
Inductive upto : bytes -> bytes -> Prop :=
| Upto_nil y : upto [] y
| Upto_lt a b x y : (code a < code b)%N -> upto (a :: x) (b :: y)
| Upto_eq a x y : upto x y -> upto (a :: x) (a :: y).
Definition no_hash (s : bytes) : bytes := List.filter (fun c => negb (aeqb c "#")) s.
Definition before (a b : channel) : Prop := upto (no_hash (c_name a)) (no_hash (c_name b)).
(** A listing of a network: each channel once, in order. *)
Definition listing (full : bool) (n : network) (l : list say) : Prop :=
  exists cs, Permutation cs (n_mem n) /\ StronglySorted before cs /\
    Forall2 (fun c x => exists text, x = SLine text /\ shows full n c text) cs l.

(** No network before the one at position [i] has the name of that one as name or address. *)
Definition found_first (u : user) (i : nat) : Prop :=
  forall n, nth_error (u_nets u) i = Some n -> get_name n <> [] /\
  forall j m, j < i -> nth_error (u_nets u) j = Some m -> n_addr m <> get_name n /\ n_name m <> get_name n.

(** A command that only has one option, or is no update. *)
Definition one_option (c : command) : Prop :=
  match c with
  | Update (_ :: args) => exists name v, (In name (map fst channel_flags)) /\ flag_words name v args
  | _ => True
  end.
(** Commands with a working database that work, unless they fail with nothing but one option. *)
Fixpoint all_work (duration : bytes -> option Z) (u : user) (l : list (option nat * bool * command)) : Prop :=
  match l with
  | [] => True
  | (b, ok, c) :: l => ok = true /\ (snd (step duration b ok u c) = true \/ one_option c) /\ all_work duration (state (step duration b ok u c)) l
  end.
