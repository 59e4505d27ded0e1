(** The messages in a log directory, by time. *)
From Verif.Base Require Import Bytes.
From Verif.Model Require Import Message TimeFmt ZncLog FsStore.
From Verif.Spec Require Import ZncLog.
From Coq Require Import ZArith Sorting.Sorted.
Open Scope nat_scope.

(** Text lines of a file: each ends with a line feed. *)
Definition file_of (ls : list bytes) : bytes := flat_map (fun l => l ++ ["010"%char]) ls.
Definition line_ok (l : bytes) : Prop := ~ In "010"%char l /\ (forall l', l <> l' ++ ["013"%char]).

Section Spec.
  Context {M : Type}.
  Variable parse : bytes -> option (option (M * Z)).

  (** A directory: the lines of the file of each day. *)
  Definition log := Z -> list bytes.

  (** Messages of a day with their times. *)
  Definition day_messages (lg : log) (d : Z) : list (Z * M) :=
    flat_map (fun l => match parse l with Some (Some (m, tod)) => [((d * 86400000000000 + tod)%Z, m)] | _ => [] end) (lg d).

  Definition holds (fs : files) (lg : log) : Prop :=
    forall d, match fs d with Some c => c = file_of (lg d) | None => lg d = [] end.

  (** Lines are well formed and in order of time within a day. *)
  Definition good_log (lg : log) : Prop :=
    (forall d l, In l (lg d) -> line_ok l /\ parse l <> None /\
       (forall m tod, parse l = Some (Some (m, tod)) -> exists s, (tod = s * 1000000000 /\ 0 <= s < 86400)%Z)) /\
    (forall d, StronglySorted (fun a b => (fst a <= fst b)%Z) (day_messages lg d)).

  (** [n] consecutive days from [d]. *)
  Fixpoint days (n : nat) (d : Z) : list Z :=
    match n with O => [] | S n' => d :: days n' (d + 1)%Z end.

  (** Messages strictly between two times, selected by [sel], oldest first. *)
  Definition in_window (lg : log) (lo hi : Z) (sel : M -> bool) (d : Z) : list M :=
    map snd (filter (fun e => Z.ltb lo (fst e) && Z.ltb (fst e) hi && sel (snd e)) (day_messages lg d)).
  Definition window (lg : log) (lo hi : Z) (sel : M -> bool) : list M :=
    flat_map (in_window lg lo hi sel) (days (Z.to_nat (hi / 86400000000000 - lo / 86400000000000 + 1)) (lo / 86400000000000)).

  (** A history of appended messages: times and log lines. *)
  Definition entry := (Z * bytes)%type.
  Definition run (h : list entry) : files :=
    fold_left (fun fs e => fst (fs_append fs (fst e) (snd e))) h (fun _ => None).
  (** What reading back the log lines gives. *)
  Definition messages (h : list entry) : list M :=
    flat_map (fun e => match parse (snd e) with Some (Some (m, _)) => [m] | _ => [] end) h.
  (** Messages logged on a day. *)
  Definition messages_on (h : list entry) (d : Z) : list M :=
    messages (filter (fun e => Z.eqb (fst e / 86400000000000) d) h).
  (** The log line records the time of day, to the second. *)
  Definition entry_ok (e : entry) : Prop :=
    (86400000000000 <= fst e)%Z /\ line_ok (snd e) /\ parse (snd e) <> None /\
    (forall m tod, parse (snd e) = Some (Some (m, tod)) ->
       tod = (fst e mod 86400000000000 / 1000000000 * 1000000000)%Z).
  (** Messages are appended in order of time, before [now]. *)
  Definition history_ok (h : list entry) (now : Z) : Prop :=
    Forall entry_ok h /\ StronglySorted (fun a b => (fst a <= fst b)%Z) h /\ Forall (fun e => (fst e < now)%Z) h.
End Spec.

(** No 100 days in a row without any element of [f] before the one at [d],
    counting from [top] downwards (or, for [gaps_up], from [bottom] upwards). *)
Definition gaps_down {A} (f : Z -> list A) (top : Z) : Prop :=
  forall d, (d <= top)%Z -> f d <> [] ->
    (top - d < 100)%Z \/ (exists d', d < d' <= top /\ d' - d <= 100 /\ f d' <> [])%Z.
Definition gaps_up {A} (f : Z -> list A) (bottom : Z) : Prop :=
  forall d, (bottom <= d)%Z -> f d <> [] ->
    (d - bottom < 100)%Z \/ (exists d', bottom <= d' < d /\ d - d' <= 100 /\ f d' <> [])%Z.

(** A conversation: time, sender and text of each message. *)
Record chat := Chat { c_time : Z; c_from : prefix; c_text : bytes }.
Definition chat_ok (c : chat) : Prop :=
  (86400000000000 <= c_time c)%Z /\ word (p_name (c_from c)) /\ chat_text (c_text c) /\
  Forall (fun x => ~ In x (p_name (c_from c)) /\ ~ In x (c_text c)) ["010"%char; "013"%char].
Definition chat_message (own entity : bytes) (c : chat) : log_msg :=
  LogMsg (Prefix (p_name (c_from c)) [] []) (B "PRIVMSG")
    [if beqb entity (p_name (c_from c)) then own else entity; c_text c].
