(** What a server does, and what it tells one of its users: connections, channels,
    statuses and the details of users. Written from the IRC protocol, without the
    bouncer. User [me] is the one the bouncer is connected as. *)
From Verif.Base Require Import Bytes.
From Verif.Model Require Import Message CaseMap Membership Modes Roster.
From Verif.Spec Require Import Membership Modes.
Open Scope nat_scope.

(** Users are told apart by a number, as their nicknames change. *)
Definition me : nat := 0.

Record suser := SUser { su_nick : bytes; su_user : bytes; su_host : bytes; su_server : bytes; su_account : option bytes;
  su_real : bytes; su_away : bool; su_oper : bool; su_bot : bool }.
Definition su_with_nick (u : suser) n := SUser n (su_user u) (su_host u) (su_server u) (su_account u) (su_real u) (su_away u) (su_oper u) (su_bot u).
Definition su_with_host (u : suser) a h := SUser (su_nick u) a h (su_server u) (su_account u) (su_real u) (su_away u) (su_oper u) (su_bot u).
Definition su_with_account (u : suser) a := SUser (su_nick u) (su_user u) (su_host u) (su_server u) a (su_real u) (su_away u) (su_oper u) (su_bot u).
Definition su_with_real (u : suser) r := SUser (su_nick u) (su_user u) (su_host u) (su_server u) (su_account u) r (su_away u) (su_oper u) (su_bot u).
Definition su_with_away (u : suser) b := SUser (su_nick u) (su_user u) (su_host u) (su_server u) (su_account u) (su_real u) b (su_oper u) (su_bot u).
Definition su_prefix (u : suser) : prefix := Prefix (su_nick u) (su_user u) (su_host u).

(** A set of statuses. *)
Definition status := membership -> bool.
Definition after_ops (ops : list ms_op) (st : status) : status := fun m =>
  fold_left (fun b o => match o with MsAdd x => b || mb_eqb x m | MsRemove x => b && negb (mb_eqb x m) end) ops (st m).

(** The connected users; by folded channel name, the members with their
    statuses, which members of our channels we have been told of, and whether
    the list of members has been ended. *)
Record server := Server {
  sv_users : nat -> option suser;
  sv_in : bytes -> nat -> option status;
  sv_told : bytes -> nat -> bool;
  sv_listed : bytes -> bool
}.

Definition upd {A} (f : nat -> A) (i : nat) (x : A) : nat -> A := fun j => if Nat.eqb j i then x else f j.
Definition updk {A} (f : bytes -> A) (k : bytes) (x : A) : bytes -> A := fun k' => if beqb k' k then x else f k'.

Section Server.
  Variable t : tables.
  Let cm := t_cm t.
  Let key (n : bytes) : bytes := casemap cm n.

  Definition valid_nick (n : bytes) : Prop :=
    n <> [] /\ ~ In " "%char n /\ forall c r, n = c :: r -> ~ In c (map mb_prefix (t_avail t)).
  Definition valid_chan (n : bytes) : Prop :=
    ~ In ","%char n /\ exists c r, n = c :: r /\ In c (t_types t).
  Definition unused (s : server) (id : nat) (n : bytes) : Prop :=
    forall j u, j <> id -> sv_users s j = Some u -> key (su_nick u) <> key n.
  Definition inside (s : server) (k : bytes) (id : nat) : Prop := sv_in s k id <> None.
  Definition sharing (s : server) (id : nat) : Prop := exists k, inside s k me /\ inside s k id.

  (** The capabilities multi-prefix and extended-join; and whether the server is
      a plain one: it does not change the hosts of connected users, tells about
      users only if they are in a common channel, and lists the members of a
      channel before it lets us leave. *)
  Variables multi ext plain : bool.

  (** A member in a list of members, with all statuses if the server does that. *)
  Definition lists (s : server) (k : bytes) (id : nat) (x : bytes) : Prop :=
    exists u st l, sv_users s id = Some u /\ sv_in s k id = Some st /\ in_order l (t_avail t) /\
      (multi = true -> forall m, In m l <-> st m = true) /\ x = map mb_prefix l ++ su_nick u.

  Definition mode_line (str : bytes) (args : list bytes) : Prop :=
    ~ malformed str /\
    forall i c mb, nth_error str i = Some c -> ~ is_sign c -> find (fun m => aeqb (mb_mode m) c) (t_avail t) = Some mb ->
      arg_at (t_avail t) (t_modes t) str args None i <> None.

  Definition with_users (s : server) f := Server f (sv_in s) (sv_told s) (sv_listed s).

  (** The away state and the letters in the flags of WHO. *)
  Definition who_flags (u : suser) : bytes :=
    (if su_away u then B "G" else B "H") ++ (if su_oper u then B "*" else []) ++
    (if su_bot u then match t_bot t with Some b => b | None => [] end else []).

  (** One entry of a reply to WHO: any selection of the fields. *)
  Definition who_entry (u : suser) (i : uuser) : Prop :=
    uu_nick i = su_nick u /\ (uu_user i = [] \/ uu_user i = su_user u) /\ (uu_host i = [] \/ uu_host i = su_host u) /\
    (uu_server i = [] \/ uu_server i = su_server u) /\ (uu_flags i = [] \/ uu_flags i = who_flags u) /\
    (uu_account i = [] \/ uu_account i = match su_account u with Some a => a | None => B "0" end) /\
    (uu_real i = [] \/ uu_real i = su_real u).

  Definition join_message (u : suser) (name : bytes) : message :=
    Message (if su_bot u then [(B "bot", [])] else []) (Some (su_prefix u)) (B "JOIN")
      (if ext then [name; match su_account u with Some a => a | None => B "*" end; su_real u] else [name]).

  (** A message from a user. *)
  Definition from (u : suser) (command : bytes) (params : list bytes) : revent :=
    RMsg (Message [] (Some (su_prefix u)) command params) (su_prefix u).
  Definition by_server (p : prefix) (command : bytes) (params : list bytes) : revent := RMsg (Message [] (Some p) command params) p.

  (** Whether a message about a user is to be expected. *)
  Definition told (s : server) (id : nat) (seen : bool) : Prop :=
    plain = true -> seen = true -> id = me \/ sharing s id.

  (** What happens on the server, and what we are sent. Users we share no
      channel with may or may not be visible. We are not told of our own account
      and away state by ACCOUNT and AWAY. *)
  Inductive sstep (s : server) : list revent -> server -> Prop :=
  | SConnect id u : sv_users s id = None -> valid_nick (su_nick u) -> unused s id (su_nick u) ->
      sstep s [] (with_users s (upd (sv_users s) id (Some u)))
  | SJoin id u name away : id <> me -> sv_users s id = Some u -> valid_chan name -> sv_in s (key name) id = None ->
      (away <> None -> su_away u = true) -> (t_away_notify t = true -> su_away u = true -> away <> None) ->
      sstep s (match sv_in s (key name) me with
               | Some _ => RMsg (join_message u name) (su_prefix u) :: match away with Some r => [from u (B "AWAY") [r]] | None => [] end
               | None => [] end)
        (Server (sv_users s) (updk (sv_in s) (key name) (upd (sv_in s (key name)) id (Some (fun _ => false))))
           (updk (sv_told s) (key name) (upd (sv_told s (key name)) id true)) (sv_listed s))
  | SJoinMe u name st : sv_users s me = Some u -> valid_chan name -> sv_in s (key name) me = None ->
      (forall m, st m = true -> In m (t_avail t)) ->
      sstep s [RMsg (join_message u name) (su_prefix u)]
        (Server (sv_users s) (updk (sv_in s) (key name) (upd (sv_in s (key name)) me (Some st)))
           (updk (sv_told s) (key name) (fun _ => false)) (updk (sv_listed s) (key name) false))
  | SNames p nick status name ids xs : inside s (key name) me -> sv_listed s (key name) = false ->
      In status [B "="; B "*"; B "@"] -> Forall2 (lists s (key name)) ids xs ->
      sstep s [by_server p (B "353") [nick; status; name; join (B " ") xs]]
        (Server (sv_users s) (sv_in s)
           (updk (sv_told s) (key name) (fun i => existsb (Nat.eqb i) ids || sv_told s (key name) i)) (sv_listed s))
  | SNamesEnd p nick name text : inside s (key name) me -> sv_listed s (key name) = false ->
      (forall id, inside s (key name) id -> sv_told s (key name) id = true) ->
      sstep s [by_server p (B "366") [nick; name; text]]
        (Server (sv_users s) (sv_in s) (sv_told s) (updk (sv_listed s) (key name) true))
  | SPart id u name reason : sv_users s id = Some u -> valid_chan name -> inside s (key name) id ->
      (plain = true -> id = me -> sv_listed s (key name) = true) ->
      sstep s (match sv_in s (key name) me with Some _ => [from u (B "PART") (name :: reason)] | None => [] end)
        (Server (sv_users s) (updk (sv_in s) (key name) (upd (sv_in s (key name)) id None)) (sv_told s) (sv_listed s))
  | SKick p id u name nick reason : sv_users s id = Some u -> key nick = key (su_nick u) -> inside s (key name) id ->
      (plain = true -> id = me -> sv_listed s (key name) = true) ->
      sstep s (match sv_in s (key name) me with Some _ => [by_server p (B "KICK") (name :: nick :: reason)] | None => [] end)
        (Server (sv_users s) (updk (sv_in s) (key name) (upd (sv_in s (key name)) id None)) (sv_told s) (sv_listed s))
  | SQuit id u reason (seen : bool) : id <> me -> sv_users s id = Some u -> (sharing s id -> seen = true) ->
      sstep s (if seen then [from u (B "QUIT") reason] else [])
        (Server (upd (sv_users s) id None) (fun k => upd (sv_in s k) id None) (sv_told s) (sv_listed s))
  | SNick id u new (seen : bool) : sv_users s id = Some u -> valid_nick new -> unused s id new ->
      (sharing s id -> seen = true) -> (id = me -> seen = true) -> told s id seen ->
      sstep s (if seen then [from u (B "NICK") [new]] else []) (with_users s (upd (sv_users s) id (Some (su_with_nick u new))))
  | SMode p name str args : valid_chan name -> mode_line str args ->
      sstep s (match sv_in s (key name) me with Some _ => [by_server p (B "MODE") (name :: str :: args)] | None => [] end)
        (Server (sv_users s)
           (updk (sv_in s) (key name) (fun id =>
              match sv_users s id, sv_in s (key name) id with
              | Some u, Some st => Some (after_ops (status_changes (t_avail t) (t_modes t) str args None cm (su_nick u)) st)
              | _, x => x
              end)) (sv_told s) (sv_listed s))
  | SModeIs p nick name str args : mode_line str args ->
      (forall c, In c str -> find (fun m => aeqb (mb_mode m) c) (t_avail t) = None) ->
      sstep s [by_server p (B "324") (nick :: name :: str :: args)] s
  | SSetname id u real (seen : bool) : sv_users s id = Some u -> real <> [] -> (sharing s id -> seen = true) -> (id = me -> seen = true) -> told s id seen ->
      sstep s (if seen then [from u (B "SETNAME") [real]] else []) (with_users s (upd (sv_users s) id (Some (su_with_real u real))))
  | SAccount id u acc (seen : bool) : sv_users s id = Some u -> acc <> Some [] ->
      (id <> me -> t_account_notify t = true -> sharing s id -> seen = true) -> told s id seen ->
      sstep s (if seen then [from u (B "ACCOUNT") [match acc with Some a => a | None => B "*" end]] else [])
        (with_users s (upd (sv_users s) id (Some (su_with_account u acc))))
  | SAway id u reason (seen : bool) : sv_users s id = Some u ->
      (id <> me -> t_away_notify t = true -> sharing s id -> seen = true) -> told s id seen ->
      sstep s (if seen then [from u (B "AWAY") (match reason with Some r => [r] | None => [] end)] else [])
        (with_users s (upd (sv_users s) id (Some (su_with_away u (match reason with Some _ => true | None => false end)))))
  | SChghost id u user host (seen : bool) : plain = false -> sv_users s id = Some u -> (sharing s id -> seen = true) ->
      sstep s (if seen then [from u (B "CHGHOST") [user; host]] else [])
        (with_users s (upd (sv_users s) id (Some (su_with_host u user host))))
  | SWho id u i : sv_users s id = Some u -> who_entry u i -> sstep s [RWho i] s
  | SMonitor p nick targets command : plain = false -> In command [B "730"; B "731"] -> sstep s [by_server p command [nick; targets]] s
  | SUnmonitor removes : sstep s [RUnmonitor removes] s.

  Inductive runs (s : server) : list revent -> server -> Prop :=
  | RunsNil : runs s [] s
  | RunsStep l1 s1 l2 s2 : runs s l1 s1 -> sstep s1 l2 s2 -> runs s (l1 ++ l2) s2.

  (** A server we have just connected to. *)
  Record fresh (s : server) (nick : bytes) : Prop := {
    fr_me : exists u, sv_users s me = Some u /\ su_nick u = nick;
    fr_out : forall k, sv_in s k me = None;
    fr_member : forall k id, inside s k id -> sv_users s id <> None;
    fr_unique : forall i j u v, sv_users s i = Some u -> sv_users s j = Some v -> key (su_nick u) = key (su_nick v) -> i = j;
    fr_valid : forall i u, sv_users s i = Some u -> valid_nick (su_nick u);
    fr_status : forall k i st m, sv_in s k i = Some st -> st m = true -> In m (t_avail t)
  }.

  (** The members of a channel, with their statuses in the order of the table
      (which are known only from servers that list all of them). *)
  Definition member (s : server) (name nick : bytes) (ms : list membership) : Prop :=
    exists id u st, sv_users s id = Some u /\ su_nick u = nick /\ sv_in s (key name) id = Some st /\
      in_order ms (t_avail t) /\ (multi = true -> forall m, In m ms <-> st m = true).

  (** The account as WHO shows it: none is "*" or "0". *)
  Definition account_shown (a : bytes) : option bytes := if beqb a (B "*") || beqb a (B "0") then None else Some a.

  (** One requested field of an answer is right; the flags only as far as the
      away state goes. *)
  Definition field_right (w : suser) (i : uuser) (k : ascii) : Prop :=
    (k = "n"%char -> uu_nick i = su_nick w) /\ (k = "u"%char -> uu_user i = su_user w) /\ (k = "h"%char -> uu_host i = su_host w) /\
    (k = "s"%char -> uu_server i = su_server w) /\ (k = "r"%char -> uu_real i = su_real w) /\
    (k = "a"%char -> account_shown (uu_account i) = match su_account w with Some a => account_shown a | None => None end) /\
    (k = "f"%char -> exists rest, uu_flags i = (if su_away w then "G" else "H")%char :: rest).

  (** An entry describes a user as far as the requested fields go (our own
      account and away state excepted). *)
  Definition describes (s : server) (fields : bytes) (id : nat) (i : uuser) : Prop :=
    exists w, sv_users s id = Some w /\ uu_nick i = su_nick w /\
      forall k, In k fields -> (id = me -> k <> "a"%char /\ k <> "f"%char) -> field_right w i k.

  (** A right answer to WHO for the name of a user or of a channel. *)
  Definition who_right (s : server) (mask fields : bytes) (l : list uuser) : Prop :=
    (exists id w i, sv_users s id = Some w /\ key (su_nick w) = key mask /\ l = [i] /\ describes s fields id i) \/
    (inside s (key mask) me /\
     (forall i, In i l -> exists id, inside s (key mask) id /\ describes s fields id i) /\
     (sv_listed s (key mask) = true -> forall id, inside s (key mask) id -> exists i, In i l /\ describes s fields id i)).
End Server.
