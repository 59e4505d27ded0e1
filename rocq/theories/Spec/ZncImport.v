(** What a ZNC configuration file says, and what is to be in the database after its import. *)
From Verif.Base Require Import Bytes.
From Verif.Model Require Import Sql ZncImport.
From Verif.Spec Require Import Sql Postgres.
From Verif.Model Require Words.
From Verif.Spec Require Addr.
From Coq Require Import ZArith NArith.

(** ** Files *)

(** A file as it is written: blank space, comments, settings and sections. Blank space, keys and values are
    lists of characters; the rest is any bytes. *)
Inductive layout :=
| LEnd
| LBlank (w : list N) (rest : layout)
| LComment (t : bytes) (rest : layout)
| LValue (key before after value trailing : list N) (rest : layout)
| LSection (typ name : bytes) (inner rest : layout).

Definition newline : bytes := [ascii_of_N 10].
Definition write_text (l : list N) : bytes := flat_map encode l.

Fixpoint print (l : layout) : bytes :=
  match l with
  | LEnd => []
  | LBlank w rest => write_text w ++ print rest
  | LComment t rest => B "//" ++ t ++ newline ++ print rest
  | LValue k p1 p2 v p3 rest => write_text (k ++ p1) ++ B "=" ++ write_text (p2 ++ v ++ p3) ++ newline ++ print rest
  | LSection typ name inner rest =>
      B "<" ++ typ ++ B " " ++ name ++ B ">" ++ print inner ++ B "</" ++ typ ++ B ">" ++ print rest
  end.

(** What it says. *)
Fixpoint settings (l : layout) : list (bytes * bytes) :=
  match l with
  | LEnd => []
  | LBlank _ rest | LComment _ rest | LSection _ _ _ rest => settings rest
  | LValue k _ _ v _ rest => (write_text k, write_text v) :: settings rest
  end.
Fixpoint sections (l : layout) : list znc :=
  match l with
  | LEnd => []
  | LBlank _ rest | LComment _ rest | LValue _ _ _ _ _ rest => sections rest
  | LSection typ name inner rest => Znc typ name (settings inner) (sections inner) :: sections rest
  end.

(** White space (unicode.IsSpace), also without line breaks. *)
Definition blank (c : N) : Prop := scalar c /\ Words.is_space c = true.
Definition inline (c : N) : Prop := scalar c /\ Words.is_space c = true /\ c <> 10%N.
Definition solid (c : N) : Prop := Words.is_space c = false.

(** Neither starts nor ends with white space. *)
Definition trimmed (l : list N) : Prop :=
  l = [] \/ exists a m b, (l = [a] /\ solid a) \/ (l = a :: m ++ [b] /\ solid a /\ solid b).

Definition good_key (k : list N) : Prop :=
  k <> [] /\ trimmed k /\ (forall c, In c k -> scalar c /\ c <> 10%N /\ c <> 61%N) /\
  hd_error k <> Some 60%N /\ (forall k', k <> 47%N :: 47%N :: k').
Definition good_value (v : list N) : Prop := trimmed v /\ forall c, In c v -> scalar c /\ c <> 10%N.

Fixpoint good (l : layout) : Prop :=
  match l with
  | LEnd => True
  | LBlank w rest => (forall c, In c w -> blank c) /\ good rest
  | LComment t rest => ~ In (ascii_of_N 10) t /\ good rest
  | LValue k p1 p2 v p3 rest =>
      good_key k /\ good_value v /\ (forall c, In c (p1 ++ p2 ++ p3) -> inline c) /\ good rest
  | LSection typ name inner rest =>
      (forall c, In c typ -> ~ In c (B " >" ++ newline)) /\ hd_error typ <> Some "/"%char /\
      (forall c, In c name -> ~ In c (B ">" ++ newline)) /\ good inner /\ good rest
  end.

(** ** The import *)

(** The first value of a setting; sections of a section; names given on the command line. *)
Definition setting (s : znc) (k : bytes) : bytes :=
  match find (fun p => beqb (fst p) k) (z_values s) with Some p => snd p | None => [] end.
Definition chosen (names : list bytes) (name : bytes) : bool :=
  match names with [] => true | _ => existsb (beqb name) names end.
Definition user_sections (names : list bytes) (root : znc) : list znc :=
  filter (fun s => beqb (z_type s) (B "User") && chosen names (z_name s)) (z_children root).
Definition net_sections (names : list bytes) (u : znc) : list znc :=
  filter (fun s => beqb (z_type s) (B "Network") && chosen names (z_name s)) (z_children u).
Definition chan_sections (n : znc) : list znc :=
  filter (fun s => beqb (z_type s) (B "Chan") && negb (beqb (setting s (B "Disabled")) (B "true"))) (z_children n).
Definition either (a b : bytes) : bytes := match a with [] => b | _ => a end.

(** No two sections for one thing. *)
Definition distinct (users networks : list bytes) (root : znc) : Prop :=
  NoDup (map z_name (user_sections users root)) /\
  forall u, In u (user_sections users root) -> NoDup (map z_name (net_sections networks u)) /\
  forall n, In n (net_sections networks u) -> NoDup (map z_name (chan_sections n)).

(** A channel as its section says; the rest as it was, or as for a new channel. *)
Definition chan_imported (old : list gchan) (s : znc) (c' : gchan) : Prop :=
  (gc_name c' = z_name s /\ gc_key c' = setting s (B "Key") /\
   gc_detached c' = beqb (setting s (B "Detached")) (B "true")) /\
  ((exists c, In c old /\ gc_name c = z_name s /\ gc_id c' = gc_id c /\ gc_dmsgid c' = gc_dmsgid c /\ gc_relay c' = gc_relay c /\
      gc_reattach c' = gc_reattach c /\ gc_after c' = gc_after c /\ gc_on c' = gc_on c) \/
   ((forall c, In c old -> gc_name c <> z_name s /\ gc_id c <> gc_id c') /\ gc_dmsgid c' = [] /\ gc_relay c' = 0%Z /\
    gc_reattach c' = 0%Z /\ gc_after c' = 0%Z /\ gc_on c' = 0%Z)).

(** The channels of a network: those of its section, and those that were there. *)
Definition channels_after (old : list gchan) (s : znc) (new : list gchan) : Prop :=
  (forall c, In c (chan_sections s) -> exists c', In c' new /\ chan_imported old c c') /\
  (forall c, In c old -> (forall x, In x (chan_sections s) -> z_name x <> gc_name c) -> In c new) /\
  (forall c', In c' new -> In c' old \/ exists c, In c (chan_sections s) /\ chan_imported old c c').

(** A line of ZNC's settings for servers: host, port, a plus for TLS, and possibly a password, between blanks. *)
Inductive server_line (tls : bool) (host port : bytes) : bytes -> bytes -> Prop :=
| SLine b : b <> [] -> (forall c, In c b -> blank c) ->
    server_line tls host port (host ++ write_text b ++ (if tls then B "+" else []) ++ port) []
| SPass b b' w : b <> [] -> (forall c, In c b -> blank c) -> b' <> [] -> (forall c, In c b' -> blank c) ->
    w <> [] -> (forall c, In c w -> scalar c /\ solid c) ->
    server_line tls host port (host ++ write_text b ++ (if tls then B "+" else []) ++ port ++ write_text b' ++ write_text w)
      (write_text w).

(** What is made of it: the address with the scheme that asks for TLS or not, and the password. *)
Definition server_says (line addr pass : bytes) : Prop :=
  forall tls w h p q, server_line tls w p line q -> Addr.host_of w h -> Addr.port_number p ->
  Addr.written tls (w ++ B ":" ++ p) addr /\ pass = q.

(** A network as its section says, with what its user's section says by default. *)
Definition net_imported (old : list gnet) (u s : znc) (n' : gnet) : Prop :=
  (server_says (setting s (B "Server")) (gn_addr n') (gn_pass n') /\
   gn_nick n' = either (setting s (B "Nick")) (setting u (B "Nick")) /\
   gn_username n' = either (setting s (B "Ident")) (setting u (B "Ident")) /\
   gn_realname n' = either (setting s (B "RealName")) (setting u (B "RealName")) /\
   gn_enabled n' = negb (beqb (setting s (B "IRCConnectEnabled")) (B "false"))) /\
  ((exists n, In n old /\ either (gn_name n) (gn_addr n) = z_name s /\ gn_id n' = gn_id n /\ gn_name n' = gn_name n /\
      gn_cmds n' = gn_cmds n /\ gn_certfp n' = gn_certfp n /\ gn_mech n' = gn_mech n /\ gn_puser n' = gn_puser n /\
      gn_ppass n' = gn_ppass n /\ gn_cert n' = gn_cert n /\ gn_key n' = gn_key n /\ gn_away n' = gn_away n) \/
   ((forall n, In n old -> either (gn_name n) (gn_addr n) <> z_name s /\ gn_id n <> gn_id n') /\ gn_name n' = z_name s /\
    gn_cmds n' = [] /\ gn_certfp n' = [] /\ gn_mech n' = [] /\ gn_puser n' = [] /\ gn_ppass n' = [] /\ gn_cert n' = None /\
    gn_key n' = None /\ gn_away n' = true)).

Definition same_list {A} (l l' : list A) : Prop := forall x, In x l' <-> In x l.

(** The networks of a user: those of the user's section, and those that were there. *)
Definition networks_after (names : list bytes) (d d' : db) (user : N) (u : znc) : Prop :=
  (forall s, In s (net_sections names u) -> exists n', In n' (list_networks user d') /\
     net_imported (list_networks user d) u s n' /\
     channels_after (list_channels (gn_id n') d) s (list_channels (gn_id n') d')) /\
  (forall n, In n (list_networks user d) ->
     (forall s, In s (net_sections names u) -> z_name s <> either (gn_name n) (gn_addr n)) ->
     In n (list_networks user d') /\ same_list (list_channels (gn_id n) d) (list_channels (gn_id n) d')) /\
  (forall n', In n' (list_networks user d') -> In n' (list_networks user d) \/
     exists s, In s (net_sections names u) /\ net_imported (list_networks user d) u s n').

(** A user: an administrator or not, as the section says; the rest as it was (times to the millisecond), or as for a
    new user. *)
Definition user_imported (d : db) (s : znc) (u' : guser) : Prop :=
  gu_username u' = z_name s /\ gu_admin u' = beqb (setting s (B "Admin")) (B "true") /\
  match get_user (z_name s) d with
  | Some u => gu_id u' = gu_id u /\ gu_password u' = gu_password u /\ gu_nick u' = gu_nick u /\
      gu_realname u' = gu_realname u /\ gu_enabled u' = gu_enabled u /\
      gu_interacted u' = (gu_interacted u / 1000000 * 1000000)%Z /\ gu_max u' = gu_max u
  | None => gu_password u' = [] /\ gu_nick u' = [] /\ gu_realname u' = [] /\ gu_enabled u' = true /\
      gu_interacted u' = 0%Z /\ gu_max u' = (-1)%Z
  end.

(** Nothing else of the database. *)
Definition rest_same (d d' : db) : Prop :=
  d_drcpts d' = d_drcpts d /\ d_rrcpts d' = d_rrcpts d /\ d_subs d' = d_subs d /\ d_targets d' = d_targets d /\
  d_msgs d' = d_msgs d.

(** What is of a user is as it was. *)
Definition user_same (d d' : db) (name : bytes) : Prop :=
  get_user name d' = get_user name d /\
  forall u, get_user name d = Some u -> same_list (list_networks (gu_id u) d) (list_networks (gu_id u) d') /\
  forall n, In n (list_networks (gu_id u) d) -> same_list (list_channels (gn_id n) d) (list_channels (gn_id n) d').
