(** Model of the copy of a database to PostgreSQL (contrib/migrate-db/main.go).

    Simplifications: listing does not fail, and what the source lists does not change
    meanwhile; the clients of a network are taken in the order in which their receipts
    are listed, where the code takes any order (main.go:118); the command line and the
    log are left out. The destination is Model/Postgres.v with the sequences of its IDs
    (SERIAL: 1, 2, ...; a failing statement ends the program, what was stored stays). *)
From Verif.Base Require Import Bytes.
From Verif.Model Require Import Sql Postgres.
From Coq Require Import ZArith NArith.
Open Scope N_scope.

(** What the source database lists (database.go:17-60). *)
Record source := Source {
  s_users : list guser; s_nets : N -> list gnet; s_chans : N -> list gchan;
  s_drcpts : N -> list (bytes * bytes * bytes); s_subs : N -> N -> list gsub; s_configs : list (bytes * bytes) }.

(** The destination: the tables, the last ID given by the sequence of each of them,
    and the table WebPushConfig (postgres_schema.sql:70-76). *)
Record dest := Dest { t_pg : pg; t_user : N; t_net : N; t_chan : N; t_drcpt : N; t_sub : N; t_configs : list (bytes * bytes) }.
Definition empty_dest : dest := Dest empty_pg 0 0 0 0 0 [].

(** [user.ID = 0] (main.go:62), and likewise for the others (main.go:78, 93, 136). *)
Definition unnumbered_user (u : guser) : guser :=
  GUser 0 (gu_username u) (gu_password u) (gu_nick u) (gu_realname u) (gu_admin u) (gu_enabled u) (gu_interacted u) (gu_max u).
Definition unnumbered_net (n : gnet) : gnet :=
  GNet 0 (gn_name n) (gn_addr n) (gn_nick n) (gn_username n) (gn_realname n) (gn_pass n) (gn_cmds n) (gn_certfp n)
    (gn_mech n) (gn_puser n) (gn_ppass n) (gn_cert n) (gn_key n) (gn_away n) (gn_enabled n).
Definition unnumbered_chan (c : gchan) : gchan :=
  GChan 0 (gc_name c) (gc_key c) (gc_detached c) (gc_dmsgid c) (gc_relay c) (gc_reattach c) (gc_after c) (gc_on c).
Definition unnumbered_sub (s : gsub) : gsub := GSub 0 (gs_endpoint s) (gs_auth s) (gs_p256dh s) (gs_vapid s).

(** A loop whose body may end the program (log.Fatalf). *)
Fixpoint loop {A} (f : A -> dest -> dest * bool) (l : list A) (d : dest) : dest * bool :=
  match l with
  | [] => (d, true)
  | a :: l => let '(d, ok) := f a d in if ok then loop f l d else (d, false)
  end.

(** main.go:85-99: a channel of the network with ID [k] of the destination. *)
Definition copy_chan (k : N) (c : gchan) (d : dest) : dest * bool :=
  let i := t_chan d + 1 in
  match p_store_channel i k (unnumbered_chan c) (t_pg d) with
  | None => (d, false)
  | Some (p, _) => (Dest p (t_user d) (t_net d) i (t_drcpt d) (t_sub d) (t_configs d), true)
  end.

(** main.go:101-116: the receipts of each client. *)
Fixpoint add_client (c : bytes) (x : bytes * bytes) (g : list (bytes * list (bytes * bytes))) : list (bytes * list (bytes * bytes)) :=
  match g with
  | [] => [(c, [x])]
  | (c', l) :: g => if beqb c' c then (c', l ++ [x]) :: g else (c', l) :: add_client c x g
  end.
Definition by_client (l : list (bytes * bytes * bytes)) : list (bytes * list (bytes * bytes)) :=
  fold_left (fun g r => let '(t, c, m) := r in add_client c (t, m) g) l [].

(** The next values of a sequence. *)
Fixpoint serial {A} (last : N) (l : list A) : list (N * A) :=
  match l with [] => [] | a :: l => (last + 1, a) :: serial (last + 1) l end.

(** main.go:118-124. *)
Definition copy_drcpts (k : N) (x : bytes * list (bytes * bytes)) (d : dest) : dest * bool :=
  match p_store_drcpts k (fst x) (serial (t_drcpt d) (snd x)) (t_pg d) with
  | None => (d, false)
  | Some p => (Dest p (t_user d) (t_net d) (t_chan d) (t_drcpt d + N.of_nat (length (snd x))) (t_sub d) (t_configs d), true)
  end.

Section Migrate.
Variable src : source.
Variable now : Z.

(** main.go:133-142. *)
Definition copy_sub (u k : N) (s : gsub) (d : dest) : dest * bool :=
  let i := t_sub d + 1 in
  match p_store_sub now i u k (unnumbered_sub s) (t_pg d) with
  | None => (d, false)
  | Some (p, _) => (Dest p (t_user d) (t_net d) (t_chan d) (t_drcpt d) i (t_configs d), true)
  end.

(** main.go:74-143: a network; [u] is user.ID, which StoreUser has set to the ID of
    the user in the destination. *)
Definition copy_net (u : N) (n : gnet) (d : dest) : dest * bool :=
  let k := t_net d + 1 in
  match p_store_network k u (unnumbered_net n) (t_pg d) with
  | None => (d, false)
  | Some (p, _) =>
    let d := Dest p (t_user d) k (t_chan d) (t_drcpt d) (t_sub d) (t_configs d) in
    let '(d, ok) := loop (copy_chan k) (s_chans src (gn_id n)) d in
    if negb ok then (d, false)
    else let '(d, ok) := loop (copy_drcpts k) (by_client (s_drcpts src (gn_id n))) d in
    if negb ok then (d, false)
    else loop (copy_sub u k) (s_subs src u (gn_id n)) d
  end.

(** main.go:59-144: the networks are listed with user.ID as well. *)
Definition copy_user (x : guser) (d : dest) : dest * bool :=
  let u := t_user d + 1 in
  match p_store_user now u (unnumbered_user x) (t_pg d) with
  | None => (d, false)
  | Some (p, _) =>
    loop (copy_net u) (s_nets src u) (Dest p u (t_net d) (t_chan d) (t_drcpt d) (t_sub d) (t_configs d))
  end.

(** main.go:151-158, postgres.go:717-731 (StoreWebPushConfig). *)
Definition copy_config (c : bytes * bytes) (d : dest) : dest * bool :=
  if text_ok (fst c) && text_ok (snd c) && negb (existsb (fun c' => beqb (fst c') (fst c)) (t_configs d))
  then (Dest (t_pg d) (t_user d) (t_net d) (t_chan d) (t_drcpt d) (t_sub d) (t_configs d ++ [c]), true)
  else (d, false).

(** main.go:54-158; whether the program got to its end. *)
Definition migrate : dest * bool :=
  let '(d, ok) := loop copy_user (s_users src) empty_dest in
  if ok then loop copy_config (s_configs src) d else (d, false).
End Migrate.

(** A SQLite database as the source (sqlite.go:345-376 for ListUsers); a user whose
    times cannot be read makes ListUsers fail. *)
Definition sqlite_source (d : db) (configs : list (bytes * bytes)) : source :=
  Source (flat_map (fun r => match load_user r with Some u => [u] | None => [] end) (d_users d))
    (fun u => list_networks u d) (fun k => list_channels k d) (fun k => list_drcpts k d) (fun u k => list_subs u k d) configs.
