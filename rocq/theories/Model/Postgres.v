(** The tables of the PostgreSQL database and the functions on them
    (database/postgres.go:239-1053, database/postgres_schema.sql).

    PostgreSQL itself is not soju code. Modelled of it: a statement sees the
    tables left by the previous one; a constraint (PRIMARY KEY, UNIQUE, FOREIGN
    KEY) violated after a statement makes the statement fail; a failure in a
    transaction undoes it; NULL equals nothing, but for IS NOT DISTINCT FROM;
    ON DELETE CASCADE; a text has to be UTF-8 without the byte 0; a VARCHAR(n)
    with more than n characters is an error, unless the ones in excess are
    blanks, which are dropped; an INTEGER has 32 bits; a TIMESTAMP WITH TIME
    ZONE has microseconds. The numbers that sequences give for SERIAL columns
    are arguments (fresh ids). Rows are kept in some order, the lists are to be
    read as sets. Not modelled: timeouts, lost connections, ids beyond 32 bits,
    years out of the range of timestamps. *)
From Verif.Base Require Import Bytes.
From Verif.Model Require Import Message TimeFmt Strip Glob Sql SqlQuery.
From Coq Require Import ZArith NArith.
Open Scope N_scope.

(** ** Values *)

(** RFC 3629. *)
Fixpoint utf8 (s : bytes) : bool :=
  match s with
  | [] => true
  | c :: x =>
    if code c <? 128 then utf8 x
    else
      match lead (code c), x with
      | Some (1%nat, lo, hi), d :: y => within lo hi d && utf8 y
      | Some (2%nat, lo, hi), d :: e :: y => within lo hi d && cont e && utf8 y
      | Some (3%nat, lo, hi), d :: e :: f :: y => within lo hi d && cont e && cont f && utf8 y
      | _, _ => false
      end
  end.

(** A value for a column of text. *)
Definition text_ok (s : bytes) : bool := utf8 s && forallb (fun c => negb (aeqb c "000")) s.

(** The first [k] characters of a text, and the others. *)
Fixpoint cut_chars (k : N) (s : bytes) : bytes * bytes :=
  match s with
  | [] => ([], [])
  | c :: x =>
    if cont c then let '(a, b) := cut_chars k x in (c :: a, b)
    else if k =? 0 then ([], s)
    else let '(a, b) := cut_chars (k - 1) x in (c :: a, b)
  end.

(** VARCHAR(k): whether there is no error, and what is stored. *)
Definition vok (k : N) (s : bytes) : bool := text_ok s && forallb (fun c => aeqb c " ") (snd (cut_chars k s)).
Definition vc (k : N) (s : bytes) : bytes := fst (cut_chars k s).
(** The same with an empty text as NULL (database.go, toNullString). *)
Definition nvc (k : N) (s : bytes) : option bytes := match s with [] => None | _ => Some (vc k s) end.

(** INTEGER. *)
Definition int4 (z : Z) : bool := ((-2147483648 <=? z) && (z <=? 2147483647))%Z.

(** TIMESTAMP WITH TIME ZONE, rounded to microseconds (exact halves may go either way). *)
Definition pg_time (t : Z) : Z := ((t + 500) / 1000 * 1000)%Z.
(** database.go (toNullTime); sql.NullTime.Time. *)
Definition pg_null_time (t : Z) : option Z := if (t =? 0)%Z then None else Some (pg_time t).
Definition time_of (o : option Z) : Z := match o with None => 0%Z | Some t => t end.

(** ** Tables *)

(** postgres_schema.sql:1-12. *)
Record puser := PUser {
  pu_id : N; pu_username : bytes; pu_password : option bytes; pu_admin : bool; pu_nick : option bytes;
  pu_realname : option bytes; pu_created : Z; pu_enabled : bool; pu_interacted : option Z; pu_max : Z }.

(** postgres_schema.sql:53-60. *)
Record pdrcpt := PDrcpt { pd_id : N; pd_network : N; pd_target : bytes; pd_client : bytes; pd_msgid : bytes }.

(** postgres_schema.sql:62-68. *)
Record prrcpt := PRrcpt { pr_id : N; pr_network : N; pr_target : bytes; pr_time : Z }.

(** postgres_schema.sql:78-89. *)
Record psub := PSub {
  ps_id : N; ps_created : Z; ps_updated : Z; ps_user : N; ps_network : option N; ps_endpoint : bytes; ps_vapid : bytes;
  ps_auth : bytes; ps_p256dh : bytes }.

(** postgres_schema.sql:103-111; the column text_search is computed from the text. *)
Record pmsg := PMsg { pm_id : N; pm_target : N; pm_raw : bytes; pm_time : Z; pm_sender : bytes; pm_text : option bytes }.

(** The tables; rows of networks, channels and message targets have the columns
    of the SQLite schema (postgres_schema.sql:16-51, 91-96). *)
Record pg := Pg {
  p_users : list puser; p_nets : list net_row; p_chans : list chan_row; p_drcpts : list pdrcpt;
  p_rrcpts : list prrcpt; p_subs : list psub; p_targets : list target_row; p_msgs : list pmsg }.

(** A database after the schema was created. *)
Definition empty_pg : pg := Pg [] [] [] [] [] [] [] [].

Definition set_users v p := Pg v (p_nets p) (p_chans p) (p_drcpts p) (p_rrcpts p) (p_subs p) (p_targets p) (p_msgs p).
Definition set_nets v p := Pg (p_users p) v (p_chans p) (p_drcpts p) (p_rrcpts p) (p_subs p) (p_targets p) (p_msgs p).
Definition set_chans v p := Pg (p_users p) (p_nets p) v (p_drcpts p) (p_rrcpts p) (p_subs p) (p_targets p) (p_msgs p).
Definition set_drcpts v p := Pg (p_users p) (p_nets p) (p_chans p) v (p_rrcpts p) (p_subs p) (p_targets p) (p_msgs p).
Definition set_rrcpts v p := Pg (p_users p) (p_nets p) (p_chans p) (p_drcpts p) v (p_subs p) (p_targets p) (p_msgs p).
Definition set_subs v p := Pg (p_users p) (p_nets p) (p_chans p) (p_drcpts p) (p_rrcpts p) v (p_targets p) (p_msgs p).
Definition set_targets v p := Pg (p_users p) (p_nets p) (p_chans p) (p_drcpts p) (p_rrcpts p) (p_subs p) v (p_msgs p).
Definition set_msgs v p := Pg (p_users p) (p_nets p) (p_chans p) (p_drcpts p) (p_rrcpts p) (p_subs p) (p_targets p) v.

Definition pusername_key u := [Some (CText (pu_username u))].
Definition pdrcpt_key r := [Some (CInt (pd_network r)); Some (CText (pd_target r)); Some (CText (pd_client r))].
Definition prrcpt_key r := [Some (CInt (pr_network r)); Some (CText (pr_target r))].
Definition psub_key s := [int_cell (ps_network s); Some (CText (ps_endpoint s))].

Definition puser_ids p := map pu_id (p_users p).
Definition pnet_ids p := map nr_id (p_nets p).
Definition ptarget_ids p := map tr_id (p_targets p).

(** All constraints of postgres_schema.sql. *)
Definition pvalidb (p : pg) : bool :=
  uniqb (pk pu_id) (p_users p) && uniqb pusername_key (p_users p)
  && (uniqb (pk nr_id) (p_nets p) && uniqb net_addr_key (p_nets p) && uniqb net_name_key (p_nets p)
      && refsb (puser_ids p) (fun n => Some (nr_user n)) (p_nets p))
  && (uniqb (pk cr_id) (p_chans p) && uniqb chan_key (p_chans p)
      && refsb (pnet_ids p) (fun c => Some (cr_network c)) (p_chans p))
  && (uniqb (pk pd_id) (p_drcpts p) && uniqb pdrcpt_key (p_drcpts p)
      && refsb (pnet_ids p) (fun r => Some (pd_network r)) (p_drcpts p))
  && (uniqb (pk pr_id) (p_rrcpts p) && uniqb prrcpt_key (p_rrcpts p)
      && refsb (pnet_ids p) (fun r => Some (pr_network r)) (p_rrcpts p))
  && (uniqb (pk ps_id) (p_subs p) && uniqb psub_key (p_subs p)
      && refsb (puser_ids p) (fun s => Some (ps_user s)) (p_subs p) && refsb (pnet_ids p) ps_network (p_subs p))
  && (uniqb (pk tr_id) (p_targets p) && uniqb target_key (p_targets p)
      && refsb (pnet_ids p) (fun t => Some (tr_network t)) (p_targets p))
  && (uniqb (pk pm_id) (p_msgs p) && refsb (ptarget_ids p) (fun m => Some (pm_target m)) (p_msgs p)).

(** The outcome of a statement whose values are fine if [ok] holds and which leads to the given tables. *)
Definition pcheck (ok : bool) (p : pg) : option pg := if ok && pvalidb p then Some p else None.

(** Changes the rows with an id ([UPDATE ... WHERE id = ...]). *)
Definition update {A} (id : A -> N) (i : N) (f : A -> A) (l : list A) : list A :=
  map (fun r => if N.eqb (id r) i then f r else r) l.

Definition with_id {A} (i : N) (o : option A) : option (A * N) := match o with None => None | Some p => Some (p, i) end.

(** ** Users *)

(** postgres.go:338-367 (StoreUser). *)
Definition p_store_user (now : Z) (fresh : N) (u : guser) (p : pg) : option (pg * N) :=
  let ok := vok 255 (gu_password u) && vok 255 (gu_nick u) && vok 255 (gu_realname u) && int4 (gu_max u) in
  if N.eqb (gu_id u) 0 then
    let row := PUser fresh (vc 255 (gu_username u)) (nvc 255 (gu_password u)) (gu_admin u) (nvc 255 (gu_nick u))
                 (nvc 255 (gu_realname u)) (pg_time now) (gu_enabled u) (pg_null_time (gu_interacted u)) (gu_max u) in
    with_id fresh (pcheck (ok && vok 255 (gu_username u)) (set_users (p_users p ++ [row]) p))
  else
    with_id (gu_id u) (pcheck ok (set_users (update pu_id (gu_id u) (fun r =>
      PUser (pu_id r) (pu_username r) (nvc 255 (gu_password u)) (gu_admin u) (nvc 255 (gu_nick u))
        (nvc 255 (gu_realname u)) (pu_created r) (gu_enabled u) (pg_null_time (gu_interacted u)) (gu_max u)) (p_users p)) p)).

(** postgres.go:271-280, 302-311. *)
Definition p_load_user (r : puser) : guser :=
  GUser (pu_id r) (pu_username r) (string_of (pu_password r)) (string_of (pu_nick r)) (string_of (pu_realname r))
    (pu_admin r) (pu_enabled r) (time_of (pu_interacted r)) (pu_max r).

(** postgres.go:255-287 (ListUsers). *)
Definition p_list_users (p : pg) : list guser := map p_load_user (p_users p).

(** postgres.go:289-312 (GetUser); None is an error, in particular sql.ErrNoRows. *)
Definition p_get_user (username : bytes) (p : pg) : option guser :=
  if text_ok username then
    match filter (fun r => beqb (pu_username r) username) (p_users p) with [] => None | r :: _ => Some (p_load_user r) end
  else None.

(** ** Networks *)

(** postgres.go:427-475 (StoreNetwork). *)
Definition p_store_network (fresh : N) (user : N) (n : gnet) (p : pg) : option (pg * N) :=
  match sasl_columns n with
  | None => None
  | Some (mech, puser, ppass, cert, key) =>
    let ok := vok 255 (gn_name n) && vok 255 (gn_addr n) && vok 255 (gn_nick n) && vok 255 (gn_username n)
              && vok 255 (gn_realname n) && text_ok (gn_certfp n) && vok 255 (gn_pass n)
              && vok 1023 (join cmd_sep (gn_cmds n)) && vok 255 (string_of puser) && vok 255 (string_of ppass) in
    let row id owner :=
      NetRow id (nvc 255 (gn_name n)) owner (vc 255 (gn_addr n)) (nvc 255 (gn_nick n)) (nvc 255 (gn_username n))
        (nvc 255 (gn_realname n)) (null_string (gn_certfp n)) (nvc 255 (gn_pass n))
        (nvc 1023 (join cmd_sep (gn_cmds n))) mech (nvc 255 (string_of puser)) (nvc 255 (string_of ppass)) cert key
        (gn_away n) (gn_enabled n) in
    if N.eqb (gn_id n) 0 then with_id fresh (pcheck ok (set_nets (p_nets p ++ [row fresh user]) p))
    else with_id (gn_id n) (pcheck ok (set_nets (update nr_id (gn_id n) (fun r => row (nr_id r) (nr_user r)) (p_nets p)) p))
  end.

(** postgres.go:377-425 (ListNetworks). *)
Definition p_list_networks (user : N) (p : pg) : list gnet :=
  map load_network (filter (fun r => N.eqb (nr_user r) user) (p_nets p)).

(** ** Channels *)

(** postgres.go:519-546 (StoreChannel). *)
Definition p_store_channel (fresh : N) (net : N) (c : gchan) (p : pg) : option (pg * N) :=
  let ok := vok 255 (gc_name c) && vok 255 (gc_key c) && vok 255 (gc_dmsgid c) && int4 (gc_relay c)
            && int4 (gc_reattach c) && int4 (ceil_seconds (gc_after c)) && int4 (gc_on c) in
  let row id net := ChanRow id net (vc 255 (gc_name c)) (nvc 255 (gc_key c)) (gc_detached c) (nvc 255 (gc_dmsgid c))
                  (gc_relay c) (gc_reattach c) (ceil_seconds (gc_after c)) (gc_on c) in
  if N.eqb (gc_id c) 0 then with_id fresh (pcheck ok (set_chans (p_chans p ++ [row fresh net]) p))
  else with_id (gc_id c) (pcheck ok (set_chans (update cr_id (gc_id c) (fun r => row (cr_id r) (cr_network r)) (p_chans p)) p)).

(** postgres.go:485-517 (ListChannels). *)
Definition p_list_channels (net : N) (p : pg) : list gchan :=
  map load_channel (filter (fun r => N.eqb (cr_network r) net) (p_chans p)).

(** postgres.go:548-554 (DeleteChannel). *)
Definition p_delete_channel (id : N) (p : pg) : option pg :=
  pcheck true (set_chans (filter (fun c => negb (N.eqb (cr_id c) id)) (p_chans p)) p).

(** ** Delivery receipts *)

(** postgres.go:607-620: receipts with their fresh ids. *)
Fixpoint p_insert_drcpts (net : N) (client : bytes) (l : list (N * (bytes * bytes))) (p : pg) : option pg :=
  match l with
  | [] => Some p
  | (id, (target, msgid)) :: l =>
    match pcheck (vok 255 target && vok 255 client && vok 255 msgid)
            (set_drcpts (p_drcpts p ++ [PDrcpt id net (vc 255 target) (vc 255 client) (vc 255 msgid)]) p) with
    | None => None
    | Some p => p_insert_drcpts net client l p
    end
  end.

(** postgres.go:584-623 (StoreClientDeliveryReceipts). *)
Definition p_store_drcpts (net : N) (client : bytes) (l : list (N * (bytes * bytes))) (p : pg) : option pg :=
  match pcheck (text_ok client)
          (set_drcpts (filter (fun r => negb (N.eqb (pd_network r) net && beqb (pd_client r) client)) (p_drcpts p)) p) with
  | None => None
  | Some p => p_insert_drcpts net client l p
  end.

(** postgres.go:556-582 (ListDeliveryReceipts): target, client, message id. *)
Definition p_list_drcpts (net : N) (p : pg) : list (bytes * bytes * bytes) :=
  map (fun r => (pd_target r, pd_client r, pd_msgid r)) (filter (fun r => N.eqb (pd_network r) net) (p_drcpts p)).

(** ** Read receipts *)

(** postgres.go:646-666 (StoreReadReceipt). *)
Definition p_store_rrcpt (fresh : N) (net id : N) (target : bytes) (t : Z) (p : pg) : option (pg * N) :=
  if N.eqb id 0 then
    with_id fresh (pcheck (vok 255 target) (set_rrcpts (p_rrcpts p ++ [PRrcpt fresh net (vc 255 target) (pg_time t)]) p))
  else
    with_id id (pcheck true (set_rrcpts (update pr_id id (fun r => PRrcpt (pr_id r) (pr_network r) (pr_target r) (pg_time t))
                                           (p_rrcpts p)) p)).

(** postgres.go:625-644 (GetReadReceipt): None is an error, Some None no receipt,
    otherwise its id and time. *)
Definition p_get_rrcpt (net : N) (target : bytes) (p : pg) : option (option (N * Z)) :=
  if text_ok target then
    match filter (fun r => N.eqb (pr_network r) net && beqb (pr_target r) target) (p_rrcpts p) with
    | [] => Some None
    | r :: _ => Some (Some (pr_id r, pr_time r))
    end
  else None.

(** ** Web push subscriptions *)

(** postgres.go:761-790 (StoreWebPushSubscription). *)
Definition p_store_sub (now : Z) (fresh : N) (user net : N) (s : gsub) (p : pg) : option (pg * N) :=
  let ok := text_ok (gs_auth s) && text_ok (gs_p256dh s) && text_ok (gs_vapid s) in
  if N.eqb (gs_id s) 0 then
    let row := PSub fresh (pg_time now) (pg_time now) user (null_id net) (gs_endpoint s) (gs_vapid s) (gs_auth s) (gs_p256dh s) in
    with_id fresh (pcheck (ok && text_ok (gs_endpoint s)) (set_subs (p_subs p ++ [row]) p))
  else
    with_id (gs_id s) (pcheck ok (set_subs (update ps_id (gs_id s) (fun r =>
      PSub (ps_id r) (ps_created r) (pg_time now) (ps_user r) (ps_network r) (ps_endpoint r) (gs_vapid s) (gs_auth s)
        (gs_p256dh s)) (p_subs p)) p)).

(** postgres.go:792-798 (DeleteWebPushSubscription). *)
Definition p_delete_sub (id : N) (p : pg) : option pg :=
  pcheck true (set_subs (filter (fun s => negb (N.eqb (ps_id s) id)) (p_subs p)) p).

(** postgres.go:730-759 (ListWebPushSubscriptions), without the times. *)
Definition p_list_subs (user net : N) (p : pg) : list gsub :=
  map (fun r => GSub (ps_id r) (ps_endpoint r) (ps_auth r) (ps_p256dh r) (ps_vapid r))
    (filter (fun r => N.eqb (ps_user r) user && id_is (ps_network r) (null_id net)) (p_subs p)).

(** ** Deletion (ON DELETE CASCADE) *)

Definition p_cascade (users nets : list N) (p : pg) : pg :=
  let targets := map tr_id (filter (fun t => dead nets (tr_network t)) (p_targets p)) in
  Pg (filter (fun r => negb (dead users (pu_id r))) (p_users p))
     (filter (fun r => negb (dead nets (nr_id r))) (p_nets p))
     (filter (fun r => negb (dead nets (cr_network r))) (p_chans p))
     (filter (fun r => negb (dead nets (pd_network r))) (p_drcpts p))
     (filter (fun r => negb (dead nets (pr_network r))) (p_rrcpts p))
     (filter (fun r => negb (dead users (ps_user r) || match ps_network r with None => false | Some k => dead nets k end)) (p_subs p))
     (filter (fun r => negb (dead nets (tr_network r))) (p_targets p))
     (filter (fun r => negb (dead targets (pm_target r))) (p_msgs p)).

(** postgres.go:369-375 (DeleteUser). *)
Definition p_delete_user (u : N) (p : pg) : option pg :=
  pcheck true (p_cascade [u] (map nr_id (filter (fun r => N.eqb (nr_user r) u) (p_nets p))) p).

(** postgres.go:477-483 (DeleteNetwork). *)
Definition p_delete_network (k : N) (p : pg) : option pg := pcheck true (p_cascade [] [k] p).

(** ** Messages *)

Section Messages.
(** irc.Message.String. *)
Variable raw_of : message -> bytes.

(** postgres.go:836-845: [INSERT INTO "MessageTarget" ... ON CONFLICT DO NOTHING]. *)
Definition p_add_target (fresh : N) (net : N) (name : bytes) (p : pg) : option pg :=
  let row := TargetRow fresh net name in
  if existsb (fun t => clash (target_key t) (target_key row)) (p_targets p) then pcheck (text_ok name) p
  else pcheck (text_ok name) (set_targets (p_targets p ++ [row]) p).

(** postgres.go:847-853, 859-893: [INSERT INTO "Message" ... SELECT id ... FROM "MessageTarget"],
    None also when Scan finds no row. *)
Definition p_insert_msg (net : N) (name : bytes) (now : Z) (fresh : N) (m : message) (p : pg) : option pg :=
  match message_time now m with
  | None => None
  | Some t =>
    match filter (fun r => N.eqb (tr_network r) net && beqb (tr_target r) name) (p_targets p) with
    | r :: _ =>
      pcheck (text_ok (raw_of m) && text_ok (message_sender m) && text_ok (string_of (message_text m)) && text_ok name)
        (set_msgs (p_msgs p ++ [PMsg fresh (tr_id r) (raw_of m) (pg_time t) (message_sender m) (message_text m)]) p)
    | [] => None
    end
  end.

Fixpoint p_insert_msgs (net : N) (name : bytes) (now : Z) (l : list (N * message)) (p : pg) : option pg :=
  match l with
  | [] => Some p
  | (id, m) :: l =>
    match p_insert_msg net name now id m p with
    | None => None
    | Some p => p_insert_msgs net name now l p
    end
  end.

(** postgres.go:822-898 (StoreMessages): messages with their fresh ids, which are
    the result; [fresh] is for a new target. *)
Definition p_store_messages (fresh : N) (net : N) (name : bytes) (now : Z) (l : list (N * message)) (p : pg)
  : option (pg * list N) :=
  match l with
  | [] => Some (p, [])
  | _ =>
    match p_add_target fresh net name p with
    | None => None
    | Some p => match p_insert_msgs net name now l p with None => None | Some p => Some (p, map fst l) end
    end
  end.

(** ** The calls of the interface that write *)

Inductive pcall :=
| PStoreUser (now : Z) (fresh : N) (u : guser)
| PDeleteUser (id : N)
| PStoreNetwork (fresh : N) (user : N) (n : gnet)
| PDeleteNetwork (id : N)
| PStoreChannel (fresh : N) (net : N) (c : gchan)
| PDeleteChannel (id : N)
| PStoreDeliveryReceipts (net : N) (client : bytes) (l : list (N * (bytes * bytes)))
| PStoreReadReceipt (fresh : N) (net id : N) (target : bytes) (t : Z)
| PStoreSubscription (now : Z) (fresh : N) (user net : N) (s : gsub)
| PDeleteSubscription (id : N)
| PStoreMessages (fresh : N) (net : N) (name : bytes) (now : Z) (l : list (N * message)).

Definition p_perform (c : pcall) (p : pg) : option pg :=
  match c with
  | PStoreUser now fresh u => fst_opt (p_store_user now fresh u p)
  | PDeleteUser id => p_delete_user id p
  | PStoreNetwork fresh user n => fst_opt (p_store_network fresh user n p)
  | PDeleteNetwork id => p_delete_network id p
  | PStoreChannel fresh net c => fst_opt (p_store_channel fresh net c p)
  | PDeleteChannel id => p_delete_channel id p
  | PStoreDeliveryReceipts net client l => p_store_drcpts net client l p
  | PStoreReadReceipt fresh net id target t => fst_opt (p_store_rrcpt fresh net id target t p)
  | PStoreSubscription now fresh user net s => fst_opt (p_store_sub now fresh user net s p)
  | PDeleteSubscription id => p_delete_sub id p
  | PStoreMessages fresh net name now l => fst_opt (p_store_messages fresh net name now l p)
  end.

(** A failing call leaves the database as it was. *)
Definition p_step (p : pg) (c : pcall) : pg := match p_perform c p with Some p' => p' | None => p end.
End Messages.

(** ** Queries *)

Section Query.
(** [ORDER BY time ASC], [ORDER BY time DESC]: the order of equal times is open. *)
Variable up : list pmsg -> list pmsg.
Variable down : list pmsg -> list pmsg.
(** [text_search @@ plainto_tsquery('search_simple', ...)] on the text of a row. *)
Variable search : bytes -> option bytes -> bool.

(** [target = (SELECT id FROM "MessageTarget" WHERE network = $1 AND target = $2)]; NULL without target. *)
Definition p_of_target (p : pg) (net : N) (name : bytes) (m : pmsg) : bool :=
  match filter (fun t => N.eqb (tr_network t) net && beqb (tr_target t) name) (p_targets p) with
  | [] => false
  | t :: _ => N.eqb (pm_target m) (tr_id t)
  end.

(** postgres.go:989-1014: the remaining conditions. *)
Definition p_selected (o : options) (m : pmsg) : bool :=
  (N.eqb (o_after_id o) 0 || N.ltb (o_after_id o) (pm_id m))
  && (Z.eqb (o_after o) 0 || Z.ltb (pg_time (o_after o)) (pm_time m))
  && (Z.eqb (o_before o) 0 || Z.ltb (pm_time m) (pg_time (o_before o)))
  && (beqb (o_sender o) [] || beqb (pm_sender m) (o_sender o))
  && (beqb (o_text o) [] || search (o_text o) (pm_text m))
  && (o_events o || match pm_text m with None => false | Some _ => true end).

(** postgres.go:973-1053 (ListMessages), up to the rows; None is an error. *)
Definition p_list_rows (net : N) (name : bytes) (o : options) (p : pg) : option (list pmsg) :=
  if text_ok name && text_ok (o_sender o) && text_ok (o_text o) then
    let rows := filter (fun m => p_of_target p net name m && p_selected o m) (p_msgs p) in
    Some (if o_last o then rev (firstn (o_limit o) (down rows)) else firstn (o_limit o) (up rows))
  else None.

(** postgres.go:800-820 (GetMessageLastID): 0 without messages, None is an error. *)
Definition p_last_id (net : N) (name : bytes) (p : pg) : option N :=
  if text_ok name then
    Some (match down (filter (p_of_target p net name) (p_msgs p)) with [] => 0 | m :: _ => pm_id m end)
  else None.

(** [ORDER BY l.latest]. *)
Variable lup : list (bytes * Z) -> list (bytes * Z).
Variable ldown : list (bytes * Z) -> list (bytes * Z).

(** postgres.go:907-922: [JOIN LATERAL (... ORDER BY m.time DESC LIMIT 1)]. *)
Definition p_latest (p : pg) (events : bool) (t : target_row) : list (bytes * Z) :=
  match down (filter (fun m => N.eqb (pm_target m) (tr_id t) && (events || match pm_text m with None => false | Some _ => true end))
                     (p_msgs p)) with
  | [] => []
  | m :: _ => [(tr_target t, pm_time m)]
  end.

(** postgres.go:900-971 (ListMessageLastPerTarget). *)
Definition p_list_latest (net : N) (o : options) (p : pg) : list (bytes * Z) :=
  let rows := flat_map (p_latest p (o_events o)) (filter (fun t => N.eqb (tr_network t) net) (p_targets p)) in
  let rows := filter (fun r => (Z.eqb (o_after o) 0 || Z.ltb (pg_time (o_after o)) (snd r))
                            && (Z.eqb (o_before o) 0 || Z.ltb (snd r) (pg_time (o_before o)))) rows in
  if o_last o then rev (firstn (o_limit o) (ldown rows)) else firstn (o_limit o) (lup rows).
End Query.
