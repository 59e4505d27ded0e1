(** Model of delivery receipts and backlogs for the clients of a network,
    user.go:95-150, 426-446, 618-640, 755-800, 880-890, downstream.go:560-627,
    1606-1690, upstream.go:2125-2200.

    Targets and client names are numbers: two spellings of a target that the case
    mapping identifies are one target. The message store is an ideal one: a list of messages for each
    target, the ID of a message is its rank, and asking for the messages after an ID gives
    those behind it (the stores are modelled in MemStore and FsStore). Detached
    channels are left out here. *)
From Verif.Base Require Import Bytes.

(** A message in the log. [m_chat] is messageSupportsBacklog, downstream.go:1652-1662. *)
Record lmsg := Lmsg { m_body : N; m_chat : bool }.

(** A connection to this network: its ID, client name, whether it has the draft/chathistory
    capability, and the PING tokens that it did not answer yet. *)
Record dconn := Dconn { d_id : N; d_client : N; d_hist : bool; d_pings : list (N * nat) }.

(** user.go:95-103: target -> client name -> message ID. *)
Definition dstore := list (N * list (N * nat)).

Fixpoint assoc {A} (k : N) (l : list (N * A)) : option A :=
  match l with
  | [] => None
  | (k', v) :: l' => if N.eqb k' k then Some v else assoc k l'
  end.
Fixpoint set_assoc {A} (k : N) (v : A) (l : list (N * A)) : list (N * A) :=
  match l with
  | [] => [(k, v)]
  | (k', v') :: l' => if N.eqb k' k then (k', v) :: l' else (k', v') :: set_assoc k v l'
  end.

(** user.go:105-107 (Empty), 109-111 (HasTarget), 113-119 (LoadID), 121-128 (StoreID),
    136-148 (ForEachClient). A missing ID is "". *)
Definition ds_empty (d : dstore) : bool := match d with [] => true | _ => false end.
Definition ds_has (d : dstore) (t : N) : bool := match assoc t d with None => false | Some _ => true end.
Definition ds_load (d : dstore) (t c : N) : option nat :=
  match assoc t d with None => None | Some m => assoc c m end.
Definition ds_store (d : dstore) (t c : N) (id : nat) : dstore :=
  set_assoc t (set_assoc c id (match assoc t d with None => [] | Some m => m end)) d.
Definition ds_clients (d : dstore) : list N := nodup N.eq_dec (concat (map (fun x => map fst (snd x)) d)).

Record dstate := Dstate {
  s_log : list (N * list lmsg);     (* the message store: target -> messages *)
  s_del : dstore;                   (* net.delivered *)
  s_conns : list dconn;             (* the connections bound to the network *)
  s_db : list (N * list (N * nat))  (* the receipts in the database: client -> target -> ID *)
}.

Definition log_of (s : dstate) (t : N) : list lmsg := match assoc t (s_log s) with None => [] | Some l => l end.

Inductive dout :=
| Sent (conn client target : N) (m : N)   (* a chat message, live or in a backlog *)
| Own (conn client target : N) (m : N).   (* not sent: the client wrote it and has no echo-message *)

Section Delivery.
  (** backlogLimit, server.go:43. *)
  Variable limit : nat.

  Definition chat (l : list lmsg) : list lmsg := filter m_chat l.

  (** msgStore.LoadLatestID(id) and LastMsgID. *)
  Definition load_latest (s : dstate) (t : N) (id : nat) : list lmsg := lastn limit (chat (skipn id (log_of s t))).
  Definition last_id (s : dstate) (t : N) : nat := length (log_of s t).

  Definition out_chat (o : N -> dout) (m : lmsg) : list dout := if m_chat m then [o (m_body m)] else [].

  (** upstream.go:2150-2175 (appendLog), then 2183-2200 (produce): sendMessageWithID
      and advanceMessageWithID, downstream.go:571-593. [origin] is the connection that sent
      the message and does not have echo-message. *)
  Definition produce (s : dstate) (t : N) (m : lmsg) (origin : option N) : dstate * list dout :=
    let del := if negb (ds_empty (s_del s)) && negb (ds_has (s_del s) t)
               then fold_left (fun d c => ds_store d t c (last_id s t)) (ds_clients (s_del s)) (s_del s)
               else s_del s in
    let log := set_assoc t (log_of s t ++ [m]) (s_log s) in
    let id := S (last_id s t) in
    let outs := flat_map (fun dc => out_chat (match origin with
                                              | Some o => if N.eqb o (d_id dc) then Own (d_id dc) (d_client dc) t else Sent (d_id dc) (d_client dc) t
                                              | None => Sent (d_id dc) (d_client dc) t
                                              end) m) (s_conns s) in
    let conns := map (fun dc => if m_chat m && negb (d_hist dc)
                                then Dconn (d_id dc) (d_client dc) (d_hist dc) (d_pings dc ++ [(t, id)])
                                else dc) (s_conns s) in
    (Dstate log del conns (s_db s), outs).

  (** downstream.go:1606-1645 (welcome) and 1664-1690 (sendTargetBacklog). *)
  Definition backlog_target (client id : N) (x : dstate * list dout) (t : N) : dstate * list dout :=
    let '(s, outs) := x in
    match ds_load (s_del s) t client with
    | None => (s, outs)
    | Some last =>
        (Dstate (s_log s) (ds_store (s_del s) t client (last_id s t)) (s_conns s) (s_db s),
         outs ++ map (fun m => Sent id client t (m_body m)) (load_latest s t last))
    end.
  Definition connect (s : dstate) (id client : N) (hist : bool) : dstate * list dout :=
    let '(s1, outs) :=
      if hist || existsb (fun dc => N.eqb (d_client dc) client) (s_conns s) then (s, [])
      else fold_left (backlog_target client id) (map fst (s_del s)) (s, []) in
    (Dstate (s_log s1) (s_del s1) (s_conns s1 ++ [Dconn id client hist []]) (s_db s1), outs).

  (** downstream.go:595-627 (handlePong, ackMsgID): the client answers its oldest
      PING. *)
  Fixpoint pong_conns (cs : list dconn) (id : N) : list dconn * option (N * N * nat) :=
    match cs with
    | [] => ([], None)
    | dc :: cs' =>
        if N.eqb (d_id dc) id then
          match d_pings dc with
          | [] => (dc :: cs', None)
          | (t, n) :: ps => (Dconn (d_id dc) (d_client dc) (d_hist dc) ps :: cs', Some (d_client dc, t, n))
          end
        else let '(cs'', r) := pong_conns cs' id in (dc :: cs'', r)
    end.
  Definition pong (s : dstate) (id : N) : dstate :=
    let '(cs, r) := pong_conns (s_conns s) id in
    match r with
    | None => s
    | Some (c, t, n) => Dstate (s_log s) (ds_store (s_del s) t c n) cs (s_db s)
    end.

  (** user.go:426-446 (storeClientDeliveryReceipts) and database/sqlite.go:832-868. *)
  Definition receipts (d : dstore) (c : N) : list (N * nat) :=
    flat_map (fun x => match assoc c (snd x) with None => [] | Some n => [(fst x, n)] end) d.
  Definition store_receipts (s : dstate) (c : N) : dstate :=
    Dstate (s_log s) (s_del s) (s_conns s) (set_assoc c (receipts (s_del s) c) (s_db s)).

  (** user.go:779-800 (eventDownstreamDisconnected). *)
  Definition disconnect (s : dstate) (id : N) : dstate :=
    match find (fun dc => N.eqb (d_id dc) id) (s_conns s) with
    | None => s
    | Some dc =>
        store_receipts (Dstate (s_log s) (s_del s) (filter (fun x => negb (N.eqb (d_id x) id)) (s_conns s)) (s_db s)) (d_client dc)
    end.

  (** user.go:878-890 (eventStop), then 618-640: the receipts are read back. *)
  Definition load_receipts (db : list (N * list (N * nat))) : dstore :=
    fold_left (fun d x => fold_left (fun d y => ds_store d (fst y) (fst x) (snd y)) (snd x) d) db [].
  Definition restart (s : dstate) : dstate :=
    let s1 := fold_left store_receipts (ds_clients (s_del s)) s in
    Dstate (s_log s1) (load_receipts (s_db s1)) [] (s_db s1).

  (** user.go:1087-1165 (updateNetwork): the network is replaced by a new one, with
      newNetwork (user.go:162-186), whose receipts are empty; the connections stay. *)
  Definition update_net (s : dstate) : dstate := Dstate (s_log s) [] (s_conns s) (s_db s).

  Inductive dev :=
  | EMsg (t : N) (m : lmsg) (origin : option N)
  | EConnect (id client : N) (hist : bool)
  | EPong (id : N)
  | EDisconnect (id : N)
  | ERestart
  | EUpdateNetwork.

  Definition dstep (s : dstate) (e : dev) : dstate * list dout :=
    match e with
    | EMsg t m o => produce s t m o
    | EConnect id c hist => connect s id c hist
    | EPong id => (pong s id, [])
    | EDisconnect id => (disconnect s id, [])
    | ERestart => (restart s, [])
    | EUpdateNetwork => (update_net s, [])
    end.

  Fixpoint drun (s : dstate) (es : list dev) : dstate * list dout :=
    match es with
    | [] => (s, [])
    | e :: es' => let '(s1, o1) := dstep s e in let '(s2, o2) := drun s1 es' in (s2, o1 ++ o2)
    end.
End Delivery.

Definition dinit : dstate := Dstate [] [] [] [].
