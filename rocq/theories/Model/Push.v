(** Model of push notifications: WEBPUSH (downstream.go:3204-3353, 3378-3394), the
    notifications about texts, invitations and read markers (upstream.go:634-703,
    1608-1647, downstream.go:2953-2987), their delivery (user.go:485-524,
    server.go:332-377), and the table WebPushSubscription
    (database/sqlite_schema.sql:79-92, sqlite.go:971-1054).

    Simplifications: the database works, and lists rows in the order of their IDs;
    a command is one step, with the test request it makes; every request is made, and
    its failure (also for want of time, user.go:490) is the answer [WError];
    the case mapping of a network does not change; whether a text is ours, direct or
    a highlight is part of the event (Model/Detach.v, Model/Highlight.v). The
    encryption and the HTTP request are those of a library: a request is its
    endpoint, the keys and the message. *)
From Verif.Base Require Import Bytes.
From Verif.Model Require Import Message.
From Coq Require Import ZArith.
Open Scope Z_scope.

(** A row of WebPushSubscription; [u_net] is 0 for NULL. *)
Record wsub := WSub { u_id : N; u_user : N; u_net : N; u_end : bytes; u_auth : bytes; u_p256 : bytes; u_vapid : bytes; u_at : Z }.

(** A running broadcastWebPush; [None]: the subscriptions have not been listed yet. *)
Record job := Job { j_id : N; j_user : N; j_net : N; j_msg : message; j_todo : option (list wsub) }.

(** [w_last]: the last ID that was given to a row. [w_targets] holds network.pushTargets
    of all networks, [w_marks] the table ReadReceipt. *)
Record wst := WSt { w_subs : list wsub; w_last : N; w_jobs : list job; w_next : N;
  w_targets : list (N * N * bytes * Z); w_marks : list (N * N * bytes * Z) }.
Definition new_wst : wst := WSt [] 0 [] 0 [] [].
Definition with_subs s l i := WSt l i (w_jobs s) (w_next s) (w_targets s) (w_marks s).
Definition with_jobs s l := WSt (w_subs s) (w_last s) l (w_next s) (w_targets s) (w_marks s).
Definition with_targets s l := WSt (w_subs s) (w_last s) (w_jobs s) (w_next s) l (w_marks s).
Definition with_marks s l := WSt (w_subs s) (w_last s) (w_jobs s) (w_next s) (w_targets s) l.

Definition same_key (u n : N) (t : bytes) (x : N * N * bytes * Z) : bool :=
  let '(u', n', t', _) := x in N.eqb u u' && N.eqb n n' && beqb t t'.
Definition tget (l : list (N * N * bytes * Z)) (u n : N) (t : bytes) : option Z := option_map snd (find (same_key u n t) l).
Definition tdel (l : list (N * N * bytes * Z)) (u n : N) (t : bytes) := filter (fun x => negb (same_key u n t x)) l.
Definition tset (l : list (N * N * bytes * Z)) (u n : N) (t : bytes) (z : Z) := (u, n, t, z) :: tdel l u n t.

(** The answer of an endpoint: a 2xx status, 404, or anything else. *)
Inductive wres := WOk | WExpired | WError.

Inductive wev :=
| WCommand (u n : N) (cap : bool) (params : list bytes) (now : Z) (check : bool) (test : wres)
| WText (u n : N) (m : message) (self direct highlight : bool) (channel : option (bool * bool)) (buffer : bytes) (time : option Z)
| WInvite (u n : N) (m : message) (ours joined saved : bool)
| WMark (u n : N) (target : bytes) (ts now : Z)
| WPart (u n : N) (target : bytes)
| WReplace (u n : N)
| WDelete (u n : N)
| WList (k : N)
| WSend (k : N) (now : Z) (r : wres).

Inductive wout :=
| OReply (u n : N) (m : message)
| OStart (k u n : N) (m : message)
| OList (k u n : N)
| OTest (endpoint auth p256 : bytes)
| ORequest (k u n : N) (endpoint auth p256 : bytes) (m : message).

Section Push.
  (** How IDs are given: with SQLite the largest in the table plus one, with
      PostgreSQL (SERIAL) never twice. *)
  Variable serial : bool.
  (** The public key of the server; irc.ParseTags; the case mapping of each network;
      the text of a time. *)
  Variable vapid : bytes.
  Variable parse_tags : bytes -> list (bytes * bytes).
  Variable cm : N -> N -> bytes -> bytes.
  Variable time_text : Z -> bytes.

  Definition tag (l : list (bytes * bytes)) (k : bytes) : option bytes := option_map snd (find (fun p => beqb (fst p) k) l).

  (** server.go:41-42, in nanoseconds. *)
  Definition check_delay : Z := 24 * 3600 * 1000000000.
  Definition prune_delay : Z := 30 * 24 * 3600 * 1000000000.

  (** sqlite.go:971-1002 (ListWebPushSubscriptions). *)
  Definition rows (s : wst) (u n : N) : list wsub := filter (fun x => N.eqb (u_user x) u && N.eqb (u_net x) n) (w_subs s).
  (** downstream.go:3387-3394 (findWebPushSubscription). *)
  Definition find_sub (l : list wsub) (e : bytes) : option wsub := find (fun x => beqb (u_end x) e) l.
  (** sqlite.go:1048-1054 (DeleteWebPushSubscription). *)
  Definition delete_row (s : wst) (i : N) : wst := with_subs s (filter (fun x => negb (N.eqb (u_id x) i)) (w_subs s)) (w_last s).
  (** sqlite.go:1004-1046 (StoreWebPushSubscription). *)
  Definition next_row (s : wst) : N := N.succ (if serial then w_last s else fold_right (fun x m => N.max (u_id x) m) 0%N (w_subs s)).
  Definition insert_row (s : wst) (u n : N) (e a p : bytes) (now : Z) : wst :=
    with_subs s (w_subs s ++ [WSub (next_row s) u n e a p vapid now]) (N.max (w_last s) (next_row s)).
  Definition update_row (s : wst) (i : N) (a p : bytes) (now : Z) : wst :=
    with_subs s (map (fun x => if N.eqb (u_id x) i then WSub (u_id x) (u_user x) (u_net x) (u_end x) a p vapid now else x) (w_subs s)) (w_last s).

  Definition need_more : message := msg (B "461") [B "*"; B "WEBPUSH"; B "Not enough parameters"].
  Definition wfail (code sub text : bytes) : message := msg (B "FAIL") [B "WEBPUSH"; code; sub; text].

  (** downstream.go:3214-3301 (REGISTER). *)
  Definition register_sub (s : wst) (u n : N) (e keys : bytes) (now : Z) (check : bool) (test : wres) : wst * list wout :=
    match tag (parse_tags keys) (B "auth"), tag (parse_tags keys) (B "p256dh") with
    | Some a, Some p =>
        let subs := rows s u n in
        if (25 <? length subs)%nat then (s, [OReply u n (wfail (B "INTERNAL_ERROR") (B "REGISTER") (B "Too many subscriptions"))])
        else
          let old := find_sub subs e in
          let update := match old with
                        | None => true
                        | Some o => (check_delay <? now - u_at o) || negb (beqb (u_auth o) a && beqb (u_p256 o) p && beqb (u_vapid o) vapid)
                        end in
          if update then
            if negb check then (s, [OReply u n (wfail (B "INVALID_PARAMS") (B "REGISTER") (B "Invalid endpoint"))])
            else match test with
                 | WOk => (match old with None => insert_row s u n e a p now | Some o => update_row s (u_id o) a p now end,
                           [OTest e a p; OReply u n (msg (B "WEBPUSH") [B "REGISTER"; e])])
                 | _ => (s, [OTest e a p; OReply u n (wfail (B "INVALID_PARAMS") (B "REGISTER") (B "Invalid endpoint"))])
                 end
          else (s, [OReply u n (msg (B "WEBPUSH") [B "REGISTER"; e])])
    | _, _ => (s, [OReply u n (wfail (B "INVALID_PARAMS") (B "REGISTER") (B "Missing auth or p256dh key"))])
    end.

  (** downstream.go:3302-3346 (UNREGISTER). *)
  Definition unregister_sub (s : wst) (u n : N) (e : bytes) : wst * list wout :=
    (match find_sub (rows s u n) e with None => s | Some o => delete_row s (u_id o) end,
     [OReply u n (msg (B "WEBPUSH") [B "UNREGISTER"; e])]).

  (** downstream.go:3204-3353. *)
  Definition command (s : wst) (u n : N) (cap : bool) (params : list bytes) (now : Z) (check : bool) (test : wres) : wst * list wout :=
    if negb cap then (s, [OReply u n (msg (B "421") [B "*"; B "WEBPUSH"; B "Unknown command"])])
    else match params with
         | [] => (s, [OReply u n need_more])
         | sub :: r =>
             if beqb sub (B "REGISTER") then
               match r with e :: keys :: _ => register_sub s u n e keys now check test | _ => (s, [OReply u n need_more]) end
             else if beqb sub (B "UNREGISTER") then
               match r with e :: _ => unregister_sub s u n e | _ => (s, [OReply u n need_more]) end
             else (s, [OReply u n (wfail (B "INVALID_PARAMS") sub (B "Unknown command"))])
         end.

  (** [go net.broadcastWebPush(msg)]. *)
  Definition broadcast (s : wst) (u n : N) (m : message) : wst * list wout :=
    (WSt (w_subs s) (w_last s) (w_jobs s ++ [Job (w_next s) u n m None]) (N.succ (w_next s)) (w_targets s) (w_marks s),
     [OStart (w_next s) u n m]).

  (** upstream.go:677-702. [channel]: the saved channel of the buffer, if any: is it
      detached, and are its texts not relayed at all. [highlight]: isHighlight. *)
  Definition on_text (s : wst) (u n : N) (m : message) (self direct highlight : bool) (channel : option (bool * bool)) (buffer : bytes) (time : option Z)
    : wst * list wout :=
    let considered := match channel with Some _ => negb (beqb (m_command m) (B "TAGMSG")) && negb self | None => false end in
    let muted := match channel with Some (detached, none) => considered && detached && none | None => false end in
    if negb self && negb muted && ((considered && highlight) || direct) then
      let '(s1, o) := broadcast s u n m in
      (match time with Some t => with_targets s1 (tset (w_targets s1) u n (cm u n buffer) t) | None => s1 end, o)
    else (s, []).

  (** upstream.go:1608-1647. *)
  Definition on_invite (s : wst) (u n : N) (m : message) (ours joined saved : bool) : wst * list wout :=
    if ours && negb (negb joined && saved) then broadcast s u n m else (s, []).

  (** downstream.go:2930-2987, for a network and a valid criterion. *)
  Definition on_mark (s : wst) (u n : N) (target : bytes) (ts now : Z) : wst * list wout :=
    let t := if now <? ts then now else ts in
    let old := match tget (w_marks s) u n (cm u n target) with Some z => z | None => 0 end in
    if old <? t then
      let s1 := with_marks s (tset (w_marks s) u n (cm u n target) t) in
      match tget (w_targets s1) u n (cm u n target) with
      | None => (s1, [])
      | Some z =>
          let s2 := if t <? z then s1 else with_targets s1 (tdel (w_targets s1) u n (cm u n target)) in
          broadcast s2 u n (msg (B "MARKREAD") [target; time_text t])
      end
    else (s, []).

  (** user.go:489-524 and server.go:332-377: the next subscription of the list. *)
  Definition set_job (s : wst) (k : N) (todo : list wsub) : list job :=
    map (fun j => if N.eqb (j_id j) k then Job (j_id j) (j_user j) (j_net j) (j_msg j) (Some todo) else j) (w_jobs s).
  Definition end_job (s : wst) (k : N) : list job := filter (fun j => negb (N.eqb (j_id j) k)) (w_jobs s).
  Definition find_job (s : wst) (k : N) : option job := find (fun j => N.eqb (j_id j) k) (w_jobs s).
  Definition on_send (s : wst) (k : N) (now : Z) (r : wres) : wst * list wout :=
    match find_job s k with
    | Some (Job _ u n m (Some [])) => (with_jobs s (end_job s k), [])
    | Some (Job _ u n m (Some (x :: todo))) =>
        let '(o, r) := if beqb (u_vapid x) vapid then ([ORequest k u n (u_end x) (u_auth x) (u_p256 x) m], r) else ([], WError) in
        let s1 := with_jobs s (set_job s k todo) in
        (match r with
         | WOk => s1
         | WExpired => delete_row s1 (u_id x)
         | WError => if prune_delay <? now - u_at x then delete_row s1 (u_id x) else s1
         end, o)
    | _ => (s, [])
    end.

  Definition of_net (u n : N) (x : N * N * bytes * Z) : bool := let '(u', n', _, _) := x in N.eqb u u' && N.eqb n n'.
  Definition wstep (s : wst) (e : wev) : wst * list wout :=
    match e with
    | WCommand u n cap params now check test => command s u n cap params now check test
    | WText u n m self direct highlight channel buffer time => on_text s u n m self direct highlight channel buffer time
    | WInvite u n m ours joined saved => on_invite s u n m ours joined saved
    | WMark u n target ts now => on_mark s u n target ts now
    | WPart u n target => (with_targets s (tdel (w_targets s) u n (cm u n target)), [])   (* downstream.go:2030 *)
    | WReplace u n => (with_targets s (filter (fun x => negb (of_net u n x)) (w_targets s)), [])   (* user.go:1130, 183 *)
    | WDelete u n =>                                                            (* sqlite.go:695-712 *)
        (WSt (filter (fun x => negb (N.eqb (u_user x) u && N.eqb (u_net x) n)) (w_subs s)) (w_last s) (w_jobs s) (w_next s)
             (filter (fun x => negb (of_net u n x)) (w_targets s)) (filter (fun x => negb (of_net u n x)) (w_marks s)), [])
    | WList k =>
        match find_job s k with
        | Some (Job _ u n m None) => (with_jobs s (set_job s k (rows s u n)), [OList k u n])
        | _ => (s, [])
        end
    | WSend k now r => on_send s k now r
    end.

  Fixpoint wrun (l : list wev) (s : wst) : wst * list (wev * list wout) :=
    match l with
    | [] => (s, [])
    | e :: l => let '(s1, o) := wstep s e in let '(s2, t) := wrun l s1 in (s2, (e, o) :: t)
    end.
End Push.
