(** Model of where answers of a server go: upstream.go:440-450, 583-614 (labels and
    batches), the cases of handleMessage at 1049-1082, 1459-1476, 1525-1618,
    1646-1652, 1714-1715, 1741-1852, and 2100-2119; the queues are those of Pending.
    The connection is registered and has had its message of the day. The time is
    left out: nothing is older than 30 seconds (C25). *)
From Verif.Base Require Import Bytes.
From Verif.Model Require Import CaseMap Pending.
Open Scope nat_scope.

Definition body := (bytes * list bytes)%type.   (* command and parameters *)

(** A line of the server; no label is the empty one. *)
Record line := Line { l_label : bytes; l_batch : option bytes; l_cmd : bytes; l_params : list bytes }.
Definition body_of (l : line) : body := (l_cmd l, l_params l).

(** A command sent to the server: who asked, the label. *)
Record sent_cmd := Sent { w_client : N; w_label : bytes; w_kind : option kind; w_body : body }.

Record bst := Bst {
  b_labels : bool;                    (* labeled-response and message-tags are enabled *)
  b_next : N;                         (* nextLabelID *)
  b_batches : bytes -> option bytes;  (* the label of each batch *)
  b_queues : queues (list bytes);     (* pendingCmds *)
  b_ids : N;                          (* lastDownstreamID *)
  b_clients : list N                  (* the clients of the network *)
}.
Definition new_bst (labels : bool) : bst := Bst labels 0 (fun _ => None) no_queues 0 [].

Inductive output := Send (w : sent_cmd) | Deliver (client : N) (m : body) | Fault.

Definition kind_name (k : kind) : bytes :=
  match k with LIST => B "LIST" | WHO => B "WHO" | WHOIS => B "WHOIS" | AUTHENTICATE => B "AUTHENTICATE" | REGISTER => B "REGISTER" | VERIFY => B "VERIFY" end.
Definition kinds := [LIST; WHO; WHOIS; AUTHENTICATE; REGISTER; VERIFY].
Definition kind_of (s : bytes) : option kind := find (fun k => beqb (kind_name k) s) kinds.

(** upstream.go:2110-2119 (SendMessageLabeled). Tags are only written with
    message-tags, 2101-2104. *)
Definition send_labeled (s : bst) (client : N) (k : option kind) (m : body) : bst * list output :=
  (Bst (b_labels s) (b_next s + 1) (b_batches s) (b_queues s) (b_ids s) (b_clients s),
   [Send (Sent client (if b_labels s then label client (b_next s) else []) k m)]).
Definition with_queues (s : bst) (q : queues (list bytes)) : bst := Bst (b_labels s) (b_next s) (b_batches s) q (b_ids s) (b_clients s).
Definition with_batches (s : bst) (b : bytes -> option bytes) : bst := Bst (b_labels s) (b_next s) b (b_queues s) (b_ids s) (b_clients s).

(** What the queues send (at most one command) goes through SendMessageLabeled. *)
Fixpoint send_all (s : bst) (os : list (out (list bytes))) : bst * list output :=
  match os with
  | [] => (s, [])
  | OSent k c ps :: os => let (s, o1) := send_labeled s c (Some k) (kind_name k, ps) in let (s, o2) := send_all s os in (s, o1 ++ o2)
  | _ :: os => send_all s os
  end.

(** ** Clients *)
(** server.go:462-479. *)
Definition arrive (s : bst) : bst := Bst (b_labels s) (b_next s) (b_batches s) (b_queues s) (b_ids s + 1) (b_clients s ++ [b_ids s + 1])%N.
(** user.go:760-790: the connection is removed, its waiting commands are cancelled. *)
Definition leave (s : bst) (c : N) : bst :=
  Bst (b_labels s) (b_next s) (b_batches s) (cancel (b_queues s) c) (b_ids s) (filter (fun x => negb (N.eqb x c)) (b_clients s)).
(** upstream.go:510-532: LIST, WHO and WHOIS of a client (downstream.go:2152, 2308, 2386). *)
Definition ask (s : bst) (c : N) (k : kind) (ps : list bytes) : bst * list output :=
  let (q, os) := enqueue (b_queues s) k c ps 0 in send_all (with_queues s q) os.
(** Commands passed on at once, downstream.go:2039, 2527, 3366 among others. *)
Definition pass (s : bst) (c : N) (m : body) : bst * list output := send_labeled s c None m.

(** ** Lines of the server *)
Section Handle.
  Variable cm : casemapping.

  (** upstream.go:424-431 (downstreamByID): the connection of a client, if it is
      still there. *)
  Definition present (s : bst) (c : N) : bool := existsb (N.eqb c) (b_clients s).
  Definition deliver (s : bst) (c : N) (m : body) : list output := if present s c then [Deliver c m] else [].
  (** upstream.go:404-410, 446-450 (forwardMsgByID). *)
  Definition forward (s : bst) (id : N) (m : body) : list output := map (fun c => Deliver c m) (routed_to id (b_clients s)).

  (** upstream.go:534-541 (currentPendingCommand), then the line is sent. *)
  Definition to_current (s : bst) (k : kind) (m : body) : bst * list output :=
    match b_queues s k with
    | [] => (s, [Fault])
    | p :: _ => (s, deliver s (p_client p) m)
    end.
  (** upstream.go:543-554 (dequeueCommand): the next command is sent first. *)
  Definition take (s : bst) (k : kind) : bst * list output :=
    let (q, os) := dequeue (b_queues s) k 0 in send_all (with_queues s q) os.
  Definition to_last (s : bst) (k : kind) (m : body) (none : list output) : bst * list output :=
    match b_queues s k with
    | [] => (s, none)
    | p :: _ => let (s', o) := take s k in (s', o ++ deliver s' (p_client p) m)
    end.
  (** upstream.go:1767-1776, 1787-1791: an error about a command. *)
  Definition to_failed (s : bst) (id : N) (command : bytes) (m : body) : bst * list output :=
    match kind_of command with
    | Some k =>
        match b_queues s k with
        | [] => (s, forward s id m)
        | p :: _ =>
            let (s', o) := take s k in
            (s', o ++ forward s' (if present s' (p_client p) && N.eqb id 0 then p_client p else id) m)
        end
    | None => (s, forward s id m)
    end.

  Definition who_lines := [B "354"].
  Definition whois_lines := [B "276"; B "307"; B "311"; B "312"; B "319"; B "313"; B "317"; B "320"; B "330"; B "338"; B "378"; B "379"; B "671"].
  Definition list_lines := [B "321"; B "322"].
  Definition no_such := [B "401"; B "402"].
  Definition failed := [B "400"; B "421"; B "461"; B "263"].
  Definition ignored := [B "ACK"; B "306"; B "305"; B "002"; B "003"].
  (** Lines which depend on more of the state (Relay, Roster, ChanView, NetView, Self,
      Monitor, Nick, UpReg...); they are left out here. *)
  Definition elsewhere := [B "PING"; B "NOTICE"; B "PRIVMSG"; B "TAGMSG"; B "CAP"; B "AUTHENTICATE"; B "900"; B "901"; B "396"; B "902"; B "903"; B "904"; B "905"; B "906";
    B "REGISTER"; B "VERIFY"; B "001"; B "004"; B "005"; B "NICK"; B "SETNAME"; B "CHGHOST"; B "JOIN"; B "PART"; B "KICK"; B "QUIT"; B "331"; B "332"; B "TOPIC"; B "MODE"; B "221";
    B "324"; B "329"; B "333"; B "353"; B "366"; B "INVITE"; B "730"; B "731"; B "734"; B "AWAY"; B "ACCOUNT"; B "ERROR"; B "433"].

  Definition last_param (ps : list bytes) : bytes := last ps [].
  Definition is_set (o : option bytes) : bool := match o with Some _ => true | None => false end.

  (** upstream.go:1049-1082 (BATCH). *)
  Definition batch (s : bst) (lb : bytes) (ps : list bytes) : bst * list output :=
    match ps with
    | (c :: tag) :: rest =>
        if aeqb c "+" then
          if is_set (b_batches s tag) then (s, [Fault])
          else match rest with
               | [] => (s, [Fault])
               | _ => (with_batches s (fun t => if beqb t tag then Some lb else b_batches s t), [])
               end
        else if aeqb c "-" then
          if is_set (b_batches s tag) then (with_batches s (fun t => if beqb t tag then None else b_batches s t), []) else (s, [Fault])
        else (s, [Fault])
    | _ => (s, [Fault])
    end.

  Definition dispatch (s : bst) (lb : bytes) (id : N) (cmd : bytes) (ps : list bytes) : bst * list output :=
    let m := (cmd, ps) in
    if beqb cmd (B "BATCH") then batch s lb ps
    else if bmem cmd list_lines then to_current s LIST m
    else if beqb cmd (B "323") then to_last s LIST m [Fault]
    else if beqb cmd (B "352") then
      if length ps <? 8 then (s, [Fault])
      else match b_queues s WHO with
           | p :: _ => if present s (p_client p) && negb (amem " " (nth 7 ps [])) then (s, [Fault]) else to_current s WHO m
           | [] => (s, [Fault])
           end
    else if bmem cmd who_lines then to_current s WHO m
    else if beqb cmd (B "315") then to_last s WHO m []
    else if bmem cmd whois_lines then to_current s WHOIS m
    else if beqb cmd (B "318") then to_last s WHOIS m [Fault]
    else if beqb cmd (B "341") then if length ps <? 3 then (s, [Fault]) else (s, forward s id m)
    else if bmem cmd no_such then
      if length ps <? 3 then (s, [Fault])
      else match b_queues s WHOIS with
           | p :: _ =>
               if beqb (casemap cm (last_param (p_msg p))) (casemap cm (nth 1 ps [])) then to_last s WHOIS m []
               else (s, forward s id m)
           | [] => (s, forward s id m)
           end
    else if bmem cmd failed then if length ps <? 3 then (s, [Fault]) else to_failed s id (nth 1 ps []) m
    else if beqb cmd (B "FAIL") then if length ps <? 2 then (s, [Fault]) else to_failed s id (nth 0 ps []) m
    else if bmem cmd ignored || bmem cmd elsewhere then (s, [])
    else (s, forward s id m).

  (** upstream.go:583-614. *)
  Definition handle (s : bst) (l : line) : bst * list output :=
    match match l_batch l with
          | None => Some (l_label l)
          | Some r => match b_batches s r with None => None | Some lb => Some (match l_label l with [] => lb | x => x end) end
          end with
    | None => (s, [Fault])
    | Some lb => match parse_label lb with None => (s, [Fault]) | Some id => dispatch s lb id (l_cmd l) (l_params l) end
    end.
End Handle.

(** ** Runs *)
Inductive input := Arrive | Leave (c : N) | Ask (c : N) (k : kind) (ps : list bytes) | Pass (c : N) (m : body) | Receive (l : line).
Definition bstep (cm : casemapping) (s : bst) (i : input) : bst * list output :=
  match i with
  | Arrive => (arrive s, [])
  | Leave c => (leave s c, [])
  | Ask c k ps => ask s c k ps
  | Pass c m => pass s c m
  | Receive l => handle cm s l
  end.
Fixpoint brun (cm : casemapping) (s : bst) (is : list input) : bst * list (list output) :=
  match is with
  | [] => (s, [])
  | i :: is => let (s, o) := bstep cm s i in let (s, os) := brun cm s is in (s, o :: os)
  end.
