(** Model of the delivery of messages to a client, downstream.go:483-575. *)
From Verif.Base Require Import Bytes.
From Verif.Model Require Import Message Caps.
From Coq Require Import ZArith.
Open Scope nat_scope.

(** irc.go:303-313 (isNumeric). *)
Definition is_numeric (cmd : bytes) : bool := Nat.eqb (length cmd) 3 && forallb is_digit cmd.

(** downstream.go:494-502: the tags known without message-tags. *)
Definition tag_supported (en : bytes -> bool) (name : bytes) : bool :=
  if beqb name (B "time") then en (B "server-time")
  else if beqb name (B "account") then en (B "account-tag")
  else if beqb name (B "batch") then en (B "batch")
  else false.

(** msg.Tags[name], the empty string if absent. *)
Definition tag_value (m : message) (name : bytes) : bytes :=
  match bget (m_tags m) name with Some v => v | None => [] end.

Definition with_tags (m : message) (t : list (bytes * bytes)) : message := Message t (m_prefix m) (m_command m) (m_params m).
Definition with_params (m : message) (ps : list bytes) : message := Message (m_tags m) (m_prefix m) (m_command m) ps.
Definition with_prefix (m : message) (p : option prefix) : message := Message (m_tags m) p (m_command m) (m_params m).

(** downstream.go:517-534: commands that are dropped without a capability. *)
Definition command_gates : list (bytes * bytes) :=
  [(B "SETNAME", B "setname"); (B "CHGHOST", B "chghost"); (B "AWAY", B "away-notify");
   (B "ACCOUNT", B "account-notify"); (B "MARKREAD", B "draft/read-marker"); (B "READ", B "soju.im/read")].

(** downstream.go:486-549 (SendMessage). [en] tells which capabilities are enabled, [hostname] is
    the name of the server. [None]: nothing is sent. The parameter list of a JOIN is not empty (a
    slice out of range would panic; here it is left as is). *)
Definition send_message (en : bytes -> bool) (hostname : bytes) (m : message) : option message :=
  if negb (en (B "message-tags")) && beqb (m_command m) (B "TAGMSG") then None
  else
    let m := if negb (en (B "message-tags"))
             then with_tags m (filter (fun p => tag_supported en (fst p)) (m_tags m)) else m in
    let m := if negb (en (B "batch")) && negb (beqb (tag_value m (B "batch")) [])
             then with_tags m (bdel (m_tags m) (B "batch")) else m in
    let m := if beqb (m_command m) (B "JOIN") && negb (en (B "extended-join"))
             then with_params m (firstn 1 (m_params m)) else m in
    if existsb (fun g => beqb (m_command m) (fst g) && negb (en (snd g))) command_gates then None
    else
      let m := match m_prefix m with
               | Some p => if beqb (p_name p) (B "*") then with_prefix m None else m
               | None => m
               end in
      let m := match m_prefix m with
               | None => if is_numeric (m_command m) then with_prefix m (Some (Prefix hostname [] [])) else m
               | Some _ => m
               end in
      Some m.

Definition send_list (en : bytes -> bool) (hostname : bytes) (m : message) : list message :=
  match send_message en hostname m with Some m' => [m'] | None => [] end.

(** What handlers send: a message, or a batch (typ, params, tags and content). The messages of a
    batch with the flag set carry its reference: downstream.go:1573-1575, 1690, 2860, 2875, 3068, 3089;
    the others are the notices of downstream.go:1687. *)
Inductive item :=
| One (m : message)
| Group (typ : bytes) (params : list bytes) (tags : list (bytes * bytes)) (body : list (bool * message)).

Definition tag_batch (ref : bytes) (x : bool * message) : message :=
  if fst x then with_tags (snd x) (bset (m_tags (snd x)) (B "batch") ref) else snd x.

(** downstream.go:551-575 (SendBatch). The counter is the field lastBatchRef, a uint64: it does not
    wrap around here. *)
Definition send_item (en : bytes -> bool) (hostname : bytes) (last : N) (i : item) : N * list message :=
  match i with
  | One m => (last, send_list en hostname m)
  | Group typ params tags body =>
      let last := (last + 1)%N in
      let ref := dec last in
      (last,
       (if en (B "batch") then send_list en hostname (Message tags None (B "BATCH") ((B "+" ++ ref) :: typ :: params)) else []) ++
       flat_map (fun x => send_list en hostname (tag_batch ref x)) body ++
       (if en (B "batch") then send_list en hostname (Message [] None (B "BATCH") [B "-" ++ ref]) else []))
  end.

Fixpoint send_items (en : bytes -> bool) (hostname : bytes) (last : N) (l : list item) : N * list message :=
  match l with
  | [] => (last, [])
  | i :: l' => let r := send_item en hostname last i in
               let r' := send_items en hostname (fst r) l' in
               (fst r', snd r ++ snd r')
  end.
