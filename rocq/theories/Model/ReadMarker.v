(** Model of read markers: the commands MARKREAD and READ, downstream.go:2879-2987, the
    report with a joined channel, downstream.go:3425-3460, and the table ReadReceipt,
    database/sqlite.go:163-171, 870-926. Times are counted as in TimeFmt. *)
From Verif.Base Require Import Bytes.
From Verif.Model Require Import CaseMap TimeFmt.
From Coq Require Import ZArith.
Open Scope Z_scope.

(** database/sqlite.go:163-171: a row of ReadReceipt. *)
Record rrow := Rrow { r_id : N; r_net : Z; r_target : bytes; r_time : option bytes }.

(** A downstream connection of the network: its ID, and whether draft/read-marker
    and soju.im/read are enabled. *)
Record mconn := Mconn { mc_id : N; mc_marker : bool; mc_read : bool }.

(** A message sent to a connection: MARKREAD or READ, or FAIL with its code. *)
Inductive mout :=
| Report (conn : N) (cmd target text : bytes)
| Fail (conn : N) (code : bytes).

(** database/sqlite.go:870-892 (GetReadReceipt): the outer None is an error, the inner one
    no row. *)
Definition get_receipt (db : list rrow) (net : Z) (target : bytes) : option (option (N * Z)) :=
  match find (fun r => Z.eqb (r_net r) net && beqb (r_target r) target) db with
  | None => Some None
  | Some r => match sqlite_scan (r_time r) with None => None | Some t => Some (Some (r_id r, t)) end
  end.

Definition next_id (db : list rrow) : N := N.succ (fold_right (fun r m => N.max (r_id r) m) 0%N db).

(** database/sqlite.go:894-926 (StoreReadReceipt): update by ID, or insert. *)
Definition store_receipt (db : list rrow) (id : option N) (net : Z) (target : bytes) (t : Z) : list rrow :=
  match id with
  | Some i => map (fun r => if N.eqb (r_id r) i then Rrow (r_id r) (r_net r) (r_target r) (sqlite_value t) else r) db
  | None => db ++ [Rrow (next_id db) net target (sqlite_value t)]
  end.

(** downstream.go:2959-2962. *)
Definition marker_text (t : Z) : bytes := if t =? 0 then B "*" else B "timestamp=" ++ format_time t.

(** downstream.go:2965-2972 with the filters of SendMessage, 528-533. *)
Definition report (c : mconn) (target text : bytes) : list mout :=
  if mc_marker c then [Report (mc_id c) (B "MARKREAD") target text]
  else if mc_read c then [Report (mc_id c) (B "READ") target text]
  else [].

(** The reply to a command uses the name of the command (2893-2897), filtered in the same
    way. *)
Definition own_report (c : mconn) (cmd target text : bytes) : list mout :=
  if (beqb cmd (B "MARKREAD") && mc_marker c) || (beqb cmd (B "READ") && mc_read c)
  then [Report (mc_id c) cmd target text] else [].

(** service.go:24. *)
Definition service_cm : bytes := B "bouncerserv".

(** An incoming command, or a channel that is forwarded to a connection. [ev_net] is the network
    of the connection [ev_from], [ev_conns] the connections of this network, [ev_now] the time,
    [ev_get] and [ev_store] tell if the database works. *)
Inductive mbody :=
| MarkRead (cmd target criteria : bytes)
| Forward (channel : bytes).
Record mev := Mev {
  ev_net : Z; ev_from : mconn; ev_conns : list mconn; ev_now : Z; ev_get : bool; ev_store : bool;
  ev_body : mbody }.

Section Marker.
  (** The case mapping of each network: it does not change here. A connection uses the
      case mapping of its network. *)
  Variable cm : Z -> casemapping.

  (** downstream.go:2928-2944: the timestamp of the criteria. *)
  Definition parse_criteria (criteria : bytes) : bytes + Z :=
    match cut_on "=" criteria with
    | (_, None) => inl (B "Unknown criteria")
    | (k, Some v) =>
        if beqb k (B "timestamp") then match parse_time v with None => inl (B "Invalid criteria") | Some t => inr t end
        else inl (B "Unknown criteria")
    end.

  (** downstream.go:2879-2987. The push notification is left out. *)
  Definition mark_read (db : list rrow) (e : mev) (cmd target criteria : bytes) : list rrow * list mout :=
    let c := cm (ev_net e) in
    if beqb (casemap c target) service_cm then (db, own_report (ev_from e) cmd target (B "*"))
    else
      let tcm := casemap c target in
      match (if ev_get e then get_receipt db (ev_net e) tcm else None) with
      | None => (db, [Fail (mc_id (ev_from e)) (B "INTERNAL_ERROR")])
      | Some r =>
          let '(id, old) := match r with None => (None, 0) | Some (i, t) => (Some i, t) end in
          match criteria with
          | [] => (db, flat_map (fun c => if N.eqb (mc_id c) (mc_id (ev_from e)) then report c target (marker_text old) else []) (ev_conns e))
          | _ =>
              match parse_criteria criteria with
              | inl _ => (db, [Fail (mc_id (ev_from e)) (B "INVALID_PARAMS")])
              | inr ts =>
                  let t := if ev_now e <? ts then ev_now e else ts in
                  if old <? t then
                    if ev_store e then
                      (store_receipt db id (ev_net e) tcm t, flat_map (fun c => report c target (marker_text t)) (ev_conns e))
                    else (db, [Fail (mc_id (ev_from e)) (B "INTERNAL_ERROR")])
                  else (db, flat_map (fun c => if N.eqb (mc_id c) (mc_id (ev_from e)) then report c target (marker_text old) else []) (ev_conns e))
              end
          end
      end.

  (** downstream.go:3436-3459. *)
  Definition forward (db : list rrow) (e : mev) (channel : bytes) : list rrow * list mout :=
    if mc_marker (ev_from e) || mc_read (ev_from e) then
      match (if ev_get e then get_receipt db (ev_net e) (casemap (cm (ev_net e)) channel) else None) with
      | None => (db, [])
      | Some r =>
          (db, report (ev_from e) channel (match r with None => B "*" | Some (_, t) => B "timestamp=" ++ format_time t end))
      end
    else (db, []).

  Definition mstep (db : list rrow) (e : mev) : list rrow * list mout :=
    match ev_body e with
    | MarkRead cmd target criteria => mark_read db e cmd target criteria
    | Forward channel => forward db e channel
    end.

  Definition mrun (es : list mev) : list rrow := fold_left (fun db e => fst (mstep db e)) es [].
End Marker.
