(** Model of MONITOR: the lists of the clients of a network (downstream.go:2645-2735),
    the list kept on the server for them (upstream.go:2250-2318) and the
    notifications (upstream.go:1653-1713).

    Simplifications: the case mapping of the network does not change; Go visits
    maps in any order, here it is the order of insertion; the cached details of
    users (uc.users) are in Model/Roster.v. *)
From Verif.Base Require Import Bytes.
From Verif.Model Require Import Message CaseMap GenMsg Roster ReadMarker.
From Coq Require Import NArith.
Open Scope nat_scope.

(** downstream.go:364: a connection on the network. *)
Record mclient := MClient { mc_id : N; mc_nick : bytes; mc_mon : cmmap unit }.

(** The clients of the network and its connection to the server, if there is one:
    uc.isupport["MONITOR"], uc.monitored, uc.nick, the nickname wanted
    (database.GetNick) and uc.hasDesiredNick. Of the server: the list it has, what
    was sent to it and what it sent, both on the way; these sent by it are whether
    the targets are online and the targets. *)
Record mst := MSt {
  mo_cm : casemapping; mo_clients : list mclient; mo_link : bool; mo_on : bool; mo_up : cmmap bool; mo_nick : bytes; mo_want : bytes; mo_has : bool;
  mo_set : list bytes; mo_c2s : list message; mo_s2c : list (bool * list bytes) }.

(** A message to a client. *)
Definition mout := (N * (bytes * list bytes))%type.

Definition with_clients (s : mst) l := MSt (mo_cm s) l (mo_link s) (mo_on s) (mo_up s) (mo_nick s) (mo_want s) (mo_has s) (mo_set s) (mo_c2s s) (mo_s2c s).
Definition with_on (s : mst) b := MSt (mo_cm s) (mo_clients s) (mo_link s) b (mo_up s) (mo_nick s) (mo_want s) (mo_has s) (mo_set s) (mo_c2s s) (mo_s2c s).
Definition with_up (s : mst) u := MSt (mo_cm s) (mo_clients s) (mo_link s) (mo_on s) u (mo_nick s) (mo_want s) (mo_has s) (mo_set s) (mo_c2s s) (mo_s2c s).
Definition with_own (s : mst) n h := MSt (mo_cm s) (mo_clients s) (mo_link s) (mo_on s) (mo_up s) n (mo_want s) h (mo_set s) (mo_c2s s) (mo_s2c s).
Definition with_wanted (s : mst) w := MSt (mo_cm s) (mo_clients s) (mo_link s) (mo_on s) (mo_up s) (mo_nick s) w (mo_has s) (mo_set s) (mo_c2s s) (mo_s2c s).
Definition with_server (s : mst) m c2s s2c := MSt (mo_cm s) (mo_clients s) (mo_link s) (mo_on s) (mo_up s) (mo_nick s) (mo_want s) (mo_has s) m c2s s2c.
Definition send_up (s : mst) (l : list message) := with_server s (mo_set s) (mo_c2s s ++ l) (mo_s2c s).

(** ** The list on the server *)

(** upstream.go:2257-2275: the targets of the clients that are not monitored yet
    (addList) and those that are (seen). *)
Definition client_target (cm : casemapping) (up : cmmap bool) (acc : list bytes * list bytes) (target : bytes) : list bytes * list bytes :=
  let k := casemap cm target in
  if beqb k service_cm then acc
  else if negb (cm_has up k) then (if bmem k (fst acc) then fst acc else fst acc ++ [k], snd acc)
  else (fst acc, snd acc ++ [k]).
Definition client_targets (s : mst) : list bytes := flat_map (fun c => map fst (cm_entries (mc_mon c))) (mo_clients s).

(** upstream.go:2277-2282: the wanted nickname. *)
Definition add_want (s : mst) (add : list bytes) : list bytes :=
  let k := casemap (mo_cm s) (mo_want s) in
  if negb (bmem k add) && negb (cm_has (mo_up s) (mo_want s)) && negb (beqb (casemap (mo_cm s) (mo_nick s)) k) && negb (mo_has s) then add ++ [k] else add.

(** upstream.go:2250-2318. *)
Definition update_monitor (s : mst) : mst :=
  if negb (mo_on s) then s
  else
    let '(add, seen) := fold_left (client_target (mo_cm s) (mo_up s)) (client_targets s) ([], []) in
    let add := add_want s add in
    let removes := filter (fun n => negb (bmem (casemap (mo_cm s) n) seen)) (map fst (cm_entries (mo_up s))) in
    let remove_all := Nat.eqb (length removes) (length (cm_entries (mo_up s))) in
    let s :=
      if remove_all && (match add with [] => true | _ => false end) && (match removes with [] => false | _ => true end)
      then send_up s [msg (B "MONITOR") [B "C"]]
      else send_up s (generate_monitor (B "-") removes ++ generate_monitor (B "+") add) in
    with_up s (fold_left (fun u n => cm_del u n) removes (mo_up s)).

(** ** Commands of clients *)

Definition num (c : mclient) (cmd : bytes) (params : list bytes) : mout := (mc_id c, (cmd, mc_nick c :: params)).
Definition status (b : bool) : bytes := if b then B "730" else B "731".

(** downstream.go:2666-2697: one target. *)
Definition add_target (s : mst) (c : mclient) (target : bytes) : mclient * list mout :=
  if 1000 <=? cm_len (mc_mon c) then (c, [num c (B "734") [B "1000"; target; B "Bouncer monitor list is full"]])
  else
    let c := MClient (mc_id c) (mc_nick c) (cm_set (mc_mon c) target tt) in
    if beqb (casemap (mo_cm s) target) service_cm then (c, [num c (B "730") [target]])
    else match cm_get (mo_up s) target with
    | Some online => (c, [num c (status online) [target]])
    | None => (c, [])
    end.
Fixpoint add_targets (s : mst) (c : mclient) (l : list bytes) : mclient * list mout :=
  match l with
  | [] => (c, [])
  | t :: l => let '(c, o) := add_target s c t in let '(c, o') := add_targets s c l in (c, o ++ o')
  end.

Definition put_client (c : mclient) (l : list mclient) : list mclient := map (fun x => if N.eqb (mc_id x) (mc_id c) then c else x) l.

(** downstream.go:2645-2735. *)
Definition client_monitor (s : mst) (c : mclient) (params : list bytes) : mst * list mout :=
  if negb (mo_link s && mo_on s) then (s, [num c (B "421") [B "MONITOR"; B "Unknown command"]])
  else match params with
  | [] => (s, [num c (B "461") [B "MONITOR"; B "Not enough parameters"]])
  | sub :: r =>
      if beqb sub (B "+") || beqb sub (B "-") then
        match r with
        | [] => (s, [num c (B "461") [B "MONITOR"; B "Not enough parameters"]])
        | targets :: _ =>
            let '(c', o) := if beqb sub (B "+") then add_targets s c (split_on "," targets)
                            else (MClient (mc_id c) (mc_nick c) (fold_left (fun t n => cm_del t n) (split_on "," targets) (mc_mon c)), []) in
            (update_monitor (with_clients s (put_client c' (mo_clients s))), o)
        end
      else if beqb sub (B "C") || beqb sub (B "c") then
        (update_monitor (with_clients s (put_client (MClient (mc_id c) (mc_nick c) (cm_new (mo_cm s))) (mo_clients s))), [])
      else if beqb sub (B "L") || beqb sub (B "l") then
        (s, map (fun x => num c (B "732") [fst x]) (cm_entries (mc_mon c)) ++ [num c (B "733") [B "End of MONITOR list"]])
      else if beqb sub (B "S") || beqb sub (B "s") then
        (s, map (fun x => num c (if beqb (casemap (mo_cm s) (fst x)) service_cm then B "730"
                                 else status (match cm_get (mo_up s) (fst x) with Some b => b | None => false end)) [fst x]) (cm_entries (mc_mon c)))
      else (s, [])
  end.

(** ** Notifications *)

(** upstream.go:1653-1697 (RPL_MONONLINE, RPL_MONOFFLINE). *)
Definition notified (s : mst) (online : bool) (targets : list bytes) : mst * list mout :=
  let s1 := with_up s (fold_left (fun u t => cm_set u (prefix_name t) online) targets (mo_up s)) in
  let k := casemap (mo_cm s) (mo_want s) in
  let s2 :=
    if negb online && negb (beqb (casemap (mo_cm s) (mo_nick s)) k) && negb (mo_has s) && existsb (fun t => beqb (casemap (mo_cm s) (prefix_name t)) k) targets
    then send_up s1 [msg (B "NICK") [mo_want s]] else s1 in
  (s2, flat_map (fun c => flat_map (fun t => if cm_has (mc_mon c) (prefix_name t) then [num c (status online) [t]] else []) targets) (mo_clients s)).

(** upstream.go:1698-1713 (ERR_MONLISTFULL). *)
Definition list_full (s : mst) (limit : bytes) (targets : list bytes) : list mout :=
  flat_map (fun c => flat_map (fun t => if cm_has (mc_mon c) t then [num c (B "734") [limit; t]] else []) targets) (mo_clients s).

(** ** The server, which is not part of soju *)

(** A server whose list never gets full. *)
Definition serve (cm : casemapping) (m : message) (set : list bytes) : list bytes :=
  if negb (beqb (m_command m) (B "MONITOR")) then set
  else match m_params m with
  | [sub; targets] =>
      let l := map (casemap cm) (split_on "," targets) in
      if beqb sub (B "+") then set ++ l else if beqb sub (B "-") then filter (fun k => negb (bmem k l)) set else set
  | [_] => []
  | _ => set
  end.

(** What it is asked about by a command: it answers for these targets. *)
Definition asks (m : message) : list bytes :=
  if negb (beqb (m_command m) (B "MONITOR")) then []
  else match m_params m with [sub; targets] => if beqb sub (B "+") then split_on "," targets else [] | _ => [] end.

Definition same_keys (cm : casemapping) (a b : list bytes) : bool :=
  forallb (fun x => bmem x (map (casemap cm) b)) (map (casemap cm) a) && forallb (fun x => bmem x (map (casemap cm) a)) (map (casemap cm) b).

(** ** Events *)

Inductive mev :=
| MUp (nick : bytes) (has : bool) (* user.go:644-649: connected to the server *)
| MDown (* user.go:895-913 *)
| MIsupport (monitor : bool) (* upstream.go:951-1019: with a MONITOR token? *)
| MNick (nick : bytes) (has : bool) (* upstream.go:1083-1125: our nickname changes *)
| MWant (nick : bytes) (* the user wants another nickname *)
| MOpen (c : N) (nick : bytes) (* a client is on the network, downstream.go:373-380 *)
| MClose (c : N) (* user.go:780-799 *)
| MCommand (c : N) (params : list bytes) (* MONITOR by a client *)
| MRecv (* the next notification reaches us *)
| MServe (answers : list (bool * list bytes)) (* the next command reaches the server *)
| MNotify (online : bool) (targets : list bytes). (* the server sends a notification *)

Definition names (l : list bytes) : list bytes := map prefix_name l.
Definition no_comma (l : list bytes) : bool := forallb (fun t => negb (amem "," t)) l.
Definition find_client (c : N) (l : list mclient) : option mclient := find (fun x => N.eqb (mc_id x) c) l.

Definition mstep (e : mev) (s : mst) : option (mst * list mout) :=
  match e with
  | MUp nick has =>
      if mo_link s then None
      else Some (update_monitor (MSt (mo_cm s) (mo_clients s) true false (cm_new (mo_cm s)) nick (mo_want s) has [] [] []), [])
  | MDown =>
      if mo_link s then Some (MSt (mo_cm s) (mo_clients s) false false (cm_new (mo_cm s)) (mo_nick s) (mo_want s) (mo_has s) [] [] [], []) else None
  | MIsupport b => if mo_link s then Some (update_monitor (with_on s (mo_on s || b)), []) else None
  | MNick n h => if mo_link s then Some (update_monitor (with_own s n h), []) else None
  | MWant w => Some (with_wanted s w, [])
  | MOpen c nick => match find_client c (mo_clients s) with None => Some (with_clients s (mo_clients s ++ [MClient c nick (cm_new (mo_cm s))]), []) | Some _ => None end
  | MClose c =>
      let s1 := with_clients s (filter (fun x => negb (N.eqb (mc_id x) c)) (mo_clients s)) in
      Some (if mo_link s then update_monitor s1 else s1, [])
  | MCommand c params => match find_client c (mo_clients s) with Some x => Some (client_monitor s x params) | None => None end
  | MRecv => match mo_s2c s with (b, l) :: r => Some (notified (with_server s (mo_set s) (mo_c2s s) r) b l) | [] => None end
  | MServe answers =>
      match mo_c2s s with
      | m :: r =>
          if same_keys (mo_cm s) (asks m) (names (flat_map snd answers)) && no_comma (flat_map snd answers)
          then Some (with_server s (serve (mo_cm s) m (mo_set s)) r (mo_s2c s ++ answers), []) else None
      | [] => None
      end
  | MNotify b l =>
      if mo_link s && forallb (fun t => bmem (casemap (mo_cm s) (prefix_name t)) (mo_set s)) l && no_comma l
      then Some (with_server s (mo_set s) (mo_c2s s) (mo_s2c s ++ [(b, l)]), []) else None
  end.

Definition new_mst (cm : casemapping) (want : bytes) : mst := MSt cm [] false false (cm_new cm) [] want false [] [] [].
