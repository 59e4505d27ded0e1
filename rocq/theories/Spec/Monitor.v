(** MONITOR: what the server is asked, and what clients are told. *)
From Verif.Base Require Import Bytes.
From Verif.Model Require Import Message CaseMap Roster Monitor.
From Coq Require Import NArith.
Open Scope nat_scope.

(** Events with the messages sent to clients, latest first. *)
Definition mtrace := list (mev * list mout).

(** Targets that may be nicknames, and fit on a line. *)
Definition fits (t : bytes) : Prop := t <> [] /\ ~ In ","%char t /\ ~ In "!"%char t /\ ~ In "@"%char t /\ length t <= 480.
Definition sane (e : mev) : Prop :=
  match e with
  | MCommand _ (sub :: targets :: _) => sub = B "+" -> forall t, In t (split_on "," targets) -> fits t
  | MWant w => fits w
  | _ => True
  end.

(** [P] holds in every state. *)
Inductive mruns (P : mst -> Prop) (cm : casemapping) (want : bytes) : mtrace -> mst -> Prop :=
| MNil : fits want -> P (new_mst cm want) -> mruns P cm want [] (new_mst cm want)
| MCons tr s e s' o : mruns P cm want tr s -> sane e -> mstep e s = Some (s', o) -> P s' -> mruns P cm want ((e, o) :: tr) s'.

(** The list of a client, as [MONITOR L] shows it (see [C78_list]). *)
Definition on_list (s : mst) (c : N) (k : bytes) : Prop :=
  exists x n, In x (mo_clients s) /\ mc_id x = c /\ In (n, tt) (cm_entries (mc_mon x)) /\ casemap (mo_cm s) n = k.

(** A client monitors this nickname of the network; the service is not on the
    network. *)
Definition wanted (s : mst) (k : bytes) : Prop := k <> B "bouncerserv" /\ exists c, on_list s c k.

(** The server monitors it once it got all commands sent. *)
Definition server_has (s : mst) (k : bytes) : Prop := In k (fold_left (fun set m => serve (mo_cm s) m set) (mo_c2s s) (mo_set s)).

(** A notification about it is on the way, or will be sent as the answer to a
    command which is. *)
Definition on_the_way (s : mst) (k : bytes) : Prop :=
  (exists m t, In m (mo_c2s s) /\ In t (asks m) /\ casemap (mo_cm s) t = k) \/
  (exists b l t, In (b, l) (mo_s2c s) /\ In t l /\ casemap (mo_cm s) (prefix_name t) = k).

(** No notification crosses a command that ends it. *)
Definition orderly (s : mst) : Prop := forall k, on_the_way s k -> server_has s k.
Definition anything (s : mst) : Prop := True.

(** The events upon which the list of the server is brought up to date. *)
Definition syncs (e : mev) : Prop :=
  match e with
  | MIsupport _ | MNick _ _ | MClose _ => True
  | MCommand _ (sub :: r) => (sub = B "+" \/ sub = B "-") /\ r <> [] \/ sub = B "C"
  | _ => False
  end.

(** What a client was last told about a nickname. *)
Fixpoint told (cm : casemapping) (c : N) (k : bytes) (o : list mout) : option bool :=
  match o with
  | [] => None
  | (d, (cmd, params)) :: o =>
      match told cm c k o with
      | Some b => Some b
      | None =>
          match params with
          | [_; t] =>
              if N.eqb d c && beqb (casemap cm (prefix_name t)) k
              then if beqb cmd (B "730") then Some true else if beqb cmd (B "731") then Some false else None
              else None
          | _ => None
          end
      end
  end.
Fixpoint last_told (cm : casemapping) (c : N) (k : bytes) (tr : mtrace) : option bool :=
  match tr with
  | [] => None
  | (_, o) :: tr => match told cm c k o with Some b => Some b | None => last_told cm c k tr end
  end.

(** The server said that [k] is online (or offline), nothing else since, and ever
    since then a client has been monitoring it. *)
Inductive known (P : mst -> Prop) (cm : casemapping) (want : bytes) (k : bytes) (b : bool) : mtrace -> mst -> Prop :=
| KSaid tr s s' o l r : mruns P cm want tr s -> mo_s2c s = (b, l) :: r -> (exists t, In t l /\ casemap cm (prefix_name t) = k) ->
    mstep MRecv s = Some (s', o) -> P s' -> known P cm want k b ((MRecv, o) :: tr) s'
| KKept tr s e s' o : known P cm want k b tr s -> sane e -> mstep e s = Some (s', o) -> P s' -> e <> MDown ->
    (e = MRecv -> forall b' l r t, mo_s2c s = (b', l) :: r -> In t l -> casemap cm (prefix_name t) <> k) ->
    wanted s' k -> known P cm want k b ((e, o) :: tr) s'.
