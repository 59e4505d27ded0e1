(** Model of the timers that detach a channel: upstreamChannel.updateAutoDetach (upstream.go:99-116),
    updateChannelAutoDetach (upstream.go:2238-2248) and where they are called. One network and one channel; the clock
    is in nanoseconds. What clients are sent is in Model/Detach.v. *)
From Coq Require Import ZArith List Bool.
Import ListNotations.
Local Open Scope Z_scope.

(** database/database.go:234-242. *)
Inductive mfilter := FDefault | FNone | FHighlight | FMessage.
(** database.Channel: the fields that matter. *)
Record chan := Chan { c_detached : bool; c_after : Z; c_on : mfilter; c_reattach : mfilter }.
Definition set_detached (b : bool) (c : chan) : chan := Chan b (c_after c) (c_on c) (c_reattach c).

(** The time; the next name of a timer; network.channels; whether there is a connection; upstreamConn.channels, with
    detachTimer; the timers that were not stopped and have not fired; the events eventChannelDetach on their way
    to user.run, in the order in which they get there. *)
Record st := St {
  s_now : Z; s_next : nat; s_chan : option chan; s_conn : bool; s_up : option (option nat);
  s_timers : list (nat * Z); s_pending : list nat }.

Inductive op :=
| Tick (d : Z)
| Fire (id : nat)                 (* a timer that is due runs its function *)
| Handle                          (* user.run gets an eventChannelDetach *)
| Connect | Disconnect
| UJoin | UPart | UKick           (* messages of the server about the user *)
| Msg (highlight : bool)          (* PRIVMSG or NOTICE of somebody else in the channel *)
| CJoin | CPart (dbok : bool) | CPartDetach
| Say (sigil : bool)              (* a message of a client, to the channel or to its operators (STATUSMSG) *)
| SCreate (after : Z) (on reattach : mfilter)
| SUpdate (det : option bool) (after : option Z) (on reattach : option mfilter)
| SDelete (dbok : bool)
| Reboot.

Definition set_chan c s := St (s_now s) (s_next s) c (s_conn s) (s_up s) (s_timers s) (s_pending s).
Definition set_up u s := St (s_now s) (s_next s) (s_chan s) (s_conn s) u (s_timers s) (s_pending s).
Definition set_timers l s := St (s_now s) (s_next s) (s_chan s) (s_conn s) (s_up s) l (s_pending s).
Definition drop (id : nat) (l : list (nat * Z)) : list (nat * Z) := filter (fun p => negb (Nat.eqb (fst p) id)) l.

(** upstream.go:99-116, for the channel of the connection. Timer.Stop does nothing to a timer that has fired. *)
Definition update_auto (dur : Z) (s : st) : st :=
  match s_up s with
  | None => s
  | Some t =>
      let s := match t with Some id => set_timers (drop id (s_timers s)) s | None => s end in
      if dur =? 0 then set_up (Some None) s
      else St (s_now s) (S (s_next s)) (s_chan s) (s_conn s) (Some (Some (s_next s)))
              (s_timers s ++ [(s_next s, s_now s + dur)]) (s_pending s)
  end.
(** upstream.go:2238-2248. *)
Definition update_channel (s : st) : st :=
  match s_chan s with Some c => if c_detached c then s else update_auto (c_after c) s | None => s end.
(** user.go:320-352. *)
Definition detach (c : chan) (s : st) : st :=
  if c_detached c then s else update_auto 0 (set_chan (Some (set_detached true c)) s).
(** user.go:354-387. *)
Definition attach (c : chan) (s : st) : st :=
  if c_detached c then update_channel (set_chan (Some (set_detached false c)) s) else s.
(** user.go:389-406. *)
Definition delete_channel (dbok : bool) (s : st) : st :=
  match s_chan s with
  | None => s
  | Some _ => let s := update_auto 0 s in if dbok then set_chan None s else s
  end.

Definition from_opt {A} (o : option A) (d : A) : A := match o with Some x => x | None => d end.

Definition step (s : st) (o : op) : st :=
  match o with
  | Tick d => St (s_now s + Z.max 0 d) (s_next s) (s_chan s) (s_conn s) (s_up s) (s_timers s) (s_pending s)
  | Fire id =>
      match find (fun p => Nat.eqb (fst p) id) (s_timers s) with
      | Some (_, due) =>
          if due <=? s_now s then St (s_now s) (s_next s) (s_chan s) (s_conn s) (s_up s) (drop id (s_timers s)) (s_pending s ++ [id])
          else s
      | None => s
      end
  (* user.go:710-720 *)
  | Handle =>
      match s_pending s with
      | [] => s
      | _ :: q =>
          let s := St (s_now s) (s_next s) (s_chan s) (s_conn s) (s_up s) (s_timers s) q in
          match s_chan s with Some c => detach c s | None => s end
      end
  | Connect => if s_conn s then s else St (s_now s) (s_next s) (s_chan s) true None (s_timers s) (s_pending s)
  (* user.go:895-903 *)
  | Disconnect => let s := update_auto 0 s in St (s_now s) (s_next s) (s_chan s) false None (s_timers s) (s_pending s)
  (* upstream.go:1203-1211: the channel is new, whether it was there or not *)
  | UJoin => if s_conn s then update_channel (set_up (Some None) s) else s
  (* upstream.go:1236-1240 *)
  | UPart => set_up None (update_auto 0 s)
  (* upstream.go:1268-1271 *)
  | UKick => set_up None s
  (* upstream.go:678-691, 1857-1869 *)
  | Msg highlight =>
      if negb (s_conn s) then s
      else match s_chan s with
      | None => s
      | Some c =>
          let s := if c_detached c && match c_reattach c with FMessage => true | FHighlight => highlight | _ => false end
                   then attach c s else s in
          if match c_on c with FMessage | FDefault => true | FHighlight => highlight | FNone => false end
          then update_channel s else s
      end
  (* downstream.go:1966-1984 *)
  | CJoin =>
      if negb (s_conn s) then s
      else match s_chan s with
      | Some c => attach c s
      | None => set_chan (Some (Chan false 0 FDefault FDefault)) s
      end
  (* downstream.go:2013-2026 *)
  | CPart dbok => if s_conn s then delete_channel dbok s else s
  (* downstream.go:2002-2012 *)
  | CPartDetach =>
      if negb (s_conn s) then s
      else match s_chan s with
      | Some c => detach c s
      | None => set_chan (Some (Chan true 0 FDefault FDefault)) s
      end
  (* downstream.go:2519: with the target as the client wrote it *)
  | Say sigil => if s_conn s && negb sigil then update_channel s else s
  (* service.go:1440-1494 *)
  | SCreate after on reattach =>
      match s_chan s with
      | Some _ => s
      | None => if after <? 0 then s else set_chan (Some (Chan false after on reattach)) s
      end
  (* service.go:1388-1418, 1496-1542 *)
  | SUpdate det after on reattach =>
      match s_chan s with
      | None => s
      | Some c =>
          if from_opt after 0 <? 0 then s
          else
            let c := Chan (c_detached c) (from_opt after (c_after c)) (from_opt on (c_on c)) (from_opt reattach (c_reattach c)) in
            let s := set_chan (Some c) s in
            let s := match det with Some true => detach c s | Some false => attach c s | None => s end in
            update_channel s
      end
  | SDelete dbok => delete_channel dbok s
  | Reboot => St (s_now s) (s_next s) (s_chan s) false None [] []
  end.
Definition run (s : st) (os : list op) : st := fold_left step os s.

(** A saved channel is loaded, or there is none. *)
Definition start (t : Z) (c : option chan) : st := St t 0 c false None [] [].
