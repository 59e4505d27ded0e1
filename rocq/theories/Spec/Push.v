(** Push notifications as seen from outside: what clients asked for and were told,
    and the requests to their endpoints. *)
From Verif.Base Require Import Bytes.
From Verif.Model Require Import Message Push.
From Coq Require Import ZArith.
Open Scope Z_scope.

Definition trace := list (wev * list wout).

(** A command was answered by WEBPUSH, not by an error. *)
Definition granted (o : list wout) : bool :=
  existsb (fun x => match x with OReply _ _ m => beqb (m_command m) (B "WEBPUSH") | _ => false end) o.

(** A request about a text of this network went to this endpoint. *)
Definition requested (u n : N) (e : bytes) (o : list wout) : bool :=
  existsb (fun x => match x with ORequest _ u' n' e' _ _ _ => N.eqb u u' && N.eqb n n' && beqb e e' | _ => false end) o.
Definition requests (k : N) (t : trace) : list wout :=
  flat_map (fun p => filter (fun x => match x with ORequest k' _ _ _ _ _ _ => N.eqb k k' | _ => false end) (snd p)) t.

Section Spec.
  Variable parse_tags : bytes -> list (bytes * bytes).
  Definition keys_of (text : bytes) : option (bytes * bytes) :=
    match tag (parse_tags text) (B "auth"), tag (parse_tags text) (B "p256dh") with Some a, Some p => Some (a, p) | _, _ => None end.

  (** What a client of this network asked for this endpoint with success. *)
  Inductive asked := Subscribe (keys : bytes * bytes) (now : Z) | Unsubscribe | Nothing.
  Definition asks (u n : N) (e : bytes) (p : wev * list wout) : asked :=
    match fst p with
    | WCommand u' n' _ (sub :: e' :: r) now _ _ =>
        if N.eqb u u' && N.eqb n n' && beqb e e' && granted (snd p) then
          if beqb sub (B "REGISTER") then
            match r with text :: _ => match keys_of text with Some k => Subscribe k now | None => Nothing end | [] => Nothing end
          else if beqb sub (B "UNREGISTER") then Unsubscribe else Nothing
        else Nothing
    | WDelete u' n' => if N.eqb u u' && N.eqb n n' then Unsubscribe else Nothing
    | _ => Nothing
    end.

  (** The keys an endpoint is registered with. *)
  Definition registered (t : trace) (u n : N) (e : bytes) : option (bytes * bytes) :=
    fold_left (fun cur p => match asks u n e p with Subscribe k _ => Some k | Unsubscribe => None | Nothing => cur end) t None.

  (** The same, but only as long as the endpoint works: it does not answer 404, and
      other failures come within 29 days of the last registration before the list for
      this notification was made. With the time of the last registration. *)
  Record watch := Watch { c_reg : option (bytes * bytes * Z); c_listed : list (N * option Z) }.
  Definition patience : Z := 29 * 24 * 3600 * 1000000000.
  Definition watching (u n : N) (e : bytes) (c : watch) (p : wev * list wout) : watch :=
    match asks u n e p with
    | Subscribe k now => Watch (Some (k, now)) (c_listed c)
    | Unsubscribe => Watch None (c_listed c)
    | Nothing =>
        match fst p with
        | WList k => if existsb (fun x => match x with OList _ _ _ => true | _ => false end) (snd p) then Watch (c_reg c) ((k, option_map snd (c_reg c)) :: c_listed c) else c
        | WSend k now r =>
            if requested u n e (snd p) then
              match r with
              | WOk => c
              | WExpired => Watch None (c_listed c)
              | WError =>
                  match find (fun q => N.eqb (fst q) k) (c_listed c) with
                  | Some (_, Some tr) => if now - tr <=? patience then c else Watch None (c_listed c)
                  | _ => Watch None (c_listed c)
                  end
              end
            else c
        | _ => c
        end
    end.
  Definition working (t : trace) (u n : N) (e : bytes) : option (bytes * bytes * Z) :=
    c_reg (fold_left (watching u n e) t (Watch None [])).
End Spec.

(** The delivery of a notification has ended: no subscription was left. *)
Definition ended (k : N) (t : trace) : Prop := exists now r, In (WSend k now r, []) t.
Definition listing (k u n : N) (p : wev * list wout) : Prop := In (OList k u n) (snd p).
Definition start (k u n : N) (m : message) (p : wev * list wout) : Prop := In (OStart k u n m) (snd p).
Definition endpoint (x : wout) : bytes := match x with ORequest _ _ _ e _ _ _ => e | _ => [] end.

(** A notification about a text has not been dismissed or superseded: only later texts
    and earlier marks of this buffer, which is neither left nor dropped. *)
Definition quiet (cm : N -> N -> bytes -> bytes) (u n : N) (b : bytes) (z : Z) (p : wev * list wout) : Prop :=
  match fst p with
  | WText u' n' _ _ _ _ _ b' (Some z') => u' = u -> n' = n -> cm u n b' = cm u n b -> z <= z'
  | WMark u' n' b' ts now => u' = u -> n' = n -> cm u n b' = cm u n b -> Z.min ts now < z
  | WPart u' n' b' => u' = u -> n' = n -> cm u n b' <> cm u n b
  | WReplace u' n' | WDelete u' n' => u' = u -> n' <> n
  | _ => True
  end.
(** The marks set before are earlier. *)
Definition behind (cm : N -> N -> bytes -> bytes) (u n : N) (b : bytes) (z : Z) (p : wev * list wout) : Prop :=
  match fst p with
  | WMark u' n' b' ts now => u' = u -> n' = n -> cm u n b' = cm u n b -> Z.min ts now < z
  | _ => True
  end.

(** What users are notified about. *)
Definition worth (e : wev) (u n : N) (m : message) : Prop :=
  match e with
  | WText u' n' m' self direct highlight channel _ _ =>
      u' = u /\ n' = n /\ m' = m /\ self = false /\
      (direct = true \/ (highlight = true /\ channel <> None /\ m_command m <> B "TAGMSG")) /\
      (m_command m <> B "TAGMSG" -> channel <> Some (true, true))
  | WInvite u' n' m' ours joined saved => u' = u /\ n' = n /\ m' = m /\ ours = true /\ (joined = true \/ saved = false)
  | WMark u' n' _ _ _ => u' = u /\ n' = n /\ m_command m = B "MARKREAD"
  | _ => False
  end.
