(** Model of the queues of pending commands of an upstream connection,
    upstream.go:186-190, 452-567, and of labels, upstream.go:2110-2119, 610-622,
    404-410. *)
From Verif.Base Require Import Bytes.
From Coq Require Import ZArith.

(** upstream.go:511-516: the commands which are queued. *)
Inductive kind := LIST | WHO | WHOIS | AUTHENTICATE | REGISTER | VERIFY.
Definition kind_eqb (a b : kind) : bool :=
  match a, b with
  | LIST, LIST | WHO, WHO | WHOIS, WHOIS | AUTHENTICATE, AUTHENTICATE | REGISTER, REGISTER | VERIFY, VERIFY => true
  | _, _ => false
  end.

Section Pending.
  (** A message with its parameters. *)
  Context {M : Type}.

  (** upstream.go:186-190; the zero time is None. *)
  Record pcmd := Pcmd { p_client : N; p_msg : M; p_sent : option Z }.

  Definition queues := kind -> list pcmd.
  Definition set_q (qs : queues) (k : kind) (q : list pcmd) : queues := fun k' => if kind_eqb k' k then q else qs k'.

  Inductive out :=
  | OSent (k : kind) (client : N) (m : M)      (* sent to the server, with the label of the client *)
  | ODone (k : kind) (client : N) (m : M)      (* the reply goes to the client *)
  | OAbort (k : kind) (client : N) (m : M).    (* the client is told that the command was aborted *)

  Definition stale_after : Z := 30 * 1000000000.

  (** upstream.go:501-508 (sendNextPendingCommand). *)
  Definition send_next (qs : queues) (k : kind) (now : Z) : queues * list out :=
    match qs k with
    | [] => (qs, [])
    | p :: q => (set_q qs k (Pcmd (p_client p) (p_msg p) (Some now) :: q), [OSent k (p_client p) (p_msg p)])
    end.

  (** copy(q, q[1:]) without truncation. *)
  Definition copy_down (q : list pcmd) : list pcmd :=
    match q with
    | [] => []
    | x :: q' => q' ++ [last q' x]
    end.

  (** upstream.go:510-532 (enqueueCommand). *)
  Definition enqueue (qs : queues) (k : kind) (client : N) (m : M) (now : Z) : queues * list out :=
    let q := qs k ++ [Pcmd client m None] in
    let q := match q with
             | Pcmd _ _ (Some t) :: _ => if Z.ltb stale_after (now - t)%Z then copy_down q else q
             | _ => q
             end in
    let qs := set_q qs k q in
    if Nat.eqb (length q) 1 then send_next qs k now else (qs, []).

  (** upstream.go:543-554 (dequeueCommand); the reply handler sends the reply to
      the client of the head of the queue. *)
  Definition dequeue (qs : queues) (k : kind) (now : Z) : queues * list out :=
    match qs k with
    | [] => (qs, [])
    | p :: q =>
        let r := send_next (set_q qs k q) k now in
        (fst r, ODone k (p_client p) (p_msg p) :: snd r)
    end.

  (** upstream.go:556-567 (cancelPendingCommandsByDownstreamID). *)
  Definition cancel (qs : queues) (client : N) : queues :=
    fun k => match qs k with
             | [] => []
             | p :: q => p :: filter (fun x => negb (N.eqb (p_client x) client)) q
             end.

  (** upstream.go:452-499 (abortPendingCommands). [live] is the set of connected
      clients. The map is iterated in some order: that of [ks]. *)
  Definition abort (qs : queues) (ks : list kind) (live : N -> bool) : queues * list out :=
    (fun _ => [],
     flat_map (fun k => flat_map (fun p => if live (p_client p) then [OAbort k (p_client p) (p_msg p)] else []) (qs k)) ks).

  Inductive pevent :=
  | Enqueue (k : kind) (client : N) (m : M) (now : Z)
  | Reply (k : kind) (now : Z)           (* the last message of a reply *)
  | Cancel (client : N).                 (* the client disconnects *)

  Definition pstep (qs : queues) (e : pevent) : queues * list out :=
    match e with
    | Enqueue k client m now => enqueue qs k client m now
    | Reply k now => dequeue qs k now
    | Cancel client => (cancel qs client, [])
    end.

  Fixpoint prun (qs : queues) (es : list pevent) : queues * list out :=
    match es with
    | [] => (qs, [])
    | e :: es' => let r := pstep qs e in let r' := prun (fst r) es' in (fst r', snd r ++ snd r')
    end.

  Definition no_queues : queues := fun _ => [].
End Pending.
Arguments pcmd : clear implicits.
Arguments queues : clear implicits.
Arguments out : clear implicits.
Arguments pevent : clear implicits.

(** upstream.go:2110-2119 (SendMessageLabeled): the label. *)
Definition label (client counter : N) : bytes := B "sd-" ++ dec client ++ B "-" ++ dec counter.

(** fmt.Sscanf's %d into a uint64: leading blanks are skipped; at least one
    digit; the value must fit. *)
Fixpoint span_digits (s : bytes) : bytes * bytes :=
  match s with
  | c :: s' => if is_digit c then let r := span_digits s' in (c :: fst r, snd r) else ([], s)
  | [] => ([], [])
  end.
Fixpoint skip_blanks (s : bytes) : bytes :=
  match s with
  | c :: s' => if amem c [" "%char; "009"%char] then skip_blanks s' else s
  | [] => []
  end.
Definition scan_uint (s : bytes) : option (N * bytes) :=
  let '(d, rest) := span_digits (skip_blanks s) in
  match d with
  | [] => None
  | _ => match undec d with
         | Some n => if N.ltb n (2 ^ 64) then Some (n, rest) else None
         | None => None
         end
  end.

Fixpoint strip_lit (p s : bytes) : option bytes :=
  match p, s with
  | [], _ => Some s
  | c :: p', d :: s' => if aeqb c d then strip_lit p' s' else None
  | _, _ => None
  end.

(** upstream.go:610-622: None is the error. Text after the second number is
    ignored by Sscanf. *)
Definition parse_label (l : bytes) : option N :=
  match l with
  | [] => Some 0%N
  | _ =>
    match strip_lit (B "sd-") l with
    | None => None
    | Some s =>
      match scan_uint s with
      | None => None
      | Some (id, s) =>
        match strip_lit (B "-") s with
        | None => None
        | Some s => match scan_uint s with None => None | Some _ => Some id end
        end
      end
    end
  end.

(** upstream.go:404-410 (forEachDownstreamByID). *)
Definition routed_to (id : N) (clients : list N) : list N :=
  filter (fun c => negb (negb (N.eqb id 0) && negb (N.eqb id c))) clients.
