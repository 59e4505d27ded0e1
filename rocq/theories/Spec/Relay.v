(** Specification of conversations: what the clients of a network should see of each other and of the
    server, and what should be kept. *)
From Verif.Base Require Import Bytes.
From Verif.Model Require Import Message Relay.

(** Messages are compared without the time that is put on them. *)
Definition untimed (m : message) : message :=
  Message (filter (fun t => negb (beqb (fst t) (B "time"))) (m_tags m)) (m_prefix m) (m_command m) (m_params m).

(** What client [id] is sent. *)
Definition received (id : N) (o : list out) : list message :=
  flat_map (fun x => match x with OTo i m => if N.eqb i id then [untimed m] else [] | _ => [] end) o.
(** What the clients have sent for the server, and what the server has taken. *)
Definition sent (o : list out) : list (N * message) :=
  flat_map (fun x => match x with OSent i _ m => [(i, m)] | _ => [] end) o.
Definition taken (o : list out) : list (N * message) :=
  flat_map (fun x => match x with OTaken i m => [(i, m)] | _ => [] end) o.
(** What the server says, and what is read of it: the nickname of the user at this time, the client
    whose text it is if it is one of this user's, and the message. *)
Definition said (o : list out) : list (bytes * option N * message) :=
  flat_map (fun x => match x with OSaid n i m => [(n, i, m)] | _ => [] end) o.
Definition heard (o : list out) : list (bytes * option N * message) :=
  flat_map (fun x => match x with OHeard n i m => [(n, i, m)] | _ => [] end) o.
(** The history. *)
Definition kept (s : st) : list (bytes * message) := map (fun p => (fst p, untimed (snd p))) (t_log s).
(** What is on the way. *)
Definition uplink (s : st) : list (N * message) :=
  flat_map (fun u => match u with UMsg i _ m => [(i, m)] | _ => [] end) (t_up s).
Fixpoint downlink (nick : bytes) (l : list dline) : list (bytes * option N * message) :=
  match l with
  | [] => []
  | DMsg i _ m :: l' => (nick, i, m) :: downlink nick l'
  | DNick n :: l' => downlink n l'
  | _ :: l' => downlink nick l'
  end.

(** Neither the server nor the bouncer changes capabilities. *)
Definition steady (e : ev) : Prop :=
  match e with VCap _ | VNew _ | VDel _ _ => False | _ => True end.
(** The client [id] stays, with the capabilities it has. *)
Definition stays (id : N) (e : ev) : Prop :=
  match e with Leave i => i <> id | Caps c => c_id c <> id | _ => True end.

(** A new connection. *)
Definition fresh (nick account : bytes) (caps : bool) (log : list (bytes * message)) : st :=
  St 0 [] nick account caps caps caps 0 log [] [] nick caps caps.

(** The turns of a conversation: texts of a client of this user that are sent to the server, and texts
    read from the server. *)
Inductive turn := Own (id : N) (nick : bytes) (m : message) | Theirs (nick : bytes) (origin : option N) (m : message).
Definition turns (o : list out) : list turn :=
  flat_map (fun x => match x with OSent i n m => [Own i n m] | OHeard n i m => [Theirs n i m] | _ => [] end) o.
Definition server_turns (o : list out) : list turn :=
  flat_map (fun x => match x with OHeard n i m => [Theirs n i m] | _ => [] end) o.

(** How a client is shown a message: message tags are for those that asked for them. *)
Definition view (c : client) (m : message) : list message :=
  if c_tags c then [untimed m]
  else if beqb (m_command m) (B "TAGMSG") then []
  else [Message (if c_account c then filter (fun t => beqb (fst t) (B "account")) (m_tags m) else []) (m_prefix m) (m_command m) (m_params m)].

Section Spec.
  Variable cm : bytes -> bytes.
  Variable server : bytes.
  Variable statusmsg : bytes.
  Variable detached : bytes -> bool.
  Variable context : bytes -> bytes -> option bytes.
  Variable account : bytes.

  (** A line without a source comes from the server. *)
  Definition sourced (m : message) : message :=
    Message (m_tags m) (Some (match m_prefix m with Some p => p | None => Prefix server [] [] end)) (m_command m) (m_params m).
  Definition sender (m : message) : bytes := match m_prefix m with Some p => p_name p | None => server end.
  (** The target without the prefixes that address some members only. *)
  Fixpoint bare (t : bytes) : bytes := match t with c :: t' => if amem c statusmsg then bare t' else t | [] => [] end.
  Definition target (m : message) : bytes := bare (hd [] (m_params m)).
  (** A text with all its parameters. *)
  Definition whole (m : message) : Prop :=
    if beqb (m_command m) (B "TAGMSG") then m_params m <> [] else exists a b l, m_params m = a :: b :: l.
  (** Nobody but the bouncer speaks for its service. *)
  Definition of_service (m : message) : Prop := cm (sender m) = cm (B "BouncerServ") \/ cm (target m) = cm (B "BouncerServ").
  (** A text of the server or to everybody. *)
  Definition of_server (m : message) : Prop :=
    cm (sender m) = cm server \/ target m = B "*" \/ exists r, target m = B "$" ++ r.
  (** The channel a private text is said to belong to, if its sender is in it. *)
  Definition in_context (from : bytes) (tags : list (bytes * bytes)) (ch : bytes) : Prop :=
    exists a t b, tags = a ++ (B "+draft/channel-context", t) :: b /\ ~ In (B "+draft/channel-context") (map fst a) /\ context t from = Some ch.
  (** The conversation a text belongs to. *)
  Definition conversation (nick : bytes) (m : message) (name : bytes) : Prop :=
    in_context (sender m) (m_tags m) name \/
    (forall ch, ~ in_context (sender m) (m_tags m) ch) /\
    name = if bytes_dec (cm nick) (cm (target m)) then sender m else target m.
  (** The same for a text of the user. *)
  Definition own_conversation (nick : bytes) (m : message) (name : bytes) : Prop :=
    in_context nick (m_tags m) name \/ (forall ch, ~ in_context nick (m_tags m) ch) /\ name = target m.
  (** A text of the user, as it is shown. *)
  Definition spoken (nick : bytes) (m : message) : message :=
    Message (m_tags m ++ match account with [] => [] | _ => [(B "account", account)] end) (Some (Prefix nick [] [])) (m_command m) (m_params m).
  (** A conversation that is hidden from the clients. *)
  Definition hidden (name : bytes) : Prop := name <> [] /\ detached (cm name) = true.

  (** What client [c] sees of a turn. *)
  Inductive sees (c : client) : turn -> list message -> Prop :=
  | see_broken n i m : ~ whole m -> sees c (Theirs n i m) []
  | see_service n i m : whole m -> of_service m -> sees c (Theirs n i m) []
  | see_server n i m : whole m -> ~ of_service m -> of_server m -> sees c (Theirs n i m) (view c (sourced m))
  | see_detached n i m name : whole m -> ~ of_service m -> ~ of_server m -> conversation n m name -> hidden name -> sees c (Theirs n i m) []
  | see_echo n m name : whole m -> ~ of_service m -> ~ of_server m -> conversation n m name -> c_echo c = false ->
      sees c (Theirs n (Some (c_id c)) m) []
  | see_text n i m name : whole m -> ~ of_service m -> ~ of_server m -> conversation n m name -> ~ hidden name ->
      (i <> Some (c_id c) \/ c_echo c = true) -> sees c (Theirs n i m) (view c (sourced m))
  | see_own_detached i n m name : own_conversation n m name -> hidden name -> sees c (Own i n m) []
  | see_own_echo n m : c_echo c = false -> sees c (Own (c_id c) n m) []
  | see_own i n m name : own_conversation n m name -> ~ hidden name -> (i <> c_id c \/ c_echo c = true) ->
      sees c (Own i n m) (view c (spoken n m)).

  (** Which texts are kept: not those that only have tags, except for reactions, and nothing about
      services that are told passwords. *)
  Definition storable (name : bytes) (m : message) : Prop :=
    name <> [] /\ (forall r, name <> B "$" ++ r) /\ cm name <> B "nickserv" /\
    (m_command m = B "TAGMSG" -> exists k v, In (k, v) (m_tags m) /\ (k = B "+draft/react" \/ k = B "+react")).
  Inductive keeps : turn -> list (bytes * message) -> Prop :=
  | keep_broken n i m : ~ whole m -> keeps (Theirs n i m) []
  | keep_service n i m : whole m -> of_service m -> keeps (Theirs n i m) []
  | keep_server n i m : whole m -> ~ of_service m -> of_server m -> keeps (Theirs n i m) []
  | keep_text n i m name : whole m -> ~ of_service m -> ~ of_server m -> conversation n m name -> storable name m ->
      keeps (Theirs n i m) [(cm name, untimed (sourced m))]
  | keep_not n i m name : whole m -> ~ of_service m -> ~ of_server m -> conversation n m name -> ~ storable name m -> keeps (Theirs n i m) []
  | keep_own i n m name : own_conversation n m name -> storable name m -> keeps (Own i n m) [(cm name, untimed (spoken n m))]
  | keep_own_not i n m name : own_conversation n m name -> ~ storable name m -> keeps (Own i n m) [].

  (** A text that addresses no part of a channel and names no other. *)
  Definition simple (e : ev) : Prop :=
    match e with
    | Line _ m _ => ~ In (B "+draft/channel-context") (map fst (m_tags m)) /\
        forall t, In t (split_on "," (hd [] (m_params m))) -> bare t = t
    | _ => True
    end.
End Spec.

Section Lines.
  Variable cm : bytes -> bytes.
  Variable host : bytes.
  Variable admin : bool.
  (** The targets of a line that are for the server: one that is refused is the last. *)
  Fixpoint passing (names : list bytes) : list bytes :=
    match names with
    | [] => []
    | t :: names' =>
        if bytes_dec t (B "$" ++ host) then if admin then passing names' else []
        else if bytes_dec (cm t) (B "bouncerserv") then passing names' else t :: passing names'
    end.
  (** The texts of a line for the server, with the tags that are meant for others. *)
  Definition texts (m : message) : list message :=
    let tags := filter (fun t => has_prefix (fst t) (B "+")) (m_tags m) in
    match m_params m with
    | [] => []
    | targets :: rest =>
        if beqb (m_command m) (B "TAGMSG") then map (fun t => Message tags None (m_command m) [t]) (passing (split_on "," targets))
        else match rest with
             | [] => []
             | text :: _ => map (fun t => Message tags None (m_command m) [t; text]) (passing (split_on "," targets))
             end
    end.
End Lines.
