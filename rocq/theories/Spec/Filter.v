(** What a client may receive, given its capabilities, and how it reads batches. *)
From Verif.Base Require Import Bytes.
From Verif.Model Require Import Message Caps Filter.
Open Scope nat_scope.

(** The tag is known to the client. *)
Definition knows_tag (en : bytes -> bool) (k v : bytes) : Prop :=
  (en (B "message-tags") = true \/ k = B "time" /\ en (B "server-time") = true \/
   k = B "account" /\ en (B "account-tag") = true \/ k = B "batch" /\ en (B "batch") = true) /\
  (k = B "batch" -> v <> [] -> en (B "batch") = true).

(** The command is known to the client. *)
Definition knows_command (en : bytes -> bool) (cmd : bytes) : Prop :=
  (cmd = B "TAGMSG" -> en (B "message-tags") = true) /\ (cmd = B "SETNAME" -> en (B "setname") = true) /\
  (cmd = B "CHGHOST" -> en (B "chghost") = true) /\ (cmd = B "AWAY" -> en (B "away-notify") = true) /\
  (cmd = B "ACCOUNT" -> en (B "account-notify") = true) /\ (cmd = B "MARKREAD" -> en (B "draft/read-marker") = true) /\
  (cmd = B "READ" -> en (B "soju.im/read") = true).

Definition numeric (cmd : bytes) : Prop :=
  exists a b c, cmd = [a; b; c] /\ is_digit a = true /\ is_digit b = true /\ is_digit c = true.

(** The message may be sent to the client. *)
Definition permitted (en : bytes -> bool) (m : message) : Prop :=
  knows_command en (m_command m) /\
  (forall k v, In (k, v) (m_tags m) -> knows_tag en k v) /\
  (m_command m = B "JOIN" -> en (B "extended-join") = false -> length (m_params m) <= 1) /\
  (forall p, m_prefix m = Some p -> p_name p <> B "*") /\
  (numeric (m_command m) -> m_prefix m <> None).

(** Reading batches: the result is the sequence of messages and groups. [None] if a reference is
    unknown, used twice, or not closed. *)
Inductive read :=
| ROne (m : message)
| RGroup (typ : bytes) (params : list bytes) (body : list message).

Definition batch_tag (m : message) : option bytes := bget (m_tags m) (B "batch").

Definition untag (m : message) : message :=
  Message (filter (fun p => negb (beqb (fst p) (B "batch"))) (m_tags m)) (m_prefix m) (m_command m) (m_params m).

(** [used]: the references so far; [cur]: the open batch, its type, its parameters, what it contains. *)
Fixpoint assemble (used : list bytes) (cur : option (bytes * bytes * list bytes * list message)) (l : list message) : option (list read) :=
  match l with
  | [] => match cur with None => Some [] | Some _ => None end
  | m :: l' =>
      if beqb (m_command m) (B "BATCH") then
        match m_params m, cur with
        | ("+"%char :: ref) :: typ :: params, None =>
            if bmem ref used then None else assemble (ref :: used) (Some (ref, typ, params, [])) l'
        | [("-"%char :: ref)], Some (ref', typ, params, body) =>
            if beqb ref ref' then option_map (cons (RGroup typ params body)) (assemble used None l') else None
        | _, _ => None
        end
      else match batch_tag m with
           | None => option_map (cons (ROne m)) (assemble used cur l')
           | Some r => match cur with
                       | Some (ref, typ, params, body) =>
                           if beqb r ref then assemble used (Some (ref, typ, params, body ++ [untag m])) l' else None
                       | None => None
                       end
           end
  end.

(** What the client should read: the messages, and the content of the groups. *)
Definition expected (send : message -> list message) (i : item) : list read :=
  match i with
  | One m => map ROne (send m)
  | Group typ params _ body =>
      map ROne (flat_map (fun x : bool * message => if fst x then [] else send (snd x)) body) ++
      [RGroup typ params (flat_map (fun x : bool * message => if fst x then send (snd x) else []) body)]
  end.

(** Without the batch capability there are only messages. *)
Definition flat (send : message -> list message) (i : item) : list message :=
  match i with
  | One m => send m
  | Group _ _ _ body => flat_map (fun x : bool * message => send (snd x)) body
  end.

(** Messages outside of the batch mechanism. *)
Definition ordinary (m : message) : Prop := m_command m <> B "BATCH" /\ batch_tag m = None.
Definition ordinary_item (i : item) : Prop :=
  match i with
  | One m => ordinary m
  | Group _ _ _ body => Forall (fun x : bool * message => ordinary (snd x)) body
  end.
