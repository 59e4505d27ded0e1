(** Specification for detached channels. *)
From Verif.Base Require Import Bytes.
From Verif.Model Require Import Message Detach.

Section Spec.
  Variable cm : bytes -> bytes.
  Variable me server service : bytes.
  Variable chantypes statusmsg : bytes.
  Variable highlight : message -> bool.

  Local Notation step := (nstep cm me server service chantypes statusmsg highlight).
  Local Notation run := (nrun cm me server service chantypes statusmsg highlight).
  Local Notation detached := (is_detached cm).

  (** The commands with which a server tells about the channel of their first parameter. *)
  Definition channel_commands : list bytes :=
    [B "PRIVMSG"; B "NOTICE"; B "TAGMSG"; B "JOIN"; B "PART"; B "KICK"; B "TOPIC"; B "MODE"].
  (** And those with which it tells about that of the second one. *)
  Definition channel_replies : list bytes := [B "324"; B "329"; B "333"].

  (** The message [m] is about [c]. *)
  Definition about (m : message) (c : bytes) : Prop :=
    (In (m_command m) channel_commands /\ exists rest, m_params m = c :: rest) \/
    (In (m_command m) channel_replies /\ exists a rest, m_params m = a :: c :: rest).

  (** Text for some of the members, "@#chan". *)
  Definition about_some_of (m : message) (c : bytes) : Prop :=
    exists sigils rest, m_params m = (sigils ++ c) :: rest /\ Forall (fun x => In x statusmsg) sigils /\
      ~ (exists x r, c = x :: r /\ In x statusmsg).

  Definition text_cmd (m : message) : Prop := In (m_command m) [B "PRIVMSG"; B "NOTICE"; B "TAGMSG"].

  (** The text is for (some of) the members of a channel, or for us. *)
  Definition addressed (m : message) (name : bytes) : Prop :=
    exists sigils t rest, m_params m = (sigils ++ t) :: rest /\ Forall (fun x => In x statusmsg) sigils /\
      (cm t = cm name \/ cm t = cm me).

  (** What the filters of the user let through. *)
  Definition passes (f : mfilter) (default : bool) (m : message) : bool :=
    match f with FNone => false | FMessage => true | FHighlight => highlight m | FDefault => default && highlight m end.

  (** Does the text come from a person rather than from the server? *)
  Definition personal (m : message) : Prop :=
    exists p, m_prefix m = Some p /\ cm (p_name p) <> cm server.
  Definition no_context (m : message) : Prop := ~ In (B "+draft/channel-context") (map fst (m_tags m)).

  (** A nickname is not a channel, and "*" and "$" do not start channels. *)
  Definition sane : Prop :=
    (forall c, is_channel chantypes c = true -> cm c <> cm me /\ cm c <> cm service) /\
    ~ In "*"%char chantypes /\ ~ In "$"%char chantypes /\ (forall x, In x statusmsg -> ~ In x chantypes).

  (** The records are found by their names. *)
  Definition filed (s : nstate) : Prop :=
    (forall k c, n_chans s k = Some c -> cm (c_name c) = k) /\
    (forall up, n_up s = Some up -> Forall (fun p => cm (fst (snd p)) = fst p) up).

  (** What a client knows: the channels it has been told to have joined. *)
  Definition view := N -> bytes -> bool.
  Definition told (v : view) (id : N) (name : bytes) (b : bool) : view :=
    fun i k => if N.eqb i id && beqb k (cm name) then b else v i k.
  Definition see (v : view) (o : dout) : view :=
    match o with
    | OJoin id name => told v id name true
    | OPart id name => told v id name false
    | OFwd id m =>
        let mine := match m_prefix m with Some p => beqb (cm (p_name p)) (cm me) | None => false end in
        match m_params m with
        | name :: rest =>
            if beqb (m_command m) (B "JOIN") && mine then told v id name true
            else if beqb (m_command m) (B "PART") && mine then told v id name false
            else if beqb (m_command m) (B "KICK") && match rest with n :: _ => beqb (cm n) (cm me) | [] => false end
            then told v id name false
            else v
        | [] => v
        end
    | _ => v
    end.
  (** A new client knows nothing. *)
  Definition arrive (v : view) (e : nev) : view :=
    match e with CConnect id _ => fun i k => if N.eqb i id then false else v i k | _ => v end.

  (** The runs in which each event meets a condition, with what the clients know. *)
  Inductive history (ok : nstate -> nev -> Prop) : nstate -> view -> Prop :=
  | h_start l : history ok (nloaded cm l) (fun _ _ => false)
  | h_step s v e : history ok s v -> ok s e ->
      history ok (fst (step s e)) (fold_left see (snd (step s e)) (arrive v e)).

  (** Leaving with the reason "detach" a channel the bouncer has a record of. *)
  Definition known_detach (s : nstate) (e : nev) : Prop :=
    match e with CPartDetach name => get_chan cm s name <> None | _ => True end.

  (** No client connects while the members of a channel are being listed, and no detached channel is
      forgotten. The number 0 stands for no client. *)
  Definition settled (s : nstate) (e : nev) : Prop :=
    match e with
    | CConnect id _ => id <> 0%N /\ forall up, n_up s = Some up -> Forall (fun p => snd (snd p) = true) up
    | CPart name _ | SDelete name _ => detached s name = false
    | _ => True
    end.
End Spec.
