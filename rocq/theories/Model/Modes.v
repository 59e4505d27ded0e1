(** Model of the user and channel mode helpers of irc.go. *)
From Verif.Base Require Import Bytes.
From Verif.Model Require Import CaseMap Membership.

(** irc.go:19-21 (userModes.Has). *)
Definition um_has (ms : bytes) (c : ascii) : bool := amem c ms.

(** irc.go:23-27 (userModes.Add): [userModes(c)] converts a byte to a string
    and therefore encodes bytes above 127 as two bytes. *)
Definition um_add (ms : bytes) (c : ascii) : bytes :=
  if um_has ms c then ms else ms ++ utf8_of_byte c.

(** irc.go:29-34 (userModes.Del): removes the first occurrence. *)
Fixpoint um_del (ms : bytes) (c : ascii) : bytes :=
  match ms with
  | [] => []
  | x :: ms' => if aeqb x c then ms' else x :: um_del ms' c
  end.

(** irc.go:36-54 (userModes.Apply). [sign] is plusMinus ([None] before any
    sign). The boolean tells whether nil was returned; the modes changed before
    an error stay changed, as in the code. *)
Fixpoint um_apply (ms : bytes) (sign : option bool) (s : bytes) : bytes * bool :=
  match s with
  | [] => (ms, true)
  | c :: s' =>
      if aeqb c "+" then um_apply ms (Some true) s'
      else if aeqb c "-" then um_apply ms (Some false) s'
      else match sign with
           | Some true => um_apply (um_add ms c) sign s'
           | Some false => um_apply (um_del ms c) sign s'
           | None => (ms, false)
           end
  end.

(** irc.go:56-68 (channelModeType). *)
Inductive mode_type := ModeA | ModeB | ModeC | ModeD.

(** irc.go:70-83: Go maps keyed by a mode letter. *)
Fixpoint al_get {V} (m : list (ascii * V)) (k : ascii) : option V :=
  match m with
  | [] => None
  | (k', v) :: m' => if aeqb k k' then Some v else al_get m' k
  end.

Fixpoint al_set {V} (m : list (ascii * V)) (k : ascii) (v : V) : list (ascii * V) :=
  match m with
  | [] => [(k, v)]
  | (k', v') :: m' => if aeqb k k' then (k', v) :: m' else (k', v') :: al_set m' k v
  end.

Fixpoint al_del {V} (m : list (ascii * V)) (k : ascii) : list (ascii * V) :=
  match m with
  | [] => []
  | (k', v') :: m' => if aeqb k k' then al_del m' k else (k', v') :: al_del m' k
  end.

(** The two fields of upstreamChannel that applyChannelModes changes;
    [ch_modes = None] is the nil map. *)
Record chan := Chan {
  ch_modes : option (list (ascii * bytes));
  ch_members : cmmap (list membership)
}.

(** irc.go:103-121: the membership the mode letter names, if any. *)
Definition find_membership (avail : list membership) (mode : ascii) : option membership :=
  find (fun m => aeqb (mb_mode m) mode) avail.

Definition set_mode (ch : chan) (mode : ascii) (v : bytes) : chan :=
  match ch_modes ch with
  | None => ch
  | Some m => Chan (Some (al_set m mode v)) (ch_members ch)
  end.

Definition del_mode (ch : chan) (mode : ascii) : chan :=
  match ch_modes ch with
  | None => ch (* delete on a nil map is a no-op *)
  | Some m => Chan (Some (al_del m mode)) (ch_members ch)
  end.

(** irc.go:108-117. *)
Definition change_member (avail : list membership) (ch : chan) (plus : bool)
    (mb : membership) (member : bytes) : chan :=
  match cm_get (ch_members ch) member with
  | None => ch
  | Some m =>
      let m' := if plus then ms_add avail m mb else ms_remove m mb in
      Chan (ch_modes ch) (cm_set (ch_members ch) member m')
  end.

(** irc.go:89-155 (applyChannelModes), the loop. [args] is
    [arguments[nextArgument:]]: taking the tail of an empty list stands for
    nextArgument running past the end. The boolean tells whether nil was
    returned. *)
Fixpoint apply_modes (avail : list membership) (table : list (ascii * mode_type))
    (ch : chan) (sign : option bool) (s : bytes) (args : list bytes) : chan * bool :=
  match s with
  | [] => (ch, true)
  | mode :: s' =>
      if aeqb mode "+" then apply_modes avail table ch (Some true) s' args
      else if aeqb mode "-" then apply_modes avail table ch (Some false) s' args
      else match sign with
      | None => (ch, false)
      | Some plus =>
          match find_membership avail mode with
          | Some mb =>
              match args with
              | [] => (ch, false)
              | member :: args' =>
                  apply_modes avail table (change_member avail ch plus mb member) sign s' args'
              end
          | None =>
              match al_get table mode with
              | None => apply_modes avail table ch sign s' args
              | Some ModeA => apply_modes avail table ch sign s' (tl args)
              | Some ModeB =>
                  let ch' := if plus then set_mode ch mode (match args with a :: _ => a | [] => [] end)
                             else del_mode ch mode in
                  apply_modes avail table ch' sign s' (tl args)
              | Some ModeC =>
                  if plus then
                    apply_modes avail table (set_mode ch mode (match args with a :: _ => a | [] => [] end))
                      sign s' (tl args)
                  else apply_modes avail table (del_mode ch mode) sign s' args
              | Some ModeD =>
                  let ch' := if plus then set_mode ch mode [] else del_mode ch mode in
                  apply_modes avail table ch' sign s' args
              end
          end
      end
  end.

Definition apply_channel_modes avail table ch (s : bytes) (args : list bytes) : chan * bool :=
  apply_modes avail table ch None s args.

(** irc.go:157-171 (channelModes.Format). [order] is the sequence in which the
    range statement visits the map. *)
Definition nonempty (v : bytes) : bool := match v with [] => false | _ => true end.

Definition format_modes (order : list (ascii * bytes)) : bytes * list bytes :=
  let with_values := filter (fun kv => nonempty (snd kv)) order in
  let without_values := filter (fun kv => negb (nonempty (snd kv))) order in
  ("+"%char :: flat_map (fun kv => utf8_of_byte (fst kv)) with_values
      ++ flat_map (fun kv => utf8_of_byte (fst kv)) without_values,
   map snd with_values).
