(** Model of the service command [network quote] (service.go:731-757).

    Simplifications: the parameters are those of the command line after it was split
    (Model/Words.v, C34); a network is its place in the list of the user; the text of the
    answer is only its kind; what the rate limit delays (C87) is not treated apart. *)
From Verif.Base Require Import Bytes.
From Verif.Model Require Import Message Robust Service.

(** user.go:57-66 (network), database/database.go:149-167 (Network): what matters here;
    [q_conn] is whether [net.conn] is there, [q_tags] whether the server has
    message-tags. *)
Record qnet := QNet { q_name : bytes; q_addr : bytes; q_conn : bool; q_tags : bool }.

(** user.go:574-584 (getNetwork). *)
Definition is_network (name : bytes) (n : qnet) : bool :=
  beqb (q_addr n) name || (match q_name n with [] => false | _ => true end && beqb (q_name n) name).
Fixpoint get_network (name : bytes) (l : list qnet) (i : nat) : option (nat * qnet) :=
  match l with
  | [] => None
  | n :: l => if is_network name n then Some (i, n) else get_network name l (S i)
  end.

Inductive reply := BadUsage | NoNetwork | UnknownNetwork | NotConnected | BadCommand | SentCommand.

(** service.go:493-507 (getNetworkFromArg). *)
Definition network_from_arg (nets : list qnet) (current : option (nat * qnet)) (params : list bytes) : (nat * qnet) + reply :=
  match fst (pop_arg params) with
  | [] => match current with Some x => inl x | None => inr NoNetwork end
  | name => match get_network name nets 0 with Some x => inl x | None => inr UnknownNetwork end
  end.

(** upstream.go:2100-2108 (SendMessage). *)
Definition sent_as (n : qnet) (m : message) : message :=
  if q_tags n then m else Message [] (m_prefix m) (m_command m) (m_params m).

(** service.go:731-757 (handleServiceNetworkQuote): the answer, and what is sent to
    which network. [current] is the network the client is bound to; [tags_of] is
    irc.ParseTags. *)
Definition quote (tags_of : bytes -> list (bytes * bytes)) (nets : list qnet) (current : option nat) (params : list bytes)
  : reply * list (nat * message) :=
  match rev params with
  | [] => (BadUsage, [])
  | raw :: before =>
    if 2 <? length params then (BadUsage, [])
    else
      let current := match current with None => None | Some i => option_map (pair i) (nth_error nets i) end in
      match network_from_arg nets current (rev before) with
      | inr e => (e, [])
      | inl (i, n) =>
        if negb (q_conn n) then (NotConnected, [])
        else match parse_line tags_of raw with
             | None => (BadCommand, [])
             | Some m => (SentCommand, [(i, sent_as n m)])
             end
      end
  end.
