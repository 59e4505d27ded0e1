(** The irc.Message type of the external gopkg.in/irc.v4 library, with the
    parts of its serialisation soju relies on. Not soju code: transcribed from
    the library's documented behaviour. *)
From Verif.Base Require Import Bytes.

(** irc.Prefix. *)
Record prefix := Prefix { p_name : bytes; p_user : bytes; p_host : bytes }.

(** irc.Message. Tags is a Go map; [m_tags] is an association list without
    duplicate keys. [m_prefix = None] is the nil pointer. *)
Record message := Message {
  m_tags : list (bytes * bytes);
  m_prefix : option prefix;
  m_command : bytes;
  m_params : list bytes
}.

Definition msg (command : bytes) (params : list bytes) : message :=
  Message [] None command params.

(** irc.Prefix.String. *)
Definition format_prefix (p : prefix) : bytes :=
  p_name p ++ (match p_user p with [] => [] | u => "!"%char :: u end)
           ++ (match p_host p with [] => [] | h => "@"%char :: h end).

(** irc.Message.String, trailing parameter rule. *)
Definition format_trailing (t : bytes) : bytes :=
  match t with
  | [] => B " :"
  | c :: _ => if aeqb c ":" || amem " " t then B " :" ++ t else " "%char :: t
  end.

Fixpoint format_params (ps : list bytes) : bytes :=
  match ps with
  | [] => []
  | [t] => format_trailing t
  | p :: ps' => " "%char :: p ++ format_params ps'
  end.

(** irc.Message.String for a message without tags. *)
Definition format_message (m : message) : bytes :=
  (match m_prefix m with None => [] | Some p => ":"%char :: format_prefix p ++ B " " end)
  ++ m_command m ++ format_params (m_params m).

(** The line terminator irc.Conn.WriteMessage appends. *)
Definition crlf : bytes := ["013"; "010"]%char.
