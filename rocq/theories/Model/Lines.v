(** Model of how what a client writes becomes lines for the server: the reading of
    messages from TCP and WebSocket connections (conn.go:30-65), the commands that are
    passed on (downstream.go:2387-2404, 2473-2488 for PRIVMSG and NOTICE, 2517-2523 for
    INVITE, 3351-3368 for commands the bouncer does not know) and the writing of messages
    (conn.go:155-166).

    Simplifications: message tags are left out on the way to the server: irc.v4 escapes
    line ends in them. Targets that are the bouncer's own (the service, the user
    themselves, broadcasts) are not treated apart; they are not passed on (C48, C84). *)
From Verif.Base Require Import Bytes.
From Verif.Model Require Import Message Roster Robust.

Definition lf : ascii := "010"%char.

(** What bufio's ReadString('\n') gives, again and again; what is left without a line end
    when the connection is closed is dropped. *)
Fixpoint read_lines (s cur : bytes) : list bytes :=
  match s with
  | [] => []
  | c :: s => if aeqb c lf then (cur ++ [c]) :: read_lines s [] else read_lines s (cur ++ [c])
  end.

Section Tags.
Variable tags_of : bytes -> list (bytes * bytes).

(** irc.Conn.ReadMessage and downstream.go:469-482 (readMessages): the first line that
    is no message ends the connection. *)
Fixpoint read_all (lines : list bytes) : list message :=
  match lines with
  | [] => []
  | l :: lines => match parse_line tags_of l with Some m => m :: read_all lines | None => [] end
  end.
Definition read_tcp (stream : bytes) : list message := read_all (read_lines stream []).
(** conn.go:48-65: a frame is a message. *)
Definition read_websocket (frames : list bytes) : list message := read_all frames.
End Tags.

(** What is passed on to the server for a message of a client. *)
Definition relay (m : message) : list message :=
  if beqb (m_command m) (B "PRIVMSG") || beqb (m_command m) (B "NOTICE")
  then match m_params m with
       | targets :: text :: _ => map (fun name => Message [] None (m_command m) [name; text]) (split_on "," targets)
       | _ => []
       end
  else [Message [] (m_prefix m) (m_command m) (m_params m)].

(** irc.Conn.WriteMessage. *)
Definition write_all (l : list message) : bytes := flat_map (fun m => format_message m ++ crlf) l.
