(** Model of the log line format, msgstore/znclog, and of ParseCTCPMessage. *)
From Verif.Base Require Import Bytes.
From Verif.Model Require Import Message TimeFmt.
From Coq Require Import ZArith.

Definition ctcp_byte : ascii := "001"%char.

(** strings.Trim(s, "\x01"). *)
Fixpoint drop_ctcp (s : bytes) : bytes :=
  match s with
  | c :: s' => if aeqb c ctcp_byte then drop_ctcp s' else s
  | [] => []
  end.
Definition trim_ctcp (s : bytes) : bytes := rev (drop_ctcp (rev (drop_ctcp s))).

(** xirc/xirc.go:52-74 (ParseCTCPMessage). strings.ToUpper is modelled for ASCII
    letters only. *)
Definition parse_ctcp (command : bytes) (params : list bytes) : option (bytes * bytes) :=
  if beqb command (B "PRIVMSG") || beqb command (B "NOTICE") then
    match params with
    | _ :: text :: _ =>
        match text with
        | c :: _ =>
            if aeqb c ctcp_byte then
              match cut_on " " (trim_ctcp text) with
              | (w, Some ps) => Some (to_upper w, ps)
              | (w, None) => Some (to_upper w, [])
              end
            else None
        | [] => None
        end
    | _ => None
    end
  else None.

Definition param (n : nat) (ps : list bytes) : bytes := nth n ps [].

(** msgstore/znclog/writer.go:24-70 (formatMessage). The comment there assumes a
    well-formed message: the prefix and the mandatory parameters are present.
    [] is the case "not logged". *)
Definition format_log (p : prefix) (command : bytes) (params : list bytes) : bytes :=
  let cmd := to_upper command in
  let mask := B "(" ++ p_user p ++ B "@" ++ p_host p ++ B ")" in
  if beqb cmd (B "NICK") then B "*** " ++ p_name p ++ B " is now known as " ++ param 0 params
  else if beqb cmd (B "JOIN") then B "*** Joins: " ++ p_name p ++ B " " ++ mask
  else if beqb cmd (B "PART") then
    B "*** Parts: " ++ p_name p ++ B " " ++ mask ++ B " (" ++ param 1 params ++ B ")"
  else if beqb cmd (B "KICK") then
    B "*** " ++ param 1 params ++ B " was kicked by " ++ p_name p ++ B " (" ++ param 2 params ++ B ")"
  else if beqb cmd (B "QUIT") then
    B "*** Quits: " ++ p_name p ++ B " " ++ mask ++ B " (" ++ param 0 params ++ B ")"
  else if beqb cmd (B "TOPIC") then
    B "*** " ++ p_name p ++ B " changes topic to '" ++ param 1 params ++ B "'"
  else if beqb cmd (B "MODE") then
    B "*** " ++ p_name p ++ B " sets mode: " ++ join (B " ") (tl params)
  else if beqb cmd (B "NOTICE") then B "-" ++ p_name p ++ B "- " ++ param 1 params
  else if beqb cmd (B "PRIVMSG") then
    match parse_ctcp command params with
    | Some (c, ps) =>
        if beqb c (B "ACTION") then B "* " ++ p_name p ++ B " " ++ ps
        else B "<" ++ p_name p ++ B "> " ++ param 1 params
    | None => B "<" ++ p_name p ++ B "> " ++ param 1 params
    end
  else [].

(** msgstore/znclog/writer.go:13-20 (MarshalLine); the time is given by its
    hour, minute and second. *)
Definition marshal_line (p : prefix) (command : bytes) (params : list bytes) (h m s : Z) : bytes :=
  match format_log p command params with
  | [] => []
  | l => B "[" ++ pad 2 h ++ B ":" ++ pad 2 m ++ B ":" ++ pad 2 s ++ B "] " ++ l
  end.

(** strings.TrimPrefix and strings.TrimSuffix, for a one byte argument. *)
Definition trim_prefix1 (c : ascii) (s : bytes) : bytes :=
  match s with x :: s' => if aeqb x c then s' else s | [] => [] end.
Definition trim_suffix1 (c : ascii) (s : bytes) : bytes := rev (trim_prefix1 c (rev s)).

(** strings.TrimPrefix(s, p) with the test that it changed something. *)
Fixpoint after_prefix (p s : bytes) : option bytes :=
  match p, s with
  | [], _ => Some s
  | x :: p', y :: s' => if aeqb x y then after_prefix p' s' else None
  | _ :: _, [] => None
  end.

(** strings.SplitN(s, ab, 2) for a two byte separator, when it occurs. *)
Fixpoint cut2 (a b : ascii) (s : bytes) : option (bytes * bytes) :=
  match s with
  | x :: ((y :: s'') as s') =>
      if aeqb x a && aeqb y b then Some ([], s'')
      else match cut2 a b s' with Some (u, v) => Some (x :: u, v) | None => None end
  | _ => None
  end.

Definition cut1 (c : ascii) (s : bytes) : option (bytes * bytes) :=
  match cut_on c s with (u, Some v) => Some (u, v) | _ => None end.

(** The parts of a message UnmarshalLine fills in, besides the time tag. *)
Record log_msg := LogMsg { lm_prefix : prefix; lm_command : bytes; lm_params : list bytes }.

Definition nick_prefix (n : bytes) : prefix := Prefix n [] [].
Definition opt_param (r : bytes) : list bytes := match r with [] => [] | _ => [r] end.

(** msgstore/znclog/reader.go:35-71: Joins, Parts and Quits. *)
Definition read_mask (kind entity rest : bytes) : option log_msg :=
  match cut1 " " rest with
  | None => None
  | Some (nick, rest) =>
      let '(m, rest) := cut_on " " rest in
      match cut1 "@" (trim_suffix1 ")" (trim_prefix1 "(" m)) with
      | None => None
      | Some (u, h) =>
          let reason := match rest with
                        | Some r => trim_suffix1 ")" (trim_prefix1 "(" r)
                        | None => []
                        end in
          let p := Prefix nick u h in
          if beqb kind (B "Joins:") then Some (LogMsg p (B "JOIN") [entity])
          else if beqb kind (B "Parts:") then Some (LogMsg p (B "PART") (entity :: opt_param reason))
          else Some (LogMsg p (B "QUIT") (opt_param reason))
      end
  end.

(** msgstore/znclog/reader.go:72-113: the other events. *)
Definition read_other (nick entity rem : bytes) : option log_msg :=
  match after_prefix (B "is now known as ") rem with
  | Some r => Some (LogMsg (nick_prefix nick) (B "NICK") [r])
  | None =>
  match after_prefix (B "was kicked by ") rem with
  | Some r =>
      match cut1 " " r with
      | None => None
      | Some (by_, reason) =>
          Some (LogMsg (nick_prefix by_) (B "KICK")
                  (entity :: nick :: opt_param (trim_suffix1 ")" (trim_prefix1 "(" reason))))
      end
  | None =>
  match after_prefix (B "changes topic to ") rem with
  | Some r => Some (LogMsg (nick_prefix nick) (B "TOPIC") [entity; trim_suffix1 "'" (trim_prefix1 "'" r)])
  | None =>
  match after_prefix (B "sets mode: ") rem with
  | Some r => Some (LogMsg (nick_prefix nick) (B "MODE") (entity :: split_on " " r))
  | None => None
  end end end end.

(** msgstore/znclog/reader.go:115-152: messages. [own] is database.GetNick. *)
Definition read_message (own entity line : bytes) : option log_msg :=
  let fin cmd sender text :=
    let entity := if beqb entity sender then own else entity in
    Some (LogMsg (nick_prefix sender) cmd [entity; text]) in
  match after_prefix (B "<") line with
  | Some l => match cut2 ">" " " l with Some (s, t) => fin (B "PRIVMSG") s t | None => None end
  | None =>
  match after_prefix (B "-") line with
  | Some l => match cut2 "-" " " l with Some (s, t) => fin (B "NOTICE") s t | None => None end
  | None =>
  match after_prefix (B "* ") line with
  | Some l => match cut1 " " l with
              | Some (s, t) => fin (B "PRIVMSG") s (ctcp_byte :: B "ACTION " ++ t ++ [ctcp_byte])
              | None => None
              end
  | None => None
  end end end.

(** msgstore/znclog/reader.go:26-152, after the time stamp. *)
Definition read_body (own entity : bytes) (events : bool) (line : bytes) : option log_msg :=
  match (if events then after_prefix (B "*** ") line else None) with
  | Some l =>
      match cut1 " " l with
      | None => None
      | Some (kind, rest) =>
          if bmem kind [B "Joins:"; B "Parts:"; B "Quits:"] then read_mask kind entity rest
          else read_other kind entity rest
      end
  | None => read_message own entity line
  end.

(** msgstore/znclog/reader.go:16-168 (UnmarshalLine). The outer None is the
    error, the inner one a line that is skipped. Sscanf's %02d is modelled as
    exactly two digits (what the writer produces). *)
Definition unmarshal_line (own entity : bytes) (events : bool) (line : bytes) : option (option (log_msg * (Z * Z * Z))) :=
  match after_prefix (B "[") line with
  | None => None
  | Some l =>
  match take_num 2 ":" l with
  | None => None
  | Some (h, l) =>
  match take_num 2 ":" l with
  | None => None
  | Some (m, l) =>
  match take_num 2 "]" l with
  | None => None
  | Some (s, l) =>
  match after_prefix (B " ") l with
  | None => None
  | Some l => Some (match read_body own entity events l with Some x => Some (x, (h, m, s)) | None => None end)
  end end end end end.
