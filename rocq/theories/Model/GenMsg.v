(** Model of xirc/genmsg.go: splitting long lists over several messages. *)
From Verif.Base Require Import Bytes Base64.
From Verif.Model Require Import Message.

Definition nonempty (v : bytes) : bool := match v with [] => false | _ => true end.

(** xirc/xirc.go:12-17. *)
Definition max_message_length : nat := 512.
Definition max_message_params : nat := 15.
Definition max_sasl_length : nat := 400.

(** Go's [<] on strings: lexicographic on bytes. *)
Fixpoint bytes_ltb (a b : bytes) : bool :=
  match a, b with
  | _, [] => false
  | [], _ :: _ => true
  | x :: a', y :: b' =>
      if aeqb x y then bytes_ltb a' b' else N.ltb (code x) (code y)
  end.

(** genmsg.go:71-77 (joinSorter.Less) on a channel and its key. *)
Definition join_less (a b : bytes * bytes) : bool :=
  if xorb (nonempty (snd a)) (nonempty (snd b)) then nonempty (snd a)
  else bytes_ltb (fst a) (fst b).

(** genmsg.go:34-38 and 54-58. *)
Definition join_msg (chans keys : bytes) : message :=
  msg (B "JOIN") (chans :: if nonempty keys then [keys] else []).

(** Writing an element to a comma separated buffer (genmsg.go:43-52). *)
Definition buf_add (sep : ascii) (buf x : bytes) : bytes :=
  (if nonempty buf then buf ++ [sep] else buf) ++ x.

(** genmsg.go:18 *)
Definition join_max_length : nat := max_message_length - (length (B "JOIN") + 2).

(** genmsg.go:21-60: the loop over the sorted channels. *)
Fixpoint join_loop (chans keys : bytes) (l : list (bytes * bytes)) : list message :=
  match l with
  | [] => if nonempty chans then [join_msg chans keys] else []
  | (ch, key) :: l' =>
      let n := length chans + length keys + 1 + length ch
               + (if nonempty key then 1 + length key else 0) in
      let flush := nonempty chans && Nat.ltb join_max_length n in
      let out := if flush then [join_msg chans keys] else [] in
      let chans1 := if flush then [] else chans in
      let keys1 := if flush then [] else keys in
      out ++ join_loop (buf_add "," chans1 ch)
               (if nonempty key then buf_add "," keys1 key else keys1) l'
  end.

(** genmsg.go:12-63 (GenerateJoin): [sorted] is what sort.Sort left in the two
    slices. (The Go function sorts its arguments in place.) *)
Definition generate_join (sorted : list (bytes * bytes)) : list message :=
  join_loop [] [] sorted.

(** genmsg.go:114: isupportEncoder. Both patterns are a single byte, so the
    replacer works byte by byte. *)
Definition isupport_encode_byte (c : ascii) : bytes :=
  if aeqb c " " then B "\x20" else if aeqb c "\" then B "\x5C" else [c].

Definition isupport_encode (tok : bytes) : bytes := flat_map isupport_encode_byte tok.

(** genmsg.go:85-112 (GenerateIsupport). [fuel] bounds the number of
    iterations; [generate_isupport] passes enough (see
    [Proof.GenMsg.isupport_fuel]). *)
Definition isupport_msg (toks : list bytes) : message :=
  msg (B "005") (B "*" :: map isupport_encode toks ++ [B "are supported"]).

Fixpoint isupport_loop (fuel : nat) (toks : list bytes) : list message :=
  match fuel, toks with
  | _, [] => []
  | O, _ => []
  | S fuel', _ =>
      let maxt := max_message_params - 2 in
      if Nat.ltb maxt (length toks)
      then isupport_msg (firstn maxt toks) :: isupport_loop fuel' (skipn maxt toks)
      else [isupport_msg toks]
  end.

Definition generate_isupport (toks : list bytes) : list message :=
  isupport_loop (length toks) toks.

(** genmsg.go:116-136 (GenerateMOTD). *)
Definition generate_motd (motd : bytes) : list message :=
  msg (B "375") [B "*"; B "- Message of the Day -"]
  :: map (fun l => msg (B "372") [B "*"; l]) (split_on "010" motd)
  ++ [msg (B "376") [B "*"; B "End of /MOTD command."]].

(** genmsg.go:138-166 (GenerateMonitor). *)
Definition monitor_msg (subcmd : bytes) (buf : list bytes) : message :=
  msg (B "MONITOR") [subcmd; join (B ",") buf].

Fixpoint monitor_loop (subcmd : bytes) (maxl : nat) (buf : list bytes) (n : nat)
    (targets : list bytes) : list message :=
  match targets with
  | [] => match buf with [] => [] | _ => [monitor_msg subcmd buf] end
  | t :: targets' =>
      if Nat.ltb maxl (n + length t + 1)
      then monitor_msg subcmd buf :: monitor_loop subcmd maxl [t] (length t + 1) targets'
      else monitor_loop subcmd maxl (buf ++ [t]) (n + length t + 1) targets'
  end.

Definition monitor_max_length (subcmd : bytes) : nat :=
  max_message_length - length (B "MONITOR " ++ subcmd ++ B " ").

Definition generate_monitor (subcmd : bytes) (targets : list bytes) : list message :=
  monitor_loop subcmd (monitor_max_length subcmd) [] 0 targets.

(** genmsg.go:168-206 (GenerateNamesReply). maxLength may be negative in Go;
    here it is then 0, which makes no difference since n is positive. *)
Definition names_msg (status channel names : bytes) : message :=
  msg (B "353") [B "*"; status; channel; names].

Fixpoint names_loop (status channel : bytes) (maxl : nat) (buf : bytes) (members : list bytes) : list message :=
  match members with
  | [] => if nonempty buf then [names_msg status channel buf] else []
  | s :: members' =>
      let n := length buf + 1 + length s in
      if nonempty buf && Nat.ltb maxl n
      then names_msg status channel buf :: names_loop status channel maxl (buf_add " " [] s) members'
      else names_loop status channel maxl (buf_add " " buf s) members'
  end.

Definition generate_names (channel status : bytes) (members : list bytes) : list message :=
  let maxl := max_message_length - length (format_message (names_msg status channel [])) in
  names_loop status channel maxl [] members
  ++ [msg (B "366") [B "*"; channel; B "End of /NAMES list"]].

(** genmsg.go:208-231 (GenerateSASL): [rest] is [encoded[i:]]; the loop runs
    while [i <= len(encoded)]. *)
Definition sasl_chunk (c : bytes) : bytes := if nonempty c then c else B "+".

Fixpoint sasl_loop (fuel : nat) (rest : bytes) : list bytes :=
  match fuel with
  | O => []
  | S fuel' =>
      if Nat.ltb (length rest) max_sasl_length then [sasl_chunk rest]
      else sasl_chunk (firstn max_sasl_length rest)
           :: sasl_loop fuel' (skipn max_sasl_length rest)
  end.

Definition generate_sasl (resp : bytes) : list message :=
  let encoded := b64_encode B64Std resp in
  map (fun c => msg (B "AUTHENTICATE") [c]) (sasl_loop (S (length encoded)) encoded).

(** downstream.go:988-1016: the part of handleAuthenticate that reassembles a
    response. [None]: error; [Some (pending, None)]: wait for more;
    [Some (pending, Some resp)]: the response is complete. *)
Definition recv_chunk (pending : bytes) (param : bytes) : option (bytes * option bytes) :=
  let chunk := if beqb param (B "+") then [] else param in
  if N.ltb 10240 (N.of_nat (length pending + length chunk)) then None
  else
    let pending' := pending ++ chunk in
    if Nat.eqb (length chunk) max_sasl_length then Some (pending', None)
    else match b64_decode B64Std pending' with
         | None => None
         | Some resp => Some ([], Some resp)
         end.

(** A sequence of AUTHENTICATE parameters received while a SASL exchange is
    underway, up to the first complete response. *)
Fixpoint recv_all (pending : bytes) (params : list bytes) : option (bytes * option bytes) :=
  match params with
  | [] => Some (pending, None)
  | p :: ps =>
      match recv_chunk pending p with
      | Some (pending', None) => recv_all pending' ps
      | r => match ps with [] => r | _ => None end
      end
  end.
