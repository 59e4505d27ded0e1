(** C114: WebSocket clients are sent valid text. *)
From Verif.Base Require Import Bytes.
From Verif.Model Require Import Message Glob ValidText.
From Verif.Spec Require Import Glob ValidText.
From Verif.Proof Require ValidText.
From Coq Require Import NArith.

(** Whatever bytes a message has, its frame is UTF-8. *)
Theorem C114_valid : forall line, valid_text (frame_of line).
Proof. intros line. exact (Proof.ValidText.always_valid line). Qed.
Print Assumptions C114_valid.

(** A message that is UTF-8 is sent as it is. *)
Theorem C114_unchanged : forall line, valid_text line -> frame_of line = line.
Proof. intros line. exact (Proof.ValidText.unchanged line). Qed.
Print Assumptions C114_unchanged.

(** In general, the characters of the message, in their order, with one U+FFFD for every
    run of bytes that are none. There is only one way to read a text like this. *)
Theorem C114_mended : forall line, exists l, reads line l /\ (forall l', reads line l' -> l' = l) /\
  frame_of line = text_of (mended false l).
Proof.
  intros line. destruct (Proof.ValidText.valid_reads line) as (l & R & E). exists l. split; [exact R|]. split; [|exact E].
  intros l' R'. symmetry. exact (Proof.ValidText.reads_once _ _ R l' R').
Qed.
Print Assumptions C114_mended.

(** Whatever is ASCII stays as it is: commands, blanks, colons. *)
Theorem C114_ascii : forall line,
  filter (fun c => (code c <? 128)%N) (frame_of line) = filter (fun c => (code c <? 128)%N) line.
Proof. intros line. exact (Proof.ValidText.same_ascii line). Qed.
Print Assumptions C114_ascii.

(** A text with an umlaut, and one in Latin-1 with two of them. *)
Example C114_nonvacuous :
  frame_of (format_message (msg (B "PRIVMSG") [B "#c"; B "gr" ++ ["195"; "188"]%char ++ B "n is"])) = B "PRIVMSG #c :gr" ++ ["195"; "188"]%char ++ B "n is" /\
  valid_text (B "gr" ++ ["195"; "188"]%char ++ B "n") /\
  frame_of (format_message (msg (B "PRIVMSG") [B "#c"; B "gr" ++ ["252"; "246"]%char ++ B "n"])) = B "PRIVMSG #c gr" ++ ["239"; "191"; "189"]%char ++ B "n".
Proof.
  split; [vm_compute; reflexivity|]. split; [|vm_compute; reflexivity]. exists [103; 114; 252; 110]%N. split; [|vm_compute; reflexivity].
  repeat (constructor; [left; reflexivity|]). constructor.
Qed.
