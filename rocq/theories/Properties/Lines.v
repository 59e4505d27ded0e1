(** C113: a message of a client is one line for the server. *)
From Verif.Base Require Import Bytes.
From Verif.Model Require Import Message Roster Robust ZncLog Lines.
From Verif.Spec Require Import Lines.
From Verif.Proof Require Lines.
From Coq Require Import ZArith.

(** Whatever a TCP client writes: the server reads as many lines as there are messages
    passed on, and these are the messages, each with the CR before its LF. *)
Theorem C113_tcp : forall tags_of stream, let ms := flat_map relay (read_tcp tags_of stream) in
  server_reads strict (write_all ms) [] = map (fun m => format_message m ++ ["013"%char]) ms.
Proof. exact Proof.Lines.one_line. Qed.
Print Assumptions C113_tcp.

(** The same for servers that end lines with CR too, if every CR the client writes is
    followed by LF. *)
Theorem C113_tcp_lenient_partial : forall tags_of stream, proper stream -> let ms := flat_map relay (read_tcp tags_of stream) in
  server_reads lenient (write_all ms) [] = map format_message ms.
Proof. exact Proof.Lines.one_line_lenient. Qed.
Print Assumptions C113_tcp_lenient_partial.

(** WebSocket clients, if no frame has a line end inside. *)
Theorem C113_websocket_partial : forall tags_of frames, Forall (fun f => ~ In "010"%char f) frames ->
  let ms := flat_map relay (read_websocket tags_of frames) in
  server_reads strict (write_all ms) [] = map (fun m => format_message m ++ ["013"%char]) ms.
Proof. exact Proof.Lines.one_line_frames. Qed.
Print Assumptions C113_websocket_partial.

(** One frame of a WebSocket client, taken for one message and passed on as one, can be
    any number of lines for the server; the limit of the rate counts one (C87). *)
Theorem C113_frame_refuted : forall tags_of n, exists frame m,
  read_websocket tags_of [frame] = [m] /\ length (relay m) = 1 /\ length (server_reads strict (write_all (relay m)) []) = S n.
Proof. intros tags_of n. exists (Proof.Lines.frame n). exact (Proof.Lines.many_lines tags_of n). Qed.
Print Assumptions C113_frame_refuted.

(** So a message to somebody can leave the server: the second line is a command. *)
Theorem C113_command_refuted : exists frame m, read_websocket (fun _ => []) [frame] = [m] /\
  relay m = [Message [] None (B "PRIVMSG") [B "bob"; B "hello" ++ "010"%char :: B "QUIT"]] /\
  server_reads lenient (write_all (relay m)) [] = [B "PRIVMSG bob hello"; B "QUIT"].
Proof. exists (B "PRIVMSG bob :hello" ++ "010"%char :: B "QUIT"). eexists. split; [vm_compute; reflexivity|]. split; vm_compute; reflexivity. Qed.
Print Assumptions C113_command_refuted.

(** The log of such a message (msgstore/fs.go, when the server does not echo messages:
    downstream.go:2490-2512) reads back as a message of somebody else, who never said it. *)
Theorem C113_log_refuted : exists frame m own other text, read_websocket (fun _ => []) [frame] = [m] /\ m_params m = [B "#c"; text] /\ other <> own /\
  let file := marshal_line (Prefix own [] []) (m_command m) (m_params m) 1 2 3 ++ ["010"%char] in
  map (unmarshal_line own (B "#c") false) (server_reads strict file []) =
    [Some (Some (LogMsg (Prefix own [] []) (B "PRIVMSG") [B "#c"; B "hi"], (1, 2, 3)%Z));
     Some (Some (LogMsg (Prefix other [] []) (B "PRIVMSG") [B "#c"; B "I owe you"], (1, 2, 4)%Z))].
Proof.
  exists (B "PRIVMSG #c :hi" ++ "010"%char :: B "[01:02:04] <alice> I owe you"). eexists. exists (B "bob"), (B "alice"). eexists.
  split; [vm_compute; reflexivity|]. split; [reflexivity|]. split; [discriminate|]. vm_compute. reflexivity.
Qed.
Print Assumptions C113_log_refuted.

(** The same over TCP with CR alone, for servers that end lines with it. *)
Theorem C113_cr_refuted : exists stream m, read_tcp (fun _ => []) stream = [m] /\ length (relay m) = 1 /\
  server_reads lenient (write_all (relay m)) [] = [B "PRIVMSG bob hello"; B "QUIT"].
Proof. exists (B "PRIVMSG bob :hello" ++ "013"%char :: B "QUIT" ++ ["013"; "010"]%char). eexists. split; [vm_compute; reflexivity|]. split; vm_compute; reflexivity. Qed.
Print Assumptions C113_cr_refuted.

(** A client that writes to two people, sends a command the bouncer does not know, and is
    cut off. *)
Example C113_nonvacuous :
  let stream := B "PRIVMSG bob,#c :hi there" ++ ["013"; "010"]%char ++ B "frobnicate a :b" ++ ["010"%char] ++ B "QUI" in
  let ms := flat_map relay (read_tcp (fun _ => []) stream) in
  proper stream /\ server_reads lenient (write_all ms) [] = [B "PRIVMSG bob :hi there"; B "PRIVMSG #c :hi there"; B "FROBNICATE a b"].
Proof.
  cbv zeta. split; [|vm_compute; reflexivity]. vm_compute.
  repeat match goal with |- _ /\ _ => split; [intros H; try discriminate H; eexists; reflexivity|] end. exact I.
Qed.
