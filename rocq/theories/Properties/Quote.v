(** C117: quoted commands. *)
From Verif.Base Require Import Bytes.
From Verif.Model Require Import Message Robust Lines Quote.
From Verif.Spec Require Import Lines Wire Quote.
From Verif.Proof Require Quote.

(** A command quoted for a connected network, by the name it is listed with, is read by
    the server of that network as one line with the same command and parameters (the
    command in capitals); nothing else is sent anywhere. For users none of whose networks
    is called like the address of another. *)
Theorem C117_named_partial : forall tags_of nets current i n name raw,
  listed_apart nets -> no_mixing nets -> nth_error nets i = Some n -> listed name n -> q_conn n = true -> command raw ->
  exists cmd ps m, words raw None = cmd :: ps /\ quote tags_of nets current [name; raw] = (SentCommand, [(i, m)]) /\
    words (format_message m) None = to_upper cmd :: ps /\ server_reads lenient (write_all [m]) [] = [format_message m].
Proof. exact Proof.Quote.quoted. Qed.
Print Assumptions C117_named_partial.

(** The same without a name, for the network the client is bound to. *)
Theorem C117_current : forall tags_of nets i n raw, nth_error nets i = Some n -> q_conn n = true -> command raw ->
  exists cmd ps m, words raw None = cmd :: ps /\ quote tags_of nets (Some i) [raw] = (SentCommand, [(i, m)]) /\
    words (format_message m) None = to_upper cmd :: ps /\ server_reads lenient (write_all [m]) [] = [format_message m].
Proof. exact Proof.Quote.current_one. Qed.
Print Assumptions C117_current.

(** Whatever the command line: at most one message is sent, to a network that is
    connected; it goes by the name that was given, or it is the one the client is bound
    to and no name was given, or an empty one or one with a dash. *)
Theorem C117_one_network : forall tags_of nets current params e sent i m,
  quote tags_of nets current params = (e, sent) -> In (i, m) sent ->
  sent = [(i, m)] /\ e = SentCommand /\ exists n, nth_error nets i = Some n /\ q_conn n = true /\
  match params with
  | [_] => current = Some i
  | [name; _] => q_addr n = name \/ q_name n = name \/ (current = Some i /\ (name = [] \/ exists r, name = "-"%char :: r))
  | _ => False
  end.
Proof. exact Proof.Quote.nowhere_else. Qed.
Print Assumptions C117_one_network.

(** ** A case *)

Definition ex_nets : list qnet := [QNet (B "libera") (B "irc.libera.chat") true true; QNet [] (B "irc.oftc.net") true false; QNet (B "home") (B "irc.libera.chat") false false].
Definition ex_raw : bytes := B "privmsg  #soju :hello  there".

Example C117_nonvacuous : listed_apart ex_nets /\ no_mixing ex_nets /\ command ex_raw /\ listed (B "irc.oftc.net") (QNet [] (B "irc.oftc.net") true false) /\
  quote (fun _ => []) ex_nets (Some 0) [B "irc.oftc.net"; ex_raw] = (SentCommand, [(1, Message [] None (B "PRIVMSG") [B "#soju"; B "hello  there"])]) /\
  words ex_raw None = [B "privmsg"; B "#soju"; B "hello  there"] /\
  quote (fun _ => []) ex_nets (Some 0) [B "home"; ex_raw] = (NotConnected, []) /\ quote (fun _ => []) ex_nets (Some 0) [B "efnet"; ex_raw] = (UnknownNetwork, []) /\
  quote (fun _ => []) ex_nets (Some 0) [ex_raw] = (SentCommand, [(0, Message [] None (B "PRIVMSG") [B "#soju"; B "hello  there"])]).
Proof.
  split; [split|].
  - intros i j a b name Ha Hb La Lb. unfold ex_nets in *.
    destruct i as [|[|[|i]]]; [| | |destruct i; discriminate Ha]; injection Ha as <-; (destruct j as [|[|[|j]]]; [| | |destruct j; discriminate Hb]); injection Hb as <-; try reflexivity; exfalso;
      destruct La as [[La La']|[La La']]; try discriminate La; subst name; try (exact (La' eq_refl)); destruct Lb as [[Lb Lb']|[Lb Lb']]; try discriminate Lb; try discriminate Lb'; exact (Lb' eq_refl).
  - intros n name r [<-|[<-|[<-|[]]]] [[L L']|[L L']]; try discriminate L; subst name; try (exfalso; exact (L' eq_refl)); split; discriminate.
  - split.
    + intros i j a b Ha Hb L. unfold ex_nets in *.
      destruct i as [|[|[|i]]]; [| | |destruct i; discriminate Ha]; injection Ha as <-; (destruct j as [|[|[|j]]]; [| | |destruct j; discriminate Hb]); injection Hb as <-; try reflexivity; exfalso;
        destruct L as [[L L']|[L L']]; try discriminate L; discriminate L'.
    + split; [|split; [right; split; reflexivity|vm_compute; auto 10]].
      split; [do 2 eexists; split; [reflexivity|]; cbn; intuition discriminate|]. split; cbn; intuition discriminate.
Qed.

(** ** What goes wrong *)

(** A network without a name is listed by its address; if an earlier network has the same
    address, commands quoted for the one go to the other. *)
Theorem C117_mixed_refuted : exists nets i j n name raw m, listed_apart nets /\ nth_error nets i = Some n /\ listed name n /\ q_conn n = true /\ command raw /\
  quote (fun _ => []) nets (Some i) [name; raw] = (SentCommand, [(j, m)]) /\ j <> i.
Proof.
  exists [QNet (B "libera") (B "irc.libera.chat") true true; QNet [] (B "irc.libera.chat") true true], 1, 0. eexists. exists (B "irc.libera.chat"), (B "QUIT"). eexists.
  split; [split|].
  - intros i j a b name Ha Hb La Lb.
    destruct i as [|[|i]]; [| |destruct i; discriminate Ha]; injection Ha as <-; (destruct j as [|[|j]]; [| |destruct j; discriminate Hb]); injection Hb as <-; try reflexivity; exfalso;
      destruct La as [[La La']|[La La']]; try discriminate La; subst name; try (exact (La' eq_refl)); destruct Lb as [[Lb Lb']|[Lb Lb']]; try discriminate Lb; try discriminate Lb'; exact (Lb' eq_refl).
  - intros n name r [<-|[<-|[]]] [[L L']|[L L']]; try discriminate L; subst name; try (exfalso; exact (L' eq_refl)); split; discriminate.
  - split; [reflexivity|]. split; [right; split; reflexivity|]. split; [reflexivity|]. split; [|split; [vm_compute; reflexivity|discriminate]].
    split; [do 2 eexists; split; [reflexivity|]; cbn; intuition discriminate|]. split; cbn; intuition discriminate.
Qed.
Print Assumptions C117_mixed_refuted.

(** A name that begins with a dash is ignored: the command goes to the network the client
    is bound to. *)
Theorem C117_dash_refuted : exists nets name m, (forall n, In n nets -> ~ listed name n /\ q_addr n <> name) /\ name <> [] /\
  quote (fun _ => []) nets (Some 0) [name; B "QUIT"] = (SentCommand, [(0, m)]).
Proof.
  exists [QNet (B "libera") (B "irc.libera.chat") true true], (B "-oftc"). eexists. split; [|split; [discriminate|vm_compute; reflexivity]].
  intros n [<-|[]]. split; [|discriminate]. intros [[L L']|[L L']]; discriminate L.
Qed.
Print Assumptions C117_dash_refuted.
