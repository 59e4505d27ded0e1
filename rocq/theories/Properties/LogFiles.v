(** C104: logs follow their networks. *)
From Verif.Base Require Import Bytes.
From Verif.Model Require Import LogPath LogFiles.
From Verif.Proof Require LogFiles.
From Verif.Spec Require Import LogFiles.
From Coq Require Import NArith.

(** As long as no network takes a name another one had, the log of an entity of a
    network has what was logged there and nothing else, whatever was renamed or
    deleted in between, and whatever files were open. *)
Theorem C104_read_back_partial ops id entity day : own_names ops -> own_entity ops entity -> In id (networks ops) ->
  read (run ops) id entity day = concat (lines ops id entity day).
Proof. exact (Proof.LogFiles.read_back ops id entity day). Qed.
Print Assumptions C104_read_back_partial.

(** The ID of a message has the place of its line, for ever. *)
Theorem C104_ids_partial a b id entity day line : own_names (a ++ Append id entity day line :: b) -> own_entity (a ++ Append id entity day line :: b) entity -> In id (networks a) -> line <> [] ->
  exists off, snd (append (run a) id entity day line) = Some off /\
    (In id (networks (a ++ Append id entity day line :: b)) -> firstn (length line) (skipn (N.to_nat off) (read (run (a ++ Append id entity day line :: b)) id entity day)) = line).
Proof. exact (Proof.LogFiles.ids a b id entity day line). Qed.
Print Assumptions C104_ids_partial.

(** Never more than twenty files are open, and no line is lost because its file was
    closed. *)
Theorem C104_open ops : length (t_files (run ops)) <= 20 /\
  forall id entity day line, line <> [] -> get N.eqb id (t_nets (run ops)) <> None -> snd (append (run ops) id entity day line) <> None.
Proof.
  pose proof (Proof.LogFiles.files_run ops) as F. split; [exact (Proof.LogFiles.f_max _ F)|]. intros id e day line L G.
  destruct (get N.eqb id (t_nets (run ops))) as [n|] eqn:E; [|contradiction]. rewrite (Proof.LogFiles.append_eq _ id e day line n F E L). discriminate.
Qed.
Print Assumptions C104_open.

(** ** Names that are used again *)
Definition day : bytes := B "2024-01-02.log".
Definition say (id : N) (line : string) : op := Append id (B "#chat") day (B line).

(** A network gets the name another one had before it was renamed: its messages are
    written to the log of the other one. *)
Theorem C104_open_file_refuted : exists ops, NoDup (adds ops) /\ networks ops = [2; 1]%N /\
  lines ops 1 (B "#chat") day = [B "to one" ++ [nl]] /\ read (run ops) 1 (B "#chat") day = B "to one" ++ nl :: B "to two" ++ [nl] /\
  lines ops 2 (B "#chat") day = [B "to two" ++ [nl]] /\ read (run ops) 2 (B "#chat") day = [].
Proof.
  exists [Add 1 (B "libera"); say 1 "to one"; Rename 1 (B "old"); Add 2 (B "libera"); say 2 "to two"].
  split; [constructor; [intros [X|[]]; discriminate X|constructor; [intros []|constructor]]|]. split; [reflexivity|]. split; [|split; [|split]]; vm_compute; reflexivity.
Qed.
Print Assumptions C104_open_file_refuted.

(** A network is renamed to the name of a deleted one: its own log is not found any
    more, the log of the deleted one is. *)
Theorem C104_left_over_refuted : exists ops, NoDup (adds ops) /\ networks ops = [1]%N /\
  lines ops 1 (B "#chat") day = [B "mine" ++ [nl]] /\ read (run ops) 1 (B "#chat") day = B "theirs" ++ [nl].
Proof.
  exists [Add 2 (B "work"); say 2 "theirs"; Delete 2; Add 1 (B "libera"); say 1 "mine"; Rename 1 (B "work")].
  split; [constructor; [intros [X|[]]; discriminate X|constructor; [intros []|constructor]]|]. split; [reflexivity|]. split; vm_compute; reflexivity.
Qed.
Print Assumptions C104_left_over_refuted.

(** A network with the name of a deleted one has the log of that one. *)
Theorem C104_deleted_refuted : exists ops, NoDup (adds ops) /\ networks ops = [2]%N /\
  lines ops 2 (B "#chat") day = [] /\ read (run ops) 2 (B "#chat") day = B "theirs" ++ [nl].
Proof.
  exists [Add 1 (B "work"); say 1 "theirs"; Delete 1; Add 2 (B "work")].
  split; [constructor; [intros [X|[]]; discriminate X|constructor; [intros []|constructor]]|]. split; [reflexivity|]. split; vm_compute; reflexivity.
Qed.
Print Assumptions C104_deleted_refuted.

(** ** A case *)
Definition case_ops : list op :=
  [Add 1 (B "libera"); Add 2 (B "oftc"); say 1 "a"; say 2 "b"; Rename 1 (B "lib/chat"); say 1 "c"; Rename 1 (B "libera"); say 1 "d"; Rename 2 (B "o2"); Restart; say 2 "e"].
Example C104_nonvacuous : own_names case_ops /\ own_entity case_ops (B "#chat") /\ In 1%N (networks case_ops) /\
  lines case_ops 1 (B "#chat") day = [B "a" ++ [nl]; B "c" ++ [nl]; B "d" ++ [nl]] /\ read (run case_ops) 1 (B "#chat") day = B "a" ++ nl :: B "c" ++ nl :: B "d" ++ [nl] /\
  read (run case_ops) 2 (B "#chat") day = B "b" ++ nl :: B "e" ++ [nl].
Proof.
  split; [|split; [|split; [|split; [|split]]]]; [| | |vm_compute; reflexivity|vm_compute; reflexivity|vm_compute; reflexivity].
  - split; [constructor; [intros [X|[]]; discriminate X|constructor; [intros []|constructor]]|]. intros o1 o2 i1 i2 n1 n2 J1 J2 [E1|E1] [E2|E2] E; subst o1 o2;
    repeat (destruct J1 as [J1|J1]; [try discriminate J1; injection J1 as <- <-|]); try destruct J1;
    repeat (destruct J2 as [J2|J2]; [try discriminate J2; injection J2 as <- <-|]); try destruct J2; try reflexivity; vm_compute in E; discriminate E.
  - intros i e d l J E. repeat (destruct J as [J|J]; [try discriminate J; injection J as <- <- <- <-; reflexivity|]). destruct J.
  - right. left. reflexivity.
Qed.
