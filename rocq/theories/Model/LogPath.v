(** Model of the log file layout of msgstore/fs.go. *)
From Verif.Base Require Import Bytes Path.

(** msgstore/fs.go:27-35 (EscapeFilename). *)
Definition escape_char (c : ascii) : ascii :=
  if aeqb c "/" then "-"%char else if aeqb c "\" then "-"%char else c.

Definition escape_filename (unsafe : bytes) : bytes :=
  if beqb unsafe (B ".") then B "-"
  else if beqb unsafe (B "..") then B "--"
  else map escape_char unsafe.

(** fmt's %0nd verb on a natural number. *)
Definition zero_pad (n : nat) (x : N) : bytes :=
  repeat "0"%char (n - length (dec x)) ++ dec x.

(** msgstore/fs.go:105-111 (NewFSStore): the store's root directory. *)
Definition fs_root (root username : bytes) : bytes :=
  path_join [root; escape_filename username].

(** msgstore/fs.go:113-117 (logPath), for a time in year [y], month [m], day [d]
    of the local time zone. [netname] is network.GetName(). *)
Definition log_path (storeroot netname entity : bytes) (y m d : N) : bytes :=
  path_join [storeroot; escape_filename netname; escape_filename entity;
             zero_pad 4 y ++ B "-" ++ zero_pad 2 m ++ B "-" ++ zero_pad 2 d ++ B ".log"].
