(** Property C16. *)
From Verif.Base Require Import Bytes Path.
From Verif.Model Require Import LogPath.
From Verif.Spec Require Import LogPath.
From Verif.Proof Require LogPath.

(** C16: whatever the names, a log file lies below the configured directory:
    its path is the canonical path of that directory followed by ordinary names. *)
Theorem C16_log_path_below_root :
  forall root user net entity y m d,
    below (clean root) (log_path (fs_root root user) net entity y m d).
Proof. exact Proof.LogPath.log_path_below_root. Qed.
Print Assumptions C16_log_path_below_root.

(** C16: names without slashes and backslashes, and other than "." and "..",
    never share a log file. *)
Theorem C16_log_paths_distinct_partial :
  forall root u1 n1 e1 y1 m1 d1 u2 n2 e2 y2 m2 d2,
    plain u1 -> plain n1 -> plain e1 -> plain u2 -> plain n2 -> plain e2 ->
    log_path (fs_root root u1) n1 e1 y1 m1 d1 = log_path (fs_root root u2) n2 e2 y2 m2 d2 ->
    u1 = u2 /\ n1 = n2 /\ e1 = e2 /\ y1 = y2 /\ m1 = m2 /\ d1 = d2.
Proof. exact Proof.LogPath.log_path_inj. Qed.
Print Assumptions C16_log_paths_distinct_partial.

(** In general escaping merges targets: "#a/b" and "#a-b" share their logs. *)
Theorem C16_log_paths_distinct_refuted :
  exists e1 e2, e1 <> e2 /\ e1 <> [] /\ e2 <> [] /\
    forall root user net y m d,
      log_path (fs_root root user) net e1 y m d = log_path (fs_root root user) net e2 y m d.
Proof.
  exists (B "#a/b"), (B "#a-b"). split; [discriminate|]. split; [discriminate|]. split; [discriminate|].
  reflexivity.
Qed.
Print Assumptions C16_log_paths_distinct_refuted.

Example C16_nonvacuous :
  log_path (fs_root (B "/var/./log/x/..") (B "..")) (B "lib/../era") (B ".") 2024 3 7
    = B "/var/log/--/lib-..-era/-/2024-03-07.log" /\
  clean (B "/var/./log/x/..") = B "/var/log" /\
  log_path (fs_root (B "logs") (B "alice")) (B "libera") (B "#soju") 2024 12 31
    = B "logs/alice/libera/#soju/2024-12-31.log".
Proof. split; [|split]; vm_compute; reflexivity. Qed.
