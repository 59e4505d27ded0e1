(** Model of the copy of log files to a database (contrib/migrate-logs/main.go), to
    SQLite (Model/Sql.v).

    Simplifications: opening and reading files does not fail, and there are only folders
    where folders are expected; lines are not longer than the 64 KiB of the scanner; the
    local time zone is UTC (as in Model/FsStore.v); numbers in file names have all their
    digits (Sscanf also takes fewer); the command line and the log are left out. *)
From Verif.Base Require Import Bytes.
From Verif.Model Require Import Message TimeFmt ZncLog FsStore LogPath Sql SqlQuery.
From Coq Require Import ZArith NArith.

(** The folder of a network: the folders of targets with their files, in the order in
    which the file system lists them. *)
Definition folder := list (bytes * list (bytes * bytes)).

(** sort.Strings (main.go:75). *)
Fixpoint place (x : bytes * bytes) (l : list (bytes * bytes)) : list (bytes * bytes) :=
  match l with
  | [] => [x]
  | y :: l' => if text_ltb (fst y) (fst x) then y :: place x l' else x :: l
  end.
Definition by_name (l : list (bytes * bytes)) : list (bytes * bytes) := fold_right place [] l.

(** main.go:80-85: the day of a file, with the normalisation of time.Date; what
    follows ".log" does not matter to Sscanf. *)
Definition entry_day (name : bytes) : option Z :=
  match take_num 4 "-" name with None => None | Some (y, s) =>
  match take_num 2 "-" s with None => None | Some (m, s) =>
  match take_num 2 "." s with None => None | Some (d, s) =>
  match after_prefix (B "log") s with None => None | Some _ =>
    Some (days_of_civil (y + (m - 1) / 12) ((m - 1) mod 12 + 1) d)%Z
  end end end end.

(** reader.go:150-163: the message made of a line, at time [t]. *)
Definition log_message (m : log_msg) (t : Z) : message :=
  Message [(B "time", format_time t)] (Some (lm_prefix m)) (lm_command m) (lm_params m).

(** main.go:92-103: the lines of a file; None for a line that cannot be read. *)
Fixpoint read_lines (own target : bytes) (day : Z) (ls : list bytes) : option (list message) :=
  match ls with
  | [] => Some []
  | l :: ls =>
    match fs_parse own target true l with
    | None => None
    | Some None => read_lines own target day ls
    | Some (Some (m, tod)) =>
      match read_lines own target day ls with None => None | Some r => Some (log_message m (day_start day + tod)%Z :: r) end
    end
  end.

(** A loop whose body may end the program (log.Fatalf). *)
Fixpoint loop {A} (f : A -> db -> db * bool) (l : list A) (d : db) : db * bool :=
  match l with
  | [] => (d, true)
  | a :: l => let '(d, ok) := f a d in if ok then loop f l d else (d, false)
  end.

(** database.go:207-215 (GetNick). *)
Definition log_nick (u : guser) (n : gnet) : bytes :=
  match gn_nick n with [] => match gu_nick u with [] => gu_username u | x => x end | x => x end.

(** database.go:180-185 (GetName). *)
Definition log_name (n : gnet) : bytes := match gn_name n with [] => gn_addr n | x => x end.

Section Copy.
(** irc.Message.String; time.Now; the folders of users and networks. *)
Variable raw_of : message -> bytes.
Variable now : Z.
Variable root : bytes -> bytes -> option folder.

(** main.go:77-110: a file. *)
Definition copy_entry (own : bytes) (net : N) (target : bytes) (e : bytes * bytes) (d : db) : db * bool :=
  match entry_day (fst e) with
  | None => (d, false)
  | Some day =>
    match read_lines own target day (scan_lines (snd e)) with
    | None => (d, false)
    | Some ms => match store_messages raw_of net target now ms d with None => (d, false) | Some (d', _) => (d', true) end
    end
  end.

(** main.go:60-111: a target, under the name of its folder. *)
Definition copy_target (own : bytes) (net : N) (t : bytes * list (bytes * bytes)) (d : db) : db * bool :=
  loop (copy_entry own net (fst t)) (by_name (snd t)) d.

(** main.go:40-113 (migrateNetwork). *)
Definition copy_network (u : guser) (n : gnet) (d : db) : db * bool :=
  match root (escape_filename (gu_username u)) (escape_filename (log_name n)) with
  | None => (d, true)
  | Some f => loop (copy_target (log_nick u n) (gn_id n)) f d
  end.

(** main.go:134-152, for the users that are listed. *)
Definition copy_logs (users : list guser) (d : db) : db * bool :=
  loop (fun u d => loop (copy_network u) (list_networks (gu_id u) d) d) users d.
End Copy.
