(** Model of the files of the log directory (msgstore/fs.go): which files are open,
    and what becomes of them when networks are renamed (user.go:1146-1156). A path is
    the directory of the network, the one of the entity, and the name of the file of
    the day, below the directory of the user; Model/LogPath.v joins them. Parts of a
    path are not empty. The system calls do not fail unless a name exists already or
    does not. *)
From Verif.Base Require Import Bytes.
From Verif.Model Require Import LogPath.
Open Scope nat_scope.

Definition path := (bytes * bytes * bytes)%type.
Definition peqb (p q : path) : bool := let '(a, b, c) := p in let '(d, e, f) := q in beqb a d && beqb b e && beqb c f.

(** fs.go:76-79: an open file: the name it was opened with, the file, when it was
    used last. *)
Record handle := Handle { h_name : path; h_inode : N; h_use : N }.

(** [t_nets]: networks and their names; [t_tree]: the files of the file system;
    [t_data]: what is in them; [t_files]: open files by entity, fs.go:88-89. *)
Record st := St {
  t_nets : list (N * bytes);
  t_tree : list (path * N);
  t_data : N -> bytes;
  t_next : N;
  t_files : list (bytes * handle);
  t_clock : N
}.
Definition start : st := St [] [] (fun _ => []) 0 [] 0.

Fixpoint get {K V} (eqb : K -> K -> bool) (k : K) (l : list (K * V)) : option V :=
  match l with [] => None | (a, v) :: l => if eqb a k then Some v else get eqb k l end.
Definition del {K V} (eqb : K -> K -> bool) (k : K) (l : list (K * V)) : list (K * V) := filter (fun x => negb (eqb (fst x) k)) l.

(** fs.go:23. *)
Definition max_files : nat := 20.

Definition nl : ascii := "010"%char.
(** fs.go:113-117. *)
Definition log_file (name entity day : bytes) : path := (escape_filename name, escape_filename entity, day).

(** fs.go:158-176: the open file of an entity, or the file of that path, made if it
    is not there. *)
Definition open (s : st) (entity : bytes) (p : path) : st * N :=
  match get beqb entity (t_files s) with
  | Some h => if peqb (h_name h) p then (s, h_inode h) else
      match get peqb p (t_tree s) with
      | Some i => (s, i)
      | None => (St (t_nets s) ((p, t_next s) :: t_tree s) (t_data s) (t_next s + 1)%N (t_files s) (t_clock s), t_next s)
      end
  | None =>
      match get peqb p (t_tree s) with
      | Some i => (s, i)
      | None => (St (t_nets s) ((p, t_next s) :: t_tree s) (t_data s) (t_next s + 1)%N (t_files s) (t_clock s), t_next s)
      end
  end.

(** fs.go:181-195: the files used longest ago are closed. *)
Fixpoint oldest (l : list (bytes * handle)) : option (bytes * handle) :=
  match l with
  | [] => None
  | x :: l => match oldest l with None => Some x | Some y => if (h_use (snd x) <? h_use (snd y))%N then Some x else Some y end
  end.
Fixpoint close (n : nat) (l : list (bytes * handle)) : list (bytes * handle) :=
  match n with
  | O => l
  | S n => match oldest l with None => l | Some x => close n (del beqb (fst x) l) end
  end.

(** fs.go:139-208 (Append), after the line has been made: the state, and the offset
    in the ID of the message. Writing to a file that was closed fails. *)
Definition append (s : st) (id : N) (entity day line : bytes) : st * option N :=
  match get N.eqb id (t_nets s), line with
  | None, _ => (s, None)
  | _, [] => (s, None)
  | Some name, _ =>
      let p := log_file name entity day in
      let (s, i) := open s entity p in
      let files := (entity, Handle p i (t_clock s)) :: del beqb entity (t_files s) in
      let files := close (length files - max_files) files in
      match get beqb entity files with
      | None => (St (t_nets s) (t_tree s) (t_data s) (t_next s) files (t_clock s + 1)%N, None)
      | Some _ =>
          (St (t_nets s) (t_tree s) (fun j => if N.eqb j i then t_data s i ++ line ++ [nl] else t_data s j) (t_next s) files (t_clock s + 1)%N,
           Some (N.of_nat (length (t_data s i))))
      end
  end.

(** fs.go:547-555 (RenameNetwork); the error is only logged, user.go:1151-1155. *)
Definition in_dir (d : bytes) (x : path * N) : bool := beqb (fst (fst (fst x))) d.
Definition move (old new : bytes) (x : path * N) : path * N :=
  if in_dir old x then ((new, snd (fst (fst x)), snd (fst x)), snd x) else x.
Definition rename (old new : bytes) (tree : list (path * N)) : list (path * N) :=
  if existsb (in_dir new) tree then tree else map (move old new) tree.

(** What readers open, fs.go:246, 294, 358, 423. *)
Definition read (s : st) (id : N) (entity day : bytes) : bytes :=
  match get N.eqb id (t_nets s) with
  | None => []
  | Some name => match get peqb (log_file name entity day) (t_tree s) with Some i => t_data s i | None => [] end
  end.

(** Networks are made, changed and removed (user.go:1056-1195); names are unique,
    1048-1052. [Restart]: the store is closed and made anew. *)
Inductive op := Add (id : N) (name : bytes) | Rename (id : N) (name : bytes) | Delete (id : N) | Append (id : N) (entity day line : bytes) | Restart.
Definition taken (s : st) (id : N) (name : bytes) : bool := existsb (fun x => beqb (snd x) name && negb (N.eqb (fst x) id)) (t_nets s).
Definition step (s : st) (o : op) : st :=
  match o with
  | Add id name =>
      match get N.eqb id (t_nets s) with
      | Some _ => s
      | None => if taken s id name then s else St ((id, name) :: t_nets s) (t_tree s) (t_data s) (t_next s) (t_files s) (t_clock s)
      end
  | Rename id name =>
      match get N.eqb id (t_nets s) with
      | None => s
      | Some old =>
          if taken s id name then s
          else if beqb old name then s
          else St ((id, name) :: del N.eqb id (t_nets s)) (rename (escape_filename old) (escape_filename name) (t_tree s)) (t_data s) (t_next s) (t_files s) (t_clock s)
      end
  | Delete id => St (del N.eqb id (t_nets s)) (t_tree s) (t_data s) (t_next s) (t_files s) (t_clock s)
  | Append id entity day line => fst (append s id entity day line)
  | Restart => St (t_nets s) (t_tree s) (t_data s) (t_next s) [] (t_clock s)
  end.
Definition run (ops : list op) : st := fold_left step ops start.
