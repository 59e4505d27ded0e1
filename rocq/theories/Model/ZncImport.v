(** Model of contrib/znc-import: the parser of ZNC configuration files, and what is written to the database. *)
From Verif.Base Require Import Bytes.
From Verif.Model Require Import Sql.
From Verif.Model Require Glob Words Addr.
From Coq Require Import ZArith NArith.
Open Scope nat_scope.

(** contrib/znc-import/main.go:266-271, 281 (zncSection, zncValues). The map of values is the list of what was
    appended, in order. *)
Inductive znc := Znc (typ name : bytes) (values : list (bytes * bytes)) (children : list znc).
Definition z_type s := match s with Znc t _ _ _ => t end.
Definition z_name s := match s with Znc _ n _ _ => n end.
Definition z_values s := match s with Znc _ _ v _ => v end.
Definition z_children s := match s with Znc _ _ _ c => c end.

(** main.go:283-288 (Get). *)
Fixpoint get (vs : list (bytes * bytes)) (k : bytes) : bytes :=
  match vs with [] => [] | (k', v) :: vs' => if beqb k' k then v else get vs' k end.

(** main.go:273-279 (ForEach): what the function is called on. *)
Definition of_type (typ : bytes) (s : znc) : list znc := filter (fun c => beqb (z_type c) typ) (z_children s).

(** ** The parser (main.go:290-463). A reader is what is left to read; lines are not counted. *)

Definition nl : ascii := "010"%char.

(** main.go:367-381 (skipSpace). Bytes that are not UTF-8 are read as U+FFFD, which is no space. *)
Fixpoint skip_space (fuel : nat) (s : bytes) : bytes :=
  match fuel, s with
  | S f, _ :: _ => let '(r, t) := Glob.rune s in if Words.is_space r then skip_space f t else s
  | _, _ => s
  end.
Definition skip_spaces (s : bytes) : bytes := skip_space (length s) s.

(** main.go:383-403 (skipComment), after the slashes. *)
Fixpoint skip_comment (s : bytes) : bytes :=
  match s with [] => [] | b :: s' => if aeqb b nl then s' else skip_comment s' end.

(** main.go:446-463 (readWord); None is an error. *)
Fixpoint read_word (delim : ascii) (s : bytes) : option (bytes * bytes) :=
  match s with
  | [] => None
  | b :: s' =>
      if aeqb b delim then Some ([], s')
      else if aeqb b nl then None
      else match read_word delim s' with None => None | Some (w, t) => Some (b :: w, t) end
  end.

(** The code points of a text, with their bytes. *)
Fixpoint runes (fuel : nat) (s : bytes) : list (N * bytes) :=
  match fuel, s with
  | S f, _ :: _ => let '(r, t) := Glob.rune s in (r, firstn (length s - length t) s) :: runes f t
  | _, _ => []
  end.
Definition points (s : bytes) : list (N * bytes) := runes (length s) s.

(** strings.TrimSpace. *)
Fixpoint drop_space (l : list (N * bytes)) : list (N * bytes) :=
  match l with [] => [] | p :: l' => if Words.is_space (fst p) then drop_space l' else l end.
Definition trim (s : bytes) : bytes := flat_map snd (rev (drop_space (rev (drop_space (points s))))).

(** strings.Fields. *)
Fixpoint split_space (l : list (N * bytes)) (w : bytes) : list bytes :=
  match l with
  | [] => match w with [] => [] | _ => [w] end
  | p :: l' =>
      if Words.is_space (fst p) then match w with [] => split_space l' [] | _ => w :: split_space l' [] end
      else split_space l' (w ++ snd p)
  end.
Definition fields (s : bytes) : list bytes := split_space (points s) [].

(** main.go:427-434 (keyValuePair). *)
Definition key_value (s : bytes) : option (bytes * bytes * bytes) :=
  match read_word "=" s with
  | None => None
  | Some (k, s1) => match read_word nl s1 with None => None | Some (v, s2) => Some (trim k, trim v, s2) end
  end.

(** main.go:405-415 (sectionHeader), 417-425 (sectionFooter), after what [body] has looked at. *)
Definition header (s : bytes) : option (bytes * bytes * bytes) :=
  match read_word " " s with
  | None => None
  | Some (t, s1) => match read_word ">" s1 with None => None | Some (n, s2) => Some (t, n, s2) end
  end.
Definition footer (s : bytes) : option (bytes * bytes) :=
  match s with
  | a :: b :: s' => if aeqb a "<" && aeqb b "/" then read_word ">" s' else None
  | _ => None
  end.

(** main.go:311-365 (sectionBody), with the values and children so far. With less than two bytes left the section
    ends (320-322). [fuel] bounds the rounds: each one reads at least a byte. *)
Fixpoint body (fuel : nat) (s : bytes) (vs : list (bytes * bytes)) (ks : list znc)
  : option (list (bytes * bytes) * list znc * bytes) :=
  match fuel with
  | O => None
  | S f =>
    match skip_spaces s with
    | a :: ((b :: t) as s') =>
        if aeqb a "<" then
          if aeqb b "/" then Some (vs, ks, a :: s')
          else
            match header s' with
            | None => None
            | Some (typ, name, s1) =>
              match body f s1 [] [] with
              | None => None
              | Some (vs1, ks1, s2) =>
                match footer s2 with
                | None => None
                | Some (typ', s3) => if beqb typ' typ then body f s3 vs (ks ++ [Znc typ name vs1 ks1]) else None
                end
              end
            end
        else if aeqb a "/" && aeqb b "/" then body f (skip_comment t) vs ks
        else match key_value (a :: s') with None => None | Some (k, v, s1) => body f s1 (vs ++ [(k, v)]) ks end
    | r => Some (vs, ks, r)
    end
  end.

(** main.go:79-83. *)
Definition parse (s : bytes) : option znc :=
  match body (S (length s)) s [] [] with None => None | Some (vs, ks, _) => Some (Znc [] [] vs ks) end.

(** ** Addresses of servers *)

(** net/url: escape of a host. *)
Definition hex_digit (n : N) : ascii := ascii_of_N (if (n <? 10)%N then 48 + n else 55 + n)%N.
Definition escape_host (h : bytes) : bytes :=
  flat_map (fun c => if Addr.host_char c && (code c <? 128)%N then [c]
                     else ["%"%char; hex_digit (code c / 16); hex_digit (code c mod 16)]) h.

(** main.go:241-264 (importNetworkServer), with u.String() of 182: the address and the password. *)
Definition import_server (s : bytes) : option (bytes * bytes) :=
  match fields s with
  | host :: port :: rest =>
      let '(scheme, port) := match port with
                             | c :: p => if aeqb c "+" then (B "ircs", p) else (B "irc+insecure", port)
                             | [] => (B "irc+insecure", port)
                             end in
      Some (scheme ++ B "://" ++ escape_host (host ++ B ":" ++ port), match rest with [] => [] | p :: _ => p end)
  | _ => None
  end.

(** ** The import *)

(** database/database.go:102-108 (NewUser), main.go:216; a new network is in [import_net] (database.go:172-178). *)
Definition new_user (name : bytes) : guser := GUser 0 name [] [] [] false true 0 (-1).
Definition new_channel (name : bytes) : gchan := GChan 0 name [] false [] 0 0 0 0.

(** database/database.go:180-185 (GetName). *)
Definition net_name (n : gnet) : bytes := match gn_name n with [] => gn_addr n | _ => gn_name n end.

(** database/sqlite.go:344-376 (ListUsers). *)
Fixpoint load_users (l : list user_row) : option (list guser) :=
  match l with
  | [] => Some []
  | r :: l' => match load_user r, load_users l' with Some u, Some us => Some (u :: us) | _, _ => None end
  end.

(** A map filled from a list: later entries replace earlier ones (main.go:89-92, 125-128, 197-200). *)
Definition lookup {A} (name : A -> bytes) (l : list A) (k : bytes) : option A :=
  find (fun x => beqb (name x) k) (rev l).

(** Sections one after the other, until log.Fatal (false). What was written before stays. *)
Fixpoint each (f : znc -> db -> db * bool) (l : list znc) (d : db) : db * bool :=
  match l with
  | [] => (d, true)
  | s :: l' => let '(d', ok) := f s d in if ok then each f l' d' else (d', false)
  end.

Definition is_true (s : znc) (k : bytes) : bool := beqb (get (z_values s) k) (B "true").

(** main.go:202-226. Channels that cannot be stored are logged. *)
Definition import_chan (l : list gchan) (net : N) (s : znc) (d : db) : db * bool :=
  if is_true s (B "Disabled") then (d, true)
  else
    let c := match lookup gc_name l (z_name s) with Some c => c | None => new_channel (z_name s) end in
    let c := GChan (gc_id c) (gc_name c) (get (z_values s) (B "Key")) (is_true s (B "Detached")) (gc_dmsgid c)
               (gc_relay c) (gc_reattach c) (gc_after c) (gc_on c) in
    match store_channel net c d with Some (d', _) => (d', true) | None => (d, true) end.

(** main.go:144-155. *)
Definition own (s u : znc) (k : bytes) : bytes :=
  match get (z_values s) k with [] => get (z_values u) k | v => v end.

(** main.go:100, 136: without names, all; the flags are sets. *)
Definition wanted (names : list bytes) (name : bytes) : bool :=
  match names with [] => true | _ => bmem name names end.

Section Import.
  (** The flags -user and -network, and when a user is created. *)
  Variables users networks : list bytes.
  Variable now : bytes -> Z.

  (** main.go:134-227. The warnings of 157-166 are not modelled. Structures in the maps are changed in place: a
      second section of the same name starts from what the first one left, but it sets the same fields. *)
  Definition import_net (l : list gnet) (user : N) (u s : znc) (d : db) : db * bool :=
    if negb (wanted networks (z_name s)) then (d, true)
    else
      match import_server (get (z_values s) (B "Server")) with
      | None => (d, false)
      | Some (addr, pass) =>
        let n := match lookup net_name l (z_name s) with
                 | Some n => n
                 | None => GNet 0 (z_name s) [] [] [] [] [] [] [] [] [] [] None None true true
                 end in
        let n := GNet (gn_id n) (gn_name n) addr (own s u (B "Nick")) (own s u (B "Ident")) (own s u (B "RealName")) pass
                   (gn_cmds n) (gn_certfp n) (gn_mech n) (gn_puser n) (gn_ppass n) (gn_cert n) (gn_key n) (gn_away n)
                   (negb (beqb (get (z_values s) (B "IRCConnectEnabled")) (B "false"))) in
        match store_network user n d with
        | None => (d, false)
        | Some (d1, id) => each (import_chan (list_channels id d1) id) (of_type (B "Chan") s) d1
        end
      end.

  (** main.go:98-228. *)
  Definition import_user (l : list guser) (s : znc) (d : db) : db * bool :=
    if negb (wanted users (z_name s)) then (d, true)
    else
      let u := match lookup gu_username l (z_name s) with Some u => u | None => new_user (z_name s) end in
      let u := GUser (gu_id u) (gu_username u) (gu_password u) (gu_nick u) (gu_realname u) (is_true s (B "Admin"))
                 (gu_enabled u) (gu_interacted u) (gu_max u) in
      match store_user (now (z_name s)) u d with
      | None => (d, false)
      | Some (d1, id) => each (import_net (list_networks id d1) id s) (of_type (B "Network") s) d1
      end.

  (** main.go:79-228. *)
  Definition import_file (file : bytes) (d : db) : db * bool :=
    match parse file with
    | None => (d, false)
    | Some root =>
      match load_users (d_users d) with
      | None => (d, false)
      | Some l => each (import_user l) (of_type (B "User") root) d
      end
    end.
End Import.
