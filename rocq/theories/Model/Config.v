(** Model of the configuration file (config/config.go:105-319), of what is made of it (cmd/soju/main.go:54-139) and of
    how it is reloaded (main.go:448-460), with what users and clients take from the running configuration at different
    times (user.go:543-565, downstream.go:391-399, 1590-1680, 2765-2780).
    The syntax of the file (go-scfg) is not modelled: what it is decoded to is an input. So are what files contain, the
    certificates read, the answers of OAuth servers and the number of days that a text denotes (strconv.ParseFloat). *)
From Coq Require Import NArith ZArith.
From Verif.Base Require Import Bytes.
From Verif.Model Require Import IPAddr Glob.

(** config.go:120-141: the decoded file; nothing or the empty text for what is not in it. *)
Record raw := Raw {
  r_listen : list bytes;
  r_hostname : bytes;
  r_title : bytes;
  r_motd : bytes;
  r_tls : option (bytes * bytes);
  r_db : option (bytes * bytes);
  r_store : option (list bytes);
  r_log : option (list bytes);
  r_auth : list (list bytes);
  r_upload : option (list bytes);
  r_origins : list bytes;
  r_ingress : bytes;
  r_proxies : list bytes;
  r_max : option Z;
  r_user_ips : list bytes;
  r_inactive : bytes;
  r_enable : bytes }.

(** config.go:75-96. *)
Record server := Server {
  s_listen : list bytes;
  s_tls : option (bytes * bytes);
  s_hostname : bytes;
  s_title : bytes;
  s_motd : bytes;
  s_db : bytes * bytes;
  s_store : bytes * bytes;
  s_auth : list (bytes * bytes);
  s_upload : option (bytes * bytes);
  s_origins : list bytes;
  s_ingress : bytes;
  s_proxies : list cidr;
  s_max : Z;
  s_user_ips : list cidr;
  s_inactive : Z;
  s_enable : bool }.

(** config.go:307-319 (parseDriverSource). *)
Definition driver_source (params : list bytes) : option (bytes * bytes) :=
  match params with
  | [d; s] => Some (d, s)
  | [d] => Some (d, [])
  | _ => None
  end.
(** The checks of drivers and sources: those that take no source, those that need one. *)
Definition check_driver (without needing : list bytes) (params : list bytes) : option (bytes * bytes) :=
  match driver_source params with
  | Some (d, s) =>
      if bmem d without then if beqb s [] then Some (d, s) else None
      else if bmem d needing then if beqb s [] then None else Some (d, s)
      else None
  | None => None
  end.
(** config.go:175-195, 200-218, 219-231. *)
Definition check_store : list bytes -> option (bytes * bytes) := check_driver [B "memory"; B "db"] [B "fs"].
Definition check_auth : list bytes -> option (bytes * bytes) := check_driver [B "internal"; B "pam"] [B "http"; B "oauth2"].
Definition check_upload : list bytes -> option (bytes * bytes) := check_driver [] [B "fs"; B "http"].
Fixpoint check_auths (l : list (list bytes)) : option (list (bytes * bytes)) :=
  match l with
  | [] => Some []
  | a :: l' => match check_auth a, check_auths l' with Some x, Some y => Some (x :: y) | _, _ => None end
  end.

(** strconv.ParseBool. *)
Definition parse_bool (s : bytes) : option bool :=
  if bmem s [B "1"; B "t"; B "T"; B "TRUE"; B "true"; B "True"] then Some true
  else if bmem s [B "0"; B "f"; B "F"; B "FALSE"; B "false"; B "False"] then Some false
  else None.

Section Load.
  (** os.Hostname; the nanoseconds of a number of days (strconv.ParseFloat, time.Duration). *)
  Variable system_host : bytes.
  Variable days : bytes -> option Z.

  (** config.go:43-53, 275-283 *)
  Definition parse_days (s : bytes) : option Z :=
    match rev s with
    | c :: x => if aeqb c "d" then days (rev x) else None
    | [] => None
    end.
  Definition check_inactive (s : bytes) : option Z :=
    match s with
    | [] => Some 0%Z
    | _ => match parse_days s with Some n => if (n <? 0)%Z then None else Some n | None => None end
    end.
  (** config.go:284-291 *)
  Definition check_enable (s : bytes) : option bool := match s with [] => Some false | _ => parse_bool s end.

  (** config.go:98-117 *)
  Definition defaults : server :=
    Server [] None system_host [] [] (B "sqlite3", B "soju.db") (B "memory", []) [(B "internal", [])] None [] (B "https://" ++ system_host)
      [] (-1)%Z [] 0%Z false.

  (** config.go:119-305, after the file is decoded. *)
  Definition load (r : raw) : option server :=
    let store := match r_store r with None => r_log r | x => x end in
    match (match store with None => Some (s_store defaults) | Some p => check_store p end),
          (match r_auth r with [] => Some (s_auth defaults) | l => check_auths l end),
          (match r_upload r with None => Some None | Some p => option_map Some (check_upload p) end),
          origins_ok (r_origins r),
          load_proxies (r_proxies r),
          load_user_ips (r_user_ips r) false false,
          check_inactive (r_inactive r),
          check_enable (r_enable r) with
    | Some st, Some au, Some up, true, Some pr, Some ui, Some ina, Some en =>
        let host := if beqb (r_hostname r) [] then s_hostname defaults else r_hostname r in
        Some (Server (r_listen r) (r_tls r) host (r_title r) (r_motd r)
                (match r_db r with Some x => x | None => s_db defaults end)
                st au up (r_origins r)
                (if beqb (r_ingress r) [] then B "https://" ++ host else r_ingress r)
                pr (match r_max r with Some n => n | None => (-1)%Z end) ui ina en)
    | _, _, _, _, _, _, _, _ => None
    end.
End Load.

(** auth/auth.go:24-55: who checks passwords and who checks tokens. *)
Inductive checker := Internal | Http (url : bytes) | Pam | Oauth (url : bytes).
Record auth := Auth { a_plain : option checker; a_token : option bytes }.

(** server.go:138-160 (Config), made of a [server]. *)
Record config := Config {
  c_server : server;        (* the fields that are copied *)
  c_motd : bytes;
  c_auth : auth;
  c_uploader : option (bytes * bytes) }.

(** What is read apart from the configuration file, at one time. *)
Record world := World {
  w_raw : option raw;                                (* the decoded file; None: it cannot be read or decoded *)
  w_file : bytes -> option bytes;
  w_new_auth : bytes -> bytes -> bool;               (* auth.New succeeds: PAM was built in, the OAuth server answers *)
  w_cert : bytes * bytes -> option bytes }.          (* tls.LoadX509KeyPair *)

(** auth/auth.go:41-55 (New): the methods that a driver has. *)
Definition new_auth (ok : bytes -> bytes -> bool) (d s : bytes) : option auth :=
  if beqb d (B "internal") then Some (Auth (Some Internal) None)
  else if beqb d (B "http") then Some (Auth (Some (Http s)) None)
  else if beqb d (B "oauth2") then if ok d s then Some (Auth None (Some s)) else None
  else if beqb d (B "pam") then if ok d s then Some (Auth (Some Pam) None) else None
  else None.
(** main.go:79-97 *)
Fixpoint add_auths (ok : bytes -> bytes -> bool) (l : list (bytes * bytes)) (a : auth) : option auth :=
  match l with
  | [] => Some a
  | (d, s) :: l' =>
      match new_auth ok d s with
      | None => None
      | Some x =>
          match a_plain x, a_plain a, a_token x, a_token a with
          | Some _, Some _, _, _ => None
          | _, _, Some _, Some _ => None
          | p, q, t, u =>
              add_auths ok l' (Auth (match p with Some _ => p | None => q end) (match t with Some _ => t | None => u end))
          end
      end
  end.
(** main.go:98-102 *)
Definition load_auth (ok : bytes -> bytes -> bool) (l : list (bytes * bytes)) : option auth :=
  match add_auths ok l (Auth None None) with
  | Some (Auth None (Some u)) => Some (Auth (Some (Oauth u)) (Some u))
  | x => x
  end.

(** strings.TrimSuffix(s, "\n") *)
Definition newline : ascii := ascii_of_N 10.
Definition trim_newline (s : bytes) : bytes :=
  match rev s with c :: x => if aeqb c newline then rev x else s | [] => s end.

(** fileupload/fileupload.go:88-99 (New) *)
Definition new_uploader (p : bytes * bytes) : option (bytes * bytes) :=
  if bmem (fst p) [B "fs"; B "http"] then Some p else None.

Section Reload.
  Variable system_host : bytes.
  Variable days : bytes -> option Z.

  (** main.go:54-139 (loadConfig), of a file; the certificate kept in a variable of the process changes on the way. *)
  Definition load_config (w : world) (cert : option bytes) : option config * option bytes :=
    match match w_raw w with Some r => load system_host days r | None => None end with
    | None => (None, cert)
    | Some s =>
        match (match s_motd s with [] => Some [] | f => option_map trim_newline (w_file w f) end) with
        | None => (None, cert)
        | Some motd =>
            match load_auth (w_new_auth w) (s_auth s) with
            | None => (None, cert)
            | Some a =>
                match (match s_tls s with None => Some cert | Some p => option_map Some (w_cert w p) end) with
                | None => (None, cert)
                | Some cert' =>
                    match (match s_upload s with None => Some None | Some p => option_map Some (new_uploader p) end) with
                    | None => (None, cert')
                    | Some up => (Some (Config s motd a up), cert')
                    end
                end
            end
        end
    end.

  (** The process: what listeners and the database were opened from, the running configuration, the certificate, and
      the message store of each running user. *)
  Record proc := Proc {
    p_listen : list bytes;
    p_tls : bool;
    p_db : bytes * bytes;
    p_config : config;
    p_cert : option bytes;
    p_users : list (bytes * (bytes * bytes)) }.

  Inductive op :=
  | Hup (w : world)
  | StartUser (name : bytes)      (* created, or enabled again *)
  | StopUser (name : bytes)
  | Connect (name : bytes) (chathistory : bool).  (* a client of that user; it enables draft/chathistory if offered, or not *)

  (** Whether a driver can be asked for history (msgstore.ChatHistoryStore). *)
  Definition can_history (driver : bytes) : bool := bmem driver [B "fs"; B "db"].
  (** downstream.go:395-399 *)
  Definition offered (c : config) : bool := can_history (fst (s_store (c_server c))).

  (** How a client gets what its user missed: played back when it joins (downstream.go:1613, 1663), asked for by
      CHATHISTORY (2770-2778), or neither. *)
  Inductive backlog := Played | Asked | Lost.
  Definition backlog_of (enabled : bool) (driver : bytes) : backlog :=
    if enabled then if can_history driver then Asked else Lost else Played.

  Fixpoint lookup {A} (n : bytes) (l : list (bytes * A)) : option A :=
    match l with [] => None | (k, v) :: l' => if beqb k n then Some v else lookup n l' end.
  Definition remove {A} (n : bytes) (l : list (bytes * A)) : list (bytes * A) := filter (fun kv => negb (beqb (fst kv) n)) l.

  (** main.go:145-160, 227-240; user.go:543-565 (newUser), for the users of the database. *)
  Definition start (flags : list bytes) (names : list bytes) (w : world) : option proc :=
    match load_config w None with
    | (Some c, cert) =>
        let s := c_server c in
        let l := s_listen s ++ flags in
        Some (Proc (match l with [] => [B ":6697"] | _ => l end) (match s_tls s with Some _ => true | None => false end) (s_db s) c cert
                (map (fun n => (n, s_store s)) names))
    | (None, _) => None
    end.
  Definition step (p : proc) (o : op) : proc * option backlog :=
    match o with
    | Hup w =>
        let '(c, cert) := load_config w (p_cert p) in
        (Proc (p_listen p) (p_tls p) (p_db p) (match c with Some c => c | None => p_config p end) cert (p_users p), None)
    | StartUser n =>
        (match lookup n (p_users p) with
         | Some _ => p
         | None => Proc (p_listen p) (p_tls p) (p_db p) (p_config p) (p_cert p) ((n, s_store (c_server (p_config p))) :: p_users p)
         end, None)
    | StopUser n => (Proc (p_listen p) (p_tls p) (p_db p) (p_config p) (p_cert p) (remove n (p_users p)), None)
    | Connect n want => (p, option_map (fun st => backlog_of (want && offered (p_config p)) (fst st)) (lookup n (p_users p)))
    end.
  Fixpoint exec (p : proc) (l : list op) : proc * list (option backlog) :=
    match l with
    | [] => (p, [])
    | o :: l' => let '(p1, b) := step p o in let '(p2, bs) := exec p1 l' in (p2, b :: bs)
    end.
End Reload.
