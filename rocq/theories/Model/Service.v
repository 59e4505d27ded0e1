(** Model of the bouncer service: the command table and its resolution, service.go:127-415, the
    commands about users and about the server, service.go:944-1278, 1568-1639, the execution
    on behalf of another user, user.go:823-876, and the account records they change,
    user.go:1192-1267, server.go:404-418. The commands about networks, channels, certificates and
    SASL only concern the networks of the user who runs them; they are a parameter here. *)
From Verif.Base Require Import Bytes.
From Coq Require Import ZArith.
Open Scope nat_scope.

(** ** The command table *)

(** The handlers, service.go:210-367. [HLocal] stands for the handlers about the networks of the
    user. *)
Inductive handler :=
| HHelp | HLocal (path : list bytes)
| HUserStatus | HUserCreate | HUserUpdate | HUserDelete | HUserRun
| HServerStatus | HServerNotice | HServerDebug.

(** service.go:49-56 (serviceCommand). The texts of usage and description are left out. A Go
    map is a list with an arbitrary order. *)
Inductive command :=
| Command (admin global : bool) (handle : option handler) (children : list (bytes * command)).

Definition c_admin (c : command) := match c with Command a _ _ _ => a end.
Definition c_global (c : command) := match c with Command _ g _ _ => g end.
Definition c_handle (c : command) := match c with Command _ _ h _ => h end.
Definition c_children (c : command) := match c with Command _ _ _ ch => ch end.

Definition leaf (admin global : bool) (h : handler) : command := Command admin global (Some h) [].
Definition group (admin global : bool) (l : list (bytes * command)) : command := Command admin global None l.
Definition locals (g : bytes) (names : list bytes) : command :=
  group false false (map (fun n => (n, leaf false false (HLocal [g; n]))) names).

(** service.go:210-367. *)
Definition service_commands : list (bytes * command) :=
  [ (B "help", leaf false true HHelp);
    (B "network", locals (B "network") [B "create"; B "status"; B "update"; B "delete"; B "quote"]);
    (B "certfp", locals (B "certfp") [B "generate"; B "fingerprint"]);
    (B "sasl", locals (B "sasl") [B "status"; B "set-plain"; B "reset"]);
    (B "user", group false true
       [ (B "status", leaf true true HUserStatus);
         (B "create", leaf true true HUserCreate);
         (B "update", leaf false true HUserUpdate);
         (B "delete", leaf false true HUserDelete);
         (B "run", leaf true true HUserRun) ]);
    (B "channel", locals (B "channel") [B "status"; B "create"; B "update"; B "delete"]);
    (B "server", group true false
       [ (B "status", leaf true true HServerStatus);
         (B "notice", leaf true true HServerNotice);
         (B "debug", leaf true true HServerDebug) ]) ].

Inductive get_error := NoCommand | Ambiguous (name : bytes) | NotFound (name : bytes).

(** service.go:178-187: the range over the map. *)
Fixpoint scan (cmds : list (bytes * command)) (name : bytes) (acc : option command) : command + get_error :=
  match cmds with
  | [] => match acc with Some c => inl c | None => inr (NotFound name) end
  | (k, c) :: cmds' =>
      if has_prefix k name then
        match acc with Some _ => inr (Ambiguous name) | None => scan cmds' name (Some c) end
      else scan cmds' name acc
  end.

(** service.go:177-191. *)
Definition pick (cmds : list (bytes * command)) (name : bytes) : command + get_error :=
  match find (fun p => beqb (fst p) name) cmds with
  | Some p => inl (snd p)
  | None => scan cmds name None
  end.

(** service.go:169-197 (Get). *)
Fixpoint get (cmds : list (bytes * command)) (params : list bytes) : (command * list bytes) + get_error :=
  match params with
  | [] => inr NoCommand
  | name :: params' =>
      match pick cmds name with
      | inr e => inr e
      | inl c =>
          match params', c_children c with
          | [], _ => inl (c, [])
          | _, [] => inl (c, params')
          | _, ch => get ch params'
          end
      end
  end.

(** service.go:199-206 (Names): sorted. *)
Fixpoint ble (x y : bytes) : bool :=
  match x, y with
  | [], _ => true
  | _, [] => false
  | a :: x', b :: y' => N.ltb (code a) (code b) || (aeqb a b && ble x' y')
  end.

Fixpoint insert_by {A} (le : A -> A -> bool) (x : A) (l : list A) : list A :=
  match l with
  | [] => [x]
  | y :: l' => if le x y then x :: l else y :: insert_by le x l'
  end.

Definition sort_by {A} (le : A -> A -> bool) (l : list A) : list A := fold_right (insert_by le) [] l.

(** service.go:369-386 (appendServiceCommandSetHelp), with the sets in the order of [Names];
    the command's own entry first, then its children. *)
Fixpoint command_help (prefix : list bytes) (admin global : bool) (name : bytes) (c : command) : list (list bytes) :=
  match c with
  | Command a g _ children =>
      if (a && negb admin) || (negb g && global) then []
      else match children with
           | [] => [prefix ++ [name]]
           | _ => concat (map snd (sort_by (fun x y => ble (fst x) (fst y))
                    (map (fun p => match p with (k, c') => (k, command_help (prefix ++ [name]) admin global k c') end) children)))
           end
  end.

Definition set_help (prefix : list bytes) (admin global : bool) (cmds : list (bytes * command)) : list (list bytes) :=
  concat (map snd (sort_by (fun x y => ble (fst x) (fst y))
    (map (fun p => (fst p, command_help prefix admin global (fst p) (snd p))) cmds))).

(** ** The flags *)

(** The value of a flag. *)
Inductive fval := VStr (s : bytes) | VBool (b : bool) | VInt (z : Z).

(** The kinds of flags: strings (service.go:434-451, and fs.String), booleans that need a value
    (453-471), the booleans of the flag package, and integers with their parser (473-490,
    and fs.Int). *)
Inductive fkind := KStr | KBoolPtr | KBool | KInt (parse : bytes -> option Z).

(** strconv.ParseBool. *)
Definition parse_bool (s : bytes) : option bool :=
  if bmem s [B "1"; B "t"; B "T"; B "TRUE"; B "true"; B "True"] then Some true
  else if bmem s [B "0"; B "f"; B "F"; B "FALSE"; B "false"; B "False"] then Some false
  else None.

Definition parse_value (k : fkind) (s : bytes) : option fval :=
  match k with
  | KStr => Some (VStr s)
  | KBoolPtr | KBool => option_map VBool (parse_bool s)
  | KInt p => option_map VInt (p s)
  end.

(** Package flag, parseOne: the text after the dashes, split at the first '=' that is not its
    first byte. *)
Definition flag_name_value (s : bytes) : bytes * option bytes :=
  match s with
  | [] => ([], None)
  | c :: s' => match cut_on "="%char s' with (n, v) => (c :: n, v) end
  end.

Definition flag_kind (defs : list (bytes * fkind)) (name : bytes) : option fkind :=
  option_map snd (find (fun p => beqb (fst p) name) defs).

(** Package flag, FlagSet.Parse: the assignments in order and the remaining arguments; None is
    an error (bad syntax, unknown flag, missing or invalid value). *)
Fixpoint parse_flags (defs : list (bytes * fkind)) (fuel : nat) (args : list bytes) : option (list (bytes * fval) * list bytes) :=
  match fuel with
  | O => None
  | S fuel =>
      match args with
      | [] => Some ([], [])
      | s :: args' =>
          match s with
          | c :: (c' :: _) as s' =>
              if negb (aeqb c "-"%char) then Some ([], args)
              else if beqb s' (B "-") then Some ([], args')
              else
                let body := if aeqb c' "-"%char then tl s' else s' in
                match body with
                | [] => None
                | b :: _ =>
                    if aeqb b "-"%char || aeqb b "="%char then None
                    else
                      match flag_name_value body with
                      | (name, value) =>
                          match flag_kind defs name with
                          | None => None
                          | Some KBool =>
                              match parse_value KBool (match value with Some v => v | None => B "true" end) with
                              | None => None
                              | Some v =>
                                  match parse_flags defs fuel args' with
                                  | None => None
                                  | Some (l, rest) => Some ((name, v) :: l, rest)
                                  end
                              end
                          | Some k =>
                              match value, args' with
                              | None, [] => None
                              | None, v :: args'' =>
                                  match parse_value k v with
                                  | None => None
                                  | Some v =>
                                      match parse_flags defs fuel args'' with
                                      | None => None
                                      | Some (l, rest) => Some ((name, v) :: l, rest)
                                      end
                                  end
                              | Some v, _ =>
                                  match parse_value k v with
                                  | None => None
                                  | Some v =>
                                      match parse_flags defs fuel args' with
                                      | None => None
                                      | Some (l, rest) => Some ((name, v) :: l, rest)
                                      end
                                  end
                              end
                          end
                      end
                end
          | _ => Some ([], args)
          end
      end
  end.

(** Parse, and the check of service.go:1018-1020, 1072-1074: no argument remains. *)
Definition parse_all (defs : list (bytes * fkind)) (args : list bytes) : option (list (bytes * fval)) :=
  match parse_flags defs (S (length args)) args with
  | Some (l, []) => Some l
  | _ => None
  end.

(** The last assignment of a flag. *)
Definition last_value (l : list (bytes * fval)) (name : bytes) : option fval :=
  option_map snd (find (fun p => beqb (fst p) name) (rev l)).
Definition str_flag (l : list (bytes * fval)) (name : bytes) : option bytes :=
  match last_value l name with Some (VStr s) => Some s | _ => None end.
Definition bool_flag (l : list (bytes * fval)) (name : bytes) : option bool :=
  match last_value l name with Some (VBool b) => Some b | _ => None end.
Definition int_flag (l : list (bytes * fval)) (name : bytes) : option Z :=
  match last_value l name with Some (VInt z) => Some z | _ => None end.

Definition from_opt {A} (d : A) (o : option A) : A := match o with Some x => x | None => d end.
Definition is_some {A} (o : option A) : bool := match o with Some _ => true | None => false end.

(** service.go:1050-1055 (popArg). *)
Definition pop_arg (params : list bytes) : bytes * list bytes :=
  match params with
  | p :: rest => if negb (has_prefix p (B "-")) then (p, rest) else ([], params)
  | [] => ([], [])
  end.

(** ** Accounts *)

(** database/database.go (User), without the ID and the time of the last interaction. *)
Record account := Account {
  a_name : bytes; a_pass : bytes; a_nick : bytes; a_real : bytes;
  a_admin : bool; a_enabled : bool; a_max : Z }.

Section WithData.

(** What a user owns: networks, channels, connections. *)
Variable D : Type.

Record user := User { us_acc : account; us_data : D }.

(** The server: [sv_users] are the running users (server.go: the map users), [sv_db] the table
    User, [sv_debug] the flag of the logger, [sv_notices] the notices broadcast so far, and
    [sv_hung] the users whose goroutine waits for ever. *)
Record server := Server {
  sv_users : list user; sv_db : list account; sv_debug : bool;
  sv_notices : list bytes; sv_hung : list bytes }.

(** What the environment decides: the database, the reconnections, the hash of a password
    (with its salt), the confirmation token (service.go:1181-1182) and the integer parsers. *)
Record env := Env {
  e_db : bool; e_net : bool; e_hash : bytes -> option bytes; e_token : bytes -> bytes;
  e_atoi : bytes -> option Z; e_parseint : bytes -> option Z }.

(** service.go:37-45 (serviceContext): the user, the right, the network. *)
Record context := Ctx { cx_user : option bytes; cx_admin : bool; cx_net : option bytes }.

(** The text sent to the caller, by kind. *)
Inductive say :=
| SHelp (commands : list (list bytes)) | SDescribe (words : list bytes)
| SConfirm (name token : bytes) | SGoodbye (name : bytes)
| SDone | SStatus (accounts : list account) (more : nat) | SLocal (text : bytes) | SNotified (n : nat).

Inductive sresult := ROk | RErr (reason : bytes) | RBlocked.

(** The handlers about networks etc.: they get the account, and read and change the data of
    their own user only. *)
Variable local : list bytes -> context -> account -> D -> list bytes -> D * list say * sresult.
(** user.go:1208-1257: reconnections after an update of the account. *)
Variable refresh : account -> account -> D -> D.
(** user.go:840-846, 1259-1264: the connections are closed. *)
Variable kick : D -> D.
Variable new_data : D.

Definition find_user (s : server) (name : bytes) : option user :=
  find (fun u => beqb (a_name (us_acc u)) name) (sv_users s).

Definition set_user (s : server) (name : bytes) (f : user -> user) : server :=
  Server (map (fun u => if beqb (a_name (us_acc u)) name then f u else u) (sv_users s))
         (sv_db s) (sv_debug s) (sv_notices s) (sv_hung s).

Definition set_db (s : server) (db : list account) : server :=
  Server (sv_users s) db (sv_debug s) (sv_notices s) (sv_hung s).

(** database/sqlite.go:447-454: the row with this name is replaced. *)
Definition store_account (db : list account) (a : account) : list account :=
  map (fun b => if beqb (a_name b) (a_name a) then a else b) db.

(** user.go:1192-1267 (updateUser), given the user's new account. *)
Definition update_user (e : env) (s : server) (u : user) (a : account) : server * sresult :=
  if negb (e_db e) then (s, RErr (B "failed to update user"))
  else
    let s1 := set_db s (store_account (sv_db s) a) in
    let d := refresh (us_acc u) a (us_data u) in
    let d := if e_net e && negb (a_enabled a) then kick d else d in
    (set_user s1 (a_name a) (fun _ => User a d),
     if e_net e then ROk else RErr (B "failed to update network")).

(** service.go:1057-1070. *)
Definition update_flags (e : env) : list (bytes * fkind) :=
  [ (B "password", KStr); (B "disable-password", KBool); (B "nick", KStr); (B "realname", KStr);
    (B "admin", KBoolPtr); (B "enabled", KBoolPtr); (B "max-networks", KInt (e_atoi e)) ].

(** service.go:1004-1013. *)
Definition create_flags (e : env) : list (bytes * fkind) :=
  [ (B "username", KStr); (B "password", KStr); (B "disable-password", KBool); (B "nick", KStr);
    (B "realname", KStr); (B "admin", KBool); (B "enabled", KBool); (B "max-networks", KInt (e_parseint e)) ].

Definition outcome : Type := server * list say * sresult.
Definition fail (s : server) (reason : bytes) : outcome := (s, [], RErr reason).

(** service.go:1130-1165: the user's own account. *)
Definition update_self (e : env) (cx : context) (s : server) (fl : list (bytes * fval)) : outcome :=
  match cx_user cx with
  | None => fail s (B "cannot determine the user to update")
  | Some me =>
      match find_user s me with
      | None => fail s (B "user not running")
      | Some u =>
          if is_some (bool_flag fl (B "admin")) then fail s (B "cannot update -admin of own user")
          else if is_some (bool_flag fl (B "enabled")) then fail s (B "cannot update -enabled of own user")
          else if is_some (int_flag fl (B "max-networks")) && negb (cx_admin cx) then fail s (B "cannot update -max-networks of own user")
          else
            let a := us_acc u in
            match (match str_flag fl (B "password") with
                   | Some p => e_hash e p
                   | None => Some (a_pass a)
                   end) with
            | None => fail s (B "failed to hash password")
            | Some pass =>
                let pass := if from_opt false (bool_flag fl (B "disable-password")) then [] else pass in
                let a' := Account (a_name a) pass
                            (from_opt (a_nick a) (str_flag fl (B "nick")))
                            (from_opt (a_real a) (str_flag fl (B "realname")))
                            (a_admin a) (a_enabled a)
                            (from_opt (a_max a) (int_flag fl (B "max-networks"))) in
                match update_user e s u a' with
                | (s', ROk) => (s', [SDone], ROk)
                | (s', r) => (s', [], r)
                end
            end
      end
  end.

(** service.go:1084-1128 and user.go:823-846: another user's account, changed by the goroutine of
    that user. [stack] are the users whose goroutines wait for this command to end. *)
Definition update_other (e : env) (cx : context) (stack : list bytes) (s : server) (name : bytes) (fl : list (bytes * fval)) : outcome :=
  if negb (cx_admin cx) then fail s (B "you must be an admin to update other users")
  else if is_some (str_flag fl (B "nick")) then fail s (B "cannot update -nick of other user")
  else if is_some (str_flag fl (B "realname")) then fail s (B "cannot update -realname of other user")
  else
    match (match str_flag fl (B "password") with
           | Some p => match e_hash e p with Some h => Some (Some h) | None => None end
           | None => Some None
           end) with
    | None => fail s (B "failed to hash password")
    | Some hashed =>
        let hashed := if from_opt false (bool_flag fl (B "disable-password")) then Some [] else hashed in
        match find_user s name with
        | None => fail s (B "unknown username")
        | Some u =>
            if bmem name (stack ++ sv_hung s) then (s, [], RBlocked)
            else
              let a := us_acc u in
              let a' := Account (a_name a) (from_opt (a_pass a) hashed) (a_nick a) (a_real a)
                          (from_opt (a_admin a) (bool_flag fl (B "admin")))
                          (from_opt (a_enabled a) (bool_flag fl (B "enabled")))
                          (from_opt (a_max a) (int_flag fl (B "max-networks"))) in
              match update_user e s u a' with
              | (s', r) =>
                  let s' := if is_some hashed then set_user s' name (fun u => User (us_acc u) (kick (us_data u))) else s' in
                  (s', match r with ROk => [SDone] | _ => [] end, r)
              end
        end
    end.

(** service.go:1057-1169 (handleUserUpdate). *)
Definition user_update (e : env) (cx : context) (stack : list bytes) (s : server) (params : list bytes) : outcome :=
  match pop_arg params with
  | (name, params) =>
      match parse_all (update_flags e) params with
      | None => fail s (B "invalid flags")
      | Some fl =>
          if beqb name [] && negb (is_some (cx_user cx)) then fail s (B "cannot determine the user to update")
          else if is_some (str_flag fl (B "password")) && from_opt false (bool_flag fl (B "disable-password"))
          then fail s (B "flags -password and -disable-password are mutually exclusive")
          else if negb (beqb name []) && negb (match cx_user cx with Some me => beqb name me | None => false end)
          then update_other e cx stack s name fl
          else update_self e cx s fl
      end
  end.

(** service.go:1004-1048 (handleUserCreate), server.go:404-418 (createUser). *)
Definition user_create (e : env) (s : server) (params : list bytes) : outcome :=
  match parse_all (create_flags e) params with
  | None => fail s (B "invalid flags")
  | Some fl =>
      let name := from_opt [] (str_flag fl (B "username")) in
      let password := from_opt [] (str_flag fl (B "password")) in
      let disable := from_opt false (bool_flag fl (B "disable-password")) in
      if beqb name [] then fail s (B "flag -username is required")
      else if negb (beqb password []) && disable then fail s (B "flags -password and -disable-password are mutually exclusive")
      else if beqb password [] && negb disable then fail s (B "flag -password is required")
      else
        match (if disable then Some [] else e_hash e password) with
        | None => fail s (B "failed to hash password")
        | Some pass =>
            let a := Account name pass (from_opt [] (str_flag fl (B "nick"))) (from_opt [] (str_flag fl (B "realname")))
                       (from_opt false (bool_flag fl (B "admin"))) (from_opt true (bool_flag fl (B "enabled")))
                       (from_opt (-1)%Z (int_flag fl (B "max-networks"))) in
            if is_some (find_user s name) then fail s (B "could not create user: already exists")
            else if negb (e_db e) || existsb (fun b => beqb (a_name b) name) (sv_db s)
            then fail s (B "could not create user in db")
            else (Server (sv_users s ++ [User a new_data]) (sv_db s ++ [a]) (sv_debug s) (sv_notices s) (sv_hung s), [SDone], ROk)
        end
  end.

(** service.go:1175-1225 (handleUserDelete), user.go:1269-1286 (stop): the caller waits for the
    goroutine of the user to end. When this goroutine is the one that runs the command, or waits
    for it, it never does. *)
Definition user_delete (e : env) (cx : context) (stack : list bytes) (s : server) (params : list bytes) : outcome :=
  match params with
  | [name] | [name; _] =>
      let self := match cx_user cx with Some me => beqb me name | None => false end in
      if negb (cx_admin cx) && negb self then fail s (B "only admins may delete other users")
      else if negb (is_some (find_user s name)) then fail s (B "unknown username")
      else
        match params with
        | [_; token] =>
            if negb (beqb token (e_token e name)) then fail s (B "provided confirmation token doesn't match user")
            else
              let out := if self then [SGoodbye name] else [] in
              if bmem name (stack ++ sv_hung s) then (s, out, RBlocked)
              else
                let users := filter (fun u => negb (beqb (a_name (us_acc u)) name)) (sv_users s) in
                let s1 := Server users (sv_db s) (sv_debug s) (sv_notices s) (sv_hung s) in
                if negb (e_db e) then (s1, out, RErr (B "failed to delete user"))
                else (set_db s1 (filter (fun b => negb (beqb (a_name b) name)) (sv_db s)),
                      out ++ (if self then [] else [SDone]), ROk)
        | _ => (s, [SConfirm name (e_token e name)], ROk)
        end
  | _ => fail s (B "expected one or two arguments")
  end.

(** service.go:944-999 (handleUserStatus): at most 50 users. *)
Definition user_status (e : env) (s : server) (params : list bytes) : outcome :=
  match params with
  | [] =>
      let l := map us_acc (firstn 50 (sv_users s)) in
      if e_db e then (s, [SStatus l (length (sv_users s) - length l)], ROk) else fail s (B "could not get networks")
  | [name] =>
      match find_user s name with
      | None => fail s (B "unknown username")
      | Some u => if e_db e then (s, [SStatus [us_acc u] 0], ROk) else fail s (B "could not get networks")
      end
  | _ => fail s (B "expected 0 or 1 argument")
  end.

(** service.go:1568-1580. *)
Definition server_status (e : env) (s : server) (params : list bytes) : outcome :=
  match params with
  | [] => if e_db e then (s, [SDone], ROk) else fail s (B "stats")
  | _ => fail s (B "expected no argument")
  end.

(** service.go:1582-1618; the queues of events are not bounded here. *)
Definition server_notice (s : server) (params : list bytes) : outcome :=
  match params with
  | [text] => (Server (sv_users s) (sv_db s) (sv_debug s) (sv_notices s ++ [text]) (sv_hung s), [SNotified (length (sv_users s))], ROk)
  | _ => fail s (B "expected exactly one argument")
  end.

(** service.go:1620-1638. *)
Definition server_debug (s : server) (params : list bytes) : outcome :=
  match params with
  | [v] =>
      match parse_bool v with
      | None => fail s (B "invalid boolean")
      | Some b => (Server (sv_users s) (sv_db s) b (sv_notices s) (sv_hung s), [], ROk)
      end
  | _ => fail s (B "expected exactly one argument")
  end.

(** service.go:388-415 (handleServiceHelp). *)
Definition service_help (cmds : list (bytes * command)) (cx : context) (s : server) (params : list bytes) : outcome :=
  match params with
  | [] => (s, [SHelp (set_help [] (cx_admin cx) (negb (is_some (cx_user cx))) cmds)], ROk)
  | _ =>
      match get cmds params with
      | inr _ => fail s (B "not found or ambiguous")
      | inl (c, rest) =>
          let words := firstn (length params - length rest) params in
          match c_children c with
          | [] => (s, [SDescribe words], ROk)
          | ch => (s, [SHelp (set_help words (cx_admin cx) (negb (is_some (cx_user cx))) ch)], ROk)
          end
      end
  end.

(** The handlers that are about the networks of the user. *)
Definition run_local (cx : context) (s : server) (path params : list bytes) : outcome :=
  match cx_user cx with
  | None => fail s (B "this command must be run as a user")
  | Some me =>
      match find_user s me with
      | None => fail s (B "user not running")
      | Some u =>
          match local path cx (us_acc u) (us_data u) params with
          | (d, out, r) => (set_user s me (fun u => User (us_acc u) d), out, r)
          end
      end
  end.

(** A handler that was called, and the context it was called in. *)
Definition call : Type := handler * context.

(** service.go:135-167 (handleServiceCommand), with 1232-1278 (handleUserRun) and
    user.go:849-876 (the event it sends). [fuel] bounds the nesting of "user run", which
    consumes words; [stack] are the goroutines that wait for this command, including the one
    that runs it. *)
Fixpoint service_command (cmds : list (bytes * command)) (fuel : nat) (e : env) (cx : context) (stack : list bytes)
    (s : server) (words : list bytes) : outcome * list call :=
  match fuel with
  | O => (fail s (B "out of fuel"), [])
  | S fuel =>
      match get cmds words with
      | inr _ => (fail s (B "not found or ambiguous"), [])
      | inl (c, params) =>
          if c_admin c && negb (cx_admin cx) then (fail s (B "you must be an admin to use this command"), [])
          else if negb (c_global c) && negb (is_some (cx_user cx)) then (fail s (B "this command must be run as a user"), [])
          else
            match c_handle c with
            | None =>
                match c_children c with
                | [] => (fail s (B "command not found"), [])
                | ch => ((s, [SHelp (set_help words (cx_admin cx) (negb (is_some (cx_user cx))) ch)], ROk), [])
                end
            | Some h =>
                match h with
                | HHelp => (service_help cmds cx s params, [(h, cx)])
                | HLocal path => (run_local cx s path params, [(h, cx)])
                | HUserStatus => (user_status e s params, [(h, cx)])
                | HUserCreate => (user_create e s params, [(h, cx)])
                | HUserUpdate => (user_update e cx stack s params, [(h, cx)])
                | HUserDelete => (user_delete e cx stack s params, [(h, cx)])
                | HServerStatus => (server_status e s params, [(h, cx)])
                | HServerNotice => (server_notice s params, [(h, cx)])
                | HServerDebug => (server_debug s params, [(h, cx)])
                | HUserRun =>
                    match params with
                    | name :: (_ :: _) as rest =>
                        match (match cx_user cx with Some me => beqb name me | None => false end) with
                        | true =>
                            match service_command cmds fuel e cx stack s rest with
                            | (o, calls) => (o, (h, cx) :: calls)
                            end
                        | false =>
                            if negb (is_some (find_user s name)) then (fail s (B "unknown username"), [(h, cx)])
                            else if bmem name (stack ++ sv_hung s) then ((s, [], RBlocked), [(h, cx)])
                            else
                              match service_command cmds fuel e (Ctx (Some name) true None) (name :: stack) s rest with
                              | ((s', out, r), calls) =>
                                  ((match r with
                                    | RBlocked => Server (sv_users s') (sv_db s') (sv_debug s') (sv_notices s') (name :: sv_hung s')
                                    | _ => s'
                                    end, out, r), (h, cx) :: calls)
                              end
                        end
                    | _ => (fail s (B "expected at least two arguments"), [(h, cx)])
                    end
                end
            end
      end
  end.

(** Who sends a command: a user, from a connection bound to a network or not
    (downstream.go:2455-2470), or the administration socket (server.go:591-607). *)
Inductive issuer := ByUser (name : bytes) (net : option bytes) | ByConsole.

(** One command. A user who is not running, or whose goroutine waits for ever, gets no
    command executed. *)
Definition issue (cmds : list (bytes * command)) (s : server) (ev : issuer * env * list bytes) : outcome * list call :=
  match ev with
  | (ByConsole, e, words) => service_command cmds (S (length words)) e (Ctx None true None) [] s words
  | (ByUser name net, e, words) =>
      match find_user s name with
      | None => (fail s (B "no such user"), [])
      | Some u =>
          if bmem name (sv_hung s) then ((s, [], RBlocked), [])
          else
            match service_command cmds (S (length words)) e (Ctx (Some name) (a_admin (us_acc u)) net) [name] s words with
            | ((s', out, r), calls) =>
                ((match r with
                  | RBlocked => Server (sv_users s') (sv_db s') (sv_debug s') (sv_notices s') (name :: sv_hung s')
                  | _ => s'
                  end, out, r), calls)
            end
      end
  end.

Definition next (cmds : list (bytes * command)) (s : server) (ev : issuer * env * list bytes) : server :=
  fst (fst (fst (issue cmds s ev))).

Fixpoint serve (cmds : list (bytes * command)) (s : server) (evs : list (issuer * env * list bytes)) : server :=
  match evs with
  | [] => s
  | ev :: evs' => serve cmds (next cmds s ev) evs'
  end.

(** The calls made by a sequence of commands. *)
Fixpoint serve_calls (cmds : list (bytes * command)) (s : server) (evs : list (issuer * env * list bytes)) : list call :=
  match evs with
  | [] => []
  | ev :: evs' => snd (issue cmds s ev) ++ serve_calls cmds (next cmds s ev) evs'
  end.

(** ** The administration socket *)

(** server.go:537-628 (HandleAdmin): the words of each line that the connection sends. [None]
    for a line that does not split into words (service.go:128-131). *)
Record line := Line { l_command : bytes; l_words : option (option (list bytes)) }.

(** The commands that are executed; [l_words] is None without a parameter. *)
Fixpoint console (cmds : list (bytes * command)) (s : server) (lines : list (env * line)) : server * list call :=
  match lines with
  | [] => (s, [])
  | (e, l) :: lines' =>
      if bmem (l_command l) [B "CAP"; B "NICK"; B "USER"; B "PASS"] then (s, [])
      else if beqb (l_command l) (B "BOUNCERSERV") then
        match l_words l with
        | Some (Some words) =>
            match issue cmds s (ByConsole, e, words) with
            | ((s', _, RBlocked), calls) => (s', calls)
            | ((s', _, _), calls) => match console cmds s' lines' with (s'', calls') => (s'', calls ++ calls') end
            end
        | _ => console cmds s lines'
        end
      else console cmds s lines'
  end.

End WithData.

Arguments User {D}. Arguments us_acc {D}. Arguments us_data {D}.
Arguments Server {D}. Arguments sv_users {D}. Arguments sv_db {D}. Arguments sv_debug {D}.
Arguments sv_notices {D}. Arguments sv_hung {D}.
Arguments find_user {D}.
