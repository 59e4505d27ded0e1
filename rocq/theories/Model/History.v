(** Model of the CHATHISTORY and SEARCH commands (downstream.go:2736-2878,
    2984-3069, irc.go:210-220, 286-301), and of the list of targets of the log
    directory (msgstore/fs.go:445-523). Times are as in TimeFmt. *)
From Verif.Base Require Import Bytes.
From Verif.Model Require Import Message CaseMap TimeFmt Identd ReadMarker FsStore Sql SqlQuery.
From Coq Require Import ZArith NArith.
Open Scope Z_scope.

(** irc.go:286-301 (parseChatHistoryBound): 0 is the zero time. *)
Definition parse_bound (s : bytes) : Z :=
  match cut_on "=" s with
  | (k, Some v) => if beqb k (B "timestamp") then match parse_time v with Some t => t | None => 0 end else 0
  | (_, None) => 0
  end.

(** server.go:42. *)
Definition history_limit : Z := 1000.

Section Command.
  Context {M : Type}.

  (** msgstore/msgstore.go (ChatHistoryStore and SearchStore), for the network of
      the connection; [None] is an error. *)
  Record hstore := HStore {
    h_before : bytes -> Z -> Z -> nat -> bool -> option (list M);
    h_after : bytes -> Z -> Z -> nat -> bool -> option (list M);
    h_targets : Z -> Z -> nat -> bool -> option (list (bytes * Z)) }.
  Record search := Search { q_start : Z; q_end : Z; q_from : bytes; q_in : bytes; q_text : bytes; q_limit : Z }.

  (** The connection: its case mapping, its network if it has one (the case
      mapping, and which names are detached channels), the stores of its user if
      there are any, whether event-playback is enabled, and the time. *)
  Record hconn := HConn {
    hc_nick : bytes; hc_cm : casemapping; hc_net : option (casemapping * (bytes -> bool)); hc_store : option hstore;
    hc_search : option (search -> option (list M)); hc_events : bool; hc_now : Z }.

  (** An error, a batch of messages, or a batch of targets with their times. *)
  Inductive hanswer := HRefuse (command : bytes) (params : list bytes) | HBatch (type : bytes) (params : list bytes) (messages : list M)
    | HTargets (targets : list (bytes * bytes)).

  (** irc.go:197-208 (newNeedMoreParamsError). *)
  Definition need_more (command : bytes) : hanswer := HRefuse (B "461") [B "*"; command; B "Not enough parameters"].
  Definition fail (params : list bytes) : hanswer := HRefuse (B "FAIL") (B "CHATHISTORY" :: params).
  (** downstream.go:64-69 (newChatHistoryError). *)
  Definition history_error (sub target : bytes) : hanswer := fail [B "MESSAGE_ERROR"; sub; target; B "Messages could not be retrieved"].

  Definition after_params (c : hconn) (sub target bound1 bound2 limit_str : bytes) : hanswer :=
    if beqb (casemap (hc_cm c) target) service_cm then HBatch (B "chathistory") [target] []
    else match hc_store c with
    | None => HRefuse (B "421") [hc_nick c; B "CHATHISTORY"; B "Chat history disabled"]
    | Some st =>
    match hc_net c with
    | None => history_error sub (B "Cannot fetch chat history on bouncer connection")
    | Some (cm, detached) =>
      let target := casemap cm target in
      let star := beqb sub (B "LATEST") && beqb bound1 (B "*") in
      let b1 := if star then 0 else parse_bound bound1 in
      if negb star && (b1 =? 0) then fail [B "INVALID_PARAMS"; sub; bound1; B "Invalid first bound"]
      else
        let b2 := match bound2 with [] => 0 | _ => parse_bound bound2 end in
        if match bound2 with [] => false | _ => b2 =? 0 end then fail [B "INVALID_PARAMS"; sub; bound2; B "Invalid second bound"]
        else match (match atoi limit_str with Some l => if (l <? 0) || (history_limit <? l) then None else Some (Z.to_nat l) | None => None end) with
        | None => fail [B "INVALID_PARAMS"; sub; limit_str; B "Invalid limit"]
        | Some limit =>
          let give h := match h with None => history_error sub target | Some l => HBatch (B "chathistory") [target] l end in
          if beqb sub (B "BEFORE") then give (h_before st target b1 0 limit (hc_events c))
          else if beqb sub (B "LATEST") then give (h_before st target (hc_now c) b1 limit (hc_events c))
          else if beqb sub (B "AFTER") then give (h_after st target b1 (hc_now c) limit (hc_events c))
          else if beqb sub (B "BETWEEN") then
            give (if b1 <? b2 then h_after st target b1 b2 limit (hc_events c) else h_before st target b1 b2 limit (hc_events c))
          else match h_targets st b1 b2 limit (hc_events c) with
          | None => fail [B "MESSAGE_ERROR"; sub; B "Failed to retrieve targets"]
          | Some l => HTargets (map (fun x => (fst x, format_time (snd x))) (filter (fun x => negb (detached (fst x))) l))
          end
        end
    end end.

  (** downstream.go:2736-2878. The target of TARGETS is empty. *)
  Definition chathistory (c : hconn) (params : list bytes) : hanswer :=
    match params with
    | [] => need_more (B "CHATHISTORY")
    | sub :: r =>
      if beqb sub (B "AFTER") || beqb sub (B "BEFORE") || beqb sub (B "LATEST") then
        match r with target :: bound :: limit :: _ => after_params c sub target bound [] limit | _ => need_more (B "CHATHISTORY") end
      else if beqb sub (B "BETWEEN") then
        match r with target :: bound1 :: bound2 :: limit :: _ => after_params c sub target bound1 bound2 limit | _ => need_more (B "CHATHISTORY") end
      else if beqb sub (B "TARGETS") then
        match hc_net c with
        | None => HTargets []
        | Some _ => match r with bound1 :: bound2 :: limit :: _ => after_params c sub [] bound1 bound2 limit | _ => need_more (B "CHATHISTORY") end
        end
      else fail [B "INVALID_PARAMS"; sub; B "Unknown command"]
    end.

  (** downstream.go:2996-3046: one attribute. Go visits them in any order; [attrs]
      is that order, and a name occurs once. *)
  Definition search_max : Z := 100.
  Definition search_fail (params : list bytes) : hanswer := HRefuse (B "FAIL") (B "SEARCH" :: params).
  Definition search_attr (c : hconn) (name value : bytes) (qn : search * bool) : (search * bool) + hanswer :=
    let '(q, n) := qn in
    if beqb name (B "before") || beqb name (B "after") then
      match parse_time value with
      | None => inr (search_fail [B "INVALID_PARAMS"; name; B "Invalid criteria"])
      | Some t => inl (if beqb name (B "after") then Search t (q_end q) (q_from q) (q_in q) (q_text q) (q_limit q)
                       else Search (q_start q) t (q_from q) (q_in q) (q_text q) (q_limit q), n)
      end
    else if beqb name (B "from") then inl (Search (q_start q) (q_end q) value (q_in q) (q_text q) (q_limit q), n)
    else if beqb name (B "in") then
      match hc_net c with
      | None => inr (search_fail [B "INVALID_PARAMS"; name; B "Cannot search on bouncer connection"])
      | Some (cm, _) => inl (Search (q_start q) (q_end q) (q_from q) (casemap cm value) (q_text q) (q_limit q), true)
      end
    else if beqb name (B "text") then inl (Search (q_start q) (q_end q) (q_from q) (q_in q) value (q_limit q), n)
    else if beqb name (B "limit") then
      match atoi value with
      | Some l => if l <=? 0 then inr (search_fail [B "INVALID_PARAMS"; name; B "Invalid limit"])
                  else inl (Search (q_start q) (q_end q) (q_from q) (q_in q) (q_text q) l, n)
      | None => inr (search_fail [B "INVALID_PARAMS"; name; B "Invalid limit"])
      end
    else inl (q, n).
  Fixpoint search_attrs (c : hconn) (attrs : list (bytes * bytes)) (qn : search * bool) : (search * bool) + hanswer :=
    match attrs with
    | [] => inl qn
    | (name, value) :: r => match search_attr c name value qn with inl qn => search_attrs c r qn | inr e => inr e end
    end.

  (** downstream.go:2984-3069. *)
  Definition search_command (c : hconn) (attrs : list (bytes * bytes)) : hanswer :=
    match hc_search c with
    | None => HRefuse (B "421") [hc_nick c; B "SEARCH"; B "Unknown command"]
    | Some st =>
      match search_attrs c attrs (Search 0 0 [] [] [] search_max, false) with
      | inr e => e
      | inl (_, false) => search_fail [B "INVALID_PARAMS"; B "in"; B "The in parameter is mandatory"]
      | inl (q, true) =>
          let q := if search_max <? q_limit q then Search (q_start q) (q_end q) (q_from q) (q_in q) (q_text q) search_max else q in
          match st q with
          | None => search_fail [B "INTERNAL_ERROR"; B "Messages could not be retrieved"]
          | Some l => HBatch (B "soju.im/search") [] l
          end
      end
    end.
End Command.
Arguments hstore : clear implicits.
Arguments hconn : clear implicits.
Arguments hanswer : clear implicits.

(** ** The message stores *)

(** msgstore/fs.go:445-521 (ListTargets): [dirs] gives the modification times of the
    files of each directory; sort.Slice is a parameter. *)
Definition fs_latest (times : list Z) : Z :=
  let t := fold_left (fun t x => if t <? x then x else t) times 0 in t / 1000000000 * 1000000000.
Definition is_between (t start stop : Z) : bool :=
  let '(start, stop) := if stop <? start then (stop, start) else (start, stop) in (start <? t) && (t <? stop).
Definition fs_targets (sort : (bytes * Z -> bytes * Z -> bool) -> list (bytes * Z) -> list (bytes * Z))
    (dirs : list (bytes * list Z)) (start stop : Z) (limit : nat) : list (bytes * Z) :=
  let l := filter (fun x => is_between (snd x) start stop) (map (fun d => (fst d, fs_latest (snd d))) dirs) in
  firstn limit (sort (fun a b => if start <? stop then snd a <? snd b else negb (snd a <? snd b)) l).

(** msgstore/fs.go: the store of log files, with an entry of history being a nil
    pointer as in FsStore. [files e] is the directory of [e]. *)
Definition fs_hstore {M} (parse : bytes -> bool -> bytes -> option (option (M * Z))) (files : bytes -> files) (dirs : list (bytes * list Z)) sort (now : Z)
    : hstore (option M) :=
  HStore
    (fun e start stop limit ev => get_before_time (parse e ev) (files e) (if start =? 0 then now else start) stop limit (fun _ => true))
    (fun e start stop limit ev => option_map (map Some) (get_after_time (parse e ev) (files e) start (if stop =? 0 then now else stop) limit (fun _ => true)))
    (fun start stop limit _ => Some (fs_targets sort dirs start stop limit)).

(** msgstore/fs.go:523-545 (Search). [contains] is strings.Contains on the texts in
    lower case, [name] the sender. *)
Definition fs_search {M} (parse : bytes -> bool -> bytes -> option (option (M * Z))) (files : bytes -> files) (name : M -> bytes) (contains : M -> bytes -> bool)
    (now : Z) (q : search) : option (list (option M)) :=
  let sel m := (beqb (q_from q) [] || beqb (name m) (q_from q)) && (beqb (q_text q) [] || contains m (q_text q)) in
  if q_start q =? 0
  then get_before_time (parse (q_in q) false) (files (q_in q)) (if q_end q =? 0 then now else q_end q) 0 (Z.to_nat (q_limit q)) sel
  else option_map (map Some) (get_after_time (parse (q_in q) false) (files (q_in q)) (q_start q) (if q_end q =? 0 then now else q_end q) (Z.to_nat (q_limit q)) sel).

(** msgstore/db.go:91-165: the store of the database, for network [net]. *)
Definition scan_target (x : bytes * option bytes) : option (bytes * Z) := option_map (fun t => (fst x, t)) (sqlite_scan (snd x)).
Fixpoint all_some {A} (l : list (option A)) : option (list A) :=
  match l with
  | [] => Some []
  | Some x :: r => option_map (cons x) (all_some r)
  | None :: _ => None
  end.
Definition sql_hstore by_time by_time_desc fts by_latest by_latest_desc (parse : bytes -> option message) (net : N) (d : db) : hstore message :=
  HStore
    (fun e start stop limit ev => parse_all parse (db_load_before by_time by_time_desc fts net e start stop limit ev d))
    (fun e start stop limit ev => parse_all parse (db_load_after by_time by_time_desc fts net e start stop limit ev d))
    (fun start stop limit ev => all_some (map scan_target (db_list_targets by_latest by_latest_desc net start stop limit ev d))).
Definition sql_search by_time by_time_desc fts (parse : bytes -> option message) (net : N) (d : db) (q : search) : option (list message) :=
  parse_all parse (db_search by_time by_time_desc fts net (q_in q) (q_start q) (q_end q) (Z.to_nat (q_limit q)) (q_from q) (q_text q) d).
