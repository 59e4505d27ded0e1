(** Model of the capability negotiation with clients, downstream.go:219-255, 367-401, 795-928,
    1054-1135, and xirc/caps.go. *)
From Verif.Base Require Import Bytes.
From Coq Require Import ZArith.
Open Scope nat_scope.

(** A Go map from strings to strings: a list without duplicate keys. *)
Fixpoint bget (m : list (bytes * bytes)) (k : bytes) : option bytes :=
  match m with
  | [] => None
  | (k', v) :: m' => if beqb k' k then Some v else bget m' k
  end.
Fixpoint bset (m : list (bytes * bytes)) (k v : bytes) : list (bytes * bytes) :=
  match m with
  | [] => [(k, v)]
  | (k', v') :: m' => if beqb k' k then (k', v) :: m' else (k', v') :: bset m' k v
  end.
Definition bdel (m : list (bytes * bytes)) (k : bytes) : list (bytes * bytes) :=
  filter (fun p => negb (beqb (fst p) k)) m.

(** The fields of a connection this is about: xirc/caps.go:3-6 (CapRegistry; a set is a list
    without duplicates), and downstream.go:311-312, 336, 352. *)
Record cstate := Cstate {
  cs_avail : list (bytes * bytes);
  cs_enabled : list bytes;
  cs_version : Z;
  cs_registered : bool;
  cs_negotiating : bool
}.

(** xirc/caps.go:15-38. *)
Definition is_available (s : cstate) (name : bytes) : bool :=
  match bget (cs_avail s) name with Some _ => true | None => false end.
Definition is_enabled (s : cstate) (name : bytes) : bool := bmem name (cs_enabled s).
Definition set_enabled (en : list bytes) (name : bytes) (enabled : bool) : list bytes :=
  if enabled then (if bmem name en then en else en ++ [name])
  else filter (fun x => negb (beqb x name)) en.

(** downstream.go:222-241. *)
Definition permanent_caps : list bytes :=
  [B "batch"; B "cap-notify"; B "echo-message"; B "invite-notify"; B "server-time"; B "setname";
   B "draft/pre-away"; B "draft/read-marker"; B "draft/no-implicit-names";
   B "soju.im/account-required"; B "soju.im/bouncer-networks"; B "soju.im/bouncer-networks-notify";
   B "soju.im/no-implicit-names"; B "soju.im/read"; B "soju.im/webpush"].

(** downstream.go:243-255. *)
Definition need_all_caps : list bytes :=
  [B "account-notify"; B "account-tag"; B "away-notify"; B "chghost"; B "extended-join"; B "extended-monitor";
   B "message-tags"; B "multi-prefix"; B "draft/extended-monitor"].

(** downstream.go:325-334 and 388-399 (newDownstreamConn): the mechanisms of the configuration and
    whether the message store is one of the two. *)
Definition sasl_mechanisms (plain oauth : bool) : bytes :=
  join (B ",") ((if plain then [B "PLAIN"] else []) ++ (if oauth then [B "OAUTHBEARER"] else [])).
Definition new_caps (plain oauth store : bool) : cstate :=
  let avail := map (fun k => (k, [])) permanent_caps in
  let avail := bset avail (B "sasl") (sasl_mechanisms plain oauth) in
  let avail := if store then bset (bset avail (B "draft/chathistory") []) (B "soju.im/search") [] else avail in
  Cstate avail [] 0 false false.

(** What is sent: CAP with its subcommand and its last parameter, or the numeric
    ERR_INVALIDCAPCMD or ERR_NEEDMOREPARAMS. *)
Inductive cout :=
| Cap (sub text : bytes)
| CapError
| CapClosed.   (* the error is not an IRC one: the connection is closed *)

(** strings.Fields, for ASCII blanks. *)
Definition is_blank (c : ascii) : bool := amem c [" "%char; "009"%char; "010"%char; "011"%char; "012"%char; "013"%char].
Fixpoint fields_aux (s w : bytes) : list bytes :=
  match s with
  | [] => match w with [] => [] | _ => [rev w] end
  | c :: s' => if is_blank c then match w with [] => fields_aux s' [] | _ => rev w :: fields_aux s' [] end
               else fields_aux s' (c :: w)
  end.
Definition fields (s : bytes) : list bytes := fields_aux s [].

(** downstream.go:818-825. *)
Definition cap_token (version : Z) (kv : bytes * bytes) : bytes :=
  if Z.leb 302 version && negb (beqb (snd kv) []) then fst kv ++ B "=" ++ snd kv else fst kv.

(** downstream.go:866-872: the name and whether it is requested. strings.ToLower is modelled for
    ASCII letters. *)
Definition req_token (t : bytes) : bytes * bool :=
  match to_lower t with
  | c :: n => if aeqb c "-" then (n, false) else (c :: n, true)
  | [] => ([], true)
  end.

(** downstream.go:865-895: the loop; None is a refusal. [m] are the changes so far; as a map
    from names, a repeated key keeps its last value. *)
Fixpoint req_loop (s : cstate) (toks : list bytes) (m : list (bytes * bool)) : option (list (bytes * bool)) :=
  match toks with
  | [] => Some m
  | t :: toks' =>
      let '(name, enable) := req_token t in
      if Bool.eqb enable (is_enabled s name) then req_loop s toks' m
      else if negb (is_available s name) then None
      else if beqb name (B "cap-notify") && Z.leb 302 (cs_version s) && negb enable then None
      else if beqb name (B "soju.im/account-required") then None
      else req_loop s toks' (m ++ [(name, enable)])
  end.

Definition set_negotiating (s : cstate) (b : bool) : cstate :=
  if cs_registered s then s else Cstate (cs_avail s) (cs_enabled s) (cs_version s) (cs_registered s) b.
Definition with_enabled (s : cstate) (en : list bytes) : cstate :=
  Cstate (cs_avail s) en (cs_version s) (cs_registered s) (cs_negotiating s).

Section Caps.
  (** strconv.Atoi. *)
  Variable atoi : bytes -> option Z.

  (** downstream.go:803-842: LS. [ord] is the order in which the map is visited. *)
  Definition cap_ls (s : cstate) (ord : list (bytes * bytes) -> list (bytes * bytes)) (args : list bytes) : cstate * list cout :=
    match (match args with [] => Some (cs_version s) | a :: _ => atoi a end) with
    | None => (s, [CapClosed])
    | Some v =>
        let avail := if negb (cs_registered s) && Z.leb 302 v
                     then fold_left (fun m k => bset m k []) need_all_caps (cs_avail s) else cs_avail s in
        let s1 := Cstate avail (if Z.leb 302 v then set_enabled (cs_enabled s) (B "cap-notify") true else cs_enabled s)
                         v (cs_registered s) (cs_negotiating s) in
        (set_negotiating s1 true, [Cap (B "LS") (join (B " ") (map (cap_token v) (ord avail)))])
    end.

  (** downstream.go:843-854: LIST. *)
  Definition cap_list (s : cstate) : cstate * list cout := (s, [Cap (B "LIST") (join (B " ") (cs_enabled s))]).

  (** downstream.go:855-917: REQ. *)
  Definition cap_req (s : cstate) (args : list bytes) : cstate * list cout :=
    match args with
    | [] => (s, [CapError])
    | a :: _ =>
        match req_loop s (fields a) [] with
        | None => (set_negotiating s true, [Cap (B "NAK") a])
        | Some m =>
            (set_negotiating (with_enabled s (fold_left (fun en x => set_enabled en (fst x) (snd x)) m (cs_enabled s))) true,
             [Cap (B "ACK") a])
        end
    end.

  (** downstream.go:795-928 (handleCap). strings.ToUpper is modelled for ASCII letters. *)
  Definition handle_cap (s : cstate) (ord : list (bytes * bytes) -> list (bytes * bytes)) (params : list bytes) : cstate * list cout :=
    match params with
    | [] => (s, [CapError])
    | cmd :: args =>
        let cmd := to_upper cmd in
        if beqb cmd (B "LS") then cap_ls s ord args
        else if beqb cmd (B "LIST") then cap_list s
        else if beqb cmd (B "REQ") then cap_req s args
        else if beqb cmd (B "END") then (set_negotiating s false, [])
        else (s, [CapError])
    end.

  (** downstream.go:1054-1073 (setSupportedCap). *)
  Definition set_supported (s : cstate) (name value : bytes) : cstate * list cout :=
    let changed := match bget (cs_avail s) name with Some v => negb (beqb v value) | None => true end in
    let s1 := Cstate (bset (cs_avail s) name value) (cs_enabled s) (cs_version s) (cs_registered s) (cs_negotiating s) in
    (s1, if is_enabled s1 (B "cap-notify") && changed then [Cap (B "NEW") (cap_token (cs_version s) (name, value))] else []).

  (** downstream.go:1075-1088 (unsetSupportedCap). *)
  Definition unset_supported (s : cstate) (name : bytes) : cstate * list cout :=
    let s1 := Cstate (bdel (cs_avail s) name) (set_enabled (cs_enabled s) name false) (cs_version s) (cs_registered s) (cs_negotiating s) in
    (s1, if is_enabled s1 (B "cap-notify") && is_available s name then [Cap (B "DEL") name] else []).

  Definition change_supported (x : cstate * list cout) (c : bytes * option bytes) : cstate * list cout :=
    let r := match snd c with
             | Some v => set_supported (fst x) (fst c) v
             | None => unset_supported (fst x) (fst c)
             end in
    (fst r, snd x ++ snd r).

  (** The upstream connection of the network of a client: its enabled capabilities, whether it
      supports SASL PLAIN, and the value of its draft/account-registration capability. *)
  Record upstream := Upstream { up_enabled : list bytes; up_sasl_plain : bool; up_account_reg : bytes }.

  (** downstream.go:1117-1124: the first "before-connect" is removed. *)
  Fixpoint strip_before_connect (l : list bytes) : list bytes :=
    match l with
    | [] => []
    | x :: l' => if beqb x (B "before-connect") then l' else x :: strip_before_connect l'
    end.

  (** downstream.go:1090-1135 (updateSupportedCaps): the changes, in order. [bound] tells whether the
      client is bound to a network, [up] is its upstream connection if any, [hist] whether the message
      store has a history. The map supportedCaps is visited in the order of [names]. *)
  Definition supported_changes (names : list bytes) (bound : bool) (up : option upstream) (hist : bool) : list (bytes * option bytes) :=
    let up := if bound then up else None in
    map (fun c => (c, match up with
                      | Some u => if bmem c (up_enabled u) then Some [] else None
                      | None => Some []
                      end)) names ++
    (match up with
     | Some u => if up_sasl_plain u then [(B "sasl", Some (B "PLAIN,ANONYMOUS"))]
                 else [(B "sasl", None)]
     | None => if bound then [(B "sasl", None)] else []
     end) ++
    [(B "draft/account-registration",
      match up with
      | Some u => if bmem (B "draft/account-registration") (up_enabled u)
                  then Some (join (B ",") (strip_before_connect (split_on "," (up_account_reg u)))) else None
      | None => None
      end);
     (B "draft/event-playback", if hist && bound then Some [] else None)].
  Definition update_supported (s : cstate) names bound up hist : cstate * list cout :=
    fold_left change_supported (supported_changes names bound up hist) (s, []).

  (** The events of a connection. *)
  Inductive cev :=
  | ECap (ord : list (bytes * bytes) -> list (bytes * bytes)) (params : list bytes)
  | ERegistered
  | EUpdate (names : list bytes) (bound : bool) (up : option upstream) (hist : bool).

  Definition cstep (s : cstate) (e : cev) : cstate * list cout :=
    match e with
    | ECap ord params => handle_cap s ord params
    | ERegistered => (Cstate (cs_avail s) (cs_enabled s) (cs_version s) true (cs_negotiating s), [])
    | EUpdate names bound up hist => update_supported s names bound up hist
    end.

  Fixpoint crun (s : cstate) (es : list cev) : cstate * list cout :=
    match es with
    | [] => (s, [])
    | e :: es' => let r := cstep s e in let r' := crun (fst r) es' in (fst r', snd r ++ snd r')
    end.
End Caps.
