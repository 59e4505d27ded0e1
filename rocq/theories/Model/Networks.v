(** Model of the networks of a user: the in-memory list, the database rows, and
    every command that changes them. user.go:574-592, 956-1267, service.go:493-730,
    753-940, downstream.go:81-201, 1372-1440, 1796-1906, 2572-2590, 3085-3200,
    database/sqlite.go:558-690, database/database.go:172-205. *)
From Verif.Base Require Import Bytes.
From Coq Require Import ZArith.
Local Open Scope Z_scope.

(** database/database.go: the Network record. The zero ID is a network which is
    not stored yet. Byte blobs are byte strings, nil is the empty one. *)
Record netrec := Net {
  n_id : Z;
  n_name : bytes;
  n_addr : bytes;
  n_nick : bytes;
  n_username : bytes;
  n_realname : bytes;
  n_certfp : bytes;
  n_pass : bytes;
  n_cmds : list bytes;
  n_mech : bytes;
  n_plain_user : bytes;
  n_plain_pass : bytes;
  n_cert : bytes;
  n_key : bytes;
  n_autoaway : bool;
  n_enabled : bool
}.

(** database/database.go:172-178 (NewNetwork). *)
Definition new_network (addr : bytes) : netrec :=
  Net 0 [] addr [] [] [] [] [] [] [] [] [] [] [] true true.

(** database/database.go:180-185 (GetName). *)
Definition get_name (r : netrec) : bytes :=
  match n_name r with [] => n_addr r | n => n end.

(** Field updates. *)
Definition set_id i r := Net i (n_name r) (n_addr r) (n_nick r) (n_username r) (n_realname r) (n_certfp r) (n_pass r) (n_cmds r) (n_mech r) (n_plain_user r) (n_plain_pass r) (n_cert r) (n_key r) (n_autoaway r) (n_enabled r).
Definition set_name x r := Net (n_id r) x (n_addr r) (n_nick r) (n_username r) (n_realname r) (n_certfp r) (n_pass r) (n_cmds r) (n_mech r) (n_plain_user r) (n_plain_pass r) (n_cert r) (n_key r) (n_autoaway r) (n_enabled r).
Definition set_addr x r := Net (n_id r) (n_name r) x (n_nick r) (n_username r) (n_realname r) (n_certfp r) (n_pass r) (n_cmds r) (n_mech r) (n_plain_user r) (n_plain_pass r) (n_cert r) (n_key r) (n_autoaway r) (n_enabled r).
Definition set_nick x r := Net (n_id r) (n_name r) (n_addr r) x (n_username r) (n_realname r) (n_certfp r) (n_pass r) (n_cmds r) (n_mech r) (n_plain_user r) (n_plain_pass r) (n_cert r) (n_key r) (n_autoaway r) (n_enabled r).
Definition set_username x r := Net (n_id r) (n_name r) (n_addr r) (n_nick r) x (n_realname r) (n_certfp r) (n_pass r) (n_cmds r) (n_mech r) (n_plain_user r) (n_plain_pass r) (n_cert r) (n_key r) (n_autoaway r) (n_enabled r).
Definition set_realname x r := Net (n_id r) (n_name r) (n_addr r) (n_nick r) (n_username r) x (n_certfp r) (n_pass r) (n_cmds r) (n_mech r) (n_plain_user r) (n_plain_pass r) (n_cert r) (n_key r) (n_autoaway r) (n_enabled r).
Definition set_certfp x r := Net (n_id r) (n_name r) (n_addr r) (n_nick r) (n_username r) (n_realname r) x (n_pass r) (n_cmds r) (n_mech r) (n_plain_user r) (n_plain_pass r) (n_cert r) (n_key r) (n_autoaway r) (n_enabled r).
Definition set_pass x r := Net (n_id r) (n_name r) (n_addr r) (n_nick r) (n_username r) (n_realname r) (n_certfp r) x (n_cmds r) (n_mech r) (n_plain_user r) (n_plain_pass r) (n_cert r) (n_key r) (n_autoaway r) (n_enabled r).
Definition set_cmds x r := Net (n_id r) (n_name r) (n_addr r) (n_nick r) (n_username r) (n_realname r) (n_certfp r) (n_pass r) x (n_mech r) (n_plain_user r) (n_plain_pass r) (n_cert r) (n_key r) (n_autoaway r) (n_enabled r).
Definition set_sasl mech pu pp cert key r := Net (n_id r) (n_name r) (n_addr r) (n_nick r) (n_username r) (n_realname r) (n_certfp r) (n_pass r) (n_cmds r) mech pu pp cert key (n_autoaway r) (n_enabled r).
Definition set_autoaway x r := Net (n_id r) (n_name r) (n_addr r) (n_nick r) (n_username r) (n_realname r) (n_certfp r) (n_pass r) (n_cmds r) (n_mech r) (n_plain_user r) (n_plain_pass r) (n_cert r) (n_key r) x (n_enabled r).
Definition set_enabled x r := Net (n_id r) (n_name r) (n_addr r) (n_nick r) (n_username r) (n_realname r) (n_certfp r) (n_pass r) (n_cmds r) (n_mech r) (n_plain_user r) (n_plain_pass r) (n_cert r) (n_key r) (n_autoaway r) x.

Definition PLAIN := B "PLAIN".
Definition EXTERNAL := B "EXTERNAL".

(** * The database *)

(** A row of the Network table, database/sqlite_schema.sql; NULL is None. *)
Record row := Row {
  r_id : Z; r_name : option bytes; r_addr : bytes; r_nick : option bytes;
  r_username : option bytes; r_realname : option bytes; r_certfp : option bytes; r_pass : option bytes;
  r_cmds : option bytes; r_mech : option bytes; r_plain_user : option bytes; r_plain_pass : option bytes;
  r_cert : bytes; r_key : bytes; r_autoaway : bool; r_enabled : bool
}.

(** database/utils.go (toNullString). *)
Definition null (s : bytes) : option bytes := match s with [] => None | _ => Some s end.
Definition of_null (o : option bytes) : bytes := match o with None => [] | Some s => s end.

Definition crlf2 : bytes := ["013"; "010"]%char.

(** strings.Split(s, "\r\n"). *)
Fixpoint split_crlf (s : bytes) : list bytes :=
  match s with
  | [] => [[]]
  | c :: s' =>
      match s' with
      | d :: s'' => if aeqb c "013" && aeqb d "010" then [] :: split_crlf s''
                    else match split_crlf s' with [] => [[c]] | x :: l => (c :: x) :: l end
      | [] => [[c]]
      end
  end.

(** database/sqlite.go:606-645 (StoreNetwork): the mutation of the record it is
    given and the row it writes. *)
Definition store_mutate (r : netrec) : netrec :=
  if beqb (n_mech r) PLAIN then set_sasl (n_mech r) (n_plain_user r) (n_plain_pass r) [] [] r else r.
Definition row_of (r : netrec) : row :=
  let plain := beqb (n_mech r) PLAIN in
  Row (n_id r) (null (n_name r)) (n_addr r) (null (n_nick r)) (null (n_username r)) (null (n_realname r))
      (null (n_certfp r)) (null (n_pass r)) (null (join crlf2 (n_cmds r))) (null (n_mech r))
      (if plain then null (n_plain_user r) else None) (if plain then null (n_plain_pass r) else None)
      (if plain then [] else n_cert r) (if plain then [] else n_key r) (n_autoaway r) (n_enabled r).
Definition mech_ok (r : netrec) : bool :=
  beqb (n_mech r) [] || beqb (n_mech r) PLAIN || beqb (n_mech r) EXTERNAL.

(** database/sqlite.go:558-604 (ListNetworks): reading a row back. *)
Definition rec_of (w : row) : netrec :=
  Net (r_id w) (of_null (r_name w)) (r_addr w) (of_null (r_nick w)) (of_null (r_username w)) (of_null (r_realname w))
      (of_null (r_certfp w)) (of_null (r_pass w))
      (match r_cmds w with None => [] | Some s => split_crlf s end) (of_null (r_mech w))
      (of_null (r_plain_user w)) (of_null (r_plain_pass w)) (r_cert w) (r_key w) (r_autoaway w) (r_enabled w).

(** UNIQUE(user, addr, nick), UNIQUE(user, name): rows with a NULL never conflict. *)
Definition null_eqb (a b : option bytes) : bool :=
  match a, b with Some x, Some y => beqb x y | _, _ => false end.
Definition conflict (a b : row) : bool :=
  (beqb (r_addr a) (r_addr b) && null_eqb (r_nick a) (r_nick b)) || null_eqb (r_name a) (r_name b).

(** database/sqlite.go:606-673 (StoreNetwork) on the rows of the user. [io] is
    false if the database fails; [nid] is the ID chosen for a new row: it is refused if
    it is not positive or is in use. *)
Definition store_network (rows : list row) (r : netrec) (nid : Z) (io : bool) : option (list row * netrec) :=
  if negb (mech_ok r) then None
  else let r := store_mutate r in
  if negb io then None
  else if n_id r =? 0 then
    let r := set_id nid r in
    if (nid <=? 0) || existsb (fun w => (r_id w =? nid) || conflict w (row_of r)) rows then None
    else Some (rows ++ [row_of r], r)
  else
    if existsb (fun w => negb (r_id w =? n_id r) && conflict w (row_of r)) rows then None
    else Some (map (fun w => if r_id w =? n_id r then row_of r else w) rows, r).

(** * URLs *)

(** The parts of a net/url.URL that are used. *)
Record url := Url { u_scheme : bytes; u_has_user : bool; u_query : bytes; u_fragment : bytes; u_host : bytes; u_path : bytes }.

(** * The user *)
Record ust := Ust {
  us_username : bytes; us_nick : bytes; us_realname : bytes;
  us_admin : bool; us_enabled : bool; us_max : Z;
  us_nets : list netrec;     (* u.networks *)
  us_rows : list row         (* the rows of the Network table for this user *)
}.
Definition with_nets (u : ust) nets rows :=
  Ust (us_username u) (us_nick u) (us_realname u) (us_admin u) (us_enabled u) (us_max u) nets rows.

(** user.go:574-584 (getNetwork). *)
Definition get_network (nets : list netrec) (name : bytes) : option netrec :=
  find (fun r => beqb (n_addr r) name || (negb (beqb (n_name r) []) && beqb (n_name r) name)) nets.

(** user.go:586-592 (getNetworkByID). *)
Definition get_network_by_id (nets : list netrec) (id : Z) : option netrec := find (fun r => n_id r =? id) nets.

(** user.go:956-962 (addNetwork): append, then sort by ID. Sorting the list, whose
    other elements are sorted, inserts the new one. *)
Fixpoint add_network (r : netrec) (nets : list netrec) : list netrec :=
  match nets with
  | [] => [r]
  | x :: nets' => if n_id r <? n_id x then r :: x :: nets' else x :: add_network r nets'
  end.

(** user.go:966-983 (removeNetwork), without the connections. Removes by pointer
    the network found by its ID. *)
Fixpoint remove_network (id : Z) (nets : list netrec) : list netrec :=
  match nets with
  | [] => []
  | x :: nets' => if n_id x =? id then nets' else x :: remove_network id nets'
  end.

Definition count_enabled (nets : list netrec) : Z := Z.of_nat (length (filter n_enabled nets)).

Section Networks.
  (** url.Parse, net.SplitHostPort, irc.ParseMessage succeeding, and Config().MaxUserNetworks. *)
  Variable parse_url : bytes -> option url.
  Variable split_host_port : bytes -> option (bytes * bytes).
  Variable command_ok : bytes -> bool.
  Variable config_max : Z.

  (** database/database.go:187-205 (URL). *)
  Fixpoint contains (sub s : bytes) : bool :=
    has_prefix s sub || match s with [] => false | _ :: s' => contains sub s' end.
  Definition unix_scheme (s : bytes) : bool := beqb s (B "irc+unix") || beqb s (B "unix").
  Definition net_url (r : netrec) : option url :=
    let s := if contains (B "://") (n_addr r) then n_addr r else B "ircs://" ++ n_addr r in
    match parse_url s with
    | None => None
    | Some u => Some (if unix_scheme (u_scheme u)
                      then Url (u_scheme u) (u_has_user u) (u_query u) (u_fragment u) [] (u_host u ++ u_path u)
                      else u)
    end.

  (** user.go:985-1003 (canEnableNewNetwork). *)
  Definition limit (u : ust) : Z := if us_max u <? 0 then config_max else us_max u.
  Definition can_enable (u : ust) : bool :=
    let max := limit u in (max <? 0) || (count_enabled (us_nets u) <? max).

  (** user.go:1005-1056 (checkNetwork). *)
  Definition check_network (u : ust) (r : netrec) : bool :=
    match net_url r with
    | None => false
    | Some url =>
        negb (u_has_user url) && beqb (u_query url) [] && beqb (u_fragment url) [] &&
        (if beqb (u_scheme url) (B "ircs") || beqb (u_scheme url) (B "irc+insecure")
         then negb (beqb (u_host url) []) && beqb (u_path url) []
         else if unix_scheme (u_scheme url)
         then us_admin u && beqb (u_host url) [] && negb (beqb (u_path url) [])
         else false)
    end &&
    negb (beqb (get_name r) []) && negb (has_prefix (get_name r) (B "-")) &&
    forallb (fun x => negb (beqb (get_name x) (get_name r) && negb (n_id x =? n_id r))) (us_nets u).

  (** user.go:1058-1085 (createNetwork). None is an error. *)
  Definition create_network (u : ust) (r : netrec) (enforce : bool) (nid : Z) (io : bool) : option ust :=
    if enforce && n_enabled r && negb (can_enable u) then None
    else if negb (check_network u r) then None
    else match store_network (us_rows u) r nid io with
         | None => None
         | Some (rows, r) => Some (with_nets u (add_network r (us_nets u)) rows)
         end.

  (** user.go:1087-1165 (updateNetwork), without the connections. *)
  Definition update_network (u : ust) (r : netrec) (enforce : bool) (io : bool) : option ust :=
    if enforce && n_enabled r && negb (can_enable u) then None
    else
      let r := if beqb (n_nick r) (us_nick u) then set_nick [] r else r in
      let r := if beqb (n_realname r) (us_realname u) then set_realname [] r else r in
      if negb (check_network u r) then None
      else match get_network_by_id (us_nets u) (n_id r) with
           | None => None
           | Some _ =>
               match store_network (us_rows u) r 0 io with
               | None => None
               | Some (rows, r) =>
                   Some (with_nets u (add_network r (remove_network (n_id r) (us_nets u))) rows)
               end
           end.

  (** user.go:1167-1190 (deleteNetwork) and database/sqlite.go:675-: the rows of other tables are not here. *)
  Definition delete_network (u : ust) (id : Z) (io : bool) : option ust :=
    match get_network_by_id (us_nets u) id with
    | None => None
    | Some _ =>
        if negb io then None
        else Some (with_nets u (remove_network id (us_nets u)) (filter (fun w => negb (r_id w =? id)) (us_rows u)))
    end.

  (** * Service commands *)

  (** service.go:509-531: the flags of network create and network update. *)
  Record flags := Flags {
    f_addr : option bytes; f_name : option bytes; f_nick : option bytes; f_username : option bytes;
    f_pass : option bytes; f_realname : option bytes; f_certfp : option bytes;
    f_autoaway : option bool; f_enabled : option bool; f_ignore_limit : bool;
    f_cmds : option (list bytes)
  }.

  (** strings.SplitN(s, "://", 2)[0] if there are two parts. *)
  Fixpoint scheme_of (s : bytes) : option bytes :=
    if has_prefix s (B "://") then Some []
    else match s with [] => None | c :: s' => option_map (cons c) (scheme_of s') end.

  (** encoding/hex.DecodeString succeeding. *)
  Definition is_hex (c : ascii) : bool := is_digit c || ((97 <=? code c) && (code c <=? 102))%N || ((65 <=? code c) && (code c <=? 70))%N.
  Definition hex_ok (s : bytes) : bool := forallb is_hex s && Nat.even (length s).

  (** service.go:563-577: the -certfp flag. strings.ToLower on bytes that are not
      ASCII is left out: no such character has a lower case hexadecimal digit as its lower case, so
      the value is refused anyway. *)
  Definition norm_certfp (s : bytes) : option bytes :=
    let c := to_lower (filter (fun c => negb (aeqb c ":")) s) in
    if negb (hex_ok c) then None
    else if Nat.eqb (length c) 0 then Some []
    else if Nat.eqb (length c) 64 then Some (B "sha-256:" ++ c)
    else if Nat.eqb (length c) 128 then Some (B "sha-512:" ++ c)
    else None.

  (** service.go:533-601 (networkFlagSet.update). *)
  Definition upd {A} (o : option A) (f : A -> netrec -> netrec) (r : netrec) : netrec :=
    match o with None => r | Some x => f x r end.
  (** service.go:534-542: the scheme of the address is unknown. *)
  Definition bad_addr (o : option bytes) : bool :=
    match o with
    | None => false
    | Some a => match scheme_of a with
                | None => false
                | Some s => negb (beqb s (B "ircs") || beqb s (B "irc+insecure") || beqb s (B "unix"))
                end
    end.
  (** service.go:546: the name is reserved. *)
  Definition bad_name (o : option bytes) : bool := match o with None => false | Some n => beqb n (B "*") end.
  Definition certfp_update (o : option bytes) (r : netrec) : option netrec :=
    match o with None => Some r | Some c => option_map (fun c => set_certfp c r) (norm_certfp c) end.
  (** service.go:584-599. *)
  Definition cmds_update (o : option (list bytes)) (r : netrec) : option netrec :=
    match o with
    | None => Some r
    | Some l => if leqb beqb l [[]] then Some (set_cmds [] r)
                else if Nat.ltb 20 (length l) then None
                else if forallb command_ok l then Some (set_cmds l r) else None
    end.
  Definition flags_update (fs : flags) (r : netrec) : option netrec :=
    if bad_addr (f_addr fs) then None
    else let r := upd (f_addr fs) set_addr r in
    if bad_name (f_name fs) then None
    else let r := upd (f_realname fs) set_realname (upd (f_pass fs) set_pass (upd (f_username fs) set_username
                  (upd (f_nick fs) set_nick (upd (f_name fs) set_name r)))) in
    match certfp_update (f_certfp fs) r with
    | None => None
    | Some r => cmds_update (f_cmds fs) (upd (f_enabled fs) set_enabled (upd (f_autoaway fs) set_autoaway r))
    end.

  (** service.go:493-507, 768-782: a network is named in the arguments, or else it
      is that of the connection, which is given by its ID. *)
  Definition select (u : ust) (cur : option Z) (name : bytes) : option netrec :=
    match name with
    | [] => match cur with None => None | Some id => get_network_by_id (us_nets u) id end
    | _ => get_network (us_nets u) name
    end.

  (** service.go:603-630. *)
  Definition svc_create (u : ust) (admin : bool) (fs : flags) (nid : Z) (io : bool) : option ust :=
    match f_addr fs with
    | None => None
    | Some addr =>
        if f_ignore_limit fs && negb admin then None
        else match flags_update fs (new_network addr) with
             | None => None
             | Some r => create_network u r (negb (f_ignore_limit fs)) nid io
             end
    end.

  (** service.go:682-712. *)
  Definition svc_update (u : ust) (admin : bool) (cur : option Z) (name : bytes) (fs : flags) (io : bool) : option ust :=
    match select u cur name with
    | None => None
    | Some n =>
        if f_ignore_limit fs && negb admin then None
        else match flags_update fs n with
             | None => None
             | Some r => update_network u r (negb (f_ignore_limit fs) && negb (n_enabled n)) io
             end
    end.

  (** service.go:714-729. *)
  Definition svc_delete (u : ust) (cur : option Z) (name : bytes) (io : bool) : option ust :=
    match select u cur name with
    | None => None
    | Some n => delete_network u (n_id n) io
    end.

  (** Replaces the network with this ID by [r]: an assignment to the fields of the
      network in use. *)
  Definition assign (r : netrec) (nets : list netrec) : list netrec :=
    map (fun x => if n_id x =? n_id r then r else x) nets.

  (** service.go:806-816, 902-908, 930-938, user.go:469-483: the record in use is
      changed first and then stored; if that fails it stays changed. *)
  Definition change_and_store (u : ust) (r : netrec) (io : bool) : ust :=
    match store_network (us_rows u) r 0 io with
    | None => with_nets u (assign (if mech_ok r then store_mutate r else r) (us_nets u)) (us_rows u)
    | Some (rows, r) => with_nets u (assign r (us_nets u)) rows
    end.

  Definition svc_sasl_set (u : ust) cur name (user pass : bytes) (io : bool) : option ust :=
    match select u cur name with
    | None => None
    | Some n => Some (change_and_store u (set_sasl PLAIN user pass (n_cert n) (n_key n) n) io)
    end.
  Definition svc_sasl_reset (u : ust) cur name (io : bool) : option ust :=
    match select u cur name with
    | None => None
    | Some n => Some (change_and_store u (set_sasl [] [] [] [] [] n) io)
    end.
  Definition svc_certfp (u : ust) cur name (cert key : bytes) (io : bool) : option ust :=
    match select u cur name with
    | None => None
    | Some n => Some (change_and_store u (set_sasl EXTERNAL (n_plain_user n) (n_plain_pass n) cert key n) io)
    end.

  (** user.go:469-483 (autoSaveSASLPlain). *)
  Definition auto_save (u : ust) (id : Z) (user pass : bytes) (io : bool) : option ust :=
    match get_network_by_id (us_nets u) id with
    | None => None
    | Some n =>
        if negb (beqb (n_mech n) []) && negb (beqb (n_mech n) PLAIN) then None
        else Some (change_and_store u (set_sasl PLAIN user pass (n_cert n) (n_key n) n) io)
    end.

  (** * BOUNCER commands *)

  (** The attributes, a map; [a_unknown] tells that it has a key that is not known. *)
  Record attrs := Attrs {
    a_host : option bytes; a_port : option bytes; a_tls : option bytes; a_name : option bytes; a_nick : option bytes;
    a_username : option bytes; a_realname : option bytes; a_pass : option bytes; a_unknown : bool
  }.

  (** downstream.go:91-112 (fillNetworkAddrAttrs): host, port and tls. *)
  Definition addr_attrs (r : netrec) : option bytes * option bytes * option bytes :=
    match net_url r with
    | None => (None, None, None)
    | Some u =>
        let tls := if beqb (u_scheme u) (B "ircs") then Some (B "1")
                   else if beqb (u_scheme u) (B "irc+insecure") then Some (B "0") else None in
        match tls with
        | None => (None, None, None)
        | Some _ => match split_host_port (u_host u) with
                    | Some (h, p) => (Some h, Some p, tls)
                    | None => (Some (u_host u), None, tls)
                    end
        end
    end.

  (** downstream.go:141-159 (networkAddrFromAttrs). *)
  Definition addr_from (host port tls : option bytes) : bytes :=
    match of_null host with
    | [] => []
    | h => let addr := match of_null port with [] => h | p => h ++ B ":" ++ p end in
           if beqb (of_null tls) (B "0") then B "irc+insecure://" ++ addr else addr
    end.

  (** downstream.go:161-201 (updateNetworkAttrs). *)
  Definition or_else {A} (a b : option A) : option A := match a with None => b | _ => a end.
  Definition is_some {A} (o : option A) : bool := match o with None => false | _ => true end.
  Definition attrs_update (a : attrs) (r : netrec) : option netrec :=
    if a_unknown a then None
    else
      let '(h, p, t) := addr_attrs r in
      let r := upd (a_pass a) set_pass (upd (a_realname a) set_realname (upd (a_username a) set_username
               (upd (a_nick a) set_nick (upd (a_name a) set_name r)))) in
      if is_some (a_host a) || is_some (a_port a) || is_some (a_tls a) then
        match addr_from (or_else (a_host a) h) (or_else (a_port a) p) (or_else (a_tls a) t) with
        | [] => None
        | addr => Some (set_addr addr r)
        end
      else Some r.

  Definition wipe_defaults (u : ust) (r : netrec) : netrec :=
    let r := if beqb (n_nick r) (us_username u) then set_nick [] r else r in
    if beqb (n_realname r) (us_realname u) then set_realname [] r else r.

  (** downstream.go:3096-3127 (ADDNETWORK). *)
  Definition bnc_add (u : ust) (nick : bytes) (a : attrs) (nid : Z) (io : bool) : option ust :=
    match attrs_update a (set_nick nick (new_network [])) with
    | None => None
    | Some r => create_network u (wipe_defaults u r) true nid io
    end.

  (** downstream.go:3128-3172 (CHANGENETWORK). *)
  Definition bnc_change (u : ust) (id : Z) (a : attrs) (io : bool) : option ust :=
    match get_network_by_id (us_nets u) id with
    | None => None
    | Some n =>
        match attrs_update a n with
        | None => None
        | Some r => update_network u (wipe_defaults u r) (negb (n_enabled n)) io
        end
    end.

  (** downstream.go:3173-3197 (DELNETWORK). *)
  Definition bnc_del (u : ust) (id : Z) (io : bool) : option ust := delete_network u id io.

  (** * Connections *)

  (** downstream.go:1372-1440 (loadNetwork) when no network ID is given; [nick] is the nickname
      without suffixes, already checked, and [reachable] the result of
      sanityCheckServer. *)
  Definition login (u : ust) (name nick : bytes) (reachable : bool) (nid : Z) (io : bool) : option ust :=
    if beqb name (B "*") || beqb name [] then None
    else match get_network (us_nets u) name with
         | Some _ => None
         | None => if reachable then create_network u (set_nick nick (new_network name)) true nid io else None
         end.

  (** downstream.go:1796-1840 (NICK) on a connection bound to a network. *)
  Definition dc_nick (u : ust) (id : Z) (nick : bytes) (io : bool) : option ust :=
    match get_network_by_id (us_nets u) id with
    | None => None
    | Some n =>
        match store_network (us_rows u) (set_nick nick n) 0 io with
        | None => None
        | Some (rows, _) => Some (with_nets u (assign (set_nick nick n) (us_nets u)) rows)
        end
    end.

  (** downstream.go:1855-1891 (SETNAME) on a connection bound to a network, if the
      real name differs from the current one. [cap] tells whether the upstream connection is up and has the
      setname capability. *)
  Definition dc_setname (u : ust) (id : Z) (realname : bytes) (cap io : bool) : option ust :=
    match get_network_by_id (us_nets u) id with
    | None => None
    | Some n =>
        let r := set_realname (if beqb realname (us_realname u) then [] else realname) n in
        if cap then
          match store_network (us_rows u) r 0 io with
          | None => None
          | Some (rows, _) => Some (with_nets u (us_nets u) rows)
          end
        else update_network u r false io
    end.

  (** downstream.go:2570-2588 (SASL ANONYMOUS after registration). *)
  Definition dc_anonymous (u : ust) (id : Z) (io : bool) : option ust :=
    match get_network_by_id (us_nets u) id with
    | None => None
    | Some n => if beqb (n_mech n) [] then None else update_network u (set_sasl [] [] [] [] [] n) false io
    end.

  (** user.go:1192-1267 (updateUser) with any change of the user record. [caps]
      tells for a network ID whether the upstream connection is up and has setname, [ios] whether storing this network
      works. *)
  Definition update_user (u : ust) (nick realname : bytes) (admin enabled : bool) (max : Z) (caps ios : Z -> bool) (io : bool) : option ust :=
    if negb io then None
    else
      let u1 := Ust (us_username u) nick realname admin enabled max (us_nets u) (us_rows u) in
      let realname_updated := negb (beqb (us_realname u) realname) in
      let enabled_updated := negb (Bool.eqb (us_enabled u) enabled) in
      if realname_updated || enabled_updated then
        let need := filter (fun n => negb (realname_updated && negb enabled_updated &&
                                           (negb (beqb (n_realname n) []) || caps (n_id n)))) (us_nets u) in
        Some (fold_left (fun u n => match update_network u n false (ios (n_id n)) with None => u | Some u' => u' end) need u1)
      else Some u1.

  (** * Executions *)
  Inductive op :=
  | SvcCreate (admin : bool) (fs : flags) (nid : Z) (io : bool)
  | SvcUpdate (admin : bool) (cur : option Z) (name : bytes) (fs : flags) (io : bool)
  | SvcDelete (cur : option Z) (name : bytes) (io : bool)
  | SvcSaslSet (cur : option Z) (name user pass : bytes) (io : bool)
  | SvcSaslReset (cur : option Z) (name : bytes) (io : bool)
  | SvcCertfp (cur : option Z) (name cert key : bytes) (io : bool)
  | AutoSave (id : Z) (user pass : bytes) (io : bool)
  | BncAdd (nick : bytes) (a : attrs) (nid : Z) (io : bool)
  | BncChange (id : Z) (a : attrs) (io : bool)
  | BncDel (id : Z) (io : bool)
  | Login (name nick : bytes) (reachable : bool) (nid : Z) (io : bool)
  | DcNick (id : Z) (nick : bytes) (io : bool)
  | DcSetname (id : Z) (realname : bytes) (cap io : bool)
  | DcAnonymous (id : Z) (io : bool)
  | UserUpdate (nick realname : bytes) (admin enabled : bool) (max : Z) (caps ios : Z -> bool) (io : bool).

  Definition apply (u : ust) (o : op) : option ust :=
    match o with
    | SvcCreate admin fs nid io => svc_create u admin fs nid io
    | SvcUpdate admin cur name fs io => svc_update u admin cur name fs io
    | SvcDelete cur name io => svc_delete u cur name io
    | SvcSaslSet cur name user pass io => svc_sasl_set u cur name user pass io
    | SvcSaslReset cur name io => svc_sasl_reset u cur name io
    | SvcCertfp cur name cert key io => svc_certfp u cur name cert key io
    | AutoSave id user pass io => auto_save u id user pass io
    | BncAdd nick a nid io => bnc_add u nick a nid io
    | BncChange id a io => bnc_change u id a io
    | BncDel id io => bnc_del u id io
    | Login name nick reachable nid io => login u name nick reachable nid io
    | DcNick id nick io => dc_nick u id nick io
    | DcSetname id realname cap io => dc_setname u id realname cap io
    | DcAnonymous id io => dc_anonymous u id io
    | UserUpdate nick realname admin enabled max caps ios io => update_user u nick realname admin enabled max caps ios io
    end.

  (** A refused command changes nothing. *)
  Definition step (u : ust) (o : op) : ust := match apply u o with None => u | Some u' => u' end.
  Definition run (u : ust) (os : list op) : ust := fold_left step os u.
End Networks.

(** A user with no networks, user.go:547-563. *)
Definition new_user (username nick realname : bytes) (admin enabled : bool) (max : Z) : ust :=
  Ust username nick realname admin enabled max [] [].
