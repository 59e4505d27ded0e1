(** Model of the credentials that the bouncer saves on its own: downstream.go:2477-2479, 2527-2592,
    2593-2609, 3371-3376, 3396-3424 (messages to NickServ, AUTHENTICATE, REGISTER), upstream.go:780-826,
    876-923, 1762-1791 (the replies of the server) and user.go:469-485 (autoSaveSASLPlain). *)
From Verif.Base Require Import Bytes Base64.
From Verif.Model Require Import Message GenMsg Pending Register.
From Coq Require Import ZArith.
Open Scope nat_scope.

(** ** parseNickServCredentials *)

(** The UTF-8 encodings of the runes that unicode.IsSpace accepts. *)
Definition b3 (a b c : nat) : bytes := [ascii_of_nat a; ascii_of_nat b; ascii_of_nat c].
Definition blanks : list bytes :=
  map (fun c => [c]) ["009"%char; "010"%char; "011"%char; "012"%char; "013"%char; " "%char] ++
  [[ascii_of_nat 194; ascii_of_nat 133]; [ascii_of_nat 194; ascii_of_nat 160]; b3 225 154 128] ++
  map (fun k => b3 226 128 (128 + k)) (seq 0 11) ++
  [b3 226 128 168; b3 226 128 169; b3 226 128 175; b3 226 129 159; b3 227 128 128].

Definition flush (w : bytes) : list bytes := match w with [] => [] | _ => [rev w] end.

(** strings.Fields: [skip] bytes belong to the last blank. A blank starts only at a byte that starts
    a rune, also in texts that are not UTF-8, since no continuation byte starts one of [blanks]. *)
Fixpoint ufields (s : bytes) (skip : nat) (w : bytes) : list bytes :=
  match s with
  | [] => flush w
  | c :: s' =>
      match skip with
      | S k => ufields s' k w
      | O => match find (has_prefix (c :: s')) blanks with
             | Some b => flush w ++ ufields s' (length b - 1) []
             | None => ufields s' 0 (c :: w)
             end
      end
  end.

(** strings.ToUpper, up to the letters that are not in ASCII before and after: of the letters
    outside ASCII, only U+0131 and U+017F become ASCII letters, I and S. For comparison with an upper
    case word without I, K it is strings.EqualFold. *)
Definition dotless_i : bytes := [ascii_of_nat 196; ascii_of_nat 177].
Definition long_s : bytes := [ascii_of_nat 197; ascii_of_nat 191].
Fixpoint upper (s : bytes) : bytes :=
  match s with
  | [] => []
  | c :: t =>
      match t with
      | [] => [upper_byte c]
      | d :: r => if aeqb c (ascii_of_nat 196) && aeqb d (ascii_of_nat 177) then "I"%char :: upper r
                  else if aeqb c (ascii_of_nat 197) && aeqb d (ascii_of_nat 191) then "S"%char :: upper r
                  else upper_byte c :: upper t
      end
  end.

(** downstream.go:3396-3424. *)
Definition parse_nickserv (text nick : bytes) : option (bytes * bytes) :=
  match ufields text 0 [] with
  | cmd :: p :: ps =>
      if beqb (upper cmd) (B "REGISTER") then Some (nick, p)
      else if beqb (upper cmd) (B "IDENTIFY") then
        match ps with
        | [] => Some (nick, p)
        | p' :: _ => Some (p, p')
        end
      else if beqb (upper cmd) (B "SET") then
        match ps with
        | [p'] => if beqb (upper p) (B "PASSWORD") then Some (nick, p') else Some ([], [])
        | _ => Some ([], [])
        end
      else None
  | _ => None
  end.

(** ** The credentials of a network *)

(** database.SASL, the fields that matter. *)
Record saved := Saved { sv_mech : bytes; sv_user : bytes; sv_pass : bytes }.

(** downstream.go:290-300: [d_done] is in the server, [d_plain] is what its callback has stored. *)
Record dsasl := Dsasl { d_mech : mech; d_pending : bytes; d_done : bool; d_plain : option (bytes * bytes * bytes) }.

(** The network in memory and in the database; the SASL client of the upstream connection with the
    credentials it was made with, and whether it was started; the pending commands; the SASL exchange
    of each client; the clients; whether the goroutine of the user has panicked. *)
Record astate := AState {
  a_mem : saved;
  a_db : saved;
  a_uc : option (bytes * bytes);
  a_started : bool;
  a_qs : queues (list bytes);
  a_sasl : N -> option dsasl;
  a_live : N -> bool;
  a_panic : bool
}.

Definition with_saved s m d := AState m d (a_uc s) (a_started s) (a_qs s) (a_sasl s) (a_live s) (a_panic s).
Definition with_uc s u b := AState (a_mem s) (a_db s) u b (a_qs s) (a_sasl s) (a_live s) (a_panic s).
Definition with_qs s q := AState (a_mem s) (a_db s) (a_uc s) (a_started s) q (a_sasl s) (a_live s) (a_panic s).
Definition with_sasl s id x :=
  AState (a_mem s) (a_db s) (a_uc s) (a_started s) (a_qs s) (fun i => if N.eqb i id then x else a_sasl s i) (a_live s) (a_panic s).
Definition with_live s id b :=
  AState (a_mem s) (a_db s) (a_uc s) (a_started s) (a_qs s) (a_sasl s) (fun i => if N.eqb i id then b else a_live s i) (a_panic s).
Definition with_panic s := AState (a_mem s) (a_db s) (a_uc s) (a_started s) (a_qs s) (a_sasl s) (a_live s) true.

(** user.go:469-485. [dbok]: the database accepts the record. *)
Definition auto_save (s : astate) (username password : bytes) (dbok : bool) : astate :=
  if nonempty (sv_mech (a_mem s)) && negb (beqb (sv_mech (a_mem s)) (B "PLAIN")) then s
  else let m := Saved (B "PLAIN") username password in
       with_saved s m (if dbok then m else a_db s).

Inductive aout :=
| ASend (ms : list message)     (* the response, to the server *)
| AAbort.                        (* AUTHENTICATE * *)

Inductive aev :=
| EConnect (id : N)
| EDisconnect (id : N)
(* a client sends PRIVMSG or another command with these parameters; the current nick *)
| EMessage (id : N) (cmd target text nick : bytes) (dbok : bool)
(* a client sends AUTHENTICATE: the server has the sasl capability, the client has enabled it *)
| EAuth (id : N) (uc_sasl dc_sasl : bool) (params : list bytes) (dbok : bool) (now : Z)
| ERegister (id : N) (uc_cap : bool) (params : list bytes) (now : Z)
(* the server: AUTHENTICATE; RPL_SASLSUCCESS (true), ERR_NICKLOCKED, ERR_SASLFAIL, ERR_SASLTOOLONG,
   ERR_SASLABORTED (false); REGISTER; ERR_UNKNOWNERROR and others; FAIL *)
| EChallenge (params : list bytes)
| EReply (success : bool) (params : list bytes) (dbok : bool) (now : Z)
| ERegistered (params : list bytes) (dbok : bool) (now : Z)
| EError (command : bytes) (now : Z)
| EFail (command : bytes) (now : Z)
(* the connection to the server ends *)
| EDown
(* the user gives other settings explicitly *)
| EConfig (v : saved).

(** The queues that matter here. *)
Definition queue_of (command : bytes) : option kind :=
  if beqb command (B "AUTHENTICATE") then Some AUTHENTICATE
  else if beqb command (B "REGISTER") then Some REGISTER
  else None.

(** dequeueCommand with its results: the client, if it is still there, and the message. *)
Definition dequeue_cmd (s : astate) (k : kind) (now : Z) : astate * option N * option (list bytes) :=
  match a_qs s k with
  | [] => (s, None, None)
  | p :: _ => (with_qs s (fst (dequeue (a_qs s) k now)), if a_live s (p_client p) then Some (p_client p) else None, Some (p_msg p))
  end.

(** upstream.go:452-499: the exchanges with a pending AUTHENTICATE end; a new connection has no
    pending commands. *)
Definition drop_upstream (s : astate) : astate :=
  AState (a_mem s) (a_db s) None false no_queues
    (fun i => if existsb (fun p => N.eqb (p_client p) i) (a_qs s AUTHENTICATE) && a_live s i then None else a_sasl s i)
    (a_live s) (a_panic s).

Definition cleared : saved := Saved [] [] [].

Section AutoSave.
  (** The case mapping of the network. *)
  Variable cm : bytes -> bytes.
  Variable oauth_parse : bytes -> option (bytes * bytes).
  Variable oauth_failure : bytes.

  (** downstream.go:930-1035 (handleAuthenticate). *)
  Inductive hauth := HFailed | HMore | HDone (c : creds).
  Definition handle_authenticate (s : astate) (id : N) (dc_sasl : bool) (params : list bytes) : astate * hauth :=
    let fail := (with_sasl s id None, HFailed) in
    if negb dc_sasl then fail
    else match params with
    | [] => fail
    | p :: _ =>
        if beqb p (B "*") then fail
        else match a_sasl s id with
        | None => match find_mech (to_upper p) with
                  | None => fail
                  | Some m => (with_sasl s id (Some (Dsasl m [] false None)), HMore)
                  end
        | Some x =>
            match recv_chunk (d_pending x) p with
            | None => fail
            | Some (pending, None) => (with_sasl s id (Some (Dsasl (d_mech x) pending (d_done x) (d_plain x))), HMore)
            | Some (pending, Some resp) =>
                if d_done x then fail
                else match sasl_next oauth_parse oauth_failure (d_mech x) resp with
                | NError => fail
                | NDone c => (with_sasl s id (Some (Dsasl (d_mech x) pending true
                                (match c with CPlain z u p => Some (z, u, p) | _ => d_plain x end))), HDone c)
                | NChallenge m _ => (with_sasl s id (Some (Dsasl m pending (d_done x) (d_plain x))), HMore)
                end
            end
        end
    end.

  (** downstream.go:2527-2592. *)
  Definition on_auth (s : astate) (id : N) (uc_sasl dc_sasl : bool) (params : list bytes) (dbok : bool) (now : Z) : astate :=
    if negb uc_sasl then s
    else match handle_authenticate s id dc_sasl params with
    | (s, HFailed) | (s, HMore) => s
    | (s, HDone c) =>
        match a_uc s with
        | Some _ => with_sasl s id None
        | None =>
            match c with
            | CPlain z u p =>
                if nonempty z && negb (beqb z u) then s
                else let s := with_uc s (Some (u, p)) (a_started s) in
                     with_qs s (fst (enqueue (a_qs s) AUTHENTICATE id [B "PLAIN"] now))
            | CAnonymous =>
                with_sasl (if nonempty (sv_mech (a_mem s)) && dbok then with_saved (drop_upstream s) cleared cleared else s) id None
            | COauth _ _ => with_sasl s id None
            end
        end
    end.

  (** downstream.go:2477-2479, 3371-3376. *)
  Definition on_message (s : astate) (cmd target text nick : bytes) (dbok : bool) : astate :=
    if beqb cmd (B "PRIVMSG") && beqb (cm target) (B "nickserv") then
      match parse_nickserv text nick with
      | Some (u, p) => auto_save s u p dbok
      | None => s
      end
    else s.

  (** upstream.go:780-826. The responses of the PLAIN client of go-sasl; a second challenge is an
      error. *)
  Definition on_challenge (s : astate) (params : list bytes) : astate * list aout :=
    match a_uc s, params with
    | None, _ => (s, [])
    | Some _, [] => (s, [AAbort])
    | Some (u, p), c :: _ =>
        if negb (beqb c (B "+")) && (match b64_decode B64Std c with Some _ => false | None => true end) then (s, [AAbort])
        else if a_started s then (s, [AAbort])
        else (with_uc s (Some (u, p)) true, [ASend (generate_sasl ("000"%char :: u ++ "000"%char :: p))])
    end.

  (** upstream.go:876-906. *)
  Definition on_reply (s : astate) (success : bool) (params : list bytes) (dbok : bool) (now : Z) : astate :=
    if length params <? 2 then s
    else
      let '(s, dc, _) := dequeue_cmd (with_uc s None false) AUTHENTICATE now in
      match dc with
      | None => s
      | Some id =>
          match a_sasl s id with
          | None => s
          | Some x =>
              if success then
                match d_plain x with
                | None => with_panic s     (* dc.sasl.plain is nil *)
                | Some (z, u, p) => with_sasl (auto_save s u p dbok) id None
                end
              else with_sasl s id None
          end
      end.

  (** upstream.go:908-923. *)
  Definition on_registered (s : astate) (params : list bytes) (dbok : bool) (now : Z) : astate :=
    match dequeue_cmd s REGISTER now with
    | (s, Some _, Some (_ :: _ :: password :: _)) =>
        match params with
        | _ :: account :: _ => auto_save s account password dbok
        | _ => s
        end
    | (s, _, _) => s
    end.

  (** upstream.go:1762-1791. *)
  Definition on_error (s : astate) (command : bytes) (reset : bool) (now : Z) : astate :=
    let s := match queue_of command with
             | Some k => fst (fst (dequeue_cmd s k now))
             | None => s
             end in
    if reset && beqb command (B "AUTHENTICATE") then with_uc s None false else s.

  Definition astep (s : astate) (e : aev) : astate * list aout :=
    if a_panic s then (s, [])
    else match e with
    | EConnect id => (with_sasl (with_live s id true) id None, [])
    | EDisconnect id => (with_sasl (with_live (with_qs s (cancel (a_qs s) id)) id false) id None, [])
    | EMessage id cmd target text nick dbok => (on_message s cmd target text nick dbok, [])
    | EAuth id us ds params dbok now => (on_auth s id us ds params dbok now, [])
    | ERegister id uc params now =>
        (if (length params <? 3) || negb uc then s else with_qs s (fst (enqueue (a_qs s) REGISTER id params now)), [])
    | EChallenge params => on_challenge s params
    | EReply success params dbok now => (on_reply s success params dbok now, [])
    | ERegistered params dbok now => (on_registered s params dbok now, [])
    | EError command now => (on_error s command true now, [])
    | EFail command now => (on_error s command false now, [])
    | EDown => (drop_upstream s, [])
    | EConfig v => (with_saved (drop_upstream s) v v, [])
    end.

  Fixpoint arun (s : astate) (es : list aev) : astate * list aout :=
    match es with
    | [] => (s, [])
    | e :: es' => let r := astep s e in let r' := arun (fst r) es' in (fst r', snd r ++ snd r')
    end.
End AutoSave.

(** The network is loaded, no one is connected. *)
Definition loaded (v : saved) : astate := AState v v None false no_queues (fun _ => None) (fun _ => false) false.
