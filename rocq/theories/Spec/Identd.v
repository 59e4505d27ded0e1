(** What an ident server discloses. *)
From Verif.Base Require Import Bytes.
From Verif.Model Require Import Identd.
From Coq Require Import ZArith.

(** The address "host:port", with brackets when the host has colons. *)
Definition addr_of (host port : bytes) : bytes :=
  if amem ":" host then B "[" ++ host ++ B "]:" ++ port else host ++ B ":" ++ port.
Definition is_host (h : bytes) : Prop := ~ In "["%char h /\ ~ In "]"%char h.

(** [numeral v s]: [s] writes the number [v] in decimal. *)
Definition digit_val (c : ascii) : option Z :=
  find (fun d => aeqb c (ascii_of_N (48 + Z.to_N d))) [0; 1; 2; 3; 4; 5; 6; 7; 8; 9]%Z.
Inductive decimal : Z -> bytes -> Prop :=
| d_one d c : digit_val c = Some d -> decimal d [c]
| d_more v s d c : decimal v s -> digit_val c = Some d -> decimal (10 * v + d)%Z (s ++ [c]).
Definition numeral (v : Z) (s : bytes) : Prop :=
  exists ds, decimal v ds /\ (s = ds \/ s = B "+" ++ ds).

Definition white (s : bytes) : Prop :=
  forall c, In c s -> In c (map ascii_of_N [9; 10; 11; 12; 13; 32]%N).

(** "local-port , remote-port". *)
Definition is_query (l : bytes) (lport rport : Z) : Prop :=
  exists s1 s2 s3 s4 a b, white s1 /\ white s2 /\ white s3 /\ white s4 /\
    numeral lport a /\ numeral rport b /\ l = (s1 ++ a ++ s2) ++ B "," ++ (s3 ++ b ++ s4) /\
    (0 < lport < 2 ^ 63)%Z /\ (0 < rport < 2 ^ 63)%Z.

(** A connection: remote host and port, local host and port. *)
Record conn := Conn { c_rhost : bytes; c_rport : Z; c_rport_text : bytes;
                      c_lhost : bytes; c_lport : Z; c_lport_text : bytes }.
Definition is_conn (c : conn) : Prop :=
  is_host (c_rhost c) /\ is_host (c_lhost c) /\
  decimal (c_rport c) (c_rport_text c) /\ decimal (c_lport c) (c_lport_text c) /\
  (0 <= c_rport c < 65536)%Z /\ (0 <= c_lport c < 65536)%Z.
Definition remote_addr (c : conn) : bytes := addr_of (c_rhost c) (c_rport_text c).
Definition local_addr (c : conn) : bytes := addr_of (c_lhost c) (c_lport_text c).

(** Registrations, newest first. *)
Inductive reg := Registered (c : conn) (ident : bytes) | Removed (c : conn).

Definition concerns (host : bytes) (rport lport : Z) (c : conn) : Prop :=
  c_rhost c = host /\ c_rport c = rport /\ c_lport c = lport.

(** [identity host rport lport hist ident]: [ident] is the identity in force. *)
Inductive identity (host : bytes) (rport lport : Z) : list reg -> option bytes -> Prop :=
| id_none : identity host rport lport [] None
| id_hit c i h : concerns host rport lport c -> identity host rport lport (Registered c i :: h) (Some i)
| id_gone c h : concerns host rport lport c -> identity host rport lport (Removed c :: h) None
| id_other_reg c i h o : ~ concerns host rport lport c -> identity host rport lport h o ->
    identity host rport lport (Registered c i :: h) o
| id_other_rem c h o : ~ concerns host rport lport c -> identity host rport lport h o ->
    identity host rport lport (Removed c :: h) o.

Inductive event := EReg (c : conn) (ident : bytes) | ERem (c : conn) | EQuery (l : bytes).

Definition op_of (e : event) : ident_op :=
  match e with
  | EReg c i => IStore (remote_addr c) (local_addr c) i
  | ERem c => IDelete (remote_addr c) (local_addr c)
  | EQuery l => ILine l
  end.

Definition eol : bytes := map ascii_of_N [13; 10]%N.

(** [answers host hist events replies]: the replies a client at [host] should
    get. A wrong query or an unknown connection ends the dialogue. *)
Inductive answers (host : bytes) : list reg -> list event -> list bytes -> Prop :=
| a_end h : answers host h [] []
| a_reg h c i es rs : answers host (Registered c i :: h) es rs -> answers host h (EReg c i :: es) rs
| a_rem h c es rs : answers host (Removed c :: h) es rs -> answers host h (ERem c :: es) rs
| a_user h l lp rp i es rs : is_query l lp rp -> identity host rp lp h (Some i) -> i <> [] ->
    answers host h es rs -> answers host h (EQuery l :: es) ((l ++ B " : USERID : UNKNOWN : " ++ i ++ eol) :: rs)
| a_nouser h l lp rp es : is_query l lp rp ->
    (identity host rp lp h None \/ identity host rp lp h (Some [])) ->
    answers host h (EQuery l :: es) [l ++ B " : ERROR : NO-USER" ++ eol]
| a_invalid h l es : (forall lp rp, ~ is_query l lp rp) ->
    answers host h (EQuery l :: es) [l ++ B " : ERROR : INVALID-PORT" ++ eol].
