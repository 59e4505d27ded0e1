(** Model of who soju says its users are, when servers ask: user.go:210-219 (userIdent) and
    221-246 (the ident of a connection in runConn), on the ident server of Model/Identd.v. *)
From Verif.Base Require Import Bytes.
From Verif.Model Require Import Identd.
From Coq Require Import ZArith NArith.

Section WithSha.
(** sha256.Sum256. *)
Variable sha : bytes -> bytes.

(** binary.LittleEndian.PutUint64 at the start of [64]byte (user.go:215-216). *)
Fixpoint little (n : nat) (v : N) : bytes :=
  match n with O => [] | S n => ascii_of_N (v mod 256) :: little n (v / 256) end.
Definition block (id : Z) : bytes := little 8 (Z.to_N (id mod 2 ^ 64)) ++ repeat zero 56.

(** hex.EncodeToString. *)
Definition hex_low (n : N) : ascii := nth (N.to_nat n) (B "0123456789abcdef") "0"%char.
Definition hex_encode (s : bytes) : bytes := flat_map (fun c => [hex_low (code c / 16); hex_low (code c mod 16)]) s.

(** user.go:210-219. *)
Definition user_ident (id : Z) : bytes := hex_encode (firstn 16 (sha (block id))).

(** A connection to a server: whose it is, and what RemoteAddr().String() and
    LocalAddr().String() give. *)
Record link := Link { l_user : Z; l_remote : bytes; l_local : bytes }.
Record state := State { s_ident : entries; s_live : list (N * link) }.
Definition init : state := State [] [].

(** Start: runConn goes on after connectToUpstream (user.go:243-244); each run has its own
    number. Stop: it ends (245). *)
Inductive op := Start (i : N) (l : link) | Stop (i : N).
Definition step (s : state) (x : op) : state :=
  match x with
  | Start i l => State (ident_store (s_ident s) (l_remote l) (l_local l) (user_ident (l_user l))) ((i, l) :: s_live s)
  | Stop i =>
    match find (fun e => N.eqb i (fst e)) (s_live s) with
    | Some (_, l) => State (ident_delete (s_ident s) (l_remote l) (l_local l)) (filter (fun e => negb (N.eqb i (fst e))) (s_live s))
    | None => s
    end
  end.

(** What somebody at [host] is answered. *)
Definition asked (s : state) (host line : bytes) : bytes := fst (ident_line (s_ident s) host line).
End WithSha.
