(** Model of message IDs: msgstore/msgstore.go, and the ID bodies of
    memory.go, fs.go and db.go. *)
From Verif.Base Require Import Bytes Base64.

(** ** BARE encoding (external library git.sr.ht/~sircmpwn/go-bare). Go's [uint]
    and bare.Uint are unsigned varints of at most 64 bits, [int] and bare.Int
    are zig-zag varints, strings are length-prefixed. *)
Definition byte_of (n : N) : ascii := ascii_of_N n.

Fixpoint write_uvarint (fuel : nat) (n : N) : bytes :=
  match fuel with
  | O => []
  | S fuel' =>
      if N.ltb n 128 then [byte_of n]
      else byte_of (128 + n mod 128) :: write_uvarint fuel' (n / 128)
  end.

(** A 64-bit varint takes at most 10 bytes. *)
Definition write_uint (n : N) : bytes := write_uvarint 10 n.

Fixpoint read_uvarint (fuel : nat) (s : bytes) : option (N * bytes) :=
  match fuel, s with
  | S fuel', c :: s' =>
      if N.ltb (code c) 128 then Some (code c, s')
      else match read_uvarint fuel' s' with
           | Some (v, r) => Some (code c - 128 + 128 * v, r)%N
           | None => None
           end
  | _, _ => None
  end.

Definition two64 : N := 18446744073709551616.
Definition two63 : Z := 9223372036854775808.

Definition read_uint (s : bytes) : option (N * bytes) :=
  match read_uvarint 10 s with
  | Some (v, r) => if N.ltb v two64 then Some (v, r) else None
  | None => None
  end.

Definition zigzag (z : Z) : N := if Z.leb 0 z then Z.to_N (2 * z) else Z.to_N (-2 * z - 1).

Definition unzigzag (n : N) : Z :=
  if N.even n then Z.of_N (n / 2) else (- Z.of_N (n / 2) - 1)%Z.

Definition write_int (z : Z) : bytes := write_uint (zigzag z).

Definition read_int (s : bytes) : option (Z * bytes) :=
  match read_uint s with Some (v, r) => Some (unzigzag v, r) | None => None end.

Definition write_string (s : bytes) : bytes := write_uint (N.of_nat (length s)) ++ s.

(** [valid] is the string check of the library's reader (valid UTF-8). *)
Definition read_string (valid : bytes -> bool) (s : bytes) : option (bytes * bytes) :=
  match read_uint s with
  | None => None
  | Some (n, r) =>
      if N.ltb (N.of_nat (length r)) n then None
      else let k := N.to_nat n in
           let str := firstn k r in
           if valid str then Some (str, skipn k r) else None
  end.

(** ** Message IDs *)

(** msgstore.go:85-94 (msgIDType). *)
Inductive msgid_type := TyMemory | TyFS | TyDB.

Definition type_number (t : msgid_type) : N :=
  match t with TyMemory => 1 | TyFS => 2 | TyDB => 3 end.

Definition type_eqb (a b : msgid_type) : bool := N.eqb (type_number a) (type_number b).

(** memory.go:15-17 (memoryMsgID), fs.go:50-53 (fsMsgID), db.go:12-14 (dbMsgID). *)
Inductive msgid_body :=
| BodyMemory (seq : N)
| BodyFS (year month day : Z) (offset : Z)
| BodyDB (id : N).

Definition body_type (b : msgid_body) : msgid_type :=
  match b with BodyMemory _ => TyMemory | BodyFS _ _ _ _ => TyFS | BodyDB _ => TyDB end.

Definition write_body (b : msgid_body) : bytes :=
  match b with
  | BodyMemory seq => write_uint seq
  | BodyFS y m d off => write_int y ++ write_int m ++ write_int d ++ write_int off
  | BodyDB id => write_uint id
  end.

Definition read_body (t : msgid_type) (s : bytes) : option msgid_body :=
  match t with
  | TyMemory => match read_uint s with Some (v, _) => Some (BodyMemory v) | None => None end
  | TyDB => match read_uint s with Some (v, _) => Some (BodyDB v) | None => None end
  | TyFS =>
      match read_int s with None => None | Some (y, s1) =>
      match read_int s1 with None => None | Some (m, s2) =>
      match read_int s2 with None => None | Some (d, s3) =>
      match read_int s3 with None => None | Some (off, _) => Some (BodyFS y m d off)
      end end end end
  end.

(** msgstore.go:96 and 98-103 (msgIDVersion, msgIDHeader). *)
Definition msgid_version : N := 0.

Definition write_header (version : N) (net : Z) (target : bytes) (ty : N) : bytes :=
  write_uint version ++ write_int net ++ write_string target ++ write_uint ty.

(** msgstore.go:109-126 (formatMsgID). *)
Definition format_msgid (net : Z) (target : bytes) (b : msgid_body) : bytes :=
  b64_encode B64RawURL
    (write_header msgid_version net target (type_number (body_type b)) ++ write_body b).

(** msgstore.go:128-157 (ParseMsgID). [want] is the type of the body argument,
    [None] for a nil body; the reader does not check for trailing bytes. *)
Definition parse_msgid (valid : bytes -> bool) (want : option msgid_type) (s : bytes)
    : option (Z * bytes * option msgid_body) :=
  match b64_decode B64RawURL s with None => None | Some raw =>
  match read_uint raw with None => None | Some (version, s1) =>
  match read_int s1 with None => None | Some (net, s2) =>
  match read_string valid s2 with None => None | Some (target, s3) =>
  match read_uint s3 with None => None | Some (ty, s4) =>
    if negb (N.eqb version msgid_version) then None
    else match want with
    | None => Some (net, target, None)
    | Some t =>
        if negb (N.eqb ty (type_number t)) then None
        else match read_body t s4 with
             | None => None
             | Some b => Some (net, target, Some b)
             end
    end
  end end end end end.

(** Ranges of the Go types: uint64 and int64. *)
Definition u64 (n : N) : Prop := (n < two64)%N.
Definition i64 (z : Z) : Prop := (- two63 <= z < two63)%Z.

Definition body_ok (b : msgid_body) : Prop :=
  match b with
  | BodyMemory n | BodyDB n => u64 n
  | BodyFS y m d off => i64 y /\ i64 m /\ i64 d /\ i64 off
  end.
