(** Model of the choice of a source address per user, user.go. An IP address is
    a list of bytes (as numbers), 4 or 16 long, as in Go's net.IP. *)
From Coq Require Import NArith List Bool.
Import ListNotations.
Open Scope N_scope.

Definition ip := list N.

(** big.Int.SetBytes: big-endian value. *)
Definition be_value (l : list N) : N := fold_left (fun acc b => acc * 256 + b) l 0.

(** big.Int.Bytes: big-endian bytes without leading zeros. [fuel] is at least
    the number of bytes. *)
Fixpoint be_bytes_aux (fuel : nat) (n : N) (acc : list N) : list N :=
  match fuel with
  | O => acc
  | S f => if n =? 0 then acc else be_bytes_aux f (n / 256) (n mod 256 :: acc)
  end.
Definition be_bytes (n : N) : list N := be_bytes_aux (N.size_nat n) n [].

(** net.IP.To4: 4-byte addresses, and 16-byte ones under ::ffff:0:0/96. *)
Definition v4_prefix : list N := [0; 0; 0; 0; 0; 0; 0; 0; 0; 0; 255; 255].
Definition list_eqb (a b : list N) : bool :=
  Nat.eqb (length a) (length b) && forallb (fun p => fst p =? snd p) (combine a b).
Definition to4 (a : ip) : option ip :=
  if Nat.eqb (length a) 4 then Some a
  else if Nat.eqb (length a) 16 && list_eqb (firstn 12 a) v4_prefix then Some (skipn 12 a)
  else None.

(** A CIDR range: address and number of leading one bits of the mask. The
    mask has the length of the address (what net.ParseCIDR returns, except for
    IPv4 ranges written in IPv6 notation, which are not modelled). *)
Record ipnet := IPNet { net_ip : ip; net_ones : nat }.

(** net.CIDRMask: byte of a mask with [k] leading ones left. *)
Definition mask_byte (k : nat) : N := 256 - 2 ^ (8 - N.of_nat (Nat.min k 8)).

Fixpoint masked_eq (k : nat) (a b : list N) : bool :=
  match a, b with
  | [], [] => true
  | x :: a', y :: b' => (N.land x (mask_byte k) =? N.land y (mask_byte k)) && masked_eq (k - 8) a' b'
  | _, _ => false
  end.

(** net.IPNet.Contains. *)
Definition net_contains (n : ipnet) (a : ip) : bool :=
  let a := match to4 a with Some x => x | None => a end in
  Nat.eqb (length a) (length (net_ip n)) && masked_eq (net_ones n) (net_ip n) a.

Definition is_v6 (a : ip) : bool := match to4 a with None => true | Some _ => false end.

Inductive local_addr := AnyAddr | LocalAddr (a : ip) | RangeTooSmall.

(** user.go:1305-1335 (localTCPAddr). [id] is the user's database ID; ID+1
    does not overflow int64 for real IDs. *)
Definition local_tcp_addr (ranges : list ipnet) (id : N) (remote : ip) : local_addr :=
  match find (fun n => eqb (is_v6 remote) (is_v6 (net_ip n))) ranges with
  | None => AnyAddr
  | Some n =>
      let a := be_bytes (be_value (net_ip n) + (id + 1)) in
      if net_contains n a then LocalAddr a else RangeTooSmall
  end.

(** upstream.go:2474-2493 (resolveIPAddr). [addrs] is what the resolver gives (None: it
    fails), [pick] what rand.Intn gives. *)
Definition resolve_ip_addr (addrs : option (list ip)) (pick : nat) : option ip :=
  match addrs with
  | None => None
  | Some l =>
      let l6 := filter is_v6 l in
      nth_error (match l6 with [] => l | _ => l6 end) pick
  end.

(** upstream.go:376-400 (dialTCP): whether it dials, from which address (None: the
    operating system picks one) and to which one (None: the operating system resolves
    the host). SplitHostPort does not fail: the port was added by the caller. *)
Inductive dialled := DialFails | Dials (from to : option ip).
Definition dial_tcp (ranges : list ipnet) (id : N) (addrs : option (list ip)) (pick : nat) : dialled :=
  match ranges with
  | [] => Dials None None
  | _ =>
      match resolve_ip_addr addrs pick with
      | None => DialFails
      | Some remote =>
          match local_tcp_addr ranges id remote with
          | AnyAddr => Dials None (Some remote)
          | LocalAddr a => Dials (Some a) (Some remote)
          | RangeTooSmall => DialFails
          end
      end
  end.
