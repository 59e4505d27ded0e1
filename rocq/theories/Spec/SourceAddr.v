(** Addresses as numbers. *)
From Coq Require Import NArith List.
From Verif.Model Require Import SourceAddr.
Import ListNotations.
Open Scope N_scope.

(** Big-endian number of an address. *)
Fixpoint addr_num (a : ip) : N :=
  match a with
  | [] => 0
  | b :: a' => b * 2 ^ (8 * N.of_nat (length a')) + addr_num a'
  end.

Definition is_ip (a : ip) : Prop := Forall (fun b => b < 256) a /\ (length a = 4 \/ length a = 16)%nat.

(** A range in canonical form: host bits are zero; an IPv6 range is not an
    IPv4-mapped one. *)
Definition range_size (n : ipnet) : N := 2 ^ (8 * N.of_nat (length (net_ip n)) - N.of_nat (net_ones n)).
Definition is_range (n : ipnet) : Prop :=
  is_ip (net_ip n) /\ (net_ones n <= 8 * length (net_ip n))%nat /\
  addr_num (net_ip n) mod range_size n = 0 /\
  (length (net_ip n) = 16%nat -> to4 (net_ip n) = None).

Definition in_range (n : ipnet) (a : ip) : Prop :=
  length a = length (net_ip n) /\ Forall (fun b => b < 256) a /\
  addr_num (net_ip n) <= addr_num a < addr_num (net_ip n) + range_size n.
