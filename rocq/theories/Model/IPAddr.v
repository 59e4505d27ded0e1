(** Model of the text of IP addresses and ranges: net.ParseIP, net.ParseCIDR, net.IPNet.Contains of Go's
    standard library, and the ranges of config/config.go. An address is a list of bytes as in Model/SourceAddr.v. *)
From Coq Require Import NArith.
From Verif.Base Require Import Bytes.
From Verif.Model Require Import SourceAddr.
From Verif.Model Require Addr Networks.

Definition digit (c : ascii) : N := (code c - 48)%N.

(** net/netip: parseIPv4Fields. [val] and [digs] are the number being read and how many digits it has so far,
    [done] the numbers before it. *)
Fixpoint v4_fields (s : bytes) (val : N) (digs : nat) (done : list N) : option ip :=
  match s with
  | [] => if Nat.ltb (length done) 3 || Nat.eqb digs 0 then None else Some (done ++ [val])
  | c :: s' =>
      if is_digit c then
        if Nat.eqb digs 1 && (val =? 0)%N then None
        else let v := (val * 10 + digit c)%N in
             if (255 <? v)%N then None else v4_fields s' v (S digs) done
      else if aeqb c "." then
        if Nat.eqb digs 0 then None
        else if Nat.eqb (length done) 3 then None
        else v4_fields s' 0 0 (done ++ [val])
      else None
  end.
Definition parse_v4 (s : bytes) : option ip := v4_fields s 0 0 [].

(** The hexadecimal digits in front of a text and what is after them. *)
Fixpoint hex_run (s : bytes) : bytes * bytes :=
  match s with
  | c :: s' => if Networks.is_hex c then let '(d, r) := hex_run s' in (c :: d, r) else ([], s)
  | [] => ([], [])
  end.
Definition hex_num (d : bytes) : N := fold_left (fun a c => a * 16 + Addr.hexval c)%N d 0%N.

(** net/netip: parseIPv6, the loop; [acc] are the bytes read so far, [ell] how many there were at "::". More than
    four digits in a group are refused as since Go 1.20; earlier versions take leading zeros. *)
Fixpoint v6_loop (fuel : nat) (s : bytes) (acc : list N) (ell : option nat) : option (bytes * list N * option nat) :=
  match fuel with
  | O => Some (s, acc, ell)
  | S fuel =>
      let '(d, rest) := hex_run s in
      if Nat.ltb 4 (length d) then None
      else if beqb d [] then None
      else if has_prefix rest (B ".") then
        if (match ell with None => negb (Nat.eqb (length acc) 12) | Some _ => false end) then None
        else if Nat.ltb 16 (length acc + 4) then None
        else match parse_v4 s with Some q => Some ([], acc ++ q, ell) | None => None end
      else
        let acc := acc ++ [hex_num d / 256; hex_num d mod 256]%N in
        match rest with
        | [] => Some ([], acc, ell)
        | c :: s1 =>
            if negb (aeqb c ":") then None
            else match s1 with
                 | [] => None
                 | c2 :: s2 =>
                     if aeqb c2 ":" then
                       match ell with
                       | Some _ => None
                       | None => match s2 with
                                 | [] => Some ([], acc, Some (length acc))
                                 | _ => v6_loop fuel s2 acc (Some (length acc))
                                 end
                       end
                     else v6_loop fuel s1 acc ell
                 end
        end
  end.
(** net/netip: parseIPv6, the rest; without a zone. *)
Definition v6_finish (r : option (bytes * list N * option nat)) : option ip :=
  match r with
  | Some ([], acc, ell) =>
      if Nat.ltb (length acc) 16 then
        match ell with
        | None => None
        | Some e => Some (firstn e acc ++ repeat 0%N (16 - length acc) ++ skipn e acc)
        end
      else match ell with Some _ => None | None => Some acc end
  | _ => None
  end.
Definition parse_v6 (s : bytes) : option ip :=
  if has_prefix s (B "::") then
    match skipn 2 s with
    | [] => Some (repeat 0%N 16)
    | s' => v6_finish (v6_loop 8 s' [] (Some 0%nat))
    end
  else v6_finish (v6_loop 8 s [] None).

(** net/netip: ParseAddr, for addresses without a zone: the callers here refuse zones. *)
Inductive family := V4 | V6.
Fixpoint addr_family (s : bytes) : option family :=
  match s with
  | [] => None
  | c :: s' => if aeqb c "." then Some V4 else if aeqb c ":" then Some V6 else if aeqb c "%" then None else addr_family s'
  end.
Definition parse_addr (s : bytes) : option (family * ip) :=
  match addr_family s with
  | Some V4 => option_map (pair V4) (parse_v4 s)
  | Some V6 => if amem "%" s then None else option_map (pair V6) (parse_v6 s)
  | None => None
  end.
(** netip.Addr.As16. *)
Definition as16 (a : family * ip) : ip := match a with (V4, x) => v4_prefix ++ x | (V6, x) => x end.
(** net.ParseIP. *)
Definition parse_ip (s : bytes) : option ip := option_map as16 (parse_addr s).

(** net.CIDRMask, net.IP.Mask for an address of the length of the mask. *)
Fixpoint cidr_mask (k len : nat) : list N :=
  match len with O => [] | S l => mask_byte k :: cidr_mask (k - 8) l end.
Definition apply_mask (m a : list N) : list N := map (fun p => N.land (fst p) (snd p)) (combine m a).

(** net: dtoi, of a text that is only a number: at most 0xFFFFFE. *)
Fixpoint dtoi (s : bytes) (n : N) : option N :=
  match s with
  | [] => Some n
  | c :: s' => if is_digit c then let v := (n * 10 + digit c)%N in if (16777215 <=? v)%N then None else dtoi s' v else None
  end.

(** net.IPNet. *)
Record cidr := Cidr { c_ip : ip; c_mask : list N }.

(** net.ParseCIDR: the range. *)
Definition parse_cidr (s : bytes) : option cidr :=
  match cut_on "/" s with
  | (_, None) => None
  | (a, Some m) =>
      match parse_addr a, m with
      | None, _ | _, [] => None
      | Some (f, x), _ =>
          let len := match f with V4 => 4%nat | V6 => 16%nat end in
          match dtoi m 0 with
          | None => None
          | Some n => if (N.of_nat (8 * len) <? n)%N then None
                      else let mask := cidr_mask (N.to_nat n) len in Some (Cidr (apply_mask mask x) mask)
          end
      end
  end.

(** net: networkNumberAndMask. *)
Definition number_mask (n : cidr) : option (list N * list N) :=
  match to4 (c_ip n) with
  | Some x => if Nat.eqb (length (c_mask n)) 4 then Some (x, c_mask n)
              else if Nat.eqb (length (c_mask n)) 16 then Some (x, skipn 12 (c_mask n)) else None
  | None => if Nat.eqb (length (c_ip n)) 16 && Nat.eqb (length (c_mask n)) 16 then Some (c_ip n, c_mask n) else None
  end.
(** net.IPNet.Contains. *)
Definition cidr_contains (n : cidr) (a : ip) : bool :=
  let a := match to4 a with Some x => x | None => a end in
  match number_mask n with
  | None => Nat.eqb (length a) 0
  | Some (nn, m) => Nat.eqb (length a) (length nn) && forallb (fun p => (fst p =? snd p)%N) (combine (apply_mask m nn) (apply_mask m a))
  end.

(** config/config.go:22-29 (IPSet.Contains). *)
Definition set_contains (set : list cidr) (a : ip) : bool := existsb (fun n => cidr_contains n a) set.

(** config/config.go:31-41 (loopbackIPs). *)
Definition loopback : list cidr :=
  [Cidr [127; 0; 0; 0]%N (cidr_mask 8 4); Cidr (repeat 0%N 15 ++ [1%N]) (cidr_mask 128 16)].

(** config/config.go:243-253: the ranges of accept-proxy-ip. *)
Fixpoint load_proxies (l : list bytes) : option (list cidr) :=
  match l with
  | [] => Some []
  | s :: l' =>
      match (if beqb s (B "localhost") then Some loopback else option_map (fun n => [n]) (parse_cidr s)), load_proxies l' with
      | Some a, Some b => Some (a ++ b)
      | _, _ => None
      end
  end.

(** config/config.go:255-274: the ranges of upstream-user-ip. *)
Fixpoint load_user_ips (l : list bytes) (has4 has6 : bool) : option (list cidr) :=
  match l with
  | [] => Some []
  | s :: l' =>
      match parse_cidr s with
      | None => None
      | Some n =>
          if is_v6 (c_ip n) then if has6 then None else option_map (cons n) (load_user_ips l' has4 true)
          else if has4 then None else option_map (cons n) (load_user_ips l' true has6)
      end
  end.
