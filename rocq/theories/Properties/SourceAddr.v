(** Property C42. *)
From Coq Require Import NArith List Bool Lia.
From Verif.Model Require Import SourceAddr.
From Verif.Spec Require Import SourceAddr.
From Verif.Proof Require SourceAddr.
Import ListNotations.
Open Scope N_scope.

Definition same_family (remote : ip) (n : ipnet) : bool := eqb (is_v6 remote) (is_v6 (net_ip n)).

(** C42: an address handed out lies in the first configured range of the
    remote's family and is not the address of the range itself. *)
Theorem C42_address_in_range : forall ranges id remote a,
  Forall is_range ranges -> local_tcp_addr ranges id remote = LocalAddr a ->
  exists n, In n ranges /\ is_v6 (net_ip n) = is_v6 remote /\ in_range n a /\ a <> net_ip n.
Proof.
  intros ranges id remote a Hr H.
  destruct (Proof.SourceAddr.local_addr_spec ranges id remote a Hr H) as (n & Hf & Hi & Ha).
  destruct (Proof.SourceAddr.family_find _ _ _ Hf) as [H1 H2]. exists n.
  repeat split; try assumption; try (apply Hi). intros ->. lia.
Qed.
Print Assumptions C42_address_in_range.

(** C42: different users never share an address towards the same family. *)
Theorem C42_addresses_distinct : forall ranges id1 id2 remote1 remote2 a,
  Forall is_range ranges -> is_v6 remote1 = is_v6 remote2 ->
  local_tcp_addr ranges id1 remote1 = LocalAddr a -> local_tcp_addr ranges id2 remote2 = LocalAddr a ->
  id1 = id2.
Proof.
  intros ranges id1 id2 r1 r2 a Hr Hv H1 H2.
  destruct (Proof.SourceAddr.local_addr_spec ranges id1 r1 a Hr H1) as (n1 & Hf1 & _ & E1).
  destruct (Proof.SourceAddr.local_addr_spec ranges id2 r2 a Hr H2) as (n2 & Hf2 & _ & E2).
  rewrite Hv in Hf1. rewrite Hf1 in Hf2. injection Hf2 as <-. lia.
Qed.
Print Assumptions C42_addresses_distinct.

(** C42: the error is reported exactly when the range is exhausted, for a range
    whose first byte is not zero. *)
Theorem C42_error_iff_exhausted_partial : forall ranges id remote n,
  Forall is_range ranges -> find (same_family remote) ranges = Some n ->
  2 ^ (8 * N.of_nat (length (net_ip n) - 1)) <= addr_num (net_ip n) ->
  (local_tcp_addr ranges id remote = RangeTooSmall <-> range_size n <= id + 1) /\
  (id + 1 < range_size n -> exists a, local_tcp_addr ranges id remote = LocalAddr a /\ addr_num a = addr_num (net_ip n) + id + 1).
Proof.
  intros ranges id remote n Hr Hf Hb. destruct (Proof.SourceAddr.family_find _ _ _ Hf) as [Hin _].
  pose proof (proj1 (Forall_forall _ _) Hr n Hin) as Hn.
  assert (Hle : addr_num (net_ip n) <= addr_num (net_ip n) + (id + 1)) by lia.
  pose proof (Proof.SourceAddr.contains_iff n _ Hn Hle) as Hc.
  unfold local_tcp_addr. unfold same_family in Hf. rewrite Hf, Proof.SourceAddr.be_value_num.
  destruct (net_contains n _) eqn:E.
  - destruct (proj1 Hc eq_refl) as [H1 _]. split; [split; [discriminate|lia]|]. intros _. eexists. split; [reflexivity|].
    destruct (Proof.SourceAddr.be_bytes_spec (addr_num (net_ip n) + (id + 1))) as (_ & -> & _). lia.
  - assert (Hx : ~ (id + 1 < range_size n)) by (intros H; assert (false = true) by (apply Hc; lia); discriminate).
    split; [split; [lia|reflexivity]|lia].
Qed.
Print Assumptions C42_error_iff_exhausted_partial.

(** The missing part is false: ranges that start with a zero byte report
    exhaustion for the very first user. The witness is 64:ff9b::/96. *)
Theorem C42_leading_zero_range_refuted : exists n id remote,
  is_range n /\ find (same_family remote) [n] = Some n /\ id + 1 < range_size n /\
  local_tcp_addr [n] id remote = RangeTooSmall.
Proof.
  exists (IPNet [0; 100; 255; 155; 0; 0; 0; 0; 0; 0; 0; 0; 0; 0; 0; 0] 96), 1, [32; 1; 0; 0; 0; 0; 0; 0; 0; 0; 0; 0; 0; 0; 0; 1].
  split; [|split; [vm_compute; reflexivity|split; [vm_compute; reflexivity|vm_compute; reflexivity]]].
  split; [|split; [vm_compute; lia|split; [vm_compute; reflexivity|vm_compute; reflexivity]]].
  split; [|right; reflexivity]. repeat (constructor; [reflexivity|]). constructor.
Qed.
Print Assumptions C42_leading_zero_range_refuted.

Example C42_nonvacuous :
  let n4 := IPNet [192; 0; 2; 0] 24 in
  let n6 := IPNet [32; 1; 13; 184; 0; 0; 0; 0; 0; 0; 0; 0; 0; 0; 0; 0] 64 in
  local_tcp_addr [n4; n6] 7 [198; 51; 100; 1] = LocalAddr [192; 0; 2; 8] /\
  local_tcp_addr [n4; n6] 7 [32; 1; 13; 184; 9; 0; 0; 0; 0; 0; 0; 0; 0; 0; 0; 1] = LocalAddr [32; 1; 13; 184; 0; 0; 0; 0; 0; 0; 0; 0; 0; 0; 0; 8] /\
  local_tcp_addr [n4; n6] 255 [198; 51; 100; 1] = RangeTooSmall /\ is_range n4.
Proof.
  cbv zeta. split; [vm_compute; reflexivity|]. split; [vm_compute; reflexivity|]. split; [vm_compute; reflexivity|].
  split; [|split; [vm_compute; lia|split; [vm_compute; reflexivity|discriminate]]].
  split; [|left; reflexivity]. repeat (constructor; [reflexivity|]). constructor.
Qed.

(** C42: with a range of each family, every connection goes to an address of the host
    and leaves from an address in a range, of the same family. *)
Theorem C42_dial_own : forall ranges id addrs pick from to,
  Forall is_range ranges -> (exists n, In n ranges /\ is_v6 (net_ip n) = false) -> (exists n, In n ranges /\ is_v6 (net_ip n) = true) ->
  dial_tcp ranges id (Some addrs) pick = Dials from to ->
  exists a r n, from = Some a /\ to = Some r /\ In r addrs /\ In n ranges /\ in_range n a /\ a <> net_ip n /\ is_v6 (net_ip n) = is_v6 r.
Proof.
  intros ranges id addrs pick from to Hr (n4 & I4 & F4) (n6 & I6 & F6) H.
  destruct (Proof.SourceAddr.dial_inv ranges id (Some addrs) pick from to ltac:(intros ->; destruct I4) H) as (r & Hres & -> & Hl).
  assert (Hin : In r addrs) by exact (Proof.SourceAddr.resolve_in addrs pick r Hres).
  destruct (local_tcp_addr ranges id r) as [|a|] eqn:E; [exfalso| |destruct Hl].
  - unfold local_tcp_addr in E. destruct (find _ ranges) as [n|] eqn:Ef; [destruct (net_contains n _); discriminate|].
    destruct (is_v6 r) eqn:V; [pose proof (find_none _ _ Ef n6 I6) as K; cbn in K; rewrite F6 in K; discriminate|
      pose proof (find_none _ _ Ef n4 I4) as K; cbn in K; rewrite F4 in K; discriminate].
  - destruct (C42_address_in_range ranges id r a Hr E) as (n & A & B & C & D). exists a, r, n. auto 8.
Qed.
Print Assumptions C42_dial_own.

(** C42: no two users ever connect from the same of these addresses, wherever they
    connect to. *)
Theorem C42_dial_distinct : forall ranges id1 id2 addrs1 addrs2 pick1 pick2 a to1 to2,
  Forall is_range ranges -> dial_tcp ranges id1 addrs1 pick1 = Dials (Some a) to1 -> dial_tcp ranges id2 addrs2 pick2 = Dials (Some a) to2 -> id1 = id2.
Proof.
  intros ranges id1 id2 addrs1 addrs2 pick1 pick2 a to1 to2 Hr H1 H2.
  assert (Hn : ranges <> []) by (intros ->; discriminate H1).
  destruct (Proof.SourceAddr.dial_inv _ _ _ _ _ _ Hn H1) as (r1 & _ & _ & L1). destruct (Proof.SourceAddr.dial_inv _ _ _ _ _ _ Hn H2) as (r2 & _ & _ & L2).
  destruct (local_tcp_addr ranges id1 r1) as [|a1|] eqn:E1; [discriminate L1| |destruct L1]. injection L1 as <-.
  destruct (local_tcp_addr ranges id2 r2) as [|a2|] eqn:E2; [discriminate L2| |destruct L2]. injection L2 as <-.
  apply (C42_addresses_distinct ranges id1 id2 r1 r2 a Hr); [|exact E1|exact E2].
  destruct (C42_address_in_range _ _ _ _ Hr E1) as (n1 & I1 & F1 & (L1 & _) & _). destruct (C42_address_in_range _ _ _ _ Hr E2) as (n2 & I2 & F2 & (L2 & _) & _).
  rewrite <- F1, <- F2. apply Proof.SourceAddr.family_length; [exact (proj1 (Forall_forall _ _) Hr n1 I1)|exact (proj1 (Forall_forall _ _) Hr n2 I2)|congruence].
Qed.
Print Assumptions C42_dial_distinct.

(** With a range of IPv4 only ("One IPv4 range and/or one IPv6 range can be specified",
    doc/soju.1.scd:216-220), a server that has both kinds of addresses is always reached
    over IPv6, from the address that all users share, although the user has an address
    of their own for the other address of the server. *)
Theorem C42_dual_stack_refuted : exists ranges id addrs r,
  Forall is_range ranges /\ ranges <> [] /\ In r addrs /\ (exists a, local_tcp_addr ranges id r = LocalAddr a) /\
  (forall pick, dial_tcp ranges id (Some addrs) pick = DialFails \/ exists to, dial_tcp ranges id (Some addrs) pick = Dials None to) /\
  exists to, dial_tcp ranges id (Some addrs) 0 = Dials None to.
Proof.
  exists [IPNet [192; 0; 2; 0] 24], 7, [[198; 51; 100; 1]; [32; 1; 13; 184; 9; 0; 0; 0; 0; 0; 0; 0; 0; 0; 0; 1]], [198; 51; 100; 1].
  split; [constructor; [exact (proj2 (proj2 (proj2 C42_nonvacuous)))|constructor]|]. split; [discriminate|]. split; [left; reflexivity|].
  split; [eexists; vm_compute; reflexivity|]. split; [|eexists; vm_compute; reflexivity].
  intros [|pick]; [right; eexists; vm_compute; reflexivity|]. left. unfold dial_tcp, resolve_ip_addr. cbn [filter is_v6 to4]. destruct pick; reflexivity.
Qed.
Print Assumptions C42_dual_stack_refuted.

Example C42_dial_nonvacuous :
  let n4 := IPNet [192; 0; 2; 0] 24 in
  let n6 := IPNet [32; 1; 13; 184; 0; 0; 0; 0; 0; 0; 0; 0; 0; 0; 0; 0] 64 in
  let r4 := [198; 51; 100; 1] in let r6 := [32; 1; 13; 184; 9; 0; 0; 0; 0; 0; 0; 0; 0; 0; 0; 1] in
  is_range n4 /\ is_range n6 /\ is_v6 (net_ip n4) = false /\ is_v6 (net_ip n6) = true /\
  dial_tcp [n4; n6] 7 (Some [r4; r6]) 0 = Dials (Some [32; 1; 13; 184; 0; 0; 0; 0; 0; 0; 0; 0; 0; 0; 0; 8]) (Some r6) /\
  dial_tcp [n4; n6] 7 (Some [r4]) 0 = Dials (Some [192; 0; 2; 8]) (Some r4).
Proof.
  cbv zeta. split; [exact (proj2 (proj2 (proj2 C42_nonvacuous)))|]. split.
  { split; [|split; [vm_compute; lia|split; [vm_compute; reflexivity|reflexivity]]]. split; [|right; reflexivity]. repeat (constructor; [reflexivity|]). constructor. }
  repeat split.
Qed.
