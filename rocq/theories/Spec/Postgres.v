(** What is to be read from a PostgreSQL database after a call. *)
From Verif.Base Require Import Bytes.
From Verif.Model Require Import Message TimeFmt Sql SqlQuery Postgres.
From Verif.Spec Require Import Sql SqlQuery.
From Coq Require Import ZArith NArith.
Open Scope N_scope.

(** Databases written through the interface only. *)
Inductive p_reachable (raw_of : message -> bytes) : pg -> Prop :=
| p_reach_empty : p_reachable raw_of empty_pg
| p_reach_step p c : p_reachable raw_of p -> p_reachable raw_of (p_step raw_of p c).

(** ** Texts *)

(** A character that a text may have, and its encoding in UTF-8 (RFC 3629). *)
Definition scalar (c : N) : Prop := 0 < c < 55296 \/ 57344 <= c < 1114112.
Definition octet (n : N) : ascii := ascii_of_N n.
Definition encode (c : N) : bytes :=
  if c <? 128 then [octet c]
  else if c <? 2048 then [octet (192 + c / 64); octet (128 + c mod 64)]
  else if c <? 65536 then [octet (224 + c / 4096); octet (128 + (c / 64) mod 64); octet (128 + c mod 64)]
  else [octet (240 + c / 262144); octet (128 + (c / 4096) mod 64); octet (128 + (c / 64) mod 64); octet (128 + c mod 64)].

(** A text of at most [k] characters. *)
Definition text_of (l : list N) (s : bytes) : Prop := (forall c, In c l -> scalar c) /\ s = flat_map encode l.
Definition text (s : bytes) : Prop := exists l, text_of l s.
Definition short (k : N) (s : bytes) : Prop := exists l, text_of l s /\ N.of_nat (length l) <= k.

(** ** Times: the nearest microsecond. *)
Definition nearest (t t' : Z) : Prop := (t' mod 1000 = 0 /\ -500 <= t' - t <= 500)%Z.

(** ** What is read back *)

Definition psaved_user (id : N) (u u' : guser) : Prop :=
  gu_id u' = id /\ gu_username u' = gu_username u /\ gu_password u' = gu_password u /\ gu_nick u' = gu_nick u /\
  gu_realname u' = gu_realname u /\ gu_admin u' = gu_admin u /\ gu_enabled u' = gu_enabled u /\
  nearest (gu_interacted u) (gu_interacted u') /\ gu_max u' = gu_max u.

Definition short_user (u : guser) : Prop :=
  short 255 (gu_username u) /\ short 255 (gu_password u) /\ short 255 (gu_nick u) /\ short 255 (gu_realname u).

Definition short_network (n : gnet) : Prop :=
  short 255 (gn_name n) /\ short 255 (gn_addr n) /\ short 255 (gn_nick n) /\ short 255 (gn_username n) /\
  short 255 (gn_realname n) /\ text (gn_certfp n) /\ short 255 (gn_pass n) /\
  short 1023 (join (B (String "013" (String "010" EmptyString))) (gn_cmds n)) /\
  short 255 (gn_puser n) /\ short 255 (gn_ppass n).

Definition short_channel (c : gchan) : Prop := short 255 (gc_name c) /\ short 255 (gc_key c) /\ short 255 (gc_dmsgid c).

(** ** Deletion *)

Definition p_owns (p : pg) (u k : N) : Prop := exists n, In n (p_nets p) /\ nr_id n = k /\ nr_user n = u.

Definition p_msg_in (p : pg) (m : pmsg) (k : N) : Prop :=
  exists t, In t (p_targets p) /\ tr_id t = pm_target m /\ tr_network t = k.

(** [p'] is [p] without the users [U], the networks [K], and everything that
    belongs to one of them; all else is there, and nothing else. *)
Record p_erased (p p' : pg) (U K : N -> Prop) : Prop := {
  pe_users : forall r, In r (p_users p') <-> In r (p_users p) /\ ~ U (pu_id r);
  pe_nets : forall r, In r (p_nets p') <-> In r (p_nets p) /\ ~ K (nr_id r);
  pe_chans : forall r, In r (p_chans p') <-> In r (p_chans p) /\ ~ K (cr_network r);
  pe_drcpts : forall r, In r (p_drcpts p') <-> In r (p_drcpts p) /\ ~ K (pd_network r);
  pe_rrcpts : forall r, In r (p_rrcpts p') <-> In r (p_rrcpts p) /\ ~ K (pr_network r);
  pe_subs : forall r, In r (p_subs p') <-> In r (p_subs p) /\ ~ U (ps_user r) /\ (forall k, ps_network r = Some k -> ~ K k);
  pe_targets : forall r, In r (p_targets p') <-> In r (p_targets p) /\ ~ K (tr_network r);
  pe_msgs : forall r, In r (p_msgs p') <-> In r (p_msgs p) /\ ~ exists k, p_msg_in p r k /\ K k }.

(** ** Messages *)

(** A row was stored for a target of a network. *)
Definition p_stored_for (p : pg) (net : N) (name : bytes) (r : pmsg) : Prop :=
  In r (p_msgs p) /\ exists t, In t (p_targets p) /\ tr_id t = pm_target r /\ tr_network t = net /\ tr_target t = name.

(** The row of a message. *)
Definition p_row_of (raw_of : message -> bytes) (now : Z) (id : N) (m : message) (r : pmsg) : Prop :=
  pm_id r = id /\ pm_raw r = raw_of m /\ pm_sender r = message_sender m /\ pm_text r = message_text m /\
  exists t, message_time now m = Some t /\ nearest t (pm_time r).

(** The bounds of a query. *)
Definition p_in_bounds (search : bytes -> option bytes -> bool) (o : options) (r : pmsg) : Prop :=
  (o_after_id o = 0 \/ o_after_id o < pm_id r) /\
  (o_after o = 0%Z \/ (o_after o < pm_time r)%Z) /\
  (o_before o = 0%Z \/ (pm_time r < o_before o)%Z) /\
  (o_sender o = [] \/ pm_sender r = o_sender o) /\
  (o_text o = [] \/ search (o_text o) (pm_text r) = true) /\
  (o_events o = true \/ pm_text r <> None).

Definition p_not_later (a b : pmsg) : Prop := (pm_time a <= pm_time b)%Z.
Definition l_not_later (a b : bytes * Z) : Prop := (snd a <= snd b)%Z.

Definition p_answer search (p : pg) (net : N) (name : bytes) (o : options) (out : list pmsg) : Prop :=
  best p_not_later (fun r => p_stored_for p net name r /\ p_in_bounds search o r) (o_limit o) (o_last o) out.

(** [u] is the time of the latest message of target [t]. *)
Definition p_counts (events : bool) (m : pmsg) : Prop := events = true \/ pm_text m <> None.

Definition p_is_latest (p : pg) (net : N) (name : bytes) (events : bool) (u : Z) : Prop :=
  (exists m, p_stored_for p net name m /\ p_counts events m /\ pm_time m = u) /\
  (forall m, p_stored_for p net name m -> p_counts events m -> (pm_time m <= u)%Z).

Definition p_target_listed (p : pg) (net : N) (o : options) (x : bytes * Z) : Prop :=
  p_is_latest p net (fst x) (o_events o) (snd x) /\
  (o_after o = 0%Z \/ (o_after o < snd x)%Z) /\ (o_before o = 0%Z \/ (snd x < o_before o)%Z).
