(** C109: copying a database to PostgreSQL. *)
From Verif.Base Require Import Bytes.
From Verif.Model Require Import Message TimeFmt Sql Postgres MigrateDb.
From Verif.Proof Require MigrateDb.
From Verif.Spec Require Import Sql Postgres MigrateDb.
From Coq Require Import ZArith NArith Lia.
Open Scope N_scope.

(** If the users of the source are numbered as they are listed (none was ever deleted),
    every user is there with their networks, channels, receipts and subscriptions. *)
Theorem C109_copy_partial src now d : fits src -> numbered (s_users src) -> migrate src now = (d, true) ->
  length (p_list_users (t_pg d)) = length (s_users src) /\
  (forall i x, nth_error (s_users src) i = Some x -> exists x', nth_error (p_list_users (t_pg d)) i = Some x' /\
     psaved_user (gu_id x) x x' /\ copied src (gu_id x) (t_pg d) (gu_id x')) /\
  t_configs d = s_configs src.
Proof.
  intros F N H. destruct (Proof.MigrateDb.migrate_spec src now F d H) as (L & _ & C & _). split; [exact L|]. split; [|exact C].
  exact (Proof.MigrateDb.migrate_numbered src now F d N H).
Qed.
Print Assumptions C109_copy_partial.

(** Whatever the numbers: the users are there, in order, with the same settings, and
    the push keys; the n-th has the networks of the user with ID n. *)
Theorem C109_users src now d : fits src -> migrate src now = (d, true) ->
  length (p_list_users (t_pg d)) = length (s_users src) /\
  (forall i x, nth_error (s_users src) i = Some x -> exists x', nth_error (p_list_users (t_pg d)) i = Some x' /\
     psaved_user (N.of_nat (S i)) x x' /\ copied src (N.of_nat (S i)) (t_pg d) (N.of_nat (S i))) /\
  t_configs d = s_configs src.
Proof.
  intros F H. destruct (Proof.MigrateDb.migrate_spec src now F d H) as (L & Y & C & _). split; [exact L|]. split; [exact Y|exact C].
Qed.
Print Assumptions C109_users.

(** ** A case *)

Definition ex_raw (m : message) : bytes := [].
Definition ex_user (name : bytes) : guser := GUser 0 name (B "hash") [] (B "Real") false true 1234567 (-1).
Definition ex_net (name pass : bytes) : gnet :=
  GNet 0 name (B "irc.libera.chat") (B "nick") [] [] [] [] [] (B "PLAIN") (B "account") pass None None true true.
Definition ex_chan (name : bytes) : gchan := GChan 0 name [] true [] 0 0 0 0.
Definition ex_sub : gsub := GSub 0 (B "https://push.example") (B "auth") (B "p256") (B "vapid").
Definition ex_db : db := fold_left (step_db ex_raw)
  [StoreUser 1000 (ex_user (B "alice")); StoreUser 1000 (ex_user (B "bob")); StoreNetwork 2 (ex_net (B "libera") (B "secret"));
   StoreNetwork 1 (ex_net (B "oftc") (B "other")); StoreChannel 1 (ex_chan (B "#soju")); StoreChannel 1 (ex_chan (B "#go"));
   StoreDeliveryReceipts 1 (B "phone") [(B "#soju", B "x"); (B "alice", B "y")]; StoreDeliveryReceipts 1 (B "desk") [(B "#soju", B "z")];
   StoreReadReceipt 1 0 (B "#soju") 5000000; StoreSubscription 1000 2 1 ex_sub; StoreSubscription 1000 2 0 ex_sub] empty_db.
Definition ex_source : source := sqlite_source ex_db [(B "public", B "private")].

(** Text of ASCII characters. *)
Definition asciib (k : N) (s : bytes) : bool :=
  forallb (fun c => (0 <? code c) && (code c <? 128)) s && (N.of_nat (length s) <=? k).
Lemma ascii_short k s : asciib k s = true -> short k s.
Proof.
  intros H. apply andb_prop in H. destruct H as [H L]. apply N.leb_le in L. exists (map code s).
  split; [|rewrite map_length; exact L]. rewrite forallb_forall in H. split.
  - intros c Hc. apply in_map_iff in Hc. destruct Hc as (a & <- & Ha). specialize (H a Ha). apply andb_prop in H. destruct H as [H1 H2].
    apply N.ltb_lt in H1. apply N.ltb_lt in H2. left. lia.
  - clear L. induction s as [|a s IH]; [reflexivity|]. cbn [map flat_map]. rewrite <- IH by (intros c Hc; apply H; right; exact Hc).
    specialize (H a (or_introl eq_refl)). apply andb_prop in H. destruct H as [_ H2]. unfold encode. rewrite H2. cbn [app]. f_equal.
    unfold octet, code. symmetry. apply ascii_N_embedding.
Qed.
Definition user_fits (u : guser) : bool := asciib 255 (gu_username u) && asciib 255 (gu_password u) && asciib 255 (gu_nick u) && asciib 255 (gu_realname u).
Definition net_fits (n : gnet) : bool :=
  asciib 255 (gn_name n) && (asciib 255 (gn_addr n) && (asciib 255 (gn_nick n) && (asciib 255 (gn_username n) && (asciib 255 (gn_realname n)
  && (asciib 255 (gn_certfp n) && (asciib 255 (gn_pass n) && (asciib 255 (gn_puser n) && (asciib 255 (gn_ppass n)
  && match gn_cmds n with [] => true | _ => false end)))))))).
Definition chan_fits (c : gchan) : bool := asciib 255 (gc_name c) && asciib 255 (gc_key c) && asciib 255 (gc_dmsgid c).
Definition rcpt_fits (x : bytes * bytes * bytes) : bool := let '(t, c, m) := x in asciib 255 t && asciib 255 c && asciib 255 m.

Lemma sqlite_fits d l :
  forallb user_fits (s_users (sqlite_source d l)) = true -> forallb net_fits (map load_network (d_nets d)) = true ->
  forallb chan_fits (map load_channel (d_chans d)) = true ->
  forallb rcpt_fits (map (fun r => (dr_target r, string_of (dr_client r), dr_msgid r)) (d_drcpts d)) = true -> fits (sqlite_source d l).
Proof.
  assert (P : forall (A B : Type) (g : A -> B) f (q : A -> bool) (m : list A), forallb f (map g m) = true ->
    forall x, In x (map g (filter q m)) -> f x = true).
  { intros A B g f q m H x Hx. rewrite forallb_forall in H. apply H. apply in_map_iff in Hx. destruct Hx as (r & <- & Hr).
    apply filter_In in Hr. apply in_map. exact (proj1 Hr). }
  intros H1 H2 H3 H4. split; [|split; [|split]].
  - intros u Hu. rewrite forallb_forall in H1. specialize (H1 u Hu). unfold user_fits in H1.
    do 3 (apply andb_prop in H1; destruct H1 as [H1 ?]). unfold short_user. do 3 (split; [apply ascii_short; assumption|]). apply ascii_short; assumption.
  - intros v n Hn. apply (P _ _ _ _ _ _ H2) in Hn. unfold net_fits in Hn.
    do 9 (apply andb_prop in Hn; let X := fresh "X" in destruct Hn as [X Hn]; apply ascii_short in X).
    destruct (gn_cmds n) eqn:E; [|discriminate]. split; [|split; [discriminate|intros c a b []]].
    unfold short_network. rewrite E. repeat (split; [assumption|]). destruct X4 as (l4 & T4 & _).
    split; [exists l4; exact T4|]. split; [assumption|]. split; [apply ascii_short; reflexivity|]. split; assumption.
  - intros k c Hc. apply (P _ _ _ _ _ _ H3) in Hc. unfold chan_fits in Hc. do 2 (apply andb_prop in Hc; destruct Hc as [Hc ?]).
    unfold short_channel. do 2 (split; [apply ascii_short; assumption|]). apply ascii_short; assumption.
  - intros k t c m Hc. apply (P _ _ _ _ _ _ H4) in Hc. unfold rcpt_fits in Hc. do 2 (apply andb_prop in Hc; destruct Hc as [Hc ?]).
    do 2 (split; [apply ascii_short; assumption|]). apply ascii_short; assumption.
Qed.

Example C109_nonvacuous : fits ex_source /\ numbered (s_users ex_source) /\
  exists d, migrate ex_source 7000 = (d, true) /\
  map gu_username (p_list_users (t_pg d)) = [B "alice"; B "bob"] /\
  p_list_networks 2 (t_pg d) = [saved_network 2 (ex_net (B "libera") (B "secret"))] /\
  map gc_name (p_list_channels 2 (t_pg d)) = [B "#soju"; B "#go"] /\
  p_list_drcpts 2 (t_pg d) = [(B "#soju", B "phone", B "x"); (B "alice", B "phone", B "y"); (B "#soju", B "desk", B "z")] /\
  p_list_subs 2 2 (t_pg d) = [GSub 1 (B "https://push.example") (B "auth") (B "p256") (B "vapid")].
Proof.
  split; [apply sqlite_fits; vm_compute; reflexivity|]. split.
  - intros [|[|i]] u E; vm_compute in E; [injection E as <-; reflexivity|injection E as <-; reflexivity|].
    destruct i; discriminate E.
  - eexists. split; [vm_compute; reflexivity|]. do 4 (split; [vm_compute; reflexivity|]). vm_compute. reflexivity.
Qed.

(** ** What goes wrong *)

(** After alice was deleted: carol is given the network of bob with its password, and
    bob has none. *)
Definition ex_deleted : db := fold_left (step_db ex_raw)
  [StoreUser 1000 (ex_user (B "alice")); StoreUser 1000 (ex_user (B "bob")); StoreUser 1000 (ex_user (B "carol"));
   StoreNetwork 2 (ex_net (B "libera") (B "secret")); DeleteUser 1] empty_db.
Theorem C109_owner_refuted : exists d, migrate (sqlite_source ex_deleted []) 7000 = (d, true) /\
  (forall u, get_user (B "carol") ex_deleted = Some u -> list_networks (gu_id u) ex_deleted = []) /\
  (exists bob, p_get_user (B "bob") (t_pg d) = Some bob /\ p_list_networks (gu_id bob) (t_pg d) = []) /\
  exists carol n, p_get_user (B "carol") (t_pg d) = Some carol /\ p_list_networks (gu_id carol) (t_pg d) = [n] /\
    gn_puser n = B "account" /\ gn_ppass n = B "secret".
Proof.
  eexists. split; [vm_compute; reflexivity|]. split; [intros u E; vm_compute in E; injection E as <-; vm_compute; reflexivity|]. split.
  - eexists. split; [vm_compute; reflexivity|]. vm_compute. reflexivity.
  - eexists. eexists. split; [vm_compute; reflexivity|]. split; [vm_compute; reflexivity|]. split; vm_compute; reflexivity.
Qed.
Print Assumptions C109_owner_refuted.

(** Read markers, and subscriptions for no network in particular, are lost. *)
Theorem C109_lost_refuted : exists d, migrate ex_source 7000 = (d, true) /\
  (exists x, get_rrcpt 1 (B "#soju") ex_db = Some (Some x)) /\ (forall k, p_get_rrcpt k (B "#soju") (t_pg d) = Some None) /\
  (exists s, list_subs 2 0 ex_db = [s]) /\ p_list_subs 2 0 (t_pg d) = [].
Proof.
  eexists. split; [vm_compute; reflexivity|]. split; [eexists; vm_compute; reflexivity|]. split; [intros k; vm_compute; reflexivity|].
  split; [eexists; vm_compute; reflexivity|]. vm_compute. reflexivity.
Qed.
Print Assumptions C109_lost_refuted.
