(** C43 and C75: the parameters a server announces. *)
From Verif.Base Require Import Bytes.
From Verif.Model Require Import Message CaseMap Membership Modes GenMsg Isupport.
From Verif.Spec Require Import GenMsg Isupport.
From Verif.Proof Require Isupport.
From Coq Require Import Permutation NArith.

(** C43, for servers that negate nothing: after any sequence of RPL_ISUPPORT and
    the end of the MOTD, every parameter is known with its last value or not at
    all, and the case mapping, channel modes, channel types, status prefixes and
    memberships in use are those of the last value, or the defaults. *)
Theorem C43_settings_partial : forall l cm s out, on_events l (new_ust cm) = Some (s, out) -> Forall sets (sent l) ->
  let f k := learned (sent l) k None in
  (forall k, im_get (u_isupport s) k = f k) /\
  (ended l = true \/ f (B "CASEMAPPING") <> None -> casemapping_mean (f (B "CASEMAPPING")) (u_cm s)) /\
  match f (B "CHANMODES") with None => u_modes s = std_channel_modes | Some v => chanmodes_mean (value_of v) (u_modes s) end /\
  u_types s = match f (B "CHANTYPES") with None => std_channel_types | Some v => value_of v end /\
  u_status s = match f (B "STATUSMSG") with None => [] | Some v => value_of v end /\
  match f (B "PREFIX") with None => u_members s = std_memberships | Some v => prefix_mean (value_of v) (u_members s) end /\
  u_rate s = match f (B "SOJU.IM/SAFERATE") with None => true | Some _ => false end.
Proof. exact Proof.Isupport.settings. Qed.
Print Assumptions C43_settings_partial.

(** C43 fails for every negation: no negated token changes any parameter, nor
    anything in use, and clients are told nothing. *)
Theorem C43_ignored_refuted : forall rest s, exists s', on_token ("-"%char :: rest) s = Some (s', []) /\
  (forall k, ~ (exists k', k = "-"%char :: k') -> im_get (u_isupport s') k = im_get (u_isupport s) k) /\
  u_cm s' = u_cm s /\ u_modes s' = u_modes s /\ u_types s' = u_types s /\ u_status s' = u_status s /\ u_members s' = u_members s /\ u_rate s' = u_rate s.
Proof.
  intros rest s. destruct (Proof.Isupport.on_token_negated _ rest s eq_refl) as (s' & E & ->). eexists. split; [exact E|].
  split; [|repeat split]. intros k Hk. cbn [with_isupport u_isupport]. rewrite Proof.Isupport.im_get_del.
  destruct (beqb_spec (to_upper ("-"%char :: rest)) k) as [<-|]; [|reflexivity]. destruct Hk. exists (to_upper rest). reflexivity.
Qed.
Print Assumptions C43_ignored_refuted.

(** A server that takes back its channel types: the parameter, the types in use
    and the client's view stay. *)
Definition negating : list event :=
  [Isupport [B "ann"; B "CHANTYPES=#"; B "NICKLEN=9"; B "are supported"]; Isupport [B "ann"; B "-CHANTYPES"; B "are supported"]].

Theorem C43_negation_refuted : exists s out, on_events negating (new_ust CmRFC1459) = Some (s, out) /\
  learned (sent negating) (B "CHANTYPES") None = None /\
  im_get (u_isupport s) (B "CHANTYPES") = Some (Some (B "#")) /\ u_types s = B "#" /\
  learned (flat_map read_isupport out) (B "CHANTYPES") None = Some (Some (B "#")).
Proof. eexists. eexists. split; [vm_compute; reflexivity|]. vm_compute. tauto. Qed.

(** C75: a client that connects at any time reads, for every parameter passed
    through, the last value the server sent, as it was sent, if the server
    negates nothing (CLIENTTAGDENY is the bouncer's own for servers without
    message tags). *)
Theorem C75_raw : forall l1 l2 cm s1 s2 o1 o2 conf id order (tags : bool) k,
  on_events l1 (new_ust cm) = Some (s1, o1) -> on_events l2 s1 = Some (s2, o2) ->
  Forall sets (sent (l1 ++ l2)) -> w_netid conf = Some id -> Permutation order passthrough -> In k passthrough ->
  (tags = true \/ k <> B "CLIENTTAGDENY") ->
  learned (flat_map read_isupport (welcome_isupport conf order (Some (s1, tags)) ++ o2)) k None = learned (sent (l1 ++ l2)) k None.
Proof. exact Proof.Isupport.client_view. Qed.
Print Assumptions C75_raw.

(** C75: without escape sequences this is what the client would read on the
    server itself. *)
Theorem C75_same_partial : forall l1 l2 cm s1 s2 o1 o2 conf id order (tags : bool) k,
  on_events l1 (new_ust cm) = Some (s1, o1) -> on_events l2 s1 = Some (s2, o2) ->
  Forall sets (sent (l1 ++ l2)) -> Forall (fun t => ~ In "\"%char t) (sent (l1 ++ l2)) ->
  w_netid conf = Some id -> Permutation order passthrough -> In k passthrough -> (tags = true \/ k <> B "CLIENTTAGDENY") ->
  learned (flat_map read_isupport (welcome_isupport conf order (Some (s1, tags)) ++ o2)) k None =
  learned (map isupport_decode (sent (l1 ++ l2))) k None.
Proof.
  intros l1 l2 cm s1 s2 o1 o2 conf id order tags k H1 H2 F E. rewrite (Proof.Isupport.decode_all _ E).
  exact (Proof.Isupport.client_view l1 l2 cm s1 s2 o1 o2 conf id order tags k H1 H2 F).
Qed.
Print Assumptions C75_same_partial.

(** C75: likewise for a client that was there before the connection to the
    server. *)
Theorem C75_waiting_partial : forall l cm s out conf id order k,
  on_events l (new_ust cm) = Some (s, out) -> Forall sets (sent l) -> Forall (fun t => ~ In "\"%char t) (sent l) ->
  w_netid conf = Some id -> In k passthrough ->
  learned (flat_map read_isupport (welcome_isupport conf order None ++ out)) k None = learned (map isupport_decode (sent l)) k None.
Proof.
  intros l cm s out conf id order k H F E. rewrite (Proof.Isupport.decode_all _ E).
  exact (Proof.Isupport.client_waiting l cm s out conf id order k H F).
Qed.
Print Assumptions C75_waiting_partial.

Definition sample_conf := WelcomeConf (Some 3%N) (B "title") true (Some (B "key")) None.

(** C75 fails for values with escape sequences, which are escaped again: the
    network "My Net" is shown as "My\x20Net". *)
Definition escaping : list event := [Isupport [B "ann"; B "NETWORK=My\x20Net"; B "are supported"]].

Theorem C75_escape_refuted : exists s out, on_events escaping (new_ust CmRFC1459) = Some (s, out) /\
  learned (map isupport_decode (sent escaping)) (B "NETWORK") None = Some (Some (B "My Net")) /\
  learned (flat_map read_isupport (welcome_isupport sample_conf passthrough (Some (s, true)))) (B "NETWORK") None = Some (Some (B "My\x20Net")) /\
  learned (flat_map read_isupport (welcome_isupport sample_conf passthrough None ++ out)) (B "NETWORK") None = Some (Some (B "My\x20Net")).
Proof. eexists. eexists. split; [vm_compute; reflexivity|]. vm_compute. tauto. Qed.

Definition announcing : list event :=
  [Isupport [B "ann"; B "CASEMAPPING=ascii"; B "chanmodes=be,k,l,imnpst"; B "PREFIX=(ov)@+"; B "are supported"];
   Isupport [B "ann"; B "STATUSMSG=@"; B "MONITOR=100"; B "WHOX"; B "soju.im/SAFERATE"; B "are supported"]; EndOfMotd].

Example C43_nonvacuous : exists s out, on_events announcing (new_ust CmRFC1459Strict) = Some (s, out) /\ Forall sets (sent announcing) /\
  u_cm s = CmASCII /\ al_get (u_modes s) "k"%char = Some ModeB /\ u_members s = [Membership "o" "@"; Membership "v" "+"] /\
  u_types s = std_channel_types /\ u_status s = B "@" /\ u_rate s = false /\ length out = 2.
Proof.
  eexists. eexists. split; [vm_compute; reflexivity|]. split.
  - cbn [announcing sent flat_map app]. repeat constructor; intros name H; vm_compute in H; discriminate.
  - vm_compute. tauto.
Qed.

Example C75_nonvacuous : exists s1 o1 s2 o2, on_events announcing (new_ust CmRFC1459) = Some (s1, o1) /\
  on_events [Isupport [B "ann"; B "PREFIX=(o)@"; B "X"]] s1 = Some (s2, o2) /\
  learned (flat_map read_isupport (welcome_isupport sample_conf passthrough (Some (s1, true)) ++ o2)) (B "PREFIX") None = Some (Some (B "(o)@")) /\
  learned (flat_map read_isupport (welcome_isupport sample_conf passthrough (Some (s1, true)) ++ o2)) (B "CHANMODES") None = Some (Some (B "be,k,l,imnpst")).
Proof. do 4 eexists. split; [vm_compute; reflexivity|]. split; [vm_compute; reflexivity|]. vm_compute. tauto. Qed.
