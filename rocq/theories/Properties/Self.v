(** C85: clients know who they are. *)
From Verif.Base Require Import Bytes.
From Verif.Model Require Import Message Self.
From Verif.Proof Require Self.
From Verif.Spec Require Import Self.

Section C85.
  (** Case mapping of the network. *)
  Variable cm : bytes -> bytes.
  (** Name, nickname and realname of the user; nickname, user name and realname of the network. *)
  Variables name nick real wn wu wr : bytes.
  (** Everything that happens since the user has been loaded. *)
  Variable l : list ev.
  Let s := fst (run cm (fresh name nick real wn wu wr) l).
  Let outs := snd (run cm (fresh name nick real wn wu wr) l).

  (** While the network is connected, and once all lines of the server have been handled, a client of the
      network knows what the server has last said. *)
  Theorem C85_known d w :
    In d (s_clients s) -> d_bound d = true -> s_conn s <> None -> v_conn s = Some w -> s_down s = [] ->
    let k := knows cm (d_id d) outs in
    k_nick k = n_nick w /\
    (n_host w <> [] -> k_host k = n_host w) /\
    (n_host w <> [] -> keeps c_chg (d_id d) 0 l -> k_user k = n_user w) /\
    (keeps c_set (d_id d) 0 l -> k_real k = n_real w) /\
    (keeps c_sasl (d_id d) 0 l -> k_acct k = n_acct w).
  Proof. exact (Proof.Self.known cm name nick real wn wu wr l d w). Qed.

  (** A client without network is logged in as the user of the bouncer. *)
  Theorem C85_account d :
    In d (s_clients s) -> d_bound d = false -> keeps c_sasl (d_id d) 0 l -> k_acct (knows cm (d_id d) outs) = name.
  Proof. exact (Proof.Self.unbound_account cm name nick real wn wu wr l d). Qed.

  Section Nick.
    Variables (d : client) (n : bytes).
    Hypothesis Hd : In d (s_clients s).
    Hypothesis Hn : nick_ok n.
    Hypothesis Hcm : cm n <> B "bouncerserv".
    Hypothesis Hlow : to_lower n <> B "bouncerserv".

    (** NICK while connected is put to the server, and no client is told anything yet. *)
    Theorem C85_nick_connected : d_bound d = true -> s_conn s <> None -> snd (step cm s (DNick (d_id d) n)) = [OUp (B "NICK") n].
    Proof. exact (Proof.Self.nick_connected cm name nick real wn wu wr l d n Hd Hn Hcm Hlow). Qed.
    (** NICK while disconnected: the client is told at once, and the next connection asks for that nickname. *)
    Theorem C85_nick_offline : d_bound d = true -> s_conn s = None ->
      let r := step cm s (DNick (d_id d) n) in
      k_nick (knows cm (d_id d) (outs ++ snd r)) = n /\ sent (snd r) = [] /\
      (s_pend s = None -> exists real', sent (snd (step cm (fst r) Dial)) = [(B "NICK", n); (B "USER", real')]).
    Proof. exact (Proof.Self.nick_offline cm name nick real wn wu wr l d n Hd Hn Hcm Hlow). Qed.
    (** NICK of a client without network: all clients without network know it. *)
    Theorem C85_nick_unbound d' : d_bound d = false -> In d' (s_clients s) -> d_bound d' = false ->
      k_nick (knows cm (d_id d') (outs ++ snd (step cm s (DNick (d_id d) n)))) = n.
    Proof. exact (Proof.Self.nick_unbound cm name nick real wn wu wr l d n Hd Hn Hcm Hlow d'). Qed.
  End Nick.

  (** SETNAME is put to the server, unless the client knows that this is its realname. *)
  Theorem C85_setname_connected d r c :
    In d (s_clients s) -> d_bound d = true -> s_conn s = Some c -> n_setname c = true -> k_real (knows cm (d_id d) outs) <> r ->
    snd (step cm s (DSetname (d_id d) r)) = [OUp (B "SETNAME") r].
  Proof. exact (Proof.Self.setname_connected cm name nick real wn wu wr l d r c). Qed.
  (** SETNAME of a client without network: all such clients with the capability know it. *)
  Theorem C85_setname_unbound d d' r :
    In d (s_clients s) -> d_bound d = false -> In d' (s_clients s) -> d_bound d' = false -> c_set (d_caps d') = true ->
    r <> [] -> k_real (knows cm (d_id d) outs) <> r ->
    k_real (knows cm (d_id d') (outs ++ snd (step cm s (DSetname (d_id d) r)))) = r.
  Proof. exact (Proof.Self.setname_unbound cm name nick real wn wu wr l d d' r). Qed.
End C85.

Definition all_caps := Caps true true true.
Definition no_caps := Caps false false false.
Definition start := fresh (B "alice") [] [] [] [] [].

(** Two clients of the network and one without. *)
Definition story : list ev :=
  [Join true all_caps (B "10.0.0.1"); Join true no_caps (B "10.0.0.2"); Join false all_caps (B "10.0.0.3");
   Dial; Registered (B "alice_") (Some (B "~al", B "isp.example", B "alice")) true; Connected;
   VOther (LNick (B "bob") (B "bobby")); VNick (B "Alice"); VHost (B "al") (B "user/alice"); VOther (LSetname (B "bob") (B "Bob"));
   VReal (B "Alice A."); VVisible (Some (B "al2")) (B "vhost.example"); VLogout (B "al2") (B "vhost.example"); VLogin (B "al3") (B "vhost.example") (B "acc");
   Hear; Hear; Hear; Hear; Hear; Hear; Hear; Hear].

Example C85_nonvacuous :
  let s := fst (run to_lower start story) in
  let outs := snd (run to_lower start story) in
  s_down s = [] /\ v_conn s = Some (Conn (B "Alice") (B "al3") (B "vhost.example") (B "Alice A.") (B "acc") true) /\
  keeps c_chg 1 0 story /\ keeps c_set 1 0 story /\ keeps c_sasl 1 0 story /\ keeps c_sasl 3 0 story /\
  map (fun d => (d_id d, d_bound d)) (s_clients s) = [(1%N, true); (2%N, true); (3%N, false)] /\
  knows to_lower 1 outs = Know (B "Alice") (B "al3") (B "vhost.example") (B "Alice A.") (B "acc") /\
  knows to_lower 2 outs = Know (B "Alice") (B "alice") (B "vhost.example") [] [] /\
  knows to_lower 3 outs = Know (B "alice") (B "alice") (B "10.0.0.3") (B "alice") (B "alice").
Proof.
  vm_compute. repeat split; intros; try reflexivity; discriminate.
Qed.

(** Requests of clients, disconnected and without network. *)
Example C85_nonvacuous_requests :
  let l := [Join true all_caps (B "h"); Join false all_caps (B "h"); Join false all_caps (B "h")] in
  let s := fst (run to_lower start l) in
  let outs := snd (run to_lower start l) in
  sent (snd (step to_lower (fst (step to_lower s (DNick 1 (B "bob")))) Dial)) = [(B "NICK", B "bob"); (B "USER", B "bob")] /\
  k_nick (knows to_lower 3 (outs ++ snd (step to_lower s (DNick 2 (B "bob"))))) = B "bob" /\
  k_real (knows to_lower 3 (outs ++ snd (step to_lower s (DSetname 2 (B "Bob B."))))) = B "Bob B." /\
  snd (step to_lower s (DNick 1 (B "a b"))) = [OErr 1] /\
  snd (step to_lower (fst (run to_lower start story)) (DNick 1 (B "bob"))) = [OUp (B "NICK") (B "bob")] /\
  snd (step to_lower (fst (run to_lower start story)) (DSetname 1 (B "bob"))) = [OUp (B "SETNAME") (B "bob")].
Proof. vm_compute. repeat split. Qed.

(** *** What does not hold *)

(** While the network is disconnected, other clients of it are not told of a new nickname. *)
Theorem C85_offline_others_refuted :
  exists l n,
    let s := fst (run to_lower start l) in
    let outs := snd (run to_lower start l) in
    let r := step to_lower s (DNick 1 n) in
    map (fun d => (d_id d, d_bound d)) (s_clients (fst r)) = [(1%N, true); (2%N, true)] /\
    k_nick (knows to_lower 1 (outs ++ snd r)) = n /\ k_nick (knows to_lower 2 (outs ++ snd r)) <> n.
Proof. exists [Join true all_caps (B "h"); Join true all_caps (B "h")], (B "bob"). vm_compute. repeat split. discriminate. Qed.

(** A client that connects without network is welcomed with the user name, not with the nickname that the
    user has chosen and that another client goes by. *)
Theorem C85_welcome_refuted :
  exists l,
    let s := fst (run to_lower start l) in
    let outs := snd (run to_lower start l) in
    map (fun d => (d_id d, d_bound d)) (s_clients s) = [(1%N, false); (2%N, false)] /\
    k_nick (knows to_lower 1 outs) = u_nick s /\ k_nick (knows to_lower 2 outs) <> u_nick s /\ u_nick s <> [].
Proof. exists [Join false all_caps (B "h"); DNick 1 (B "bob"); Join false all_caps (B "h")]. vm_compute. repeat split; discriminate. Qed.

(** When the service changes nickname and realname of the user, clients without network are not told. *)
Theorem C85_service_refuted :
  exists l n r,
    let outs := snd (run to_lower start (l ++ [UserUpdate n r])) in
    s_clients (fst (run to_lower start l)) <> [] /\ keeps c_set 1 0 l /\
    k_nick (knows to_lower 1 outs) <> n /\ k_real (knows to_lower 1 outs) <> r.
Proof. exists [Join false all_caps (B "h")], (B "bob"), (B "Bob B."). vm_compute. repeat split; discriminate. Qed.

(** SETNAME to a realname that is no longer the current one is confirmed to the client, and not done: the
    client has not been told of a change while it had the capability disabled. *)
Theorem C85_setname_stale_refuted :
  exists l r,
    let s := fst (run to_lower start l) in
    let o := snd (step to_lower s (DSetname 1 r)) in
    option_map n_real (v_conn s) <> Some r /\ option_map n_setname (s_conn s) = Some true /\ s_down s = [] /\
    map m_command (told 1 o) = [B "SETNAME"] /\ map m_params (told 1 o) = [[r]] /\ sent o = [].
Proof.
  exists [Join true all_caps (B "h"); Dial; Registered (B "alice") None true; Connected; DCaps 1 no_caps; VReal (B "Bob B."); Hear; DCaps 1 all_caps],
    (B "alice").
  vm_compute. repeat split. discriminate.
Qed.

(** A change of the user name alone is not told to a client that enables the capability only later. *)
Theorem C85_user_late_refuted :
  exists l,
    let s := fst (run to_lower start l) in
    s_down s = [] /\ option_map n_host (v_conn s) = Some (k_host (knows to_lower 1 (snd (run to_lower start l)))) /\
    option_map n_user (v_conn s) <> Some (k_user (knows to_lower 1 (snd (run to_lower start l)))) /\
    map (fun d => c_chg (d_caps d)) (s_clients s) = [true].
Proof.
  exists [Join true no_caps (B "h"); Dial; Registered (B "alice") (Some (B "~al", B "isp.example", B "alice")) true; Connected; DCaps 1 all_caps].
  vm_compute. repeat split. discriminate.
Qed.

(** A mask without user name in RPL_LOGGEDIN gives a CHGHOST with an empty parameter before the last one. *)
Theorem C85_empty_user_refuted :
  exists l h, exists m, In m (told 1 (snd (run to_lower start l))) /\ m_command m = B "CHGHOST" /\ m_params m = [[]; h] /\ h <> [].
Proof.
  exists [Join true all_caps (B "h"); Dial; Registered (B "alice") (Some ([], B "isp.example", B "acc")) true; Connected], (B "isp.example").
  eexists (Message [] (Some (Prefix _ _ _)) _ _). vm_compute. split; [right; right; left; reflexivity|]. repeat split. discriminate.
Qed.

(** A realname set with SETNAME, and confirmed by the server, is not the one that is used when the
    connection is lost and the bouncer connects again. *)
Theorem C85_setname_forgotten_refuted :
  exists l r,
    sent (snd (step to_lower (fst (run to_lower start l)) (DSetname 1 r))) = [(B "SETNAME", r)] /\
    k_real (knows to_lower 1 (snd (run to_lower start (l ++ [DSetname 1 r; VReal r; Hear])))) = r /\
    exists n r', sent (snd (step to_lower (fst (run to_lower start (l ++ [DSetname 1 r; VReal r; Hear; VClose; Hear]))) Dial)) = [(B "NICK", n); (B "USER", r')] /\ r' <> r.
Proof.
  exists [Join true all_caps (B "h"); Dial; Registered (B "alice") None true; Connected], (B "Bob B.").
  vm_compute. repeat split. do 2 eexists. split; [reflexivity|discriminate].
Qed.

Print Assumptions C85_known.
Print Assumptions C85_account.
Print Assumptions C85_nick_connected.
Print Assumptions C85_nick_offline.
Print Assumptions C85_nick_unbound.
Print Assumptions C85_setname_connected.
Print Assumptions C85_setname_unbound.
Print Assumptions C85_offline_others_refuted.
Print Assumptions C85_welcome_refuted.
Print Assumptions C85_service_refuted.
Print Assumptions C85_setname_stale_refuted.
Print Assumptions C85_user_late_refuted.
Print Assumptions C85_empty_user_refuted.
Print Assumptions C85_setname_forgotten_refuted.
