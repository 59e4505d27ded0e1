(** Property C80. *)
From Verif.Base Require Import Bytes Base64.
From Verif.Model Require Import Message GenMsg Caps UpReg.
From Verif.Proof Require UpReg.
From Verif.Spec Require Import GenMsg UpReg.
From Verif.Properties Require GenMsg.

(** C80: the registration with a server ends, in one way whatever the messages under
    way: the server welcomes the bouncer under the nickname of the network, both
    agree on the capabilities, the bouncer is logged in to the account that its
    credentials are for (if the server announces the mechanism and accepts it), and
    then every saved channel is joined once, with its key, and the connect commands
    follow. *)
Theorem C80_registers :
  forall first rest mech_ok login order sorted parse_command cfg,
    (forall n, Permutation wanted_caps (order n)) ->
    NoDup (offered first rest) ->
    Forall (fun c => to_lower c = c) (offered first rest) ->
    (In (B "labeled-response") (offered first rest) -> In (B "echo-message") (offered first rest)) ->
    In (g_mech cfg) [[]; B "PLAIN"; B "EXTERNAL"] ->
    sort_result join_less (g_chans cfg) (sorted (g_chans cfg)) ->
    Forall (fun p => fst p <> [] /\ list_word (fst p) /\ list_word (snd p)) (g_chans cfg) ->
    let run := moves first rest mech_ok login order sorted parse_command cfg in
    exists n f,
      run n (start cfg) f /\ idle f /\
      (forall k s, run k (start cfg) s -> k <= n /\ run (n - k) s f) /\
      v_welcomed (y_v f) = true /\ s_reg (y_b f) = true /\ s_closed (y_b f) = false /\
      v_nick (y_v f) = Some (g_nick cfg) /\
      v_account (y_v f) = account_of first rest mech_ok login cfg /\
      (forall c, In c (v_caps (y_v f)) <->
         (In c wanted_caps /\ In c (offered first rest)) \/ (c = B "echo-message" /\ In (B "labeled-response") (offered first rest))) /\
      (forall c, up_enabled (y_b f) c = true <-> In c (v_caps (y_v f))) /\
      exists js, v_got (y_v f) = js ++ flat_map (fun c => match parse_command c with Some m => [m] | None => [] end) (g_cmds cfg) /\
        Forall (fun m => m_command m = B "JOIN") js /\ Permutation (flat_map read_join js) (g_chans cfg).
Proof.
  intros first rest mech_ok login order sorted parse_command cfg Ho Hn Hl He Hm Hs Hg run.
  destruct (Proof.UpReg.registers first rest mech_ok login order sorted parse_command cfg Ho Hn Hl He Hm)
    as (n & f & H1 & H2 & H3 & H4 & H5 & H6 & H7 & H8 & H9 & H10 & H11).
  exists n, f. split; [exact H1|]. split; [exact H2|]. split; [exact H3|]. split; [exact H4|]. split; [exact H5|]. split; [exact H6|].
  split; [exact H7|]. split; [exact H8|]. split; [exact H9|]. split; [intros c; rewrite H10, H9; reflexivity|].
  exists (joins sorted cfg). split; [exact H11|].
  unfold joins. destruct (g_chans cfg) as [|x l] eqn:E.
  - split; [constructor|apply Permutation_refl].
  - destruct (Properties.GenMsg.C08_join_pairs_keys (x :: l) (sorted (x :: l)) Hs Hg) as (P & J & _). split; [exact J|exact P].
Qed.
Print Assumptions C80_registers.

(** C80: as long as the server has not acknowledged sasl and then asked for the
    response, nothing that the bouncer sends depends on the password; with a
    mechanism other than PLAIN nothing ever does. *)
Theorem C80_secret :
  forall order sorted parse_command cfg p2 l,
    (g_mech cfg = B "PLAIN" -> prompted false l = false) ->
    register (with_secret p2 cfg) = register cfg /\
    snd (gsteps order sorted parse_command cfg l new_gst) = snd (gsteps order sorted parse_command (with_secret p2 cfg) l new_gst).
Proof. exact Proof.UpReg.secret. Qed.
Print Assumptions C80_secret.

(** C80: it does not matter how a server splits its list of capabilities into
    lines, if it calls the bouncer [*]. *)
Theorem C80_listing_partial :
  forall order sorted parse_command cfg first rest s,
    gsteps order sorted parse_command cfg (map GMsg (ls_lines (B "*") first rest)) s =
    gsteps order sorted parse_command cfg [GMsg (ls_last (B "*") (join (B " ") (first :: rest)))] s.
Proof. intros. apply Proof.UpReg.listing. Qed.
Print Assumptions C80_listing_partial.

(** ** What is not true *)
Definition c80_order (n : nat) : list bytes := wanted_caps.
Definition c80_sorted (l : list (bytes * bytes)) : list (bytes * bytes) := l.
Definition c80_parse (c : bytes) : option message := Some (msg (B "PRIVMSG") [B "NickServ"; c]).
Definition c80_cfg : gcfg :=
  GCfg [] (B "jd") (B "jd") (B "John Doe") (B "PLAIN") (B "jd") (B "hunter2") [(B "#key", B "k"); (B "#a", [])] [B "identify"].
Definition c80_lines (target : bytes) : list gev := map GMsg (ls_lines target (B "batch multi-prefix") [B "sasl=PLAIN"]).

(** A server that calls the bouncer by its nickname: the first line of several is
    taken for the last, and the negotiation is ended before sasl is seen. *)
Theorem C80_listing_refuted :
  exists order sorted parse_command cfg target first rest,
    In cap_end (snd (gsteps order sorted parse_command cfg (map GMsg (ls_lines target first rest)) new_gst)) /\
    announces first rest (g_mech cfg) = true /\
    ~ In cap_end (snd (gsteps order sorted parse_command cfg [GMsg (ls_last target (join (B " ") (first :: rest)))] new_gst)).
Proof.
  exists c80_order, c80_sorted, c80_parse, c80_cfg, (B "jd"), (B "batch multi-prefix"), [B "sasl=PLAIN"].
  split; [vm_compute; right; left; reflexivity|]. split; [vm_compute; reflexivity|].
  vm_compute. intros [H|[]]. discriminate H.
Qed.
Print Assumptions C80_listing_refuted.

(** A server that offers labeled-response but not echo-message: echo-message is
    asked for all the same, everything is refused, and both wait for each other. *)
Definition c80_stuck : sys :=
  Sys (GSt [(B "labeled-response", []); (B "sasl", [])] [] None false false false 1)
      (Sv true (Some (B "jd")) true false [] None None []) [] [].
Theorem C80_registers_refuted :
  exists first rest mech_ok login order sorted parse_command cfg n f,
    (forall n, Permutation wanted_caps (order n)) /\
    NoDup (offered first rest) /\ Forall (fun c => to_lower c = c) (offered first rest) /\
    account_of first rest mech_ok login cfg = Some (B "jd") /\
    moves first rest mech_ok login order sorted parse_command cfg n (start cfg) f /\ idle f /\
    (forall k s, moves first rest mech_ok login order sorted parse_command cfg k (start cfg) s ->
       k <= n /\ moves first rest mech_ok login order sorted parse_command cfg (n - k) s f) /\
    v_welcomed (y_v f) = false /\ s_reg (y_b f) = false /\ s_closed (y_b f) = false.
Proof.
  exists (B "labeled-response sasl"), [], (fun _ => true), (fun _ => Some (B "jd")), c80_order, c80_sorted, c80_parse, c80_cfg, 6, c80_stuck.
  assert (M : moves (B "labeled-response sasl") [] (fun _ => true) (fun _ => Some (B "jd")) c80_order c80_sorted c80_parse c80_cfg 6 (start c80_cfg) c80_stuck).
  { unfold start. change (register c80_cfg) with [msg (B "CAP") [B "LS"; B "302"]; msg (B "NICK") [B "jd"]; msg (B "USER") [B "jd"; B "0"; B "*"; B "John Doe"]].
    eapply moves_S; [apply move_server|]. vm_compute app. eapply moves_S; [apply move_server|]. eapply moves_S; [apply move_server|].
    eapply moves_S; [vm_compute; apply move_bouncer|]. vm_compute. eapply moves_S; [apply move_server|]. vm_compute. eapply moves_S; [apply move_bouncer|].
    vm_compute. apply moves_O. }
  split; [intros; apply Permutation_refl|].
  split. { vm_compute. repeat constructor; intros H; repeat (destruct H as [H|H]; [discriminate H|]); exact H. }
  split. { vm_compute. repeat constructor. }
  split; [vm_compute; reflexivity|]. split; [exact M|]. split; [split; reflexivity|].
  split; [|repeat split; reflexivity]. intros k s K. apply (Proof.UpReg.confluent _ _ _ _ _ _ _ _ k 6 (start c80_cfg) c80_stuck s M); [split; reflexivity|exact K].
Qed.
Print Assumptions C80_registers_refuted.

(** A server that acknowledges sasl but does not know AUTHENTICATE: the exchange is
    dropped, but the negotiation is not ended. *)
Theorem C80_unknown_command_refuted :
  exists order sorted parse_command cfg l s out,
    gsteps order sorted parse_command cfg (map GMsg l) new_gst = (s, out) /\
    last l (msg [] []) = msg (B "421") [B "*"; B "AUTHENTICATE"; B "Unknown command"] /\
    s_client s = None /\ s_reg s = false /\ s_closed s = false /\ ~ In cap_end out.
Proof.
  set (l := [ls_last (B "*") (B "sasl"); msg (B "CAP") [B "*"; B "ACK"; B "sasl"]; msg (B "421") [B "*"; B "AUTHENTICATE"; B "Unknown command"]]).
  exists c80_order, c80_sorted, c80_parse, c80_cfg, l, (GSt [(B "sasl", [])] [B "sasl"] None false false false 1),
    [msg (B "CAP") [B "REQ"; B "sasl"]; msg (B "AUTHENTICATE") [B "PLAIN"]].
  split; [vm_compute; reflexivity|]. repeat split. vm_compute. intros [H|[H|[]]]; discriminate H.
Qed.
Print Assumptions C80_unknown_command_refuted.

(** ** Concrete cases *)
Example C80_nonvacuous :
  let first := B "labeled-response echo-message server-time draft/chathistory" in let rest := [B "sasl=EXTERNAL,plain"; B "batch"] in
  (forall n, Permutation wanted_caps (c80_order n)) /\
  NoDup (offered first rest) /\ Forall (fun c => to_lower c = c) (offered first rest) /\
  (In (B "labeled-response") (offered first rest) -> In (B "echo-message") (offered first rest)) /\
  In (g_mech c80_cfg) [[]; B "PLAIN"; B "EXTERNAL"] /\
  sort_result join_less (g_chans c80_cfg) (c80_sorted (g_chans c80_cfg)) /\
  Forall (fun p => fst p <> [] /\ list_word (fst p) /\ list_word (snd p)) (g_chans c80_cfg) /\
  account_of first rest (fun m => beqb m (B "PLAIN")) (fun r => if beqb r ([zero] ++ B "jd" ++ [zero] ++ B "hunter2") then Some (B "jdoe") else None) c80_cfg = Some (B "jdoe").
Proof.
  cbv zeta. split; [intros; apply Permutation_refl|].
  split. { vm_compute. repeat constructor; intros H; repeat (destruct H as [H|H]; [discriminate H|]); exact H. }
  split. { vm_compute. repeat constructor. }
  split. { intros _. vm_compute. auto. }
  split; [right; left; reflexivity|].
  split. { split; [apply Permutation_refl|]. intros i j x y Hij Hx Hy. destruct j as [|[|j]]; [lia| |destruct j; discriminate Hy].
    destruct i; [|lia]. cbn in Hx, Hy. injection Hx as <-. injection Hy as <-. vm_compute. reflexivity. }
  split; [|vm_compute; reflexivity].
  repeat constructor; try discriminate; cbn; intros H; repeat (destruct H as [H|H]; [discriminate H|]); exact H.
Qed.

(** The password does matter once the server has asked. *)
Example C80_secret_nonvacuous :
  let asked := [GMsg (ls_last (B "*") (B "sasl")); GMsg (msg (B "CAP") [B "*"; B "ACK"; B "sasl"]); GMsg (msg (B "AUTHENTICATE") [B "+"])] in
  prompted false (removelast asked) = false /\ prompted false asked = true /\
  length (snd (gsteps c80_order c80_sorted c80_parse c80_cfg (removelast asked) new_gst)) = 2 /\
  snd (gsteps c80_order c80_sorted c80_parse c80_cfg asked new_gst) <> snd (gsteps c80_order c80_sorted c80_parse (with_secret (B "other") c80_cfg) asked new_gst).
Proof. repeat split. vm_compute. discriminate. Qed.

(** A list in three lines, and what follows it. *)
Example C80_listing_nonvacuous :
  snd (gsteps c80_order c80_sorted c80_parse c80_cfg (c80_lines (B "*")) new_gst) = [msg (B "CAP") [B "REQ"; B "batch multi-prefix sasl"]].
Proof. vm_compute. reflexivity. Qed.
