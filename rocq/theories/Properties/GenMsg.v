(** Properties C08-C11, C51, C52. *)
From Verif.Base Require Import Bytes Base64.
From Verif.Model Require Import Message GenMsg.
From Verif.Spec Require Import GenMsg.
From Verif.Proof Require GenMsg.

(** C08: whatever the sort leaves behind, a server joins every channel exactly
    once with its own key; in every message keyed channels come first; and a
    message with more than one channel is at most 512 bytes long without CRLF. *)
Theorem C08_join_pairs_keys :
  forall chans sorted,
    sort_result join_less chans sorted ->
    Forall (fun p => fst p <> [] /\ list_word (fst p) /\ list_word (snd p)) chans ->
    let msgs := generate_join sorted in
    Permutation (flat_map read_join msgs) chans /\
    Forall (fun m => m_command m = B "JOIN") msgs /\
    Forall (fun m => exists keyed keyless,
              read_join m = keyed ++ keyless /\ keyed ++ keyless <> [] /\
              Forall (fun p => snd p <> []) keyed /\ Forall (fun p => snd p = []) keyless) msgs /\
    Forall (fun m => length (read_join m) = 1 \/ length (format_message m) <= 512) msgs.
Proof.
  intros chans sorted Hs Hg msgs.
  pose proof (Proof.GenMsg.sorted_keyed_first _ _ Hs) as Hk.
  assert (Hg' : Forall Proof.GenMsg.good ([] ++ sorted)).
  { destruct Hs as [Hp _]. eapply Permutation_Forall; [exact Hp|exact Hg]. }
  assert (Hb : Proof.GenMsg.holds_batch [] [] []) by (split; reflexivity).
  destruct (Proof.GenMsg.join_loop_spec sorted [] [] [] Hb Hg' Hk) as (H1 & H2 & H3).
  split; [|split; [exact H2|split]].
  - subst msgs. unfold generate_join. rewrite H1. simpl. apply Permutation_sym. apply Hs.
  - eapply Forall_impl; [|exact H3]. intros m [(l1 & l2 & E & F1 & F2) Hne].
    exists l1, l2. rewrite <- E at 2. repeat split; assumption.
  - exact (Proof.GenMsg.join_loop_length sorted [] [] [] Hb Hg' Hk (or_introl eq_refl)).
Qed.
Print Assumptions C08_join_pairs_keys.

(** The budget does not leave room for CRLF: a line can exceed the 512 bytes of
    RFC 1459, which include it. *)
Definition c08_witness : list (bytes * bytes) :=
  repeat (B "#soju-test", []) 45 ++ [(B "#soju-tests", [])].

Theorem C08_join_line_with_crlf_fits_refuted :
  exists chans,
    sort_result join_less chans chans /\
    exists m, In m (generate_join chans) /\ 1 < length (read_join m) /\
              512 < length (format_message m ++ crlf).
Proof.
  exists c08_witness. split; [split; [apply Permutation_refl|]|].
  - assert (G : forall k, forallb (fun i => forallb (fun j =>
        if Nat.ltb i j then
          match nth_error c08_witness i, nth_error c08_witness j with
          | Some x, Some y => negb (join_less y x) | _, _ => true end
        else true) (seq 0 k)) (seq 0 k) = true -> forall i j x y, j < k -> i < j ->
        nth_error c08_witness i = Some x -> nth_error c08_witness j = Some y -> join_less y x = false).
    { intros k Hk i j x y Hj Hij Hx Hy. rewrite forallb_forall in Hk.
      specialize (Hk i ltac:(apply in_seq; lia)). rewrite forallb_forall in Hk.
      specialize (Hk j ltac:(apply in_seq; lia)). rewrite Hx, Hy in Hk.
      destruct (Nat.ltb_spec i j); [|lia]. destruct (join_less y x); [discriminate|reflexivity]. }
    intros i j x y Hij Hx Hy. apply (G 46 ltac:(vm_compute; reflexivity) i j x y); try assumption.
    assert (Hj : nth_error c08_witness j <> None) by congruence.
    apply nth_error_Some in Hj. exact Hj.
  - assert (H : existsb (fun m => Nat.ltb 1 (length (read_join m)) &&
                  Nat.ltb 512 (length (format_message m ++ crlf))) (generate_join c08_witness) = true)
      by (vm_compute; reflexivity).
    apply existsb_exists in H as [m [Hin H]]. apply andb_prop in H as [H1 H2].
    apply Nat.ltb_lt in H1, H2. exists m.
    split; [exact Hin|]. split; [exact H1|exact H2].
Qed.
Print Assumptions C08_join_line_with_crlf_fits_refuted.

Example C08_nonvacuous :
  let chans := [(B "#a", B "k"); (B "#z", B "k2"); (B "#b", []); (B "#c", [])] in
  sort_result join_less [(B "#b", []); (B "#a", B "k"); (B "#c", []); (B "#z", B "k2")] chans /\
  map m_params (generate_join chans) = [[B "#a,#z,#b,#c"; B "k,k2"]].
Proof.
  intros chans. split; [split|reflexivity].
  - apply Permutation_sym. apply (Permutation_cons_app [(B "#b", [])] [(B "#c", []); (B "#z", B "k2")]).
    apply (Permutation_cons_app [(B "#b", []); (B "#c", [])] []). apply Permutation_refl.
  - intros i j x y Hij Hx Hy.
    destruct i as [|[|[|[|i]]]], j as [|[|[|[|j]]]]; try lia; simpl in Hx, Hy;
      try (destruct i; discriminate); try (destruct j; discriminate);
      injection Hx as <-; injection Hy as <-; reflexivity.
Qed.

(** C09: provided no single target is itself too long, every target is listed
    exactly once, in order, and each line is at most 511 bytes long without
    CRLF. *)
Theorem C09_monitor_lists_targets_partial :
  forall subcmd targets,
    Forall (fun t => ~ In ","%char t /\ ~ In " "%char t /\ t <> [] /\ (forall r, t <> ":"%char :: r) /\
              length subcmd + length t + 10 <= 512) targets ->
    let msgs := generate_monitor subcmd targets in
    flat_map read_monitor msgs = targets /\
    Forall (fun m => m_command m = B "MONITOR" /\ length (format_message m) <= 511 /\ read_monitor m <> []) msgs.
Proof.
  intros subcmd targets Hf msgs.
  assert (Hmax : monitor_max_length subcmd = 512 - (length subcmd + 9)).
  { unfold monitor_max_length, max_message_length. rewrite !app_length.
    change (length (B "MONITOR ")) with 8. change (length (B " ")) with 1. f_equal. lia. }
  destruct (Proof.GenMsg.monitor_loop_spec (Proof.GenMsg.monitor_target subcmd) subcmd
             (monitor_max_length subcmd) targets []) as [H1 H2].
  - intros t (A & _ & _ & _ & A5). split; [exact A|]. rewrite Hmax. lia.
  - exact Hf.
  - simpl. lia.
  - split; [exact H1|]. eapply Forall_impl; [|exact H2].
    intros m (b & Hne & -> & Hb & Hfb). split; [reflexivity|]. split; [|apply split_on_nonempty].
    rewrite (Proof.GenMsg.monitor_wire_length subcmd b Hne Hfb). 
    destruct b as [|t b]; [congruence|]. pose proof (Forall_inv Hfb) as (_ & _ & _ & _ & Hl). lia.
Qed.
Print Assumptions C09_monitor_lists_targets_partial.

(** Fitting the line including CRLF fails by one byte. *)
Theorem C09_monitor_line_with_crlf_fits_refuted :
  exists targets m,
    Forall (fun t => length t <= 30) targets /\
    In m (generate_monitor (B "+") targets) /\ 512 < length (format_message m ++ crlf).
Proof.
  assert (H : existsb (fun m => Nat.ltb 512 (length (format_message m ++ crlf)))
                (generate_monitor (B "+") (repeat (B "nickname1") 50 ++ [B "n"])) = true)
    by (vm_compute; reflexivity).
  apply existsb_exists in H as [m [Hin H]]. apply Nat.ltb_lt in H.
  exists (repeat (B "nickname1") 50 ++ [B "n"]), m. split; [|split; assumption].
  apply Forall_forall. intros t Ht. apply in_app_iff in Ht as [Ht|[<-|[]]]; [|simpl; lia].
  apply repeat_spec in Ht. subst t. simpl. lia.
Qed.
Print Assumptions C09_monitor_line_with_crlf_fits_refuted.

(** A target too long for a line makes the generator emit a MONITOR message
    with an empty target. *)
Theorem C09_oversized_target_refuted :
  exists targets, Forall (fun t => t <> []) targets /\
    flat_map read_monitor (generate_monitor (B "+") targets) = [] :: targets.
Proof.
  exists [repeat "a"%char 502]. split; [repeat constructor; discriminate|vm_compute; reflexivity].
Qed.
Print Assumptions C09_oversized_target_refuted.

Example C09_nonvacuous :
  map m_params (generate_monitor (B "-") [B "alice"; B "bob"]) = [[B "-"; B "alice,bob"]] /\
    length (generate_monitor (B "+") (repeat (B "nickname1") 120)) = 3.
Proof. split; vm_compute; reflexivity. Qed.

(** C10: a client that decodes the escapes reads every token exactly once, in
    order. Every line has 1 to 13 tokens, so at most 15 parameters, tokens never
    contain a space, and the text comes last. *)
Theorem C10_isupport_tokens :
  forall toks,
    let msgs := generate_isupport toks in
    flat_map read_isupport msgs = toks /\
    Forall (fun m => exists enc, m_command m = B "005" /\
        m_params m = B "*" :: enc ++ [B "are supported"] /\
        1 <= length enc <= 13 /\ Forall (fun t => ~ In " "%char t) enc) msgs.
Proof.
  intros toks msgs. destruct (Proof.GenMsg.isupport_loop_spec (length toks) toks (le_n _)) as [H1 H2].
  split; [exact H1|]. eapply Forall_impl; [|exact H2]. intros m (ts & -> & Hl).
  exists (map isupport_encode ts). split; [reflexivity|]. split; [reflexivity|].
  split; [rewrite map_length; exact Hl|].
  apply Forall_forall. intros t Ht. apply in_map_iff in Ht as [x [<- _]]. apply Proof.GenMsg.isupport_no_space.
Qed.
Print Assumptions C10_isupport_tokens.

Example C10_nonvacuous :
  length (generate_isupport (repeat (B "A=b c\d") 27)) = 3 /\
    m_params (hd (msg [] []) (generate_isupport [B "NETWORK=my net"; B "X"])) =
    [B "*"; B "NETWORK=my\x20net"; B "X"; B "are supported"].
Proof. split; vm_compute; reflexivity. Qed.

(** C11: the generated chunks obey the chunking rule and any receiver following
    it recovers the encoded payload, hence the payload. *)
Theorem C11_sasl_chunks :
  forall resp, exists full last,
    map m_params (generate_sasl resp) = map (fun c => [c]) (full ++ [last]) /\
    Forall (fun m => m_command m = B "AUTHENTICATE") (generate_sasl resp) /\
    Forall (fun c => length c = 400) full /\ 1 <= length last < 400 /\
    (last = B "+" <-> exists k, length (b64_encode B64Std resp) = 400 * k) /\
    exists whole, sasl_receive (full ++ [last]) = Some (whole, []) /\ b64_decode B64Std whole = Some resp.
Proof.
  intros resp. destruct (Proof.GenMsg.generate_sasl_chunks resp) as (full & last & E & Hf & Hl & Hp & Hc).
  exists full, (sasl_chunk last). split; [exact E|]. split.
  { unfold generate_sasl. apply Forall_forall. intros m Hm. apply in_map_iff in Hm as [c [<- _]]. reflexivity. }
  split; [exact Hf|]. split.
  { unfold sasl_chunk. destruct last as [|x l]; simpl in *; lia. }
  split.
  { rewrite <- Hc, app_length, (Proof.GenMsg.concat_len400 full Hf). unfold sasl_chunk.
    destruct last as [|x l].
    - split; [|reflexivity]. intros _. exists (length full). simpl. lia.
    - cbn [nonempty]. split; [congruence|]. intros [k Hk]. exfalso. simpl length in Hk, Hl. lia. }
  exists (b64_encode B64Std resp). split; [|apply b64_roundtrip].
  rewrite (Proof.GenMsg.sasl_receive_chunks full last Hf Hl Hp), Hc. reflexivity.
Qed.
Print Assumptions C11_sasl_chunks.

(** C11: the bouncer's own receiving side recovers the payload, as long as the
    encoded payload is within its limit. *)
Theorem C11_sasl_own_receiver :
  forall resp,
    (N.of_nat (length (b64_encode B64Std resp)) <= 10240)%N ->
    recv_all [] (map (fun m => hd [] (m_params m)) (generate_sasl resp)) = Some ([], Some resp).
Proof.
  intros resp Hn. destruct (Proof.GenMsg.generate_sasl_chunks resp) as (full & last & E & Hf & Hl & Hp & Hc).
  rewrite <- (map_map m_params (hd [])), E, map_map. cbn [hd]. rewrite map_id.
  rewrite Proof.GenMsg.recv_all_full; try assumption.
  - cbn [app]. rewrite Hc, b64_roundtrip. reflexivity.
  - rewrite Hc. exact Hn.
Qed.
Print Assumptions C11_sasl_own_receiver.

Example C11_nonvacuous :
  map m_params (generate_sasl []) = [[B "+"]] /\
    map m_params (generate_sasl (B "jilles" ++ ["000"%char] ++ B "jilles" ++ ["000"%char] ++ B "sesame"))
    = [[B "amlsbGVzAGppbGxlcwBzZXNhbWU="]] /\
    map (fun m => length (hd [] (m_params m))) (generate_sasl (repeat "a"%char 600)) = [400; 400; 1].
Proof. repeat split; vm_compute; reflexivity. Qed.

(** C51: NAMES replies list every member exactly once, in order; a line with
    several members is at most 512 bytes long (without prefix and CRLF); the
    list is terminated by RPL_ENDOFNAMES for the same channel. *)
Theorem C51_names_reply :
  forall channel status members,
    Forall (fun s => s <> [] /\ ~ In " "%char s) members ->
    exists msgs,
      generate_names channel status members =
        msgs ++ [msg (B "366") [B "*"; channel; B "End of /NAMES list"]] /\
      flat_map read_names msgs = members /\
      Forall (fun m => (exists names, m = msg (B "353") [B "*"; status; channel; names]) /\ read_names m <> [] /\
         (length (read_names m) = 1 \/ length (format_message m) <= 512)) msgs.
Proof.
  intros channel status members Hf. eexists. split; [reflexivity|].
  destruct (Proof.GenMsg.names_loop_spec status channel
    (max_message_length - length (format_message (names_msg status channel []))) members []) as [H1 H2];
    [exact Hf|left; reflexivity|].
  split; [exact H1|]. eapply Forall_impl; [|exact H2].
  intros m (b & Hne & -> & Hb & Hl). split; [eexists; reflexivity|]. split; [apply split_on_nonempty|].
  unfold read_names, names_msg at 1. cbn [m_params msg].
  rewrite split_join; [|exact Hne|eapply Forall_impl; [|exact Hb]; intros a Ha; apply Ha].
  destruct Hl as [Hl|Hl]; [left; exact Hl|right].
  pose proof (Proof.GenMsg.names_wire_length status channel (join (B " ") b)) as Hw.
  assert (1 <= length (join (B " ") b)).
  { destruct (join (B " ") b) eqn:E; [|simpl; lia]. apply Proof.GenMsg.join_empty in E; [congruence|].
    eapply Forall_impl; [|exact Hb]. intros a Ha; apply Ha. }
  unfold max_message_length in Hl. lia.
Qed.
Print Assumptions C51_names_reply.

Example C51_nonvacuous :
  length (generate_names (B "#soju") (B "=") (repeat (B "@somebody") 120)) = 4.
Proof. vm_compute. reflexivity. Qed.

(** C52: the MOTD lines, joined with line feeds, are the configured MOTD, and no
    line contains a line feed. *)
Theorem C52_motd :
  forall motd, exists lines,
    generate_motd motd =
      msg (B "375") [B "*"; B "- Message of the Day -"]
      :: map (fun l => msg (B "372") [B "*"; l]) lines
      ++ [msg (B "376") [B "*"; B "End of /MOTD command."]] /\
    join ["010"%char] lines = motd /\ Forall (fun l => ~ In "010"%char l) lines.
Proof.
  intros motd. exists (split_on "010" motd). split; [reflexivity|]. split; [apply join_split|].
  apply Proof.GenMsg.split_on_nosep_all.
Qed.
Print Assumptions C52_motd.

Example C52_nonvacuous :
  length (generate_motd (B "hello" ++ ["010"; "010"]%char ++ B "world")) = 5.
Proof. reflexivity. Qed.
