(** Properties C21, C64 and C65. *)
From Verif.Base Require Import Bytes.
From Verif.Model Require Import Caps.
From Verif.Spec Require Import Caps.
From Verif.Proof Require Caps.
From Coq Require Import ZArith Permutation.
Open Scope nat_scope.

(** C21: at every point of every exchange, what is enabled is advertised, and the informational
    capability is never enabled. *)
Theorem C21_enabled_advertised : forall atoi plain oauth store es n,
  Forall valid_ev es ->
  let s := fst (crun atoi (new_caps plain oauth store) es) in
  In n (cs_enabled s) -> (exists v, In (n, v) (cs_avail s)) /\ n <> B "soju.im/account-required".
Proof.
  intros atoi plain oauth store es n Hv s Hn.
  destruct (Proof.Caps.inv_run atoi es _ Hv (Proof.Caps.inv_new plain oauth store)) as (_ & H & _).
  destruct (H n Hn) as [H1 H2]. split; [|exact H2].
  unfold is_available in H1. destruct (bget _ n) as [v|] eqn:E; [|discriminate]. exists v. apply Proof.Caps.bget_In. exact E.
Qed.
Print Assumptions C21_enabled_advertised.

(** C21: a request is refused, and nothing changes, exactly if one of its changes must be refused;
    otherwise it is acknowledged, each requested capability is in the requested state, and the
    others did not change. The reply carries the text of the request. *)
Theorem C21_request : forall atoi s ord cmd a rest s' outs,
  to_upper cmd = B "REQ" -> handle_cap atoi s ord (cmd :: a :: rest) = (s', outs) ->
  cs_avail s' = cs_avail s /\ cs_version s' = cs_version s /\
  ((exists x, In x (wanted a) /\ refused s x) ->
     outs = [Cap (B "NAK") a] /\ cs_enabled s' = cs_enabled s) /\
  ((forall x, In x (wanted a) -> ~ refused s x) -> coherent (wanted a) ->
     outs = [Cap (B "ACK") a] /\
     (forall n b, In (n, b) (wanted a) -> (In n (cs_enabled s') <-> b = true)) /\
     (forall n, (forall b, ~ In (n, b) (wanted a)) -> (In n (cs_enabled s') <-> In n (cs_enabled s)))).
Proof.
  intros atoi s ord cmd a rest s' outs Hc H. unfold handle_cap in H. rewrite Hc in H.
  change (beqb (B "REQ") (B "LS")) with false in H. change (beqb (B "REQ") (B "LIST")) with false in H.
  change (beqb (B "REQ") (B "REQ")) with true in H. cbv iota in H.
  destruct (Proof.Caps.cap_req_spec _ _ _ _ _ H) as (H1 & H2 & H3). split; [exact H1|]. split; [exact H2|].
  destruct H3 as [((x & Hx & Hr) & -> & He)|(Hr & -> & He)].
  - split; [intros _; split; [reflexivity|exact He]|]. intros Hn. destruct (Hn x Hx Hr).
  - split; [intros (x & Hx & Hx'); destruct (Hr x Hx Hx')|]. intros _ Hco. split; [reflexivity|]. rewrite He. split.
    + intros n b Hin. exact (proj1 (Proof.Caps.enabled_after s (wanted a) n Hco) b Hin).
    + intros n Hno. exact (proj2 (Proof.Caps.enabled_after s (wanted a) n Hco) Hno).
Qed.
Print Assumptions C21_request.

(** C21, without the coherence of the request: "a -a" is acknowledged, and leaves [a] enabled. *)
Theorem C21_contradictory_request_refuted : exists atoi es s outs,
  crun atoi (new_caps true false false) es = (s, outs) /\
  In (Cap (B "ACK") (B "batch -batch")) outs /\ In (B "batch") (cs_enabled s).
Proof.
  exists (fun _ => Some 302%Z),
    [ECap (fun l => l) [B "LS"; B "302"]; ECap (fun l => l) [B "REQ"; B "batch -batch"]].
  eexists. eexists. split; [vm_compute; reflexivity|]. split.
  - right. left. reflexivity.
  - right. left. reflexivity.
Qed.
Print Assumptions C21_contradictory_request_refuted.

(** C21 and C64: once a client asked for version 302 or above, and as long as it does not ask for a
    lower one, cap-notify is enabled, and the offer that the client computes from the replies and
    the notifications is the one of the server, values included. *)
Theorem C64_offer_known : forall atoi plain oauth store es1 ls es2 o v,
  Forall valid_ev (es1 ++ ls :: es2) -> announces atoi ls = Some v -> (302 <= v)%Z -> Forall (modern atoi) es2 ->
  let r := crun atoi (new_caps plain oauth store) (es1 ++ ls :: es2) in
  (forall k x, fold_left see_offer (snd r) o k = Some x <-> In (k, x) (cs_avail (fst r))) /\
  In (B "cap-notify") (cs_enabled (fst r)).
Proof.
  intros atoi plain oauth store es1 ls es2 o v Hv Ha H302 Hm r.
  destruct (Proof.Caps.offer_known atoi plain oauth store es1 ls es2 o v Hv Ha H302 Hm) as [H1 H2]. split; [|exact H2].
  destruct (Proof.Caps.inv_run atoi _ _ Hv (Proof.Caps.inv_new plain oauth store)) as ((Hnd & _) & _).
  intros k x. rewrite H1. split; [apply Proof.Caps.bget_In|]. apply Proof.Caps.In_bget. exact Hnd.
Qed.
Print Assumptions C64_offer_known.

(** C64: a client that starts with version 302 and sends coherent requests knows what is enabled. *)
Theorem C64_enabled_known : forall atoi plain oauth store ls es v,
  Forall valid_ev (ls :: es) -> announces atoi ls = Some v -> (302 <= v)%Z ->
  Forall (modern atoi) es -> Forall coherent_ev es ->
  let r := crun atoi (new_caps plain oauth store) (ls :: es) in
  forall n, In n (fold_left see_enabled (snd r) [B "cap-notify"]) <-> In n (cs_enabled (fst r)).
Proof. exact Proof.Caps.enabled_known. Qed.
Print Assumptions C64_enabled_known.

Lemma coherent_b l :
  forallb (fun x => forallb (fun y => negb (beqb (fst x) (fst y)) || Bool.eqb (snd x) (snd y)) l) l = true -> coherent l.
Proof.
  intros H n b b' H1 H2. rewrite forallb_forall in H. specialize (H _ H1). rewrite forallb_forall in H. specialize (H _ H2).
  cbn [fst snd] in H. rewrite beqb_refl in H. cbn [negb orb] in H. apply Bool.eqb_prop. exact H.
Qed.

(** A client of version 302 that registers, requests, and sees its network connect. *)
Definition ex_atoi (s : bytes) : option Z := if beqb s (B "302") then Some 302%Z else None.
Definition ex_up : upstream := Upstream [B "away-notify"; B "draft/account-registration"] true (B "before-connect,email-required").
Definition ex_ls : cev := ECap (@rev _) [B "ls"; B "302"].
Definition ex_es : list cev :=
  [ECap (@rev _) [B "REQ"; B "message-tags away-notify"]; ECap (@rev _) [B "REQ"; B "-cap-notify batch"];
   ERegistered; EUpdate need_all_caps true (Some ex_up) true; ECap (@rev _) [B "REQ"; B "-away-notify batch"];
   EUpdate (rev need_all_caps) true None true].

Example C64_nonvacuous :
  Forall valid_ev (ex_ls :: ex_es) /\ announces ex_atoi ex_ls = Some 302%Z /\ Forall (modern ex_atoi) ex_es /\ Forall coherent_ev ex_es /\
  snd (crun ex_atoi (new_caps true false true) (ex_ls :: firstn 3 ex_es)) =
    [Cap (B "LS") (B "draft/extended-monitor multi-prefix message-tags extended-monitor extended-join chghost away-notify account-tag account-notify soju.im/search draft/chathistory sasl=PLAIN soju.im/webpush soju.im/read soju.im/no-implicit-names soju.im/bouncer-networks-notify soju.im/bouncer-networks soju.im/account-required draft/no-implicit-names draft/read-marker draft/pre-away setname server-time invite-notify echo-message cap-notify batch");
     Cap (B "ACK") (B "message-tags away-notify"); Cap (B "NAK") (B "-cap-notify batch")] /\
  snd (crun ex_atoi (fst (crun ex_atoi (new_caps true false true) (ex_ls :: firstn 3 ex_es))) (skipn 3 ex_es)) =
    [Cap (B "DEL") (B "account-notify"); Cap (B "DEL") (B "account-tag"); Cap (B "DEL") (B "chghost"); Cap (B "DEL") (B "extended-join");
     Cap (B "DEL") (B "extended-monitor"); Cap (B "DEL") (B "message-tags"); Cap (B "DEL") (B "multi-prefix"); Cap (B "DEL") (B "draft/extended-monitor");
     Cap (B "NEW") (B "sasl=PLAIN,ANONYMOUS"); Cap (B "NEW") (B "draft/account-registration=email-required"); Cap (B "NEW") (B "draft/event-playback");
     Cap (B "ACK") (B "-away-notify batch");
     Cap (B "NEW") (B "draft/extended-monitor"); Cap (B "NEW") (B "multi-prefix"); Cap (B "NEW") (B "message-tags"); Cap (B "NEW") (B "extended-monitor");
     Cap (B "NEW") (B "extended-join"); Cap (B "NEW") (B "chghost"); Cap (B "NEW") (B "account-tag"); Cap (B "NEW") (B "account-notify");
     Cap (B "DEL") (B "sasl"); Cap (B "DEL") (B "draft/account-registration")] /\
  cs_enabled (fst (crun ex_atoi (new_caps true false true) (ex_ls :: ex_es))) = [B "cap-notify"; B "batch"].
Proof.
  assert (Hr : forall l : list (bytes * bytes), Permutation l (rev l)) by (intros l; apply Permutation_rev).
  split.
  { unfold ex_ls, ex_es. constructor; [exact Hr|]. constructor; [exact Hr|]. constructor; [exact Hr|]. constructor; [exact I|].
    constructor; [split; [apply Permutation_refl|]|].
    - apply amem_nIn. vm_compute. reflexivity.
    - constructor; [exact Hr|]. constructor; [|constructor]. split; [apply Permutation_sym, Permutation_rev|exact I]. }
  split; [vm_compute; reflexivity|]. split.
  { unfold ex_es. repeat constructor; intros v H; vm_compute in H; discriminate. }
  split.
  { unfold ex_es. repeat constructor; intros _; apply coherent_b; vm_compute; reflexivity. }
  split; [vm_compute; reflexivity|]. split; vm_compute; reflexivity.
Qed.

(** The cases of C21_request: a refused request and an accepted one. *)
Example C21_nonvacuous :
  let s := fst (crun ex_atoi (new_caps true false true) [ex_ls]) in
  (exists x, In x (wanted (B "batch nosuch")) /\ refused s x) /\
  (forall x, In x (wanted (B "-server-time BATCH")) -> ~ refused s x) /\ coherent (wanted (B "-server-time BATCH")) /\
  wanted (B "-server-time BATCH") = [(B "server-time", false); (B "batch", true)].
Proof.
  cbv zeta. split; [|split; [|split]].
  - exists (B "nosuch", true). split; [vm_compute; right; left; reflexivity|]. apply Proof.Caps.refused_b_iff. vm_compute. reflexivity.
  - intros x Hx Hr. apply Proof.Caps.refused_b_iff in Hr. destruct Hx as [<-|[<-|[]]]; vm_compute in Hr; discriminate.
  - apply coherent_b. vm_compute. reflexivity.
  - vm_compute. reflexivity.
Qed.

(** C65 does not hold: the reply to CAP LS is a single line, and gets longer than the 512 bytes of
    an IRC line. *)
Definition long_es : list cev :=
  [ex_ls; ERegistered;
   EUpdate need_all_caps true (Some (Upstream (B "draft/account-registration" :: need_all_caps) true (B "before-connect,custom-account-name"))) true;
   ECap (@rev _) [B "LS"; B "302"]].
Theorem C65_line_length_refuted : exists atoi es hostname nick c,
  Forall valid_ev es /\ In c (snd (crun atoi (new_caps true true true) es)) /\
  (exists text, c = Cap (B "LS") text) /\ length hostname <= 63 /\ length nick <= 16 /\
  512 < length (cap_line hostname nick c).
Proof.
  exists ex_atoi, long_es, (B "bouncer.example.org"), (B "someone"), (last (snd (crun ex_atoi (new_caps true true true) long_es)) CapError).
  split.
  { assert (Hr : forall l : list (bytes * bytes), Permutation l (rev l)) by (intros l; apply Permutation_rev).
    unfold long_es. constructor; [exact Hr|]. constructor; [exact I|]. constructor; [split; [apply Permutation_refl|]|].
    - apply amem_nIn. vm_compute. reflexivity.
    - constructor; [exact Hr|constructor]. }
  split.
  { assert (Hl : forall l : list cout, l <> [] -> In (last l CapError) l).
    { intros l Hl. rewrite (app_removelast_last CapError Hl) at 2. apply in_app_iff. right. left. reflexivity. }
    apply Hl. vm_compute. discriminate. }
  split; [eexists; vm_compute; reflexivity|].
  split; [apply Nat.leb_le; vm_compute; reflexivity|]. split; [apply Nat.leb_le; vm_compute; reflexivity|]. apply Nat.ltb_lt. vm_compute. reflexivity.
Qed.
Print Assumptions C65_line_length_refuted.
