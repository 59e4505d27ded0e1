(** Property C105. *)
From Coq Require Import ZArith.
From Verif.Base Require Import Bytes.
From Verif.Model Require Import Message Networks Endpoint.
From Verif.Model Require Addr Push.
From Verif.Proof Require Endpoint.
From Verif.Spec Require Import SourceAddr IPAddr Endpoint.
From Verif.Spec Require Push.
Open Scope N_scope.

(** C105: whatever clients register and whatever happens in the world, a request goes only to an endpoint that was
    checked when it was registered: then its URL was an https one, and its host had addresses elsewhere only. The
    first connection of the request is with TLS. *)
Theorem C105_checked :
  forall serial vapid parse_tags cm time_text l s t1 e o c t2 ep,
    Forall (fun e => addresses (e_check e)) l ->
    run serial vapid parse_tags cm time_text l Push.new_wst = (s, t1 ++ (e, (o, c)) :: t2) -> requesting o ep ->
    (exists e', In e' (map fst t1 ++ [e]) /\ registering (e_push e') ep /\ checked (e_check e') ep) /\
    (forall k r, snd (request (e_request e) ep) = k :: r -> k_tls k = true).
Proof. exact Proof.Endpoint.always_checked. Qed.
Print Assumptions C105_checked.

(** C105: as long as names keep their addresses and no endpoint redirects, and endpoints have neither ports nor IPv6
    addresses, all connections are with TLS, to port 443, and to addresses that are not the bouncer's own, private or
    multicast ones. See the refutations for the rest. *)
Theorem C105_outside_partial :
  forall serial vapid parse_tags cm time_text D l s t e o c,
    (forall h l a, D h = Some l -> In a l -> an_address a) ->
    Forall (fun e => (forall h, dns (e_check e) h = D h) /\ (forall h, dns (e_request e) h = D h) /\ no_redirects (e_request e) /\
      forall ep, registering (e_push e) ep -> colonless ep) l ->
    run serial vapid parse_tags cm time_text l Push.new_wst = (s, t) -> In (e, (o, c)) t -> Forall elsewhere c.
Proof. exact Proof.Endpoint.outside. Qed.
Print Assumptions C105_outside_partial.

(** C105: an endpoint elsewhere that works is accepted: its URL has the name of a host and no port, and there are not
    more than 25 of this network. *)
Theorem C105_usable_partial :
  forall serial vapid parse_tags cm time_text l s t u n h p text r a k now w1 w2 l1 l2 code loc b1 b2,
    run serial vapid parse_tags cm time_text l Push.new_wst = (s, t) -> Spec.Push.keys_of parse_tags text = Some (a, k) ->
    (forall ends, NoDup ends -> (forall x, In x ends -> Spec.Push.registered parse_tags (seen t) u n x <> None) -> (length ends <= 25)%nat) ->
    (forall c, In c p -> Addr.is_ctl c = false /\ ~ In c (B "?#%")) ->
    addresses w1 -> known w1 h l1 -> Forall (fun a => ~ within inner a) l1 ->
    known w2 h l2 -> answer w2 true h (B "443") = Some (code, loc) -> 200 <= code < 300 ->
    Spec.Push.granted (fst (snd (step serial vapid parse_tags cm time_text s
      (Ev (Push.WCommand u n true (B "REGISTER" :: (B "https://" ++ h ++ B "/" ++ p) :: text :: r) now b1 b2) w1 w2)))) = true.
Proof. exact Proof.Endpoint.usable. Qed.
Print Assumptions C105_usable_partial.

(** ** Examples *)
Definition tags (_ : bytes) : list (bytes * bytes) := [(B "auth", B "a"); (B "p256dh", B "k")].
Definition run0 := run false (B "v") tags (fun _ _ t => t) (fun _ => []).
Definition register (ep : bytes) := Push.WCommand 1 1 true [B "REGISTER"; ep; B "auth=a;p256dh=k"] 0%Z false Push.WError.
Definition public : list N := [203; 0; 113; 7].
(** One name, which has this address; every host answers 201. *)
Definition calm (a : list N) : world := World (fun h => if beqb h (B "push.example.org") then Some [a] else None) (fun _ _ _ => Some (201, [])).
Definition conns (l : list ev) : list conn := flat_map (fun x => snd (snd x)) (snd (run0 l Push.new_wst)).
Definition text_event := Push.WText 1 1 (msg (B "PRIVMSG") [B "me"; B "hi"]) false true false None (B "bob") None.

Lemma calm_addresses a h l x : Forall (fun b => b < 256) a -> length a = 4%nat -> dns (calm a) h = Some l -> In x l -> an_address x.
Proof.
  unfold calm. cbn [dns]. intros F L. destruct (beqb h (B "push.example.org")); [|discriminate]. intros H. injection H as <-. intros [<-|[]].
  split; [left; exact L|exact F].
Qed.

Definition endpoint0 : bytes := B "https://push.example.org/x:y".
Lemma endpoint0_colonless : colonless endpoint0.
Proof.
  change endpoint0 with (B "https" ++ B "://" ++ B "push.example.org" ++ B "/x:y"). constructor.
  - vm_compute. intuition discriminate.
  - vm_compute. intuition discriminate.
  - assert (F : forallb (fun c => negb (ends_authority c)) (B "push.example.org") = true) by reflexivity. rewrite forallb_forall in F.
    intros c I. apply negb_true_iff, F, I.
  - intros c r E. injection E as <- _. reflexivity.
Qed.
Example C105_nonvacuous :
  let w := calm public in
  let l := [Ev (register endpoint0) w w; Ev text_event w w; Ev (Push.WList 0) w w; Ev (Push.WSend 0 0 Push.WError) w w] in
  conns l = [Conn true (B "push.example.org") (B "443") [public]; Conn true (B "push.example.org") (B "443") [public]] /\
  Forall (fun e => (forall h, dns (e_check e) h = dns w h) /\ (forall h, dns (e_request e) h = dns w h) /\ no_redirects (e_request e) /\
      forall ep, registering (e_push e) ep -> colonless ep) l /\
  (forall h l a, dns w h = Some l -> In a l -> an_address a) /\
  known w (B "push.example.org") [public] /\ ~ within inner public.
Proof.
  cbv zeta. split; [vm_compute; reflexivity|]. assert (NR : no_redirects (calm public)).
  { intros tls h p code loc E. cbn in E. injection E as <- _. vm_compute. intuition discriminate. }
  split; [|split; [|split]].
  - assert (G : forall p, (forall ep, registering p ep -> colonless ep) -> (forall h, dns (e_check (Ev p (calm public) (calm public))) h = dns (calm public) h) /\
      (forall h, dns (e_request (Ev p (calm public) (calm public))) h = dns (calm public) h) /\ no_redirects (e_request (Ev p (calm public) (calm public))) /\
      forall ep, registering (e_push (Ev p (calm public) (calm public))) ep -> colonless ep) by (intros p H; auto).
    constructor; [|constructor; [|constructor; [|constructor; [|constructor]]]]; apply G; intros ep Hr; try (cbn in Hr; contradiction).
    destruct Hr as [_ <-]. exact endpoint0_colonless.
  - intros h l a. apply calm_addresses; [repeat constructor|reflexivity].
  - split; [|split; [|split; [reflexivity|discriminate]]].
    + split; [discriminate|]. assert (F : forallb (fun c => amem c (B "abcdefghijklmnopqrstuvwxyzABCDEFGHIJKLMNOPQRSTUVWXYZ0123456789-._")) (B "push.example.org") = true) by reflexivity.
      rewrite forallb_forall in F. intros c I. apply amem_In, F, I.
    + intros a T. apply Proof.IPAddr.v4_complete in T. vm_compute in T. discriminate.
  - rewrite <- Proof.Endpoint.withinb_iff. vm_compute. discriminate.
Qed.

(** The endpoints that are refused for their addresses. *)
Example C105_refused_nonvacuous :
  map (fun a => conns [Ev (register endpoint0) (calm a) (calm a)]) [[127; 0; 0; 1]; [10; 1; 2; 3]; [172; 31; 0; 1]; [192; 168; 1; 1]; [239; 1; 1; 1]] = [[]; []; []; []; []] /\
  map (fun ep => conns [Ev (register ep) (calm public) (calm public)])
    [B "http://push.example.org/"; B "https://127.0.0.1/"; B "https://[::1]/"; B "https://::1/"; B "https://unknown.example.org/"; B "https:///x"] = [[]; []; []; []; []; []].
Proof. split; vm_compute; reflexivity. Qed.

(** C105 without the condition on colons is wrong: the address that is checked is the whole authority, and the one that
    is connected to is what is before the last colon. https://::1:443/ has the address ::1:443 for the check, and ::1 for
    the request; so one can reach all of the bouncer's network. *)
Theorem C105_literal_refuted : exists w,
  no_redirects w /\
  (exists k, In k (conns [Ev (register (B "https://::1:443/")) w w]) /\ Exists (within inner) (k_addrs k) /\ k_host k = B "::1" /\ k_port k = B "443") /\
  (exists k, In k (conns [Ev (register (B "https://::ffff:a00:1:8080/")) w w]) /\ Exists (within inner) (k_addrs k) /\ number_of [10; 0; 0; 1] = number_of (hd [] (k_addrs k)) /\ k_port k = B "8080").
Proof.
  exists (calm public). split; [|split].
  - intros tls h p code loc E. cbn in E. injection E as <- _. vm_compute. intuition discriminate.
  - eexists. split; [vm_compute; left; reflexivity|]. split; [|split; reflexivity]. constructor. apply Proof.Endpoint.withinb_iff. vm_compute. reflexivity.
  - eexists. split; [vm_compute; left; reflexivity|]. split; [|split; vm_compute; reflexivity]. constructor. apply Proof.Endpoint.withinb_iff. vm_compute. reflexivity.
Qed.
Print Assumptions C105_literal_refuted.

(** C105 is wrong for names whose addresses change, already between the check and the test, and afterwards they are not
    checked again. *)
Theorem C105_changed_refuted : exists w1 w2 ep,
  colonless ep /\ no_redirects w1 /\ no_redirects w2 /\
  (exists k, In k (conns [Ev (register ep) w1 w2]) /\ Exists (within inner) (k_addrs k)) /\
  (exists k, In k (conns [Ev (register ep) w1 w1; Ev text_event w2 w2; Ev (Push.WList 0) w2 w2; Ev (Push.WSend 0 0 Push.WError) w2 w2]) /\
    Exists (within inner) (k_addrs k)).
Proof.
  exists (calm public), (calm [127; 0; 0; 1]), endpoint0. split; [exact endpoint0_colonless|].
  assert (NR : forall a, no_redirects (calm a)).
  { intros a tls h p code loc E. cbn in E. injection E as <- _. vm_compute. intuition discriminate. }
  split; [apply NR|]. split; [apply NR|]. split.
  - eexists. split; [vm_compute; left; reflexivity|]. constructor. apply Proof.Endpoint.withinb_iff. vm_compute. reflexivity.
  - eexists. split; [vm_compute; right; left; reflexivity|]. constructor. apply Proof.Endpoint.withinb_iff. vm_compute. reflexivity.
Qed.
Print Assumptions C105_changed_refuted.

(** C105 is wrong for endpoints that redirect: they are followed anywhere, also without TLS. *)
Definition sly : world := World (dns (calm public)) (fun tls h p => if tls then Some (307, B "http://127.0.0.1:8080/admin") else Some (200, [])).
Theorem C105_redirect_refuted : exists w ep,
  colonless ep /\ exists k, In k (conns [Ev (register ep) w w]) /\ Exists (within inner) (k_addrs k) /\ k_tls k = false /\ k_port k = B "8080".
Proof.
  exists sly, endpoint0. split; [exact endpoint0_colonless|]. eexists. split; [vm_compute; right; left; reflexivity|]. split; [|split; reflexivity].
  constructor. apply Proof.Endpoint.withinb_iff. vm_compute. reflexivity.
Qed.
Print Assumptions C105_redirect_refuted.

(** C105 is wrong for machines on the same link, as those that tell virtual machines their secrets, and for 0.0.0.0,
    which is the bouncer's own machine to many systems. *)
Theorem C105_near_refuted : exists w,
  no_redirects w /\
  (exists k, In k (conns [Ev (register (B "https://169.254.169.254/latest")) w w]) /\ Exists (within near) (k_addrs k)) /\
  (exists k, In k (conns [Ev (register (B "https://0.0.0.0/")) w w]) /\ Exists (within near) (k_addrs k)).
Proof.
  exists (calm public). split; [|split].
  - intros tls h p code loc E. cbn in E. injection E as <- _. vm_compute. intuition discriminate.
  - eexists. split; [vm_compute; left; reflexivity|]. constructor. apply Proof.Endpoint.withinb_iff. vm_compute. reflexivity.
  - eexists. split; [vm_compute; left; reflexivity|]. constructor. apply Proof.Endpoint.withinb_iff. vm_compute. reflexivity.
Qed.
Print Assumptions C105_near_refuted.

(** C105: endpoints elsewhere that work are not all accepted: none that names its port, be it that of https, and no
    IPv6 address. *)
Theorem C105_usable_refuted : exists w,
  forall ep, In ep [B "https://push.example.org:443/x"; B "https://push.example.org:8443/x"; B "https://[2001:db8::7]/x"] ->
    fst (request w ep) = Some 201 /\ Forall (fun k => Forall (fun a => ~ within inner a) (k_addrs k)) (snd (request w ep)) /\ snd (request w ep) <> [] /\
    Spec.Push.granted (flat_map (fun x => fst (snd x)) (snd (run0 [Ev (register ep) w w] Push.new_wst))) = false.
Proof.
  exists (calm public). intros ep [<-|[<-|[<-|[]]]]; (split; [vm_compute; reflexivity|]); (split; [|split; [vm_compute; discriminate|vm_compute; reflexivity]]);
  (match goal with |- Forall _ (snd (request ?w ?ep)) => let x := eval vm_compute in (snd (request w ep)) in assert (E : snd (request w ep) = x) by (vm_compute; reflexivity) end);
  rewrite E; clear E; (constructor; [|constructor]); (constructor; [|constructor]); rewrite <- Proof.Endpoint.withinb_iff; vm_compute; discriminate.
Qed.
Print Assumptions C105_usable_refuted.
