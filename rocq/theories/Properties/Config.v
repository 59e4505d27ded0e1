(** C94, C95: the configuration file and the configuration that runs. *)
From Coq Require Import NArith ZArith.
From Verif.Base Require Import Bytes.
From Verif.Model Require Import IPAddr Glob Config.
From Verif.Proof Require Config.
From Verif.Spec Require Import IPAddr Glob Config.

Section Properties.
  Variable system_host : bytes.
  Variable days : bytes -> option Z.
  Notation load := (load system_host days).
  Notation loads := (loads system_host days).
  Notation start := (start system_host days).
  Notation step := (step system_host days).
  Notation exec := (exec system_host days).

  (** C94: exactly the files whose directives are well formed are accepted. *)
  Theorem C94_accepted : forall r, (exists s, load r = Some s) <-> valid days r.
  Proof. exact (Proof.Config.valid_iff system_host days). Qed.

  (** C94: every directive has the effect it says, and the documented default if it is not there. *)
  Theorem C94_values : forall r s, load r = Some s -> says system_host days r s.
  Proof. exact (Proof.Config.says_of system_host days). Qed.

  (** C94: passwords and tokens are checked as the auth lines say, of a file that was accepted. *)
  Theorem C94_auth : forall r s ok a, load r = Some s -> load_auth ok (s_auth s) = Some a <-> auth_says ok (s_auth s) a.
  Proof. intros r s ok a H. exact (Proof.Config.load_auth_iff ok (s_auth s) a (Proof.Config.loaded_known _ _ _ _ H)). Qed.

  (** C94: it is never that nobody checks passwords. *)
  Theorem C94_somebody : forall w c, loads w c -> a_plain (c_auth c) <> None.
  Proof.
    intros w c (r & _ & L & _ & A & _). pose proof (Proof.Config.loaded_known _ _ _ _ L) as K. apply (Proof.Config.load_auth_iff _ _ _ K) in A.
    refine (Proof.Config.somebody _ _ _ _ K A). apply Proof.Config.says_of in L. destruct L as (_ & _ & _ & _ & _ & _ & _ & _ & _ & _ & A1 & A2 & _).
    destruct (r_auth r) as [|x l]; [rewrite (A1 eq_refl); discriminate|]. specialize (A2 ltac:(discriminate)). intros E. rewrite E in A2. inversion A2.
  Qed.

  (** C94: at the start the addresses listened on are those of the file and those of the command line, or :6697 when
      there are none; the database is the one of the file, and there is TLS exactly when the file names a certificate. *)
  Theorem C94_listeners : forall flags names w p, start flags names w = Some p ->
    exists r s, w_raw w = Some r /\ load r = Some s /\ p_db p = s_db s /\ (p_tls p = true <-> s_tls s <> None) /\
    (forall a, In a (s_listen s) \/ In a flags -> In a (p_listen p)) /\
    (forall a, In a (p_listen p) -> In a (s_listen s) \/ In a flags \/ (s_listen s = [] /\ flags = [] /\ a = B ":6697")) /\
    p_listen p <> [].
  Proof. exact (Proof.Config.start_listen system_host days). Qed.

  (** C95: a signal at a time when the files make a configuration puts that one in force. *)
  Theorem C95_reloaded : forall p w c, loads w c -> p_config (fst (step p (Hup w))) = c.
  Proof. exact (Proof.Config.succeeded system_host days). Qed.

  (** C95: at any other time it changes nothing. *)
  Theorem C95_failed : forall p w, (forall c, ~ loads w c) -> step p (Hup w) = (p, None).
  Proof. exact (Proof.Config.failed system_host days). Qed.

  (** C95: so whatever happens the configuration in force is the last that the files made, and the certificate that of
      the last configuration with one. *)
  Theorem C95_in_force : forall flags names w p0 l p outs,
    start flags names w = Some p0 -> exec p0 l = (p, outs) ->
    last_loaded system_host days (w :: hups l) (p_config p) /\ last_cert system_host days (w :: hups l) (p_cert p).
  Proof. intros flags names w p0 l p outs S E. destruct (Proof.Config.running system_host days _ _ _ _ _ _ _ S E) as (A & B & _). exact (conj A B). Qed.
  Theorem C95_in_force_one : forall ws c c', last_loaded system_host days ws c -> last_loaded system_host days ws c' -> c = c'.
  Proof. exact (Proof.Config.last_det system_host days). Qed.

  (** C95: a process that listens with TLS always has a certificate to present. *)
  Theorem C95_certificate : forall flags names w p0 l p outs,
    start flags names w = Some p0 -> exec p0 l = (p, outs) -> p_tls p = true -> p_cert p <> None.
  Proof. intros flags names w p0 l p outs S E. apply (Proof.Config.running system_host days _ _ _ _ _ _ _ S E). Qed.

  (** C95: listeners and database are those it was started with. *)
  Theorem C95_fixed : forall p l p' outs,
    exec p l = (p', outs) -> p_listen p' = p_listen p /\ p_tls p' = p_tls p /\ p_db p' = p_db p.
  Proof. intros p l p' outs E. pose proof (Proof.Config.fixed system_host days l p) as H. rewrite E in H. exact H. Qed.

  (** C95: so is the message store of a user, until it stops. *)
  Theorem C95_store : forall n st p l p' outs,
    lookup n (p_users p) = Some st -> exec p l = (p', outs) -> ~ In (StopUser n) l -> lookup n (p_users p') = Some st.
  Proof.
    intros n st p l p' outs L E N. pose proof (Proof.Config.store_stays system_host days n st l) as H.
    assert (F : Forall (fun o => o <> StopUser n) l) by (apply Forall_forall; intros o I ->; exact (N I)). specialize (H F p L). rewrite E in H. exact H.
  Qed.

  (** C95: what a user missed can be had by each client, unless a reload changes whether the store can be asked. *)
  Theorem C95_backlog : forall flags names w p0 l p outs,
    start flags names w = Some p0 -> exec p0 l = (p, outs) ->
    (forall w' c, In w' (hups l) -> loads w' c -> offered c = offered (p_config p0)) ->
    ~ In (Some Lost) outs.
  Proof.
    intros flags names w p0 l p outs S E H. pose proof (Proof.Config.never_lost system_host days (offered (p_config p0)) l H p0 (Proof.Config.start_kind system_host days _ _ _ _ S)) as X.
    rewrite E in X. exact X.
  Qed.
End Properties.
Print Assumptions C94_accepted.
Print Assumptions C94_values.
Print Assumptions C94_auth.
Print Assumptions C94_somebody.
Print Assumptions C94_listeners.
Print Assumptions C95_reloaded.
Print Assumptions C95_failed.
Print Assumptions C95_in_force.
Print Assumptions C95_in_force_one.
Print Assumptions C95_certificate.
Print Assumptions C95_fixed.
Print Assumptions C95_store.
Print Assumptions C95_backlog.

(** ** Cases *)
Definition some_days (x : bytes) : option Z := if beqb x (B "90") then Some (90 * 86400 * 1000000000)%Z else if beqb x (B "0") then Some 0%Z else None.
Definition nothing : raw := Raw [] [] [] [] None None None None [] None [] [] [] None [] [] [].
Definition full : raw :=
  Raw [B "ircs://"; B "http://localhost:8080"] (B "irc.example") [] (B "/etc/motd") (Some (B "cert", B "key")) (Some (B "postgres", B "dbname=soju"))
    None (Some [B "fs"; B "/var/logs"]) [[B "internal"]; [B "oauth2"; B "https://auth.example"]] (Some [B "fs"; B "/up"])
    [B "*.example"] [] [B "localhost"; B "10.0.0.0/8"] (Some 5%Z) [B "2001:db8::/56"] (B "90d") (B "true").
Definition files (f : bytes) : option bytes := if beqb f (B "/etc/motd") then Some (B "Hello" ++ [newline]) else None.
Definition at_time (r : raw) (cert : bytes) : world := World (Some r) files (fun _ _ => true) (fun _ => Some cert).

(** C94: an empty file is the documented defaults. *)
Example C94_empty : forall host days, load host days nothing = Some (defaults host).
Proof. reflexivity. Qed.
(** C94: a full one; days without the letter, a second IPv6 range, a database store with a source, and two passwords are
    not accepted. *)
Example C94_nonvacuous :
  (exists s, load (B "h") some_days full = Some s /\ s_store s = (B "fs", B "/var/logs") /\ s_ingress s = B "https://irc.example" /\ length (s_proxies s) = 3%nat /\
     load_auth (fun _ _ => true) (s_auth s) = Some (Auth (Some Internal) (Some (B "https://auth.example")))) /\
  load (B "h") some_days (Raw [] [] [] [] None None None None [] None [] [] [] None [] (B "90") []) = None /\
  load (B "h") some_days (Raw [] [] [] [] None None None None [] None [] [] [] None [B "2001:db8::/56"; B "2001:db9::/56"] [] []) = None /\
  load (B "h") some_days (Raw [] [] [] [] None None (Some [B "db"; B "x"]) None [] None [] [] [] None [] [] []) = None /\
  load_auth (fun _ _ => true) [(B "internal", []); (B "pam", [])] = None /\
  load_auth (fun _ _ => true) [(B "oauth2", B "https://a")] = Some (Auth (Some (Oauth (B "https://a"))) (Some (B "https://a"))).
Proof.
  split; [eexists; split; [vm_compute; reflexivity|]; repeat (split; [vm_compute; reflexivity|]); vm_compute; reflexivity|].
  repeat (split; [vm_compute; reflexivity|]). vm_compute. reflexivity.
Qed.

Definition with_store (l : list bytes) : raw := Raw [] [] [] [] None None (Some l) None [] None [] [] [] None [] [] [].
Definition ops : list op :=
  [Connect (B "alice") true; Hup (at_time full (B "new")); Hup (World None files (fun _ _ => true) (fun _ => None)); StartUser (B "bob"); Connect (B "bob") true; StopUser (B "bob"); Connect (B "bob") true].
(** C95: a reload, a reload of a file that cannot be read, users before and after. *)
Example C95_nonvacuous :
  exists p0 p, start (B "h") some_days [B ":6697"] [B "alice"] (at_time full (B "old")) = Some p0 /\ p_cert p0 = Some (B "old") /\
    exec (B "h") some_days p0 ops = (p, [Some Asked; None; None; None; Some Asked; None; None]) /\
    p_cert p = Some (B "new") /\ p_tls p = true /\ c_motd (p_config p) = B "Hello".
Proof. eexists. eexists. split; [vm_compute; reflexivity|]. split; [vm_compute; reflexivity|]. split; [vm_compute; reflexivity|]. vm_compute. auto. Qed.

(** C95 is refuted for the message store: it is documented as not reloadable, but users who start after a reload get the
    new one, while others keep the old one. *)
Theorem C95_store_refuted : exists w p0 p outs,
  start (B "h") some_days [] [B "alice"] (at_time (with_store [B "memory"]) []) = Some p0 /\
  exec (B "h") some_days p0 [Hup w; StartUser (B "bob")] = (p, outs) /\
  lookup (B "alice") (p_users p) = Some (B "memory", []) /\ lookup (B "bob") (p_users p) = Some (B "fs", B "/var/logs").
Proof.
  exists (at_time (with_store [B "fs"; B "/var/logs"]) []). do 2 eexists. exists [None; None].
  split; [vm_compute; reflexivity|]. split; [vm_compute; reflexivity|]. split; vm_compute; reflexivity.
Qed.
Print Assumptions C95_store_refuted.

(** C95 is refuted for what users missed: after a reload to a store that can be asked, a client of a user whose store
    cannot is told that it can, so nothing is played back and nothing can be asked for. *)
Theorem C95_backlog_refuted : exists w p0 p outs,
  start (B "h") some_days [] [B "alice"] (at_time (with_store [B "memory"]) []) = Some p0 /\
  exec (B "h") some_days p0 [Connect (B "alice") true; Hup w; Connect (B "alice") true] = (p, outs) /\
  outs = [Some Played; None; Some Lost].
Proof.
  exists (at_time (with_store [B "fs"; B "/var/logs"]) []). do 2 eexists. exists [Some Played; None; Some Lost].
  split; [vm_compute; reflexivity|]. split; vm_compute; reflexivity.
Qed.
Print Assumptions C95_backlog_refuted.
