(** C108: the import of ZNC configuration files does what the file says, and nothing else. *)
From Verif.Proof Require Addr.
From Verif.Proof Require Sql.
From Verif.Proof Require ZncParse ZncServer ZncImport.
From Verif.Base Require Import Bytes.
From Verif.Model Require Import Message TimeFmt Sql ZncImport.
From Verif.Model Require Networks Words.
From Verif.Model Require Addr.
From Verif.Spec Require Import TimeFmt Sql Postgres ZncImport.
From Verif.Spec Require Addr.
From Verif.Properties Require Sql.
From Coq Require Import ZArith NArith.
Open Scope nat_scope.

(** C108: a file is read as what was written: the settings and sections in order, nested to any depth, with any
    blank space and comments between them. *)
Theorem C108_parse : forall L, good L -> parse (print L) = Some (Znc [] [] (settings L) (sections L)).
Proof. exact Proof.ZncParse.parse_print. Qed.
Print Assumptions C108_parse.

(** C108: the import of a file into a database written through soju, with any -user and -network options. Whatever the
    outcome, users that the file or the options leave out keep all that is theirs, and receipts, subscriptions and
    messages stay. When it succeeds, every user of the file, their networks and channels are as the file says, those
    that were there keep the settings the file cannot give, and no other network or channel is changed or made.
    [_partial]: the file has no two sections for one thing. *)
Theorem C108_import_partial : forall raw_of users networks now L d d' ok,
  let root := Znc [] [] (settings L) (sections L) in
  reachable raw_of d -> good L -> distinct users networks root ->
  (forall name u, get_user name d = Some u -> in_years (gu_interacted u)) ->
  import_file users networks now (print L) d = (d', ok) ->
  rest_same d d' /\
  (forall name, (forall s, In s (user_sections users root) -> z_name s <> name) -> user_same d d' name) /\
  (ok = true -> forall s, In s (user_sections users root) ->
     exists u', get_user (z_name s) d' = Some u' /\ user_imported d s u' /\ networks_after networks d d' (gu_id u') s).
Proof.
  intros raw_of users networks now L d d' ok root R G D Y H.
  exact (Proof.ZncImport.import_ok users networks now raw_of root (print L) d d' ok R (Proof.ZncParse.parse_print L G) D Y H).
Qed.
Print Assumptions C108_import_partial.

(** C108: the server of a network, written as host, port and password (TLS with a plus before the port), is read, and
    the network connects to that host and port, with TLS exactly when asked for, and the password is that one. *)
Theorem C108_server : forall key_ok tls w h p line pass,
  server_line tls w p line pass -> Spec.Addr.host_of w h -> Spec.Addr.port_number p ->
  exists addr, import_server line = Some (addr, pass) /\
  forall r, Networks.n_addr r = addr -> Networks.n_mech r <> Networks.EXTERNAL ->
    Addr.connect key_ok r = if tls then Addr.PTls (w ++ B ":" ++ p) h None (Networks.n_certfp r) else Addr.PPlain (w ++ B ":" ++ p).
Proof.
  intros key_ok tls w h p line pass L Hw Hp. destruct (Proof.ZncServer.server_read tls w h p line pass L Hw Hp) as (addr & E & W).
  exists addr. split; [exact E|]. intros r <- Hm. exact (Proof.Addr.dial key_ok tls w h (Some p) r W Hw Hp Hm).
Qed.
Print Assumptions C108_server.

(** ** A file *)
Definition chars (s : string) : list N := map code (B s).
Definition set (k v : string) (rest : layout) : layout := LBlank [32; 9]%N (LValue (chars k) [32]%N [32]%N (chars v) [9]%N rest).
Definition line_end (rest : layout) : layout := LBlank [10]%N rest.

Definition ex_net : layout := line_end
  (set "Server" "irc.libera.chat  +6697 secret" (set "Nick" "ann2"
  (LSection (B "Chan") (B "#c") (line_end (set "Key" "k2" LEnd)) (line_end
  (LSection (B "Chan") (B "#new") (line_end (set "Detached" "true" LEnd)) (line_end
  (LSection (B "Chan") (B "#off") (line_end (set "Disabled" "true" LEnd)) (line_end LEnd)))))))).
Definition ex_file : layout :=
  LComment (B " made by znc") (set "Version" "1.8.2" (line_end
  (LSection (B "User") (B "ann")
    (line_end (set "Admin" "true" (set "Nick" "annie" (set "Ident" "an" (set "RealName" "" (
      LSection (B "Network") (B "one") ex_net (line_end
      (LSection (B "Network") (B "oftc") (set "Server" "irc.oftc.net 6667" LEnd) LEnd))))))))
  (line_end (LSection (B "User") (B "zed") (line_end LEnd) (line_end LEnd)))))).
Definition ex_root := Znc [] [] (settings ex_file) (sections ex_file).
Definition ex_now : bytes -> Z := fun _ => 5%Z.

(** A check of files. *)
Definition scalarb (c : N) : bool := ((0 <? c) && (c <? 55296) || (57344 <=? c) && (c <? 1114112))%N.
Definition trimmedb (l : list N) : bool :=
  match l with [] => true | a :: _ => negb (Words.is_space a) && negb (Words.is_space (last l 0%N)) end.
Fixpoint goodb (l : layout) : bool :=
  match l with
  | LEnd => true
  | LBlank w rest => forallb (fun c => scalarb c && Words.is_space c) w && goodb rest
  | LComment t rest => negb (amem (ascii_of_N 10) t) && goodb rest
  | LValue k p1 p2 v p3 rest =>
      (match k with [] => false | a :: b => negb (a =? 60)%N && negb (a =? 47)%N end && trimmedb k &&
       forallb (fun c => scalarb c && negb (c =? 10)%N && negb (c =? 61)%N) k) &&
      (trimmedb v && forallb (fun c => scalarb c && negb (c =? 10)%N) v) &&
      forallb (fun c => scalarb c && Words.is_space c && negb (c =? 10)%N) (p1 ++ p2 ++ p3) && goodb rest
  | LSection typ name inner rest =>
      forallb (fun c => negb (amem c (B " >" ++ newline))) typ && match typ with [] => true | a :: _ => negb (aeqb a "/") end &&
      forallb (fun c => negb (amem c (B ">" ++ newline))) name && goodb inner && goodb rest
  end.

Lemma scalarb_ok c : scalarb c = true -> scalar c.
Proof.
  unfold scalarb, scalar. intros H. apply orb_true_iff in H. destruct H as [H|H]; apply andb_true_iff in H; destruct H as [H1 H2].
  - left. split; apply N.ltb_lt; assumption.
  - right. split; [apply N.leb_le|apply N.ltb_lt]; assumption.
Qed.
Lemma trimmedb_ok l : trimmedb l = true -> trimmed l.
Proof.
  destruct l as [|a l]; [left; reflexivity|]. unfold trimmedb, trimmed. intros H. apply andb_true_iff in H. destruct H as [H1 H2].
  apply negb_true_iff in H1, H2. right. exists a, (removelast l), (last (a :: l) 0%N). destruct l as [|b l]; [left; auto|]. right.
  split; [|auto]. f_equal. exact (app_removelast_last 0%N (l := b :: l) ltac:(discriminate)).
Qed.
Lemma goodb_ok L : goodb L = true -> good L.
Proof.
  induction L as [|w rest IH|t rest IH|k p1 p2 v p3 rest IH|typ name inner IHi rest IH]; cbn [goodb good]; intros H.
  - exact I.
  - apply andb_true_iff in H. destruct H as [H1 H2]. split; [|auto]. rewrite forallb_forall in H1. intros c Hc. specialize (H1 c Hc).
    apply andb_true_iff in H1. split; [apply scalarb_ok|]; apply H1.
  - apply andb_true_iff in H. destruct H as [H1 H2]. split; [|auto]. intros K. apply negb_true_iff in H1. apply amem_In in K. congruence.
  - apply andb_true_iff in H. destruct H as [H Hr]. apply andb_true_iff in H. destruct H as [H Hp]. apply andb_true_iff in H. destruct H as [Hk Hv].
    apply andb_true_iff in Hk. destruct Hk as [Hk Hc]. apply andb_true_iff in Hk. destruct Hk as [Hh Ht]. apply andb_true_iff in Hv. destruct Hv as [Hv1 Hv2].
    rewrite forallb_forall in Hc, Hv2, Hp. split; [|split; [|split; [|auto]]].
    + destruct k as [|a k]; [discriminate|]. apply andb_true_iff in Hh. destruct Hh as [N1 N2]. apply negb_true_iff, N.eqb_neq in N1, N2.
      split; [discriminate|]. split; [apply trimmedb_ok, Ht|]. split; [|split; [cbn; congruence|intros k' E; congruence]].
      intros c Hin. specialize (Hc c Hin). apply andb_true_iff in Hc. destruct Hc as [Hc E1]. apply andb_true_iff in Hc. destruct Hc as [Hc E2].
      apply negb_true_iff, N.eqb_neq in E1, E2. split; [apply scalarb_ok, Hc|]. auto.
    + split; [apply trimmedb_ok, Hv1|]. intros c Hin. specialize (Hv2 c Hin). apply andb_true_iff in Hv2. destruct Hv2 as [X Y].
      apply negb_true_iff, N.eqb_neq in Y. split; [apply scalarb_ok, X|exact Y].
    + intros c Hin. specialize (Hp c Hin). apply andb_true_iff in Hp. destruct Hp as [Hp Y]. apply andb_true_iff in Hp. destruct Hp as [X Z].
      apply negb_true_iff, N.eqb_neq in Y. split; [apply scalarb_ok, X|]. auto.
  - apply andb_true_iff in H. destruct H as [H Hr]. apply andb_true_iff in H. destruct H as [H Hi]. apply andb_true_iff in H. destruct H as [H Hn].
    apply andb_true_iff in H. destruct H as [Ht Hh]. rewrite forallb_forall in Ht, Hn. split; [|split; [|split; [|auto]]].
    + intros c Hc K. specialize (Ht c Hc). apply negb_true_iff in Ht. apply amem_In in K. congruence.
    + destruct typ as [|a typ]; [discriminate|]. apply negb_true_iff in Hh. intros K. injection K as ->. discriminate.
    + intros c Hc K. specialize (Hn c Hc). apply negb_true_iff in Hn. apply amem_In in K. congruence.
Qed.

Definition ex_after := fst (import_file [] [] ex_now (print ex_file) Sql.sample_db).
Ltac no_dup := vm_compute; repeat constructor; intros K; vm_compute in K; intuition discriminate.

(** A file for a user that is there, with one network that is there, and for a new user. *)
Example C108_nonvacuous :
  reachable format_message Sql.sample_db /\ good ex_file /\ distinct [] [] ex_root /\
  snd (import_file [] [] ex_now (print ex_file) Sql.sample_db) = true /\
  map z_name (user_sections [] ex_root) = [B "ann"; B "zed"] /\
  option_map gu_admin (get_user (B "ann") Sql.sample_db) = Some false /\ option_map gu_admin (get_user (B "ann") ex_after) = Some true /\
  option_map gu_password (get_user (B "ann") ex_after) = Some (B "h") /\
  get_user (B "zed") Sql.sample_db = None /\ option_map gu_id (get_user (B "zed") ex_after) = Some 3%N /\
  map (fun n => (gn_name n, gn_addr n, gn_nick n, gn_pass n, gn_ppass n)) (list_networks 1 ex_after) =
    [(B "one", B "ircs://irc.libera.chat:6697", B "ann2", B "secret", B "p"); (B "oftc", B "irc+insecure://irc.oftc.net:6667", B "annie", [], [])] /\
  map (fun c => (gc_name c, gc_key c, gc_detached c, gc_after c)) (list_channels 1 ex_after) =
    [(B "#c", B "k2", false, 2000000000%Z); (B "#new", [], true, 0%Z)] /\
  list_networks 2 ex_after = list_networks 2 Sql.sample_db.
Proof.
  split; [exact (proj1 Sql.C39_nonvacuous)|]. split; [apply goodb_ok; vm_compute; reflexivity|]. split.
  - split; [no_dup|]. intros u Hu. vm_compute in Hu. destruct Hu as [<-|[<-|[]]]; (split; [no_dup|]); intros n Hn; vm_compute in Hn;
      repeat (destruct Hn as [<-|Hn]; [no_dup|]); destruct Hn.
  - repeat (split; [vm_compute; reflexivity|]). vm_compute. reflexivity.
Qed.

(** A server with a password. *)
Example C108_server_nonvacuous : server_line true (B "irc.libera.chat") (B "6697") (B "irc.libera.chat  +6697 s3cret") (B "s3cret").
Proof.
  apply (SPass true (B "irc.libera.chat") (B "6697") [32; 32]%N [32]%N (chars "s3cret")); try discriminate.
  - intros c [<-|[<-|[]]]; split; try reflexivity; left; split; reflexivity.
  - intros c [<-|[]]; split; try reflexivity; left; split; reflexivity.
  - intros c Hc. vm_compute in Hc. repeat (destruct Hc as [<-|Hc]; [split; [left; split; reflexivity|reflexivity]|]). destruct Hc.
Qed.

(** ** What does not hold *)

(** A footer that ends no section ends the file: all that follows is dropped, and the import is reported as done. *)
Theorem C108_footer_refuted :
  (forall L s, good L -> parse (print L ++ B "</" ++ s) = Some (Znc [] [] (settings L) (sections L))) /\
  exists L s d', good L /\ good s /\ map z_name (user_sections [] (Znc [] [] (settings s) (sections s))) = [B "zed"] /\
    import_file [] [] ex_now (print L ++ B "</User>" ++ print s) Sql.sample_db = (d', true) /\ get_user (B "zed") d' = None.
Proof.
  split; [exact Proof.ZncParse.parse_footer|].
  exists (LSection (B "User") (B "ann") LEnd LEnd), (LSection (B "User") (B "zed") LEnd LEnd). eexists.
  split; [apply goodb_ok; vm_compute; reflexivity|]. split; [apply goodb_ok; vm_compute; reflexivity|]. split; [vm_compute; reflexivity|].
  split; [vm_compute; reflexivity|]. vm_compute. reflexivity.
Qed.
Print Assumptions C108_footer_refuted.

(** Two sections for a new user: the import gives up at the second, with what came before written. *)
Theorem C108_twice_refuted : exists L d', good L /\ import_file [] [] ex_now (print L) Sql.sample_db = (d', false) /\
  get_user (B "zed") Sql.sample_db = None /\ get_user (B "zed") d' <> None /\ get_user (B "yan") d' = None.
Proof.
  exists (LSection (B "User") (B "zed") LEnd (LSection (B "User") (B "zed") LEnd (LSection (B "User") (B "yan") LEnd LEnd))). eexists.
  split; [apply goodb_ok; vm_compute; reflexivity|]. split; [vm_compute; reflexivity|]. split; [vm_compute; reflexivity|].
  split; [vm_compute; discriminate|vm_compute; reflexivity].
Qed.
Print Assumptions C108_twice_refuted.

(** A last line without a line break is refused when it is a setting. *)
Theorem C108_last_line_refuted : parse (B "Version = 1.8.2") = None /\ parse (B "Version = 1.8.2" ++ newline) <> None.
Proof. split; vm_compute; [reflexivity|discriminate]. Qed.

(** An IPv6 address as ZNC writes it, without brackets, is not what is dialled. *)
Theorem C108_six_refuted : exists addr h p, Spec.Addr.ipv6 h /\ Spec.Addr.port_number p /\
  import_server (h ++ B " +" ++ p) = Some (addr, []) /\
  Addr.connect (fun _ => true) (Networks.set_addr addr (Networks.new_network [])) <> Addr.PTls (B "[" ++ h ++ B "]:" ++ p) h None [] /\
  Addr.connect (fun _ => true) (Networks.set_addr addr (Networks.new_network [])) = Addr.PTls (B "2001:db8::1:6697:6697") (B "2001:db8::1:6697") None [].
Proof.
  eexists. exists (B "2001:db8::1"), (B "6697").
  split; [split; [discriminate|intros c Hc; vm_compute in Hc; repeat (destruct Hc as [<-|Hc]; [vm_compute; intuition auto 80|]); destruct Hc]|].
  split; [split; [discriminate|intros c Hc; vm_compute in Hc; repeat (destruct Hc as [<-|Hc]; [vm_compute; intuition auto 80|]); destruct Hc]|].
  split; [vm_compute; reflexivity|]. split; [vm_compute; discriminate|vm_compute; reflexivity].
Qed.
Print Assumptions C108_six_refuted.

(** A network that has no name is found by its address, which the import changes: importing the same file again fails. *)
Theorem C108_again_refuted : exists L d d1 d2, reachable format_message d /\ good L /\
  distinct [] [] (Znc [] [] (settings L) (sections L)) /\
  import_file [] [] ex_now (print L) d = (d1, true) /\ import_file [] [] ex_now (print L) d1 = (d2, false).
Proof.
  exists (LSection (B "User") (B "ann") (LSection (B "Network") (B "irc.libera.chat") (set "Server" "irc.libera.chat +6697" (set "Nick" "ann" LEnd)) LEnd) LEnd).
  exists (fold_left (step_db format_message) [StoreUser 5 (GUser 0 (B "ann") (B "h") [] [] false true 0 0);
    StoreNetwork 1 (GNet 0 [] (B "irc.libera.chat") (B "ann") [] [] [] [] [] [] [] [] None None true true)] empty_db).
  eexists. eexists. split; [apply Proof.Sql.reachable_run; [apply reach_empty|vm_compute; reflexivity]|].
  split; [apply goodb_ok; vm_compute; reflexivity|]. split.
  { split; [no_dup|]. intros u Hu. vm_compute in Hu. destruct Hu as [<-|[]]; (split; [no_dup|]); intros n Hn; vm_compute in Hn;
      repeat (destruct Hn as [<-|Hn]; [no_dup|]); destruct Hn. }
  split; [vm_compute; reflexivity|]. vm_compute. reflexivity.
Qed.
Print Assumptions C108_again_refuted.
