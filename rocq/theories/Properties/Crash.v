(** C100: what the messages of clients can stop. *)
From Coq Require Import Lia.
From Verif.Base Require Import Bytes.
From Verif.Model Require Import Message CaseMap Membership Modes Roster.
From Verif.Model Require Robust Words.
From Verif.Model Require Import Crash.
From Verif.Proof Require Crash.
From Verif.Spec Require Import Crash.
Open Scope nat_scope.

Section C100.
  Variable words_of : bytes -> option (list bytes).
  Variable b64 : bytes -> option bytes.
  Variable plain_ok oauth_ok : bytes -> bool.
  Variable host : bytes.
  Notation run := (run words_of b64 plain_ok oauth_ok host).

  (** Whatever clients send, in whatever order, and whatever servers and
      administrators do meanwhile: only five coincidences stop the bouncer for the
      user. *)
  Theorem C100_user name admin nets events :
    (forall p, In p nets -> fst (fst p) <> 0%N) -> Forall numbered events ->
    (forall before e after u, events = before ++ e :: after -> run (loaded name admin nets) before = Alive u -> ~ bad_moment u e) ->
    exists u, run (loaded name admin nets) events = Alive u.
  Proof.
    intros Z N Q. destruct (Proof.Crash.run_alive words_of b64 plain_ok oauth_ok host events _ (Proof.Crash.loaded_inv name admin nets Z) N Q) as (u & R & _).
    exists u. exact R.
  Qed.

  (** A client that is still open is never left with a network that was deleted. *)
  Theorem C100_bound name admin nets events u c id :
    (forall p, In p nets -> fst (fst p) <> 0%N) -> Forall numbered events ->
    (forall before e after u, events = before ++ e :: after -> run (loaded name admin nets) before = Alive u -> ~ bad_moment u e) ->
    run (loaded name admin nets) events = Alive u -> In c (u_clients u) -> d_closed c = false -> d_net c = Some id ->
    exists n, In n (u_nets u) /\ w_id n = id.
  Proof.
    intros Z N Q R I C D.
    destruct (Proof.Crash.run_alive words_of b64 plain_ok oauth_ok host events _ (Proof.Crash.loaded_inv name admin nets Z) N Q) as (u' & R' & J).
    rewrite R in R'. injection R' as <-. destruct (Proof.Crash.inv_clients u J c id I C D) as [_ H].
    destruct (by_id (u_nets u) id) as [n|] eqn:E; [|contradiction]. exists n. exact (Proof.Crash.by_id_In _ _ _ E).
  Qed.
End C100.
Print Assumptions C100_user.
Print Assumptions C100_bound.

(** Witnesses. *)
Definition c_words (s : bytes) : option (list bytes) :=
  match Words.split_words (map code s) with inl l => Some (map (map ascii_of_N) l) | inr _ => None end.
Definition c_run := run c_words (fun x => Some x) (fun _ => true) (fun _ => true) (B "irc.example.org").
Definition c_env (yes : list string) : env := Env CmASCII (fun _ s => existsb (String.eqb s) yes) 9 (B "other").
Definition c_msg (cmd : string) (params : list string) : message := Message [] None (B cmd) (map B params).
Definition c_load := loaded (B "alice") false [(1%N, B "net", [(B "#c", true)])].
Definition c_tab := Tables CmRFC1459 [] [] (B "#") None true true.
Definition c_rst (chans : list (bytes * bool)) (users : list bytes) : rst :=
  Rst c_tab (B "me") (fold_left (fun t p => cm_set t (fst p) (UChan (Chan (Some []) (cm_new CmRFC1459)) (snd p))) chans (cm_new CmRFC1459))
    (fold_left (fun t n => cm_set t n (UUser n [] [] [] [] [] [])) users (cm_new CmRFC1459)) (cm_new CmRFC1459).

(** The service asked twice to delete the client's network. *)
Theorem C100_delete_refuted : exists events, Forall numbered events
  /\ (forall e, In e events -> ~ unwelcomed c_load e) /\ c_run c_load events = UserStopped
  /\ exists text, events = [EHandover 7 true (Some (Some 1%N)); EMessage 7 (c_env []) (Message [] None (B "PRIVMSG") [B "BouncerServ,BouncerServ"; text])].
Proof.
  eexists. split; [|split; [|split; [|exists (B "network delete -x"); reflexivity]]].
  - repeat constructor; discriminate.
  - intros e _ (id & v & m & c & _ & I & _). destruct I.
  - vm_compute. reflexivity.
Qed.
Print Assumptions C100_delete_refuted.

(** A JOIN of a detached channel while the server is sending its members. *)
Theorem C100_attach_refuted : exists r, cm_get (r_chans r) (B "#c") <> None /\
  c_run c_load [EHandover 7 true (Some (Some 1%N)); EUp 1 r; EMessage 7 (c_env []) (c_msg "JOIN" ["#c"%string])] = UserStopped.
Proof. exists (c_rst [(B "#c", false)] []). split; [vm_compute; discriminate|vm_compute; reflexivity]. Qed.
Print Assumptions C100_attach_refuted.

(** A second AUTHENTICATE before the server has answered the first. *)
Theorem C100_login_refuted : exists v,
  c_run c_load [EHandover 7 true (Some (Some 1%N)); EUp 1 (c_rst [] []); EMessage 7 v (c_msg "AUTHENTICATE" ["PLAIN"%string]);
    EMessage 7 v (c_msg "AUTHENTICATE" ["YQBhAGI="%string]); EMessage 7 v (c_msg "AUTHENTICATE" ["*"%string]);
    EMessage 7 v (c_msg "AUTHENTICATE" ["PLAIN"%string]); ELogin 1 true] = UserStopped.
Proof. exists (c_env ["sasl"; "cap"]%string). vm_compute. reflexivity. Qed.
Print Assumptions C100_login_refuted.

(** A WHO for a name under which the server has put a user, not a channel. *)
Theorem C100_who_refuted : exists r v,
  c_run c_load [EHandover 7 true (Some (Some 1%N)); EUp 1 r; EMessage 7 v (c_msg "WHO" ["#x"%string])] = UserStopped.
Proof. exists (c_rst [] [B "#x"]), (c_env ["caps"; "fields"]%string). vm_compute. reflexivity. Qed.
Print Assumptions C100_who_refuted.

(** Anything that needs the account, from a client of a disabled one. *)
Theorem C100_disabled_refuted : c_run c_load [EHandover 7 false (Some (Some 1%N)); EMessage 7 (c_env []) (c_msg "NICK" ["bob"%string])] = UserStopped.
Proof. vm_compute. reflexivity. Qed.
Print Assumptions C100_disabled_refuted.

(** Asked once, the service deletes the network and closes the client. *)
Definition c_once : list event :=
  [EHandover 7 true (Some (Some 1%N)); EMessage 7 (c_env []) (c_msg "PRIVMSG" ["BouncerServ"; "network delete -x"]%string)].
Example C100_nonvacuous :
  (forall p, In p [(1%N, B "net", [(B "#c", true)])] -> fst (fst p) <> 0%N) /\ Forall numbered c_once
  /\ (forall before e after u, c_once = before ++ e :: after -> c_run c_load before = Alive u -> ~ bad_moment u e)
  /\ exists u, c_run c_load c_once = Alive u /\ u_nets u = [] /\ map d_closed (u_clients u) = [true].
Proof.
  split; [intros p [<-|[]]; discriminate|]. split; [repeat constructor; discriminate|]. split.
  - intros before e after u E R.
    destruct before as [|e1 [|e2 before]].
    + injection E as <- _. intros [(id & v & m & c & X & _)|[(id & v & m & t & l1 & a & l2 & b & l3 & X & _)|[[[(id & v & m & X & _)|(v & w & X)] _]|[(id & v & m & mask & n & k & X & _)|(net & n & k & q & l & c & x & X & _)]]]]; discriminate.
    + injection E as <- <- _.
      assert (exists c n, u_clients u = [c] /\ u_nets u = [n] /\ d_user c = true /\ w_conn n = None /\ u_gone u = []) as (c0 & n0 & Q3 & Q4 & Q1 & Q2 & Q5).
      { revert R. clear. match goal with |- ?a = _ -> _ => let v := eval vm_compute in a in assert (a = v) as -> by (vm_compute; reflexivity) end.
        intro R. injection R as <-. eexists _, _. repeat split. }
      clear R. intros [(id & v & m & c & X & I & _ & _ & U)|[(id & v & m & t & l1 & a & l2 & b & l3 & X & _ & T & Z & _)|[[_ (n & I & H)]|[(id & v & m & mask & n & k & X & Y & _)|(net & n & k & q & l & c & x & X & _)]]]].
      * rewrite Q3 in I. destruct I as [<-|[]]. congruence.
      * injection X as <- <- <-. injection T as <-. destruct l1 as [|? [|? ?]]; [destruct l2; discriminate|discriminate|discriminate].
      * rewrite Q4, Q5 in I. destruct I as [[<-|[]]|[]]. destruct H as (k & name & c & h & K & _). congruence.
      * injection X as <- <- <-. discriminate.
      * discriminate.
    + exfalso. apply (f_equal (@length _)) in E. unfold c_once in E. rewrite app_length in E. cbn [length] in E. lia.
  - eexists. split; [vm_compute; reflexivity|]. split; reflexivity.
Qed.
