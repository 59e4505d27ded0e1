(** C79: clients that asked for it know the networks of their user. *)
From Verif.Base Require Import Bytes.
From Verif.Model Require Import Message Networks NetView.
From Verif.Proof Require NetView.
From Verif.Spec Require Import NetView.
From Coq Require Import ZArith NArith Permutation.

(** Which networks there are: in every run, whatever happens. *)
Theorem C79_networks : forall parse_url split_host_port shuffle,
  (forall l, Permutation (shuffle l) l) ->
  forall c s l s1 out, reachable parse_url split_host_port shuffle s -> stays c l ->
  vsteps parse_url split_host_port shuffle (VOpen c true :: l) s = Some (s1, out) ->
  same_nets (heard c out blank) (truth parse_url split_host_port shuffle c s1).
Proof. exact Proof.NetView.networks. Qed.
Print Assumptions C79_networks.

(** Their names and whether they are connected, unless an object that was replaced
    speaks late. *)
Theorem C79_name_state_partial : forall parse_url split_host_port shuffle,
  (forall l, Permutation (shuffle l) l) ->
  forall k c s l s1 out, k = B "name" \/ k = B "state" ->
  reachable parse_url split_host_port shuffle s -> stays c l ->
  along parse_url split_host_port shuffle fresh (VOpen c true :: l) s ->
  vsteps parse_url split_host_port shuffle (VOpen c true :: l) s = Some (s1, out) ->
  same_attr k (heard c out blank) (truth parse_url split_host_port shuffle c s1).
Proof. exact Proof.NetView.always. Qed.
Print Assumptions C79_name_state_partial.

(** Every attribute, as long as no event changes it without an announcement. *)
Theorem C79_attributes_partial : forall parse_url split_host_port shuffle,
  (forall l, Permutation (shuffle l) l) ->
  forall k c s l s1 out, reachable parse_url split_host_port shuffle s -> stays c l ->
  along parse_url split_host_port shuffle (fun s e => fresh s e /\ loud parse_url split_host_port shuffle k s e) (VOpen c true :: l) s ->
  vsteps parse_url split_host_port shuffle (VOpen c true :: l) s = Some (s1, out) ->
  same_attr k (heard c out blank) (truth parse_url split_host_port shuffle c s1).
Proof. exact Proof.NetView.attr. Qed.
Print Assumptions C79_attributes_partial.

(** Who has not asked for it gets nothing but what they request. *)
Theorem C79_quiet : forall parse_url split_host_port shuffle e s s1 out x,
  vstep parse_url split_host_port shuffle e s = Some (s1, out) -> In x out ->
  match x with
  | VMsg c m => In (VCl c true) (vs_cls s)
  | VBatch c l => e = VList c \/ e = VOpen c true
  end.
Proof. exact Proof.NetView.quiet. Qed.
Print Assumptions C79_quiet.

(** ** Examples *)
(** A URL parser for the examples: everything up to the first "://" is the scheme
    and the rest the host. *)
Definition ex_parse (s : bytes) : option url :=
  match scheme_of s with
  | None => None
  | Some sch => Some (Url sch false [] [] (skipn (length sch + 3) s) [])
  end.
Definition ex_split (s : bytes) : option (bytes * bytes) :=
  match cut_on ":"%char s with (h, Some p) => Some (h, p) | _ => None end.
Definition ex_id (l : list (bytes * bytes)) := l.
Lemma ex_perm : forall l, Permutation (ex_id l) l.
Proof. intros l. apply Permutation_refl. Qed.
Notation xstep := (vstep ex_parse ex_split ex_id).
Notation xsteps := (vsteps ex_parse ex_split ex_id).
Notation xtruth := (truth ex_parse ex_split ex_id).
Notation xreach := (reachable ex_parse ex_split ex_id).

Definition net_a := set_id 1 (set_name (B "a") (set_username (B "u1") (new_network (B "irc.example.org:6697")))).
Definition net_b := set_id 2 (set_name (B "b; c") (new_network (B "irc.example.com"))).
Definition s0 := new_vst (B "jo") (B "jo") (B "Jo") true [net_a].
Definition run1 : list vev :=
  [VUp 0 true; VOpen 2 false; VCreate net_b; VFail 1 (B "refused; really"); VUpdate (set_name (B "aa") net_a);
   VUser (B "joe") (B "Joe") true (fun _ => true); VUp 3 false; VDown 3; VNick 1 (B "x"); VUp 4 false; VDelete 1].
Definition know (v : view) (i : bytes) (k : bytes) : option bytes := option_map (fun f => f k) (v i).
Definition after (l : list vev) : option (vst * list vout) := xsteps l s0.

Lemma s0_reachable : xreach s0.
Proof.
  exists (B "jo"), (B "jo"), (B "Jo"), true, [net_a], [], []. split; [intros r [<-|[]]; reflexivity|].
  split; [repeat constructor; intros []|reflexivity].
Qed.

(** A decision of [along fresh]. *)
Definition is_late (s : vst) (n : N) : bool :=
  match find_obj n (vs_nets s), find_obj n (vs_old s) with
  | None, Some o => existsb (fun x => Z.eqb (n_id (v_rec x)) (n_id (v_rec o))) (vs_nets s)
  | _, _ => false
  end.
Lemma is_late_spec s n : is_late s n = false -> ~ late s n.
Proof.
  unfold is_late. intros E (o & x & F1 & F2 & Hx & Ex). rewrite F1, F2 in E.
  assert (T : existsb (fun x => Z.eqb (n_id (v_rec x)) (n_id (v_rec o))) (vs_nets s) = true) by (apply existsb_exists; exists x; split; [exact Hx|apply Z.eqb_eq, Ex]).
  congruence.
Qed.
Definition quick (e : vev) : bool := match e with VNick _ _ | VUser _ _ _ _ | VUpdate _ => false | _ => true end.
Fixpoint along_b (strict : bool) (l : list vev) (s : vst) : bool :=
  match l with
  | [] => true
  | e :: l =>
      match xstep e s with
      | None => false
      | Some (s1, _) =>
          (if strict then quick e else true) &&
          match e with VUp n _ | VFail n _ => negb (is_late s n) | _ => true end && along_b strict l s1
      end
  end.
Lemma along_b_spec strict k l : forall s, along_b strict l s = true ->
  along ex_parse ex_split ex_id (fun s e => fresh s e /\ (strict = true -> loud ex_parse ex_split ex_id k s e)) l s.
Proof.
  induction l as [|e l IH]; intros s H; [constructor|]. cbn [along_b] in H. destruct (xstep e s) as [[s1 o]|] eqn:E; [|discriminate].
  apply andb_true_iff in H as [H H3]. apply andb_true_iff in H as [H1 H2].
  econstructor; [exact E| |apply IH, H3]. split.
  - destruct e; cbn [fresh]; try exact I; apply is_late_spec, negb_true_iff, H2.
  - intros ->. destruct e; cbn [loud]; try exact I; discriminate.
Qed.
Lemma along_weak (P P' : vst -> vev -> Prop) l : (forall s e, P s e -> P' s e) ->
  forall s, along ex_parse ex_split ex_id P l s -> along ex_parse ex_split ex_id P' l s.
Proof. intros H s A. induction A; econstructor; eauto. Qed.

(** The run changes names and states, and the client follows. *)
Example C79_nonvacuous :
  xreach s0 /\ stays 1 run1 /\ along ex_parse ex_split ex_id fresh (VOpen 1 true :: run1) s0 /\
  exists s1 out, xsteps (VOpen 1 true :: run1) s0 = Some (s1, out) /\
    know (heard 1 out blank) (B "1") (B "state") = None /\
    know (heard 1 out blank) (B "2") (B "name") = Some (B "b; c") /\
    know (heard 1 out blank) (B "2") (B "state") = Some (B "connected").
Proof.
  split; [exact s0_reachable|]. split.
  { intros e H. cbn [run1 In] in H. repeat (destruct H as [<-|H]; [exact I|]). destruct H. }
  split.
  { eapply along_weak; [|apply (along_b_spec false [])]; [intros s e [H _]; exact H|vm_compute; reflexivity]. }
  destruct (xsteps (VOpen 1 true :: run1) s0) as [[s1 out]|] eqn:E; [|vm_compute in E; discriminate].
  exists s1, out. split; [reflexivity|]. vm_compute in E. injection E as <- <-.
  split; [vm_compute; reflexivity|]. split; vm_compute; reflexivity.
Qed.

(** All attributes of a new network are told, and an error that comes and goes. *)
Definition run2 : list vev := [VOpen 2 true; VCreate net_b; VFail 0 (B "x"); VFail 1 (B "refused; really"); VUp 0 true; VClose 2].
Example C79_attributes_nonvacuous :
  stays 1 run2 /\
  along ex_parse ex_split ex_id (fun s e => fresh s e /\ loud ex_parse ex_split ex_id (B "error") s e) (VOpen 1 true :: run2) s0 /\
  exists s1 out, xsteps (VOpen 1 true :: run2) s0 = Some (s1, out) /\
    know (heard 1 out blank) (B "2") (B "error") = Some (B "connection error: refused; really") /\
    know (heard 1 out blank) (B "1") (B "error") = Some [] /\
    know (heard 1 out blank) (B "1") (B "port") = Some (B "6697").
Proof.
  split.
  { intros e H. cbn [run2 In] in H. repeat (destruct H as [<-|H]; [first [exact I|discriminate]|]). destruct H. }
  split.
  { eapply along_weak; [|apply (along_b_spec true (B "error"))]; [intros s e [H1 H2]; split; [exact H1|apply H2; reflexivity]|vm_compute; reflexivity]. }
  destruct (xsteps (VOpen 1 true :: run2) s0) as [[s1 out]|] eqn:E; [|vm_compute in E; discriminate].
  exists s1, out. split; [reflexivity|]. vm_compute in E. injection E as <- <-.
  split; [vm_compute; reflexivity|]. split; vm_compute; reflexivity.
Qed.

(** ** What is not announced *)
Definition mistaken (l : list vev) (k a b : bytes) : Prop :=
  exists s1 out, xsteps (VOpen 1 true :: l) s0 = Some (s1, out) /\ stays 1 l /\
    know (heard 1 out blank) (B "1") k = Some a /\ know (xtruth 1 s1) (B "1") k = Some b /\ a <> b.
Ltac mistake l :=
  unfold mistaken; destruct (xsteps (VOpen 1 true :: l) s0) as [[s1 out]|] eqn:E; [|vm_compute in E; discriminate];
  exists s1, out; split; [reflexivity|]; vm_compute in E; injection E as <- <-;
  split; [intros e H; cbn [In] in H; repeat (destruct H as [<-|H]; [exact I|]); destruct H|];
  split; [vm_compute; reflexivity|]; split; [vm_compute; reflexivity|vm_compute; discriminate].

(** The username of the network is removed: the client is not told. *)
Theorem C79_username_refuted : exists l, mistaken l (B "username") (B "u1") [].
Proof. exists [VUpdate (set_username [] net_a)]. mistake [VUpdate (set_username [] net_a)]. Qed.
(** The network is changed after it could not connect: the client still has the error. *)
Theorem C79_error_refuted : exists l, mistaken l (B "error") (B "connection error: refused") [].
Proof. exists [VFail 0 (B "refused"); VUpdate net_a]. mistake [VFail 0 (B "refused"); VUpdate net_a]. Qed.
(** The nickname of the network is changed by NICK. *)
Theorem C79_nickname_refuted : exists l, mistaken l (B "nickname") (B "jo") (B "zed").
Proof. exists [VNick 1 (B "zed")]. mistake [VNick 1 (B "zed")]. Qed.
(** A connection made just before the network was changed is announced after it. *)
Theorem C79_late_state_refuted : exists l, mistaken l (B "state") (B "connected") (B "disconnected").
Proof. exists [VUpdate net_a; VUp 0 true; VDown 0]. mistake [VUpdate net_a; VUp 0 true; VDown 0]. Qed.
(** An attempt to connect that was stopped by the change is announced as an error. *)
Theorem C79_late_error_refuted : exists l, mistaken l (B "error") (B "connection error: context canceled") [].
Proof. exists [VUpdate net_a; VFail 0 (B "context canceled")]. mistake [VUpdate net_a; VFail 0 (B "context canceled")]. Qed.
(** The capability is requested after the registration: the client gets no list. *)
Theorem C79_late_cap_refuted : exists s1 out,
  xsteps [VOpen 1 false; VCap 1 true] s0 = Some (s1, out) /\ In (VCl 1 true) (vs_cls s1) /\
  heard 1 out blank (B "1") = None /\ xtruth 1 s1 (B "1") <> None.
Proof.
  destruct (xsteps [VOpen 1 false; VCap 1 true] s0) as [[s1 out]|] eqn:E; [|vm_compute in E; discriminate].
  exists s1, out. split; [reflexivity|]. vm_compute in E. injection E as <- <-. split; [vm_compute; now left|].
  split; [reflexivity|vm_compute; discriminate].
Qed.
Print Assumptions C79_late_cap_refuted.
