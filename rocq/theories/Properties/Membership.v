(** Properties C04, C05. *)
From Verif.Base Require Import Bytes.
From Verif.Model Require Import Membership.
From Verif.Spec Require Import Membership.
From Verif.Proof Require Membership.

(** C04: for a PREFIX table without repetitions, after any history that only
    adds advertised statuses, the set holds exactly the statuses the history
    leaves held, in rank order, without duplicates. *)
Theorem C04_membership_set :
  forall avail h,
    NoDup avail -> adds_known avail h ->
    let l := fold_left (ms_step avail) h [] in
    (forall m, In m l <-> held h m) /\ NoDup l /\ in_order l avail.
Proof.
  intros avail h Hnd Hk l. split; [|split].
  - intros m. exact (Proof.Membership.ms_run_held avail h m Hnd Hk).
  - exact (Proof.Membership.in_order_nodup _ _ (Proof.Membership.ms_run_in_order avail h Hnd Hk) Hnd).
  - exact (Proof.Membership.ms_run_in_order avail h Hnd Hk).
Qed.
Print Assumptions C04_membership_set.

(** irc.go:175-181 (stdMemberships). *)
Definition std_memberships : list membership :=
  [Membership "q" "~"; Membership "a" "&"; Membership "o" "@"; Membership "h" "%"; Membership "v" "+"]%char.

Example C04_nonvacuous :
  let v := Membership "v" "+" in let o := Membership "o" "@" in
  let h := [MsAdd v; MsAdd o; MsRemove v; MsAdd v; MsAdd v] in
  NoDup std_memberships /\ adds_known std_memberships h /\
  fold_left (ms_step std_memberships) h [] = [o; v].
Proof.
  intros v o h. split; [|split].
  - unfold std_memberships. repeat constructor; simpl; intuition congruence.
  - intros m Hm. simpl in Hm. repeat (destruct Hm as [Hm|Hm]; [try discriminate; injection Hm as <-; vm_compute; tauto|]).
    destruct Hm.
  - vm_compute. reflexivity.
Qed.

(** C05: what is parsed back from a NAMES entry formatted with multi-prefix. *)
Theorem C05_names_entry_roundtrip :
  forall avail l nick,
    in_order l avail -> NoDup (map mb_prefix avail) ->
    (forall c r, nick = c :: r -> ~ In c (map mb_prefix avail)) ->
    parse_membership_prefix avail (format_member_prefix l true ++ nick) = (l, nick).
Proof. exact Proof.Membership.parse_format. Qed.
Print Assumptions C05_names_entry_roundtrip.

(** Whatever the server sends, the parsed statuses are in rank order and the
    statuses and the nick make up the whole entry. *)
Theorem C05_parse_exact :
  forall avail s ms nick,
    parse_membership_prefix avail s = (ms, nick) ->
    in_order ms avail /\ map mb_prefix ms ++ nick = s.
Proof.
  intros avail s ms nick H. split.
  - pose proof (Proof.Membership.parse_in_order avail s) as Hp. rewrite H in Hp. exact Hp.
  - pose proof (Proof.Membership.parse_concat avail s) as Hp. rewrite H in Hp. exact Hp.
Qed.
Print Assumptions C05_parse_exact.

(** Without multi-prefix exactly the highest status is shown: every other
    status of the member is listed later in the network's table. *)
Theorem C05_single_prefix_is_highest :
  forall avail l p,
    in_order l avail -> NoDup avail -> Forall (fun m => (code (mb_prefix m) < 128)%N) avail ->
    format_member_prefix l false = p ->
    match l with
    | [] => p = []
    | m :: l' => p = [mb_prefix m] /\
        exists a1 a2, avail = a1 ++ m :: a2 /\ (forall x, In x l' -> In x a2)
    end.
Proof.
  intros avail l p Hio Hnd Ha <-. destruct l as [|m l']; [reflexivity|]. split.
  - simpl. apply Proof.Membership.utf8_of_byte_ascii. rewrite Forall_forall in Ha. apply Ha.
    eapply Proof.Membership.in_order_In; [exact Hio|left; reflexivity].
  - clear Ha. remember (m :: l') as ml eqn:E. revert m l' E Hnd.
    induction Hio as [|y l av H IH|y l av H IH]; intros m l' E Hnd; [discriminate| |].
    + injection E as -> ->. exists [], av. split; [reflexivity|].
      intros x Hx. eapply Proof.Membership.in_order_In; eassumption.
    + inversion Hnd; subst. destruct (IH _ _ eq_refl ltac:(assumption)) as (a1 & a2 & -> & Hx).
      exists (y :: a1), a2. split; [reflexivity|exact Hx].
Qed.
Print Assumptions C05_single_prefix_is_highest.

Example C05_nonvacuous :
  parse_membership_prefix std_memberships (B "@+nick") =
    ([Membership "o" "@"; Membership "v" "+"], B "nick") /\
  format_member_prefix [Membership "o" "@"; Membership "v" "+"] false = B "@" /\
  in_order [Membership "o" "@"; Membership "v" "+"] std_memberships.
Proof.
  split; [reflexivity|]. split; [reflexivity|].
  pose proof (Proof.Membership.parse_in_order std_memberships (B "@+nick")) as H. exact H.
Qed.
