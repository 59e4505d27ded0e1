(** Properties C01, C02, C03. *)
From Verif.Base Require Import Bytes.
From Verif.Model Require Import CaseMap.
From Verif.Spec Require Import CaseMap.
From Verif.Proof Require CaseMap.

(** C01: two names have the same canonical form iff they are the same name up
    to the pairs of the mapping's specification. *)
Theorem C01_casemap_equivalence :
  forall cm x y, casemap cm x = casemap cm y <-> name_equiv cm x y.
Proof. exact Proof.CaseMap.casemap_equiv. Qed.
Print Assumptions C01_casemap_equivalence.

Theorem C01_casemap_idempotent : forall cm x, casemap cm (casemap cm x) = casemap cm x.
Proof. exact Proof.CaseMap.casemap_idem. Qed.
Print Assumptions C01_casemap_idempotent.

Theorem C01_casemap_length : forall cm x, length (casemap cm x) = length x.
Proof. exact Proof.CaseMap.casemap_length. Qed.
Print Assumptions C01_casemap_length.

Theorem C01_strict_coarser_than_ascii : coarser CmRFC1459Strict CmASCII.
Proof. exact Proof.CaseMap.strict_coarser_ascii. Qed.
Print Assumptions C01_strict_coarser_than_ascii.

Theorem C01_rfc1459_coarser_than_strict : coarser CmRFC1459 CmRFC1459Strict.
Proof. exact Proof.CaseMap.rfc1459_coarser_strict. Qed.
Print Assumptions C01_rfc1459_coarser_than_strict.

(** The mappings are strictly ordered: these names are the same under the
    coarser mapping only. *)
Example C01_nonvacuous :
  name_equiv CmRFC1459 (B "Nick[~]") (B "nICK{^}") /\
  ~ name_equiv CmRFC1459Strict (B "Nick[~]") (B "nICK{^}") /\
  ~ name_equiv CmASCII (B "Nick[]") (B "nick{}").
Proof.
  split; [|split].
  - apply C01_casemap_equivalence. reflexivity.
  - rewrite <- C01_casemap_equivalence. vm_compute. discriminate.
  - rewrite <- C01_casemap_equivalence. vm_compute. discriminate.
Qed.

(** C02: after any history, a lookup returns what the history says, and the
    relation [lookup_spec] has a value for every name. *)
Theorem C02_lookup_refines_history :
  forall V cm (h : list (cm_op V)) name r,
    lookup_spec cm name h r ->
    cm_get (cm_run cm h) name = option_map snd r /\
    cm_has (cm_run cm h) name = match r with Some _ => true | None => false end.
Proof. exact (@Proof.CaseMap.run_get). Qed.
Print Assumptions C02_lookup_refines_history.

Theorem C02_history_defines_lookup :
  forall V cm (h : list (cm_op V)) name, exists r, lookup_spec cm name h r.
Proof. exact (@Proof.CaseMap.lookup_spec_total). Qed.
Print Assumptions C02_history_defines_lookup.

(** The entries enumerated are exactly the live ones with their first spelling... *)
Theorem C02_entries_exact :
  forall V cm (h : list (cm_op V)) n v,
    In (n, v) (cm_entries (cm_run cm h)) <-> lookup_spec cm n h (Some (n, v)).
Proof. exact (@Proof.CaseMap.run_entries). Qed.
Print Assumptions C02_entries_exact.

(** ... no two of them are the same name (so Len counts classes) ... *)
Theorem C02_entries_distinct :
  forall V cm (h : list (cm_op V)) i j a b,
    nth_error (cm_entries (cm_run cm h)) i = Some a ->
    nth_error (cm_entries (cm_run cm h)) j = Some b ->
    name_equiv cm (fst a) (fst b) -> i = j.
Proof. exact (@Proof.CaseMap.run_entries_distinct). Qed.
Print Assumptions C02_entries_distinct.

(** ... and Len is their number. *)
Theorem C02_len :
  forall V cm (h : list (cm_op V)), cm_len (cm_run cm h) = length (cm_entries (cm_run cm h)).
Proof. intros V cm h. unfold cm_len, cm_entries. rewrite map_length. reflexivity. Qed.
Print Assumptions C02_len.

Example C02_nonvacuous :
  let h := [OpSet (B "Foo[") 1; OpSet (B "bar") 2; OpSet (B "fOO{") 3; OpDel (B "BAR")] in
  cm_entries (cm_run CmRFC1459 h) = [(B "Foo[", 3)] /\
  lookup_spec CmRFC1459 (B "foo[") h (Some (B "Foo[", 3)).
Proof.
  intros h. split; [vm_compute; reflexivity|].
  pose proof (Proof.CaseMap.run_lookup_conv CmRFC1459 h (B "foo[")) as H.
  vm_compute in H. exact H.
Qed.

(** C03: [order] is the order in which the old map is visited. The new map
    only has old entries, covers every old name, has no two names equivalent,
    and keeps every entry that does not collide. *)
Theorem C03_set_casemapping :
  forall V (t : cmmap V) (order : list (entry V)) new,
    Permutation order (map snd (cm_m t)) ->
    let t' := cm_set_casemapping order new in
    (forall n v, In (n, v) (cm_entries t') -> In (n, v) (cm_entries t)) /\
    (forall n v, In (n, v) (cm_entries t) ->
       exists n' v', In (n', v') (cm_entries t') /\ name_equiv new n' n) /\
    (forall i j a b, nth_error (cm_entries t') i = Some a -> nth_error (cm_entries t') j = Some b ->
       name_equiv new (fst a) (fst b) -> i = j) /\
    (forall n v, In (n, v) (cm_entries t) ->
       (forall n' v', In (n', v') (cm_entries t) -> name_equiv new n' n -> (n', v') = (n, v)) ->
       In (n, v) (cm_entries t')) /\
    (forall name v, cm_get t' name = Some v <->
       exists n, In (n, v) (cm_entries t') /\ name_equiv new n name).
Proof.
  intros V t order new Hp t'.
  assert (Hmem : forall n v, In (n, v) (cm_entries t) <-> In (n, v) (map Proof.CaseMap.entry_pair order)).
  { intros n v. unfold cm_entries.
    change (fun ke : bytes * entry V => (original_key (snd ke), entry_value (snd ke)))
      with (fun ke : bytes * entry V => Proof.CaseMap.entry_pair (snd ke)).
    rewrite <- map_map. split; apply Permutation_in;
      [apply Permutation_sym|]; apply Permutation_map; exact Hp. }
  split; [|split; [|split; [|split]]].
  - intros n v H. apply Hmem. eapply Proof.CaseMap.set_casemapping_entries_sub. exact H.
  - intros n v H. apply Hmem in H. apply in_map_iff in H as [e [He Hin]].
    destruct (Proof.CaseMap.set_casemapping_covers order new e Hin) as (n' & v' & H1 & H2).
    exists n', v'. split; [exact H1|]. unfold Proof.CaseMap.entry_pair in He. congruence.
  - intros i j a b Hi Hj He.
    eapply Proof.CaseMap.wf_entries_distinct with (t := t');
      [apply Proof.CaseMap.set_casemapping_wf|exact Hi|exact Hj|exact He].
  - intros n v H Hu. apply Hmem in H. apply in_map_iff in H as [e [He Hin]].
    injection He as <- <-. apply Proof.CaseMap.set_casemapping_keeps; [exact Hin|].
    intros e' Hin' He'. specialize (Hu (original_key e') (entry_value e')).
    assert (Hi : In (original_key e', entry_value e') (cm_entries t)).
    { apply Hmem. apply in_map_iff. exists e'. split; [reflexivity|exact Hin']. }
    specialize (Hu Hi He'). destruct e', e; simpl in *. congruence.
  - intros name v. apply Proof.CaseMap.wf_get. apply Proof.CaseMap.set_casemapping_wf.
Qed.
Print Assumptions C03_set_casemapping.

(** "All entries survive a change of case mapping" is false: switching from
    ascii to rfc1459 merges [a^] and [a~] and which one stays depends on the
    iteration order. *)
Theorem C03_all_entries_survive_refuted :
  exists (t : cmmap nat) o1 o2,
    t = cm_run CmASCII [OpSet (B "a^") 1; OpSet (B "a~") 2] /\
    Permutation o1 (map snd (cm_m t)) /\ Permutation o2 (map snd (cm_m t)) /\
    cm_entries (cm_set_casemapping o1 CmRFC1459) = [(B "a~", 2)] /\
    cm_entries (cm_set_casemapping o2 CmRFC1459) = [(B "a^", 1)].
Proof.
  exists (cm_run CmASCII [OpSet (B "a^") 1; OpSet (B "a~") 2]).
  exists [Entry (B "a^") 1; Entry (B "a~") 2], [Entry (B "a~") 2; Entry (B "a^") 1].
  split; [reflexivity|]. split; [apply Permutation_refl|]. split; [apply perm_swap|].
  split; vm_compute; reflexivity.
Qed.
Print Assumptions C03_all_entries_survive_refuted.

Example C03_nonvacuous :
  let t := cm_run CmASCII [OpSet (B "Foo~") 1; OpSet (B "bar") 2] in
  cm_get (cm_set_casemapping (map snd (cm_m t)) CmRFC1459) (B "FOO^") = Some 1 /\
  cm_get t (B "FOO^") = None.
Proof. split; vm_compute; reflexivity. Qed.
