(** C69: the commands that change accounts. *)
From Verif.Base Require Import Bytes.
From Verif.Model Require Import Service.
From Verif.Spec Require Import Service Accounts.
From Verif.Proof Require Service Accounts.
From Coq Require Import ZArith.
Open Scope nat_scope.

Lemma get_update rest : get service_commands (B "user" :: B "update" :: rest) = inl (leaf false true HUserUpdate, rest).
Proof. destruct rest; reflexivity. Qed.
Lemma get_create rest : get service_commands (B "user" :: B "create" :: rest) = inl (leaf true true HUserCreate, rest).
Proof. destruct rest; reflexivity. Qed.

(** An administrator, or the administration socket, changes the account of another user: each
    setting that is given is set, the last one counts if it is given more than once, however the
    flags are written; no other setting and no other account changes. *)
Theorem C69_update_other : forall D local refresh kick new_data (s : server D) by_ e name u l words,
  match by_ with
  | ByConsole => True
  | ByUser me _ => me <> name /\ ~ In me (sv_hung s) /\
      exists v, find (fun v => beqb (a_name (us_acc v)) me) (sv_users s) = Some v /\ a_admin (us_acc v) = true
  end ->
  e_db e = true -> e_net e = true -> name <> [] -> has_prefix name (B "-") = false -> ~ In name (sv_hung s) ->
  find (fun v => beqb (a_name (us_acc v)) name) (sv_users s) = Some u ->
  Forall2 (written e) l words -> one_password l -> forallb for_other l = true ->
  exists s' calls,
    issue D local refresh kick new_data service_commands s (by_, e, B "user" :: B "update" :: name :: concat words) = ((s', [SDone], ROk), calls) /\
    changed s name (apply_all (us_acc u) l) s'.
Proof.
  intros D local refresh kick new_data s by_ e name u l words Hby Hd Hn Hne Hpre Hh Hf Hw Hone Hfo.
  destruct by_ as [me net|]; cbn [issue].
  - destruct Hby as (Hme & Hmh & v & Hv & Hadm). change (find _ (sv_users s)) with (find_user s me) in Hv. rewrite Hv.
    replace (bmem me (sv_hung s)) with false by (symmetry; apply bmem_nIn; exact Hmh).
    destruct (Proof.Accounts.update_other_spec D refresh kick e (Ctx (Some me) (a_admin (us_acc v)) net) [me] s name l words u) as (s' & E & Hc);
      try assumption.
    + cbn [cx_user]. intros X. injection X as X. exact (Hme X).
    + apply bmem_nIn. cbn [app In]. intros [X|X]; [exact (Hme X)|exact (Hh X)].
    + exists s', [(HUserUpdate, Ctx (Some me) (a_admin (us_acc v)) net)]. split; [|exact Hc].
      cbn [service_command]. rewrite get_update. cbn [leaf c_admin c_global c_handle andb negb]. rewrite E. reflexivity.
  - destruct (Proof.Accounts.update_other_spec D refresh kick e (Ctx None true None) [] s name l words u) as (s' & E & Hc);
      try assumption.
    + reflexivity.
    + discriminate.
    + apply bmem_nIn. exact Hh.
    + exists s', [(HUserUpdate, Ctx None true None)]. split; [|exact Hc].
      cbn [service_command]. rewrite get_update. cbn [leaf c_admin c_global c_handle andb negb]. rewrite E. reflexivity.
Qed.
Print Assumptions C69_update_other.

(** The same for one's own account, with or without its name. *)
Theorem C69_update_self : forall D local refresh kick new_data (s : server D) me net e u l words pre,
  ~ In me (sv_hung s) -> find (fun v => beqb (a_name (us_acc v)) me) (sv_users s) = Some u ->
  e_db e = true -> e_net e = true ->
  pre = [] \/ (pre = [me] /\ has_prefix me (B "-") = false /\ me <> []) ->
  Forall2 (written e) l words -> one_password l -> forallb (for_self (a_admin (us_acc u))) l = true ->
  exists s' calls,
    issue D local refresh kick new_data service_commands s (ByUser me net, e, B "user" :: B "update" :: pre ++ concat words) = ((s', [SDone], ROk), calls) /\
    changed s me (apply_all (us_acc u) l) s'.
Proof.
  intros D local refresh kick new_data s me net e u l words pre Hh Hf Hd Hn Hpre Hw Hone Hfs. cbn [issue].
  change (find _ (sv_users s)) with (find_user s me) in Hf. rewrite Hf.
  replace (bmem me (sv_hung s)) with false by (symmetry; apply bmem_nIn; exact Hh).
  destruct (Proof.Accounts.update_self_spec D refresh kick e (Ctx (Some me) (a_admin (us_acc u)) net) [me] s me l words u pre) as (s' & E & Hc);
    try assumption; [reflexivity|].
  exists s', [(HUserUpdate, Ctx (Some me) (a_admin (us_acc u)) net)]. split; [|exact Hc].
  cbn [service_command]. rewrite get_update. cbn [leaf c_admin c_global c_handle andb negb]. rewrite E. reflexivity.
Qed.
Print Assumptions C69_update_self.

(** The administration socket creates an account: the settings that are not given are empty, an
    ordinary user, enabled, without a limit of its own. *)
Theorem C69_create : forall D local refresh kick new_data (s : server D) e name uw l words,
  e_db e = true -> name <> [] ->
  (forall v, In v (sv_users s) -> a_name (us_acc v) <> name) -> (forall b, In b (sv_db s) -> a_name b <> name) ->
  flag_words (B "username") name uw -> Forall2 (written_new e) l words -> one_password l ->
  existsb is_password l || existsb is_no_password l = true -> (forall p h, In (Password p h) l -> p <> []) ->
  let a := apply_all (Account name [] [] [] false true (-1)) l in
  fst (issue D local refresh kick new_data service_commands s (ByConsole, e, B "user" :: B "create" :: uw ++ concat words)) =
  (Server (sv_users s ++ [User a new_data]) (sv_db s ++ [a]) (sv_debug s) (sv_notices s) (sv_hung s), [SDone], ROk).
Proof.
  intros D local refresh kick new_data s e name uw l words Hd Hne Hu Hdb Huw Hw Hone Hsome Hp a.
  cbn [issue service_command]. rewrite get_create. cbn [leaf c_admin c_global c_handle andb negb cx_admin fst].
  apply Proof.Accounts.create_spec; try assumption.
  unfold find_user. destruct (find _ (sv_users s)) as [v|] eqn:E; [|reflexivity].
  apply find_some in E as [Hi E]. apply beqb_eq in E. destruct (Hu v Hi E).
Qed.
Print Assumptions C69_create.

Definition ex_e : env := Env true true (fun p => Some (B "hash:" ++ p)) (fun n => B "t-" ++ n) (fun _ => Some 5%Z) (fun _ => Some 5%Z).
Definition ex_settings : list setting := [Enabled false; Password (B "x") (B "hash:x"); Max (B "5") 5; Enabled true].
Definition ex_words : list (list bytes) := [[B "-enabled=f"]; [B "--password"; B "x"]; [B "-max-networks"; B "5"]; [B "--enabled=true"]].

Example C69_nonvacuous :
  Forall2 (written ex_e) ex_settings ex_words /\ one_password ex_settings /\ forallb for_other ex_settings = true /\
  apply_all (Account (B "bob") (B "old") (B "b") [] true false 1) ex_settings = Account (B "bob") (B "hash:x") (B "b") [] true true 5 /\
  (let bob := Account (B "bob") (B "old") (B "b") [] true false 1 in
   let s := Server [User bob tt] [bob] false [] [] in
   sv_db (fst (fst (fst (issue unit (fun _ _ _ d _ => (d, [], ROk)) (fun _ _ d => d) (fun d => d) tt service_commands s
     (ByConsole, ex_e, B "user" :: B "update" :: B "bob" :: concat ex_words))))) = [Account (B "bob") (B "hash:x") (B "b") [] true true 5]) /\
  written_new ex_e (Admin true) [B "-admin"] /\ flag_words (B "username") (B "eve") [B "-username"; B "eve"].
Proof.
  split.
  { constructor; [exists (B "f"); split; [vm_compute; tauto|exists (B "-"); split; [left; reflexivity|right; reflexivity]]|].
    constructor; [split; [exists (B "--"); split; [right; reflexivity|left; reflexivity]|reflexivity]|].
    constructor; [split; [exists (B "-"); split; [left; reflexivity|left; reflexivity]|reflexivity]|].
    constructor; [exists (B "true"); split; [vm_compute; tauto|exists (B "--"); split; [right; reflexivity|right; reflexivity]]|constructor]. }
  split; [right; reflexivity|]. split; [reflexivity|]. split; [reflexivity|]. split; [vm_compute; reflexivity|].
  split; [exists (B "-"); split; [left; reflexivity|left; split; reflexivity]|exists (B "-"); split; [left; reflexivity|left; reflexivity]].
Qed.
