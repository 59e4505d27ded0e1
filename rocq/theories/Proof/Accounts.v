From Verif.Base Require Import Bytes.
From Verif.Model Require Import Service.
From Verif.Spec Require Import Service Accounts.
From Verif.Proof Require Service.
From Coq Require Import ZArith Lia.
Open Scope nat_scope.

(** ** Flags *)
Definition plain_name (name : bytes) : Prop :=
  match name with [] => False | c :: n => c <> "-"%char /\ c <> "="%char /\ ~ In "="%char n end.

Definition fuel_of (args : list bytes) := S (length args).

(** Enough fuel: any larger amount gives the same result. *)
Lemma flag_nv_eq name v : plain_name name -> flag_name_value (name ++ "="%char :: v) = (name, Some v).
Proof. destruct name as [|c n]; [intros []|]. intros (_ & _ & H). cbn [app flag_name_value]. rewrite cut_on_app by exact H. reflexivity. Qed.
Lemma flag_nv name : plain_name name -> flag_name_value name = (name, None).
Proof. destruct name as [|c n]; [intros []|]. intros (_ & _ & H). cbn [flag_name_value]. rewrite cut_on_nosep by exact H. reflexivity. Qed.

(** The first word of a flag. *)
Lemma parse_flags_word defs fuel d name tail args : (d = B "-" \/ d = B "--") -> plain_name name ->
  parse_flags defs (S fuel) ((d ++ name ++ tail) :: args) =
    match flag_name_value (name ++ tail) with
    | (name, value) =>
        match flag_kind defs name with
        | None => None
        | Some KBool =>
            match parse_value KBool (match value with Some v => v | None => B "true" end) with
            | None => None
            | Some v => match parse_flags defs fuel args with None => None | Some (l, rest) => Some ((name, v) :: l, rest) end
            end
        | Some k =>
            match value, args with
            | None, [] => None
            | None, v :: args'' =>
                match parse_value k v with
                | None => None
                | Some v => match parse_flags defs fuel args'' with None => None | Some (l, rest) => Some ((name, v) :: l, rest) end
                end
            | Some v, _ =>
                match parse_value k v with
                | None => None
                | Some v => match parse_flags defs fuel args with None => None | Some (l, rest) => Some ((name, v) :: l, rest) end
                end
            end
        end
    end.
Proof.
  intros Hd Hn. destruct name as [|c n]; [destruct Hn|]. destruct Hn as (H1 & H2 & H3).
  assert (A1 : aeqb c "-" = false) by (destruct (aeqb_spec c "-"); [contradiction|reflexivity]).
  assert (A2 : aeqb c "=" = false) by (destruct (aeqb_spec c "="); [contradiction|reflexivity]).
  destruct Hd as [-> | ->].
  - change (B "-" ++ (c :: n) ++ tail) with ("-"%char :: c :: (n ++ tail)).
    cbn [parse_flags]. change (aeqb "-" "-") with true. cbn [negb].
    replace (beqb (c :: n ++ tail) (B "-")) with false.
    2:{ symmetry. apply beqb_neq. intros E. injection E as E _. exact (H1 E). }
    rewrite A1. rewrite A1, A2. reflexivity.
  - change (B "--" ++ (c :: n) ++ tail) with ("-"%char :: "-"%char :: c :: (n ++ tail)).
    cbn [parse_flags]. change (aeqb "-" "-") with true. cbn [negb].
    replace (beqb ("-"%char :: c :: n ++ tail) (B "-")) with false by (symmetry; apply beqb_neq; discriminate).
    cbv iota. cbn [tl]. rewrite A1, A2. reflexivity.
Qed.

Lemma parse_flag_value defs fuel name k v fv words args : plain_name name -> flag_words name v words ->
  flag_kind defs name = Some k -> k <> KBool -> parse_value k v = Some fv ->
  parse_flags defs (S fuel) (words ++ args) =
  match parse_flags defs fuel args with None => None | Some (l, rest) => Some ((name, fv) :: l, rest) end.
Proof.
  intros Hn (d & Hd & [-> | ->]) Hk Hb Hv.
  - cbn [app]. rewrite <- (app_nil_r name) at 1. rewrite parse_flags_word by assumption. rewrite app_nil_r, flag_nv by exact Hn.
    rewrite Hk. destruct k; try contradiction; rewrite Hv; reflexivity.
  - cbn [app]. rewrite parse_flags_word by assumption. rewrite flag_nv_eq by exact Hn. rewrite Hk.
    destruct k; try contradiction; rewrite Hv; reflexivity.
Qed.

Lemma means_parse t b : means t b -> parse_bool t = Some b.
Proof. unfold means. destruct b; cbn [In]; intros H; repeat (destruct H as [<-|H]; [vm_compute; reflexivity|]); destruct H. Qed.

Lemma parse_switch defs fuel name b words args : plain_name name -> switch_or_not name b words ->
  flag_kind defs name = Some KBool ->
  parse_flags defs (S fuel) (words ++ args) =
  match parse_flags defs fuel args with None => None | Some (l, rest) => Some ((name, VBool b) :: l, rest) end.
Proof.
  intros Hn (d & Hd & [(-> & ->)|(t & Ht & ->)]) Hk.
  - cbn [app]. rewrite <- (app_nil_r name) at 1. rewrite parse_flags_word by assumption. rewrite app_nil_r, flag_nv by exact Hn.
    rewrite Hk. reflexivity.
  - cbn [app]. rewrite parse_flags_word by assumption. rewrite flag_nv_eq by exact Hn. rewrite Hk.
    cbn [parse_value]. rewrite (means_parse t b Ht). reflexivity.
Qed.

(** What a setting is as a flag. *)
Definition as_flag (x : setting) : bytes * fval :=
  match x with
  | Password p _ => (B "password", VStr p)
  | NoPassword => (B "disable-password", VBool true)
  | Nick n => (B "nick", VStr n)
  | Realname r => (B "realname", VStr r)
  | Admin b => (B "admin", VBool b)
  | Enabled b => (B "enabled", VBool b)
  | Max _ z => (B "max-networks", VInt z)
  end.

Lemma plain_names : Forall plain_name [B "password"; B "disable-password"; B "nick"; B "realname"; B "admin"; B "enabled"; B "max-networks"; B "username"].
Proof. repeat constructor; try discriminate; vm_compute; intros H; repeat (destruct H as [H|H]; [discriminate|]); destruct H. Qed.
Ltac pname := apply (proj1 (Forall_forall _ _) plain_names); cbn [In]; tauto.

Lemma switch_true name words : switch_words name words -> switch_or_not name true words.
Proof. intros (d & Hd & H). exists d. split; [exact Hd|]. destruct H as [H|H]; [left; split; [reflexivity|exact H]|right; exact H]. Qed.

Lemma parse_setting e fuel x words args : written e x words ->
  parse_flags (update_flags e) (S fuel) (words ++ args) =
  match parse_flags (update_flags e) fuel args with None => None | Some (l, rest) => Some (as_flag x :: l, rest) end.
Proof.
  destruct x as [p h| |n|r|b|b|t z]; cbn [written as_flag].
  - intros [H _]. apply (parse_flag_value _ _ _ KStr p); [pname|exact H|reflexivity|discriminate|reflexivity].
  - intros H. apply parse_switch; [pname|apply switch_true; exact H|reflexivity].
  - intros H. apply (parse_flag_value _ _ _ KStr n); [pname|exact H|reflexivity|discriminate|reflexivity].
  - intros H. apply (parse_flag_value _ _ _ KStr r); [pname|exact H|reflexivity|discriminate|reflexivity].
  - intros (t & Ht & H). apply (parse_flag_value _ _ _ KBoolPtr t); [pname|exact H|reflexivity|discriminate|cbn [parse_value]; rewrite (means_parse t b Ht); reflexivity].
  - intros (t & Ht & H). apply (parse_flag_value _ _ _ KBoolPtr t); [pname|exact H|reflexivity|discriminate|cbn [parse_value]; rewrite (means_parse t b Ht); reflexivity].
  - intros [H Hz]. apply (parse_flag_value _ _ _ (KInt (e_atoi e)) t); [pname|exact H|reflexivity|discriminate|cbn [parse_value]; rewrite Hz; reflexivity].
Qed.

Lemma parse_setting_new e fuel x words args : written_new e x words ->
  parse_flags (create_flags e) (S fuel) (words ++ args) =
  match parse_flags (create_flags e) fuel args with None => None | Some (l, rest) => Some (as_flag x :: l, rest) end.
Proof.
  destruct x as [p h| |n|r|b|b|t z]; cbn [written written_new as_flag].
  - intros [H _]. apply (parse_flag_value _ _ _ KStr p); [pname|exact H|reflexivity|discriminate|reflexivity].
  - intros H. apply parse_switch; [pname|apply switch_true; exact H|reflexivity].
  - intros H. apply (parse_flag_value _ _ _ KStr n); [pname|exact H|reflexivity|discriminate|reflexivity].
  - intros H. apply (parse_flag_value _ _ _ KStr r); [pname|exact H|reflexivity|discriminate|reflexivity].
  - intros H. apply parse_switch; [pname|exact H|reflexivity].
  - intros H. apply parse_switch; [pname|exact H|reflexivity].
  - intros [H Hz]. apply (parse_flag_value _ _ _ (KInt (e_parseint e)) t); [pname|exact H|reflexivity|discriminate|cbn [parse_value]; rewrite Hz; reflexivity].
Qed.

Lemma flag_words_len name v words : flag_words name v words -> 1 <= length words.
Proof. intros (d & _ & [-> | ->]); cbn [length]; lia. Qed.
Lemma switch_len name b words : switch_or_not name b words -> 1 <= length words.
Proof. intros (d & _ & [(_ & ->)|(t & _ & ->)]); cbn [length]; lia. Qed.
Lemma written_len e x words : written e x words -> 1 <= length words.
Proof.
  destruct x; cbn [written].
  - intros [H _]. exact (flag_words_len _ _ _ H).
  - intros H. exact (switch_len _ _ _ (switch_true _ _ H)).
  - apply flag_words_len.
  - apply flag_words_len.
  - intros (t & _ & H). exact (flag_words_len _ _ _ H).
  - intros (t & _ & H). exact (flag_words_len _ _ _ H).
  - intros [H _]. exact (flag_words_len _ _ _ H).
Qed.
Lemma written_new_len e x words : written_new e x words -> 1 <= length words.
Proof.
  destruct x; try exact (written_len e _ words); cbn [written_new].
  - apply switch_len.
  - apply switch_len.
  - intros [H _]. exact (flag_words_len _ _ _ H).
Qed.

Lemma parse_settings (W : setting -> list bytes -> Prop) defs l words :
  (forall x w, W x w -> 1 <= length w) ->
  (forall fuel x w args, W x w -> parse_flags defs (S fuel) (w ++ args) =
     match parse_flags defs fuel args with None => None | Some (l, rest) => Some (as_flag x :: l, rest) end) ->
  Forall2 W l words -> forall fuel, S (length (concat words)) <= fuel ->
  parse_flags defs fuel (concat words) = Some (map as_flag l, []).
Proof.
  intros Hl Hp H. induction H as [|x w l words H _ IH]; intros fuel Hf.
  - destruct fuel as [|fuel]; [cbn in Hf; lia|]. reflexivity.
  - cbn [concat map] in *. rewrite app_length in Hf. pose proof (Hl x w H). destruct fuel as [|fuel]; [lia|].
    rewrite (Hp fuel x w _ H). rewrite IH by lia. reflexivity.
Qed.

(** ** The last value of each flag *)
Lemma last_value_snoc l x name : last_value (l ++ [x]) name = if beqb (fst x) name then Some (snd x) else last_value l name.
Proof. unfold last_value. rewrite rev_app_distr. cbn [rev app find]. destruct (beqb (fst x) name); reflexivity. Qed.

Definition fnick a l := from_opt (a_nick a) (str_flag (map as_flag l) (B "nick")).
Definition freal a l := from_opt (a_real a) (str_flag (map as_flag l) (B "realname")).
Definition fadmin a l := from_opt (a_admin a) (bool_flag (map as_flag l) (B "admin")).
Definition fenabled a l := from_opt (a_enabled a) (bool_flag (map as_flag l) (B "enabled")).
Definition fmax a l := from_opt (a_max a) (int_flag (map as_flag l) (B "max-networks")).

Lemma apply_fields a l :
  a_name (apply_all a l) = a_name a /\ a_nick (apply_all a l) = fnick a l /\ a_real (apply_all a l) = freal a l /\
  a_admin (apply_all a l) = fadmin a l /\ a_enabled (apply_all a l) = fenabled a l /\ a_max (apply_all a l) = fmax a l.
Proof.
  induction l as [|x l IH] using rev_ind.
  - split; [reflexivity|]. split; [reflexivity|]. split; [reflexivity|]. split; [reflexivity|]. split; reflexivity.
  - unfold apply_all in *. rewrite fold_left_app. cbn [fold_left].
    unfold fnick, freal, fadmin, fenabled, fmax, str_flag, bool_flag, int_flag in *. rewrite map_app. cbn [map]. rewrite !last_value_snoc.
    destruct IH as (I1 & I2 & I3 & I4 & I5 & I6).
    destruct x as [p h| |n|r|b|b|t z]; cbn [apply as_flag fst snd a_name a_nick a_real a_admin a_enabled a_max];
      (split; [exact I1|]);
      repeat match goal with |- context [beqb (B ?x) (B ?y)] => let v := eval vm_compute in (beqb (B x) (B y)) in change (beqb (B x) (B y)) with v end; cbv iota;
      (split; [first [exact I2|reflexivity]|]); (split; [first [exact I3|reflexivity]|]); (split; [first [exact I4|reflexivity]|]);
      (split; [first [exact I5|reflexivity]|]); first [exact I6|reflexivity].
Qed.

(** The password. *)
Definition disabled l := from_opt false (bool_flag (map as_flag l) (B "disable-password")).
Definition newpass l := str_flag (map as_flag l) (B "password").

Lemma disabled_eq l : disabled l = existsb is_no_password l.
Proof.
  induction l as [|x l IH] using rev_ind; [reflexivity|]. unfold disabled, bool_flag in *. rewrite map_app. cbn [map].
  rewrite last_value_snoc, existsb_app. cbn [existsb].
  destruct x; cbn [as_flag fst snd is_no_password];
    repeat match goal with |- context [beqb (B ?x) (B ?y)] => let v := eval vm_compute in (beqb (B x) (B y)) in change (beqb (B x) (B y)) with v end; cbv iota;
    rewrite ?orb_false_r, ?orb_true_r; first [exact IH|reflexivity].
Qed.

Lemma newpass_some l : is_some (newpass l) = existsb is_password l.
Proof.
  induction l as [|x l IH] using rev_ind; [reflexivity|]. unfold newpass, str_flag in *. rewrite map_app. cbn [map].
  rewrite last_value_snoc, existsb_app. cbn [existsb].
  destruct x; cbn [as_flag fst snd is_password];
    repeat match goal with |- context [beqb (B ?x) (B ?y)] => let v := eval vm_compute in (beqb (B x) (B y)) in change (beqb (B x) (B y)) with v end; cbv iota;
    rewrite ?orb_false_r, ?orb_true_r; first [exact IH|reflexivity].
Qed.

Lemma pass_none l a : existsb is_password l = false -> a_pass (apply_all a l) = if existsb is_no_password l then [] else a_pass a.
Proof.
  induction l as [|x l IH] using rev_ind; [reflexivity|]. rewrite !existsb_app. cbn [existsb]. unfold apply_all in *. rewrite fold_left_app. cbn [fold_left].
  intros H. apply orb_false_iff in H as [H1 H2]. rewrite orb_false_r in H2.
  destruct x; try discriminate H2; cbn [apply a_pass is_no_password]; rewrite ?orb_false_r, ?orb_true_r; first [exact (IH H1)|reflexivity].
Qed.

(** The hash belongs to the last password. *)
Lemma pass_some (e : env) l a : (forall p h, In (Password p h) l -> e_hash e p = Some h) -> existsb is_no_password l = false ->
  match newpass l with Some p => e_hash e p | None => Some (a_pass a) end = Some (a_pass (apply_all a l)).
Proof.
  induction l as [|x l IH] using rev_ind; [reflexivity|]. intros Hh. rewrite existsb_app. cbn [existsb]. intros H.
  apply orb_false_iff in H as [H1 H2]. rewrite orb_false_r in H2. unfold apply_all in *. rewrite fold_left_app. cbn [fold_left].
  unfold newpass, str_flag in *. rewrite map_app. cbn [map]. rewrite last_value_snoc.
  assert (Hh' : forall p h, In (Password p h) l -> e_hash e p = Some h) by (intros p h Hi; apply Hh, in_or_app; left; exact Hi).
  destruct x; try discriminate H2; cbn [apply as_flag fst snd a_pass];
    repeat match goal with |- context [beqb (B ?x) (B ?y)] => let v := eval vm_compute in (beqb (B x) (B y)) in change (beqb (B x) (B y)) with v end; cbv iota;
    first [exact (IH Hh' H1)|idtac].
  apply Hh. apply in_or_app. right. left. reflexivity.
Qed.

Lemma no_flag (P : setting -> bool) name l : (forall x, fst (as_flag x) = name -> P x = false) -> forallb P l = true ->
  last_value (map as_flag l) name = None.
Proof.
  intros HP. induction l as [|x l IH] using rev_ind; [reflexivity|]. rewrite forallb_app. cbn [forallb]. intros H.
  apply andb_true_iff in H as [H1 H2]. rewrite andb_true_r in H2. rewrite map_app. cbn [map]. rewrite last_value_snoc.
  destruct (beqb_spec (fst (as_flag x)) name) as [E|E]; [rewrite (HP x E) in H2; discriminate|exact (IH H1)].
Qed.

Lemma account_eq a b : a_name a = a_name b -> a_pass a = a_pass b -> a_nick a = a_nick b -> a_real a = a_real b ->
  a_admin a = a_admin b -> a_enabled a = a_enabled b -> a_max a = a_max b -> a = b.
Proof. destruct a, b. cbn. intros. subst. reflexivity. Qed.

Section Data.
  Variable D : Type.
  Variable local : list bytes -> context -> account -> D -> list bytes -> D * list say * sresult.
  Variable refresh : account -> account -> D -> D.
  Variable kick : D -> D.
  Variable new_data : D.
  Notation update_user := (update_user D refresh kick).
  Notation user_update := (user_update D refresh kick).

  Lemma update_user_changed e s u a : e_db e = true -> e_net e = true ->
    exists s', update_user e s u a = (s', ROk) /\ changed s (a_name a) a s'.
  Proof.
    intros Hd Hn. unfold Service.update_user. rewrite Hd, Hn. cbn [negb]. eexists. split; [reflexivity|].
    unfold changed, set_user, set_db, store_account. cbn [sv_users sv_db sv_debug sv_notices sv_hung].
    split; [|split; [reflexivity|split; [reflexivity|split; reflexivity]]].
    rewrite map_map. apply map_ext. intros v. destruct (beqb (a_name (us_acc v)) (a_name a)); reflexivity.
  Qed.

  Lemma parse_update e l words : Forall2 (written e) l words -> parse_all (update_flags e) (concat words) = Some (map as_flag l).
  Proof.
    intros H. unfold parse_all. rewrite (parse_settings (written e) (update_flags e) l words); [reflexivity|intros x w; apply written_len| |exact H|lia].
    intros fuel x w args Hw. apply parse_setting. exact Hw.
  Qed.
  Lemma written_hash e l words : Forall2 (written e) l words -> forall p h, In (Password p h) l -> e_hash e p = Some h.
  Proof.
    induction 1 as [|x w l words Hw _ IH]; intros p h []; [subst x; exact (proj2 Hw)|apply IH; assumption].
  Qed.

  (** An account changed by an administrator. *)
  Lemma update_other_spec e cx stack (s : server D) name l words u :
    e_db e = true -> e_net e = true -> cx_admin cx = true -> name <> [] -> has_prefix name (B "-") = false ->
    cx_user cx <> Some name -> find_user s name = Some u -> bmem name (stack ++ sv_hung s) = false ->
    Forall2 (written e) l words -> one_password l -> forallb for_other l = true ->
    exists s', user_update e cx stack s (name :: concat words) = (s', [SDone], ROk) /\
               changed s name (apply_all (us_acc u) l) s'.
  Proof.
    intros Hd Hn Ha Hne Hpre Hcx Hf Hst Hw Hone Hfo.
    unfold Service.user_update, pop_arg. rewrite Hpre. cbn [negb]. rewrite (parse_update e l words Hw).
    replace (beqb name []) with false by (symmetry; apply beqb_neq; exact Hne). cbn [andb negb].
    pose proof (newpass_some l) as N1. pose proof (disabled_eq l) as N2. unfold newpass, disabled in N1, N2. rewrite N1, N2.
    replace (existsb is_password l && existsb is_no_password l) with false
      by (destruct Hone as [-> | ->]; [reflexivity|symmetry; apply andb_false_r]).
    replace (match cx_user cx with Some me => beqb name me | None => false end) with false.
    2:{ symmetry. destruct (cx_user cx) as [me|]; [|reflexivity]. apply beqb_neq. intros ->. apply Hcx. reflexivity. }
    cbn [negb]. unfold Service.update_other. rewrite Ha. cbn [negb].
    assert (Nn : str_flag (map as_flag l) (B "nick") = None).
    { unfold str_flag. rewrite (no_flag for_other); [reflexivity| |exact Hfo]. intros [ | | | | | | ] E; try (vm_compute in E; discriminate); reflexivity. }
    assert (Nr : str_flag (map as_flag l) (B "realname") = None).
    { unfold str_flag. rewrite (no_flag for_other); [reflexivity| |exact Hfo]. intros [ | | | | | | ] E; try (vm_compute in E; discriminate); reflexivity. }
    rewrite Nn, Nr. cbn [is_some]. rewrite N2.
    destruct (apply_fields (us_acc u) l) as (F1 & F2 & F3 & F4 & F5 & F6).
    unfold fnick, freal, fadmin, fenabled, fmax in *. rewrite Nn in F2. rewrite Nr in F3. cbn [from_opt] in F2, F3.
    assert (Hname : a_name (us_acc u) = name).
    { unfold find_user in Hf. apply find_some in Hf as [_ Hf]. apply beqb_eq in Hf. exact Hf. }
    assert (P : exists hashed,
      (match str_flag (map as_flag l) (B "password") with
       | Some p => match e_hash e p with Some h => Some (Some h) | None => None end | None => Some None end) = Some hashed /\
      from_opt (a_pass (us_acc u)) (if existsb is_no_password l then Some [] else hashed) = a_pass (apply_all (us_acc u) l)).
    { destruct (existsb is_no_password l) eqn:En.
      - destruct Hone as [Hone|Hone]; [|congruence]. rewrite (pass_none l (us_acc u) Hone), En.
        pose proof (newpass_some l) as N. rewrite Hone in N. unfold newpass in N.
        destruct (str_flag (map as_flag l) (B "password")); [discriminate N|]. exists None. split; reflexivity.
      - pose proof (pass_some e l (us_acc u) (written_hash e l words Hw) En) as P. unfold newpass in P.
        destruct (str_flag (map as_flag l) (B "password")) as [p|].
        + rewrite P. eexists. split; reflexivity.
        + exists None. split; [reflexivity|]. injection P as P. exact P. }
    destruct P as (hashed & -> & P). rewrite Hf, Hst.
    match goal with |- context [update_user e s u ?a] => replace a with (apply_all (us_acc u) l) end.
    2:{ apply account_eq; cbn [a_name a_pass a_nick a_real a_admin a_enabled a_max]; [exact F1|symmetry; exact P|exact F2|exact F3|exact F4|exact F5|exact F6]. }
    destruct (update_user_changed e s u (apply_all (us_acc u) l) Hd Hn) as (s' & -> & Hc).
    rewrite F1, Hname in Hc.
    set (hd := if existsb is_no_password l then Some [] else hashed). clearbody hd.
    destruct (is_some hd).
    - eexists. split; [reflexivity|]. unfold changed in *. unfold set_user. cbn [sv_users sv_db sv_debug sv_notices sv_hung].
      destruct Hc as (C1 & C2). split; [|exact C2]. rewrite <- C1, map_map. apply map_ext. intros v.
      destruct (beqb (a_name (us_acc v)) name); reflexivity.
    - exists s'. split; [reflexivity|exact Hc].
  Qed.

  (** Words that begin with a flag. *)
  Lemma written_dash e x w : written e x w -> exists t rest, w = ("-"%char :: t) :: rest.
  Proof.
    assert (F : forall name v w, flag_words name v w -> exists t rest, w = ("-"%char :: t) :: rest).
    { intros n v w0 (d & [-> | ->] & [-> | ->]); eexists; eexists; reflexivity. }
    destruct x; cbn [written].
    - intros [H _]. exact (F _ _ _ H).
    - intros (d & [-> | ->] & [-> | (t & _ & ->)]); eexists; eexists; reflexivity.
    - apply F.
    - apply F.
    - intros (t & _ & H). exact (F _ _ _ H).
    - intros (t & _ & H). exact (F _ _ _ H).
    - intros [H _]. exact (F _ _ _ H).
  Qed.

  Lemma pop_arg_settings e l words : Forall2 (written e) l words -> pop_arg (concat words) = ([], concat words).
  Proof.
    intros H. destruct H as [|x w l words Hw _]; [reflexivity|]. destruct (written_dash e x w Hw) as (t & rest & ->). reflexivity.
  Qed.

  (** One's own account: without a name, or with it. *)
  Lemma update_self_spec e cx stack (s : server D) me l words u pre :
    e_db e = true -> e_net e = true -> cx_user cx = Some me -> find_user s me = Some u ->
    pre = [] \/ (pre = [me] /\ has_prefix me (B "-") = false /\ me <> []) ->
    Forall2 (written e) l words -> one_password l -> forallb (for_self (cx_admin cx)) l = true ->
    exists s', user_update e cx stack s (pre ++ concat words) = (s', [SDone], ROk) /\
               changed s me (apply_all (us_acc u) l) s'.
  Proof.
    intros Hd Hn Hcx Hf Hpre Hw Hone Hfs.
    assert (E : exists name, pop_arg (pre ++ concat words) = (name, concat words) /\ (name = [] \/ name = me)).
    { destruct Hpre as [-> | (-> & Hp & _)].
      - cbn [app]. rewrite (pop_arg_settings e l words Hw). exists []. split; [reflexivity|left; reflexivity].
      - cbn [app]. unfold pop_arg. rewrite Hp. exists me. split; [reflexivity|right; reflexivity]. }
    destruct E as (name & E & En). unfold Service.user_update. rewrite E, (parse_update e l words Hw), Hcx. cbn [is_some negb]. rewrite andb_false_r.
    pose proof (newpass_some l) as N1. pose proof (disabled_eq l) as N2. unfold newpass, disabled in N1, N2. rewrite N1, N2.
    replace (existsb is_password l && existsb is_no_password l) with false
      by (destruct Hone as [-> | ->]; [reflexivity|symmetry; apply andb_false_r]).
    replace (negb (beqb name []) && negb (beqb name me)) with false.
    2:{ symmetry. destruct En as [-> | ->]; [reflexivity|]. rewrite beqb_refl. apply andb_false_r. }
    unfold Service.update_self. rewrite Hcx, Hf.
    assert (Na : bool_flag (map as_flag l) (B "admin") = None).
    { unfold bool_flag. rewrite (no_flag (for_self (cx_admin cx))); [reflexivity| |exact Hfs]. intros [ | | | | | | ] X; try (vm_compute in X; discriminate); reflexivity. }
    assert (Ne : bool_flag (map as_flag l) (B "enabled") = None).
    { unfold bool_flag. rewrite (no_flag (for_self (cx_admin cx))); [reflexivity| |exact Hfs]. intros [ | | | | | | ] X; try (vm_compute in X; discriminate); reflexivity. }
    assert (Nm : is_some (int_flag (map as_flag l) (B "max-networks")) && negb (cx_admin cx) = false).
    { destruct (cx_admin cx); [apply andb_false_r|]. unfold int_flag. rewrite (no_flag (for_self false)); [reflexivity| |exact Hfs].
      intros [ | | | | | | ] X; try (vm_compute in X; discriminate); reflexivity. }
    rewrite Na, Ne. cbn [is_some]. rewrite Nm. rewrite N2.
    destruct (apply_fields (us_acc u) l) as (F1 & F2 & F3 & F4 & F5 & F6).
    unfold fnick, freal, fadmin, fenabled, fmax in *. rewrite Na in F4. rewrite Ne in F5. cbn [from_opt] in F4, F5.
    assert (Hname : a_name (us_acc u) = me).
    { unfold find_user in Hf. apply find_some in Hf as [_ Hf]. apply beqb_eq in Hf. exact Hf. }
    assert (P : exists pass,
      (match str_flag (map as_flag l) (B "password") with Some p => e_hash e p | None => Some (a_pass (us_acc u)) end) = Some pass /\
      (if existsb is_no_password l then [] else pass) = a_pass (apply_all (us_acc u) l)).
    { destruct (existsb is_no_password l) eqn:Eno.
      - destruct Hone as [Hone|Hone]; [|congruence]. rewrite (pass_none l (us_acc u) Hone), Eno.
        pose proof (newpass_some l) as N. rewrite Hone in N. unfold newpass in N.
        destruct (str_flag (map as_flag l) (B "password")); [discriminate N|]. eexists. split; reflexivity.
      - pose proof (pass_some e l (us_acc u) (written_hash e l words Hw) Eno) as P. unfold newpass in P. rewrite P. eexists. split; reflexivity. }
    destruct P as (pass & -> & P). cbv zeta.
    match goal with |- context [update_user e s u ?a] => replace a with (apply_all (us_acc u) l) end.
    2:{ apply account_eq; cbn [a_name a_pass a_nick a_real a_admin a_enabled a_max]; [exact F1|symmetry; exact P|exact F2|exact F3|exact F4|exact F5|exact F6]. }
    destruct (update_user_changed e s u (apply_all (us_acc u) l) Hd Hn) as (s' & -> & Hc).
    rewrite F1, Hname in Hc. exists s'. split; [reflexivity|exact Hc].
  Qed.

  (** *** A new account *)
  Lemma find_app (A : Type) (f : A -> bool) x y : find f (x ++ y) = match find f x with Some v => Some v | None => find f y end.
  Proof. induction x as [|v x IH]; [reflexivity|]. cbn [app find]. destruct (f v); [reflexivity|exact IH]. Qed.

  Lemma last_value_cons x l name : last_value (x :: l) name =
    match last_value l name with Some v => Some v | None => if beqb (fst x) name then Some (snd x) else None end.
  Proof.
    unfold last_value. cbn [rev]. rewrite find_app. destruct (find _ (rev l)) as [v|]; [reflexivity|]. cbn [find option_map].
    destruct (beqb (fst x) name); reflexivity.
  Qed.

  Lemma written_new_hash e l words : Forall2 (written_new e) l words -> forall p h, In (Password p h) l -> e_hash e p = Some h.
  Proof.
    induction 1 as [|x w l words Hw _ IH]; intros p h []; [subst x; exact (proj2 Hw)|apply IH; assumption].
  Qed.

  Lemma newpass_in l p : newpass l = Some p -> exists h, In (Password p h) l.
  Proof.
    induction l as [|x l IH] using rev_ind; [discriminate|]. unfold newpass, str_flag in *. rewrite map_app. cbn [map]. rewrite last_value_snoc.
    intros H.
    destruct x; cbn [as_flag fst snd] in H;
    repeat match type of H with context [beqb (B ?x) (B ?y)] => let v := eval vm_compute in (beqb (B x) (B y)) in change (beqb (B x) (B y)) with v in H end; cbv iota in H;
    try (destruct (IH H) as [h0 Hh]; exists h0; apply in_or_app; left; exact Hh).
    injection H as ->. exists hash. apply in_or_app. right. left. reflexivity.
  Qed.

  Lemma create_spec e (s : server D) name l uw words :
    e_db e = true -> name <> [] -> find_user s name = None -> (forall b, In b (sv_db s) -> a_name b <> name) ->
    flag_words (B "username") name uw -> Forall2 (written_new e) l words -> one_password l ->
    existsb is_password l || existsb is_no_password l = true -> (forall p h, In (Password p h) l -> p <> []) ->
    let a := apply_all (Account name [] [] [] false true (-1)) l in
    user_create D new_data e s (uw ++ concat words) =
    (Server (sv_users s ++ [User a new_data]) (sv_db s ++ [a]) (sv_debug s) (sv_notices s) (sv_hung s), [SDone], ROk).
  Proof.
    intros Hd Hne Hf Hdb Hu Hw Hone Hsome Hpne. cbv zeta. unfold user_create, parse_all.
    rewrite (parse_flag_value (create_flags e) _ (B "username") KStr name (VStr name) uw); [|pname|exact Hu|reflexivity|discriminate|reflexivity].
    rewrite (parse_settings (written_new e) (create_flags e) l words); [|intros x w; apply written_new_len|intros fuel x w args H; apply parse_setting_new; exact H|exact Hw|].
    2:{ rewrite app_length. pose proof (flag_words_len _ _ _ Hu). lia. }
    assert (U : str_flag ((B "username", VStr name) :: map as_flag l) (B "username") = Some name).
    { unfold str_flag. rewrite last_value_cons. rewrite (no_flag (fun _ => true)); [reflexivity| |].
      - intros [ | | | | | | ] X; vm_compute in X; discriminate.
      - clear. induction l; [reflexivity|assumption]. }
    assert (O : forall n, beqb (B "username") n = false -> last_value ((B "username", VStr name) :: map as_flag l) n = last_value (map as_flag l) n).
    { intros n Hn. rewrite last_value_cons. cbn [fst snd]. rewrite Hn. destruct (last_value (map as_flag l) n); reflexivity. }
    assert (OS : forall n, beqb (B "username") n = false -> str_flag ((B "username", VStr name) :: map as_flag l) n = str_flag (map as_flag l) n)
      by (intros n Hn; unfold str_flag; rewrite (O n Hn); reflexivity).
    assert (OB : forall n, beqb (B "username") n = false -> bool_flag ((B "username", VStr name) :: map as_flag l) n = bool_flag (map as_flag l) n)
      by (intros n Hn; unfold bool_flag; rewrite (O n Hn); reflexivity).
    assert (OI : forall n, beqb (B "username") n = false -> int_flag ((B "username", VStr name) :: map as_flag l) n = int_flag (map as_flag l) n)
      by (intros n Hn; unfold int_flag; rewrite (O n Hn); reflexivity).
    rewrite U. rewrite !OS, !OB, !OI by (vm_compute; reflexivity). clear U O OS OB OI. cbn [from_opt].
    replace (beqb name []) with false by (symmetry; apply beqb_neq; exact Hne).
    pose proof (newpass_some l) as N1. pose proof (disabled_eq l) as N2. unfold newpass, disabled in N1, N2. rewrite N2.
    set (a0 := Account name [] [] [] false true (-1)).
    assert (E1 : negb (beqb (from_opt [] (str_flag (map as_flag l) (B "password"))) []) = existsb is_password l).
    { rewrite <- N1. pose proof (newpass_in l) as Hin. unfold newpass in Hin.
      destruct (str_flag (map as_flag l) (B "password")) as [p|]; [|reflexivity]. cbn [from_opt is_some].
      destruct (Hin p eq_refl) as [h Hi]. replace (beqb p []) with false by (symmetry; apply beqb_neq; exact (Hpne p h Hi)). reflexivity. }
    assert (E2 : beqb (from_opt [] (str_flag (map as_flag l) (B "password"))) [] = negb (existsb is_password l)) by (rewrite <- E1, negb_involutive; reflexivity).
    rewrite E2. rewrite negb_involutive.
    replace (existsb is_password l && existsb is_no_password l) with false
      by (destruct Hone as [-> | ->]; [reflexivity|symmetry; apply andb_false_r]).
    rewrite <- negb_orb, Hsome. cbn [negb].
    assert (P : (if existsb is_no_password l then Some [] else e_hash e (from_opt [] (str_flag (map as_flag l) (B "password")))) = Some (a_pass (apply_all a0 l))).
    { destruct (existsb is_no_password l) eqn:En.
      - destruct Hone as [Hone|Hone]; [|congruence]. rewrite (pass_none l a0 Hone), En. reflexivity.
      - pose proof (pass_some e l a0 (written_new_hash e l words Hw) En) as P. unfold newpass in P.
        rewrite orb_false_r in Hsome. rewrite Hsome in N1.
        destruct (str_flag (map as_flag l) (B "password")) as [p|]; [|discriminate N1]. exact P. }
    rewrite P, Hf. cbn [is_some].
    replace (existsb (fun b : account => beqb (a_name b) name) (sv_db s)) with false.
    2:{ symmetry. apply not_true_iff_false. intros X. apply existsb_exists in X as (b & Hb & X). apply beqb_eq in X. exact (Hdb b Hb X). }
    rewrite Hd. cbn [negb orb].
    destruct (apply_fields a0 l) as (F1 & F2 & F3 & F4 & F5 & F6).
    match goal with |- context [User ?a new_data] => replace a with (apply_all a0 l) end; [reflexivity|].
    apply account_eq; cbn [a_name a_pass a_nick a_real a_admin a_enabled a_max]; [exact F1|reflexivity|exact F2|exact F3|exact F4|exact F5|exact F6].
  Qed.
End Data.
