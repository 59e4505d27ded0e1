From Verif.Base Require Import Bytes Path.
From Verif.Model Require Import Upload.
From Verif.Spec Require Import Upload.
From Verif.Proof Require Import LogPath.

Lemma load_path_names dir names :
  names <> [] -> Forall safe_name names -> load_path dir (join (B "/") names) = place (clean dir) names.
Proof.
  intros Hn Hs. rewrite <- path_join_safe by assumption. unfold load_path, path_join. cbn [filter].
  assert (F : filter nonempty names = names).
  { clear Hn. induction Hs as [|n names (H & _) _ IH]; [reflexivity|]. destruct n; [congruence|]. simpl. rewrite IH. reflexivity. }
  rewrite F. destruct Hs as [|n names (H & _) Hs]; [congruence|].
  assert (N : nonempty (join (B "/") (n :: names)) = true) by (destruct n; [congruence|]; destruct names; reflexivity).
  rewrite N. destruct dir as [|c dir]; reflexivity.
Qed.

Lemma fetch_name_names url f :
  fetch_name url = Some f -> exists names, names <> [] /\ Forall safe_name names /\ f = join (B "/") names.
Proof.
  unfold fetch_name. destruct (has_prefix url (B "/uploads/")); [|discriminate].
  destruct (rooted_join_safe (skipn (length (B "/uploads/")) url)) as (names & Hs & E). rewrite E.
  change (skipn 1 (B "/" ++ ?x)) with x.
  destruct (join (B "/") names) eqn:Ej; [discriminate|]. intros H. injection H as <-.
  exists names. split; [intros ->; discriminate|]. split; [exact Hs|]. symmetry; exact Ej.
Qed.

Lemma fetch_below dir url p : fetch_path dir url = Some p -> below (clean dir) p.
Proof.
  unfold fetch_path. destruct (fetch_name url) as [f|] eqn:E; [|discriminate]. intros H. injection H as <-.
  apply fetch_name_names in E as (names & Hn & Hs & ->). exists names. split; [exact Hn|]. split; [exact Hs|].
  apply load_path_names; assumption.
Qed.

(** Every ordinary relative path is looked up unchanged. *)
Lemma fetch_names dir names :
  names <> [] -> Forall safe_name names ->
  fetch_path dir (B "/uploads/" ++ join (B "/") names) = Some (place (clean dir) names).
Proof.
  intros Hn Hs. unfold fetch_path, fetch_name.
  assert (P : has_prefix (B "/uploads/" ++ join (B "/") names) (B "/uploads/") = true) by (apply has_prefix_iff; eexists; reflexivity).
  rewrite P. rewrite skipn_app, skipn_all, Nat.sub_diag. cbn [app skipn].
  pose proof (load_path_names (B "/") names Hn Hs) as E. unfold load_path in E. rewrite E.
  change (place (clean (B "/")) names) with (B "/" ++ join (B "/") names).
  assert (N : join (B "/") names <> []).
  { destruct Hs as [|n names (H & _) Hs]; [congruence|]. destruct n; [congruence|]. destruct names; discriminate. }
  change (match B "/" ++ ?x with [] => [] | _ :: l => l end) with x.
  destruct (join (B "/") names) eqn:Ej; [congruence|]. rewrite <- Ej.
  rewrite load_path_names by assumption. reflexivity.
Qed.

Lemma pick_file_spec ex dir orig suffix tokens p :
  pick_file ex dir orig suffix tokens = Some p ->
  ex p = false /\ exists t, In t tokens /\ p = path_join [dir; upload_name t orig suffix].
Proof.
  induction tokens as [|t tokens IH]; cbn [pick_file]; [discriminate|].
  destruct (ex (path_join [dir; upload_name t orig suffix])) eqn:E.
  - intros H. destruct (IH H) as (H1 & t' & Ht & H2). split; [exact H1|]. exists t'. split; [right; exact Ht|exact H2].
  - intros H. injection H as <-. split; [exact E|]. exists t. split; [left; reflexivity|reflexivity].
Qed.

Lemma drop_slashes_id s c : c <> "/"%char -> drop_slashes (s ++ [c]) = s ++ [c].
Proof.
  intros Hc. induction s as [|x s IH].
  - simpl. apply aeqb_neq in Hc. rewrite Hc. reflexivity.
  - cbn [app drop_slashes]. rewrite IH. destruct s; reflexivity.
Qed.

Lemma path_base_app pre n : n <> [] -> ~ In "/"%char n -> path_base (pre ++ "/"%char :: n) = n.
Proof.
  intros Hn Hs. unfold path_base.
  assert (E : drop_slashes (pre ++ "/"%char :: n) = pre ++ "/"%char :: n).
  { destruct (exists_last Hn) as (n' & c & ->).
    change (pre ++ "/"%char :: n' ++ [c]) with (pre ++ ("/"%char :: n') ++ [c]). rewrite app_assoc.
    apply drop_slashes_id. intros ->. apply Hs. apply in_or_app. right. left. reflexivity. }
  destruct (pre ++ "/"%char :: n) eqn:E0; [destruct pre; discriminate|]. rewrite <- E0 in *. rewrite E.
  destruct (pre ++ "/"%char :: n) eqn:E1; [destruct pre; discriminate|]. rewrite <- E1 in *.
  rewrite split_on_app2, (split_on_nosep _ n) by exact Hs. apply last_last.
Qed.

Lemma place_two dir u n : exists pre, place dir [u; n] = pre ++ "/"%char :: n.
Proof.
  unfold place. cbn [join]. destruct (beqb dir (B "/")); [|destruct (beqb dir (B "."))].
  - exists (B "/" ++ u). rewrite <- app_assoc. reflexivity.
  - exists u. reflexivity.
  - exists (dir ++ B "/" ++ u). rewrite <- !app_assoc. reflexivity.
Qed.

Lemma upload_name_safe t orig suffix :
  t <> [] -> (forall c, In c t -> is_digit c = true \/ In c (B "abcdef")) ->
  ~ In "/"%char orig -> ~ In "/"%char suffix -> safe_name (upload_name t orig suffix).
Proof.
  intros Ht Hc Ho Hs. destruct t as [|c t]; [congruence|].
  assert (Hd : c <> "."%char).
  { intros ->. destruct (Hc "."%char (or_introl eq_refl)) as [H|H]; [discriminate|]. simpl in H. intuition discriminate. }
  unfold upload_name. split; [discriminate|].
  split; [intros E; injection E as -> _; congruence|]. split; [intros E; injection E as -> _; congruence|].
  intros H. apply in_app_or in H as [H|H].
  - destruct (Hc _ H) as [H'|H']; [discriminate|]. simpl in H'. intuition discriminate.
  - apply in_app_or in H as [H|H]; [|contradiction]. destruct orig as [|o orig]; [contradiction|].
    apply in_app_or in H as [H|H]; [simpl in H; intuition discriminate|contradiction].
Qed.

Lemma path_join_two a b : path_join [a; b] = load_path a b.
Proof. reflexivity. Qed.

Lemma store_spec ex root user orig suffix tokens p :
  tokens_ok tokens -> safe_name user -> ~ In "/"%char orig -> ~ In "/"%char suffix ->
  store_upload ex root user orig suffix tokens = Some p ->
  exists t, In t tokens /\ ex p = false /\ safe_name (upload_name t orig suffix) /\
    p = place (clean root) [user; upload_name t orig suffix].
Proof.
  intros Ht Hu Ho Hs H. unfold store_upload in H.
  apply pick_file_spec in H as (H1 & t & Hin & H2).
  assert (Hin' : In t tokens).
  { rewrite <- (firstn_skipn 100 tokens). apply in_or_app. left. exact Hin. }
  unfold tokens_ok in Ht. rewrite Forall_forall in Ht. destruct (Ht t Hin') as [T1 T2].
  pose proof (upload_name_safe t orig suffix T1 T2 Ho Hs) as Hn.
  exists t. split; [exact Hin'|]. split; [exact H1|]. split; [exact Hn|].
  assert (E1 : path_join [root; user] = place (clean root) [user]) by (apply path_join_safe; [discriminate|constructor; [exact Hu|constructor]]).
  rewrite H2, E1. rewrite path_join_safe by (discriminate || (constructor; [exact Hn|constructor])).
  rewrite clean_place by (discriminate || (constructor; [exact Hu|constructor])).
  rewrite place_app by (discriminate || (constructor; [exact Hu|constructor])). reflexivity.
Qed.

Lemma stored_file_fetched ex root user orig suffix tokens p :
  tokens_ok tokens -> safe_name user -> ~ In "/"%char orig -> ~ In "/"%char suffix ->
  store_upload ex root user orig suffix tokens = Some p ->
  (exists name, safe_name name /\ p = place (clean root) [user; name]) /\
  fetch_path root (B "/uploads/" ++ upload_url user p) = Some p /\
  (orig <> [] -> shown_name (upload_url user p) = orig ++ suffix).
Proof.
  intros Ht Hu Ho Hs H.
  destruct (store_spec _ _ _ _ _ _ _ Ht Hu Ho Hs H) as (t & Hin & Hex & Hn & ->).
  set (name := upload_name t orig suffix) in *.
  assert (Eb : path_base (place (clean root) [user; name]) = name).
  { destruct (place_two (clean root) user name) as [pre ->].
    apply path_base_app; [apply Hn|apply Hn]. }
  unfold upload_url. rewrite Eb. split; [exists name; split; [exact Hn|reflexivity]|]. split.
  - change (user ++ B "/" ++ name) with (join (B "/") [user; name]). apply fetch_names; [discriminate|].
    constructor; [exact Hu|constructor; [exact Hn|constructor]].
  - intros Hor. unfold shown_name.
    change (user ++ B "/" ++ name) with (user ++ "/"%char :: name).
    rewrite path_base_app by apply Hn. unfold name, upload_name.
    destruct orig as [|o orig]; [congruence|].
    change (B "-" ++ (o :: orig)) with ("-"%char :: o :: orig). rewrite <- app_comm_cons.
    rewrite cut_on_app; [reflexivity|].
    unfold tokens_ok in Ht. rewrite Forall_forall in Ht. destruct (Ht t Hin) as [_ T2].
    intros Hm. destruct (T2 _ Hm) as [H'|H']; [discriminate|]. simpl in H'. intuition discriminate.
Qed.
