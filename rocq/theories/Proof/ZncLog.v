From Verif.Base Require Import Bytes.
From Verif.Model Require Import Message TimeFmt ZncLog.
From Verif.Spec Require Import ZncLog.
From Verif.Proof Require Import TimeFmt.
From Coq Require Import ZArith.

Lemma after_prefix_app p s : after_prefix p (p ++ s) = Some s.
Proof. induction p as [|c p IH]; [reflexivity|]. cbn. rewrite aeqb_refl. exact IH. Qed.

Lemma cut1_app c a b : ~ In c a -> cut1 c (a ++ c :: b) = Some (a, b).
Proof. intros H. unfold cut1. rewrite cut_on_app by exact H. reflexivity. Qed.

(** The separator "x " is found right after a word. *)
Lemma cut2_word x s t : x <> " "%char -> word s -> cut2 x " " (s ++ x :: " "%char :: t) = Some (s, t).
Proof.
  intros Hx. induction s as [|c s IH]; intros Hs.
  - cbn. rewrite !aeqb_refl. reflexivity.
  - assert (Hs' : word s) by (intros K; apply Hs; right; exact K).
    specialize (IH Hs').
    assert (E : cut2 x " " (c :: (s ++ x :: " "%char :: t)) =
      match cut2 x " " (s ++ x :: " "%char :: t) with Some (u, v) => Some (c :: u, v) | None => None end).
    { destruct (s ++ x :: " "%char :: t) as [|y r] eqn:Es; [destruct s; discriminate|].
      assert (Hy : aeqb y " " = false).
      { apply aeqb_neq. destruct s as [|y' s'].
        - cbn in Es. injection Es as <- _. exact Hx.
        - cbn in Es. injection Es as <- _. intros ->. apply Hs'. left. reflexivity. }
      cbn [cut2]. rewrite Hy, andb_false_r. reflexivity. }
    change ((c :: s) ++ x :: " "%char :: t) with (c :: (s ++ x :: " "%char :: t)). rewrite E, IH. reflexivity.
Qed.

Lemma trim_prefix_app c s : trim_prefix1 c (c :: s) = s.
Proof. cbn. rewrite aeqb_refl. reflexivity. Qed.

Lemma trim_suffix_app c s : trim_suffix1 c (s ++ [c]) = s.
Proof. unfold trim_suffix1. rewrite rev_app_distr. cbn [rev app trim_prefix1]. rewrite aeqb_refl. apply rev_involutive. Qed.

Lemma stamp_read own entity events h m s l : clock h m s ->
  unmarshal_line own entity events (B "[" ++ pad 2 h ++ B ":" ++ pad 2 m ++ B ":" ++ pad 2 s ++ B "] " ++ l) =
  Some (match read_body own entity events l with Some x => Some (x, (h, m, s)) | None => None end).
Proof.
  intros (Hh & Hm & Hs). unfold unmarshal_line. rewrite after_prefix_app.
  change (B ":") with [":"%char]. change (B "] " ++ l) with ("]"%char :: " "%char :: l). cbn [app].
  rewrite (take_num_pad 2 ":" h) by (change (10 ^ Z.of_nat 2)%Z with 100%Z; lia).
  rewrite (take_num_pad 2 ":" m) by (change (10 ^ Z.of_nat 2)%Z with 100%Z; lia).
  rewrite (take_num_pad 2 "]" s) by (change (10 ^ Z.of_nat 2)%Z with 100%Z; lia).
  change (" "%char :: l) with (B " " ++ l). rewrite after_prefix_app. reflexivity.
Qed.

Lemma marshal_stamp p c ps h m s l : format_log p c ps = l -> l <> [] ->
  marshal_line p c ps h m s = B "[" ++ pad 2 h ++ B ":" ++ pad 2 m ++ B ":" ++ pad 2 s ++ B "] " ++ l.
Proof. intros <- Hl. unfold marshal_line. destruct (format_log p c ps); [contradiction|reflexivity]. Qed.

(** Writing and reading a line whose body is [l]. *)
Lemma line_roundtrip own entity events p c ps h m s l x : clock h m s ->
  format_log p c ps = l -> l <> [] -> read_body own entity events l = Some x ->
  unmarshal_line own entity events (marshal_line p c ps h m s) = Some (Some (x, (h, m, s))).
Proof. intros Hc Hf Hl Hr. rewrite (marshal_stamp p c ps h m s l Hf Hl), stamp_read, Hr by exact Hc. reflexivity. Qed.

Lemma line_skipped own entity events p c ps h m s l : clock h m s ->
  format_log p c ps = l -> l <> [] -> read_body own entity events l = None ->
  unmarshal_line own entity events (marshal_line p c ps h m s) = Some None.
Proof. intros Hc Hf Hl Hr. rewrite (marshal_stamp p c ps h m s l Hf Hl), stamp_read, Hr by exact Hc. reflexivity. Qed.

(** ** CTCP *)

Lemma drop_ctcp_stop c s : c <> ctcp_byte -> drop_ctcp (c :: s) = c :: s.
Proof. intros H. cbn. apply aeqb_neq in H. rewrite H. reflexivity. Qed.

Lemma trim_action ps : (forall ps', ps <> ps' ++ ["001"%char]) ->
  trim_ctcp (ctcp_byte :: B "ACTION " ++ ps ++ [ctcp_byte]) = B "ACTION " ++ ps.
Proof.
  intros H. unfold trim_ctcp.
  assert (E : drop_ctcp (ctcp_byte :: B "ACTION " ++ ps ++ [ctcp_byte]) = (B "ACTION " ++ ps) ++ [ctcp_byte]) by (rewrite <- app_assoc; reflexivity).
  rewrite E, rev_app_distr. cbn [rev app].
  assert (E2 : drop_ctcp (ctcp_byte :: rev (B "ACTION " ++ ps)) = drop_ctcp (rev (B "ACTION " ++ ps))) by reflexivity.
  rewrite E2. assert (Hd : drop_ctcp (rev (B "ACTION " ++ ps)) = rev (B "ACTION " ++ ps)).
  { destruct ps as [|x ps'] using rev_ind; [reflexivity|].
    rewrite app_assoc, rev_app_distr. cbn [rev app]. apply drop_ctcp_stop. intros ->. apply (H ps'). reflexivity. }
  rewrite Hd. apply rev_involutive.
Qed.

(** Trimming keeps the first word when it is followed by a space. *)
Lemma trim_ctcp_word w rest : word w -> ~ In "001"%char w -> w <> [] ->
  fst (cut_on " " (trim_ctcp (ctcp_byte :: w ++ " "%char :: rest))) = w.
Proof.
  intros Hw Hn Hne. unfold trim_ctcp.
  assert (E : drop_ctcp (ctcp_byte :: w ++ " "%char :: rest) = w ++ " "%char :: rest).
  { destruct w as [|c w]; [contradiction|]. cbn. destruct (aeqb_spec c ctcp_byte) as [->|]; [|reflexivity].
    exfalso. apply Hn. left. reflexivity. }
  rewrite E. rewrite rev_app_distr. cbn [rev]. rewrite <- app_assoc.
  assert (K : forall u, exists v, drop_ctcp (u ++ [" "%char] ++ rev w) = v ++ [" "%char] ++ rev w).
  { induction u as [|c u IH]; [exists []; reflexivity|]. cbn [app drop_ctcp]. destruct (aeqb c ctcp_byte); [exact IH|].
    exists (c :: u). reflexivity. }
  destruct (K (rev rest)) as [v Hv]. rewrite Hv. rewrite !rev_app_distr, rev_involutive. cbn [rev app].
  rewrite <- app_assoc. cbn [app]. rewrite cut_on_app by exact Hw. reflexivity.
Qed.

(** The body written for a chat message, and its reading. *)
Lemma read_privmsg own entity events sender text : word sender ->
  read_body own entity events (B "<" ++ sender ++ B "> " ++ text) =
  Some (LogMsg (nick_prefix sender) (B "PRIVMSG") [if beqb entity sender then own else entity; text]).
Proof.
  intros Hs. assert (E : read_body own entity events (B "<" ++ sender ++ B "> " ++ text) = read_message own entity (B "<" ++ sender ++ B "> " ++ text))
    by (destruct events; reflexivity).
  rewrite E. unfold read_message. rewrite after_prefix_app.
  change (B "> " ++ text) with (">"%char :: " "%char :: text). rewrite cut2_word by (try discriminate; exact Hs). reflexivity.
Qed.

Lemma read_notice own entity events sender text : word sender ->
  read_body own entity events (B "-" ++ sender ++ B "- " ++ text) =
  Some (LogMsg (nick_prefix sender) (B "NOTICE") [if beqb entity sender then own else entity; text]).
Proof.
  intros Hs. assert (E : read_body own entity events (B "-" ++ sender ++ B "- " ++ text) = read_message own entity (B "-" ++ sender ++ B "- " ++ text))
    by (destruct events; reflexivity).
  rewrite E. unfold read_message.
  assert (E1 : after_prefix (B "<") (B "-" ++ sender ++ B "- " ++ text) = None) by reflexivity.
  rewrite E1, after_prefix_app.
  change (B "- " ++ text) with ("-"%char :: " "%char :: text). rewrite cut2_word by (try discriminate; exact Hs). reflexivity.
Qed.

Lemma read_action own entity events sender text : word sender ->
  read_body own entity events (B "* " ++ sender ++ B " " ++ text) =
  Some (LogMsg (nick_prefix sender) (B "PRIVMSG") [if beqb entity sender then own else entity; ctcp_byte :: B "ACTION " ++ text ++ [ctcp_byte]]).
Proof.
  intros Hs. assert (E : read_body own entity events (B "* " ++ sender ++ B " " ++ text) = read_message own entity (B "* " ++ sender ++ B " " ++ text))
    by (destruct events; reflexivity).
  rewrite E. unfold read_message.
  assert (E1 : after_prefix (B "<") (B "* " ++ sender ++ B " " ++ text) = None) by reflexivity.
  assert (E2 : after_prefix (B "-") (B "* " ++ sender ++ B " " ++ text) = None) by reflexivity.
  rewrite E1, E2, after_prefix_app. change (B " " ++ text) with (" "%char :: text). rewrite cut1_app by exact Hs. reflexivity.
Qed.

Lemma format_privmsg p target text :
  format_log p (B "PRIVMSG") [target; text] =
  match parse_ctcp (B "PRIVMSG") [target; text] with
  | Some (c, ps) => if beqb c (B "ACTION") then B "* " ++ p_name p ++ B " " ++ ps else B "<" ++ p_name p ++ B "> " ++ text
  | None => B "<" ++ p_name p ++ B "> " ++ text
  end.
Proof. reflexivity. Qed.

Lemma privmsg_roundtrip own entity events p target text h m s :
  clock h m s -> word (p_name p) -> chat_text text ->
  unmarshal_line own entity events (marshal_line p (B "PRIVMSG") [target; text] h m s) =
  Some (Some (LogMsg (nick_prefix (p_name p)) (B "PRIVMSG") [if beqb entity (p_name p) then own else entity; text], (h, m, s))).
Proof.
  intros Hc Hs Ht. destruct Ht as [t Ht|w rest Hw Hn Hne Ha Hu|ps Hp].
  - apply (line_roundtrip _ _ _ _ _ _ _ _ _ (B "<" ++ p_name p ++ B "> " ++ t) _ Hc).
    + rewrite format_privmsg. unfold parse_ctcp. change (beqb (B "PRIVMSG") (B "PRIVMSG") || beqb (B "PRIVMSG") (B "NOTICE")) with true.
      cbv iota. destruct t as [|c t]; [reflexivity|]. destruct (aeqb_spec c ctcp_byte) as [->|]; [|reflexivity].
      exfalso. apply (Ht t). reflexivity.
    + discriminate.
    + apply read_privmsg. exact Hs.
  - apply (line_roundtrip _ _ _ _ _ _ _ _ _ (B "<" ++ p_name p ++ B "> " ++ ("001"%char :: w ++ " "%char :: rest)) _ Hc).
    + rewrite format_privmsg. unfold parse_ctcp. change (beqb (B "PRIVMSG") (B "PRIVMSG") || beqb (B "PRIVMSG") (B "NOTICE")) with true.
      cbv iota. change (aeqb "001" ctcp_byte) with true. cbv iota.
      pose proof (trim_ctcp_word w rest Hw Hn Hne) as E. change (ctcp_byte :: w ++ " "%char :: rest) with ("001"%char :: w ++ " "%char :: rest) in E.
      assert (Hb : beqb (to_upper w) (B "ACTION") = false) by (apply beqb_neq; exact Hu).
      destruct (cut_on " " (trim_ctcp _)) as [u [v|]]; cbn [fst] in E; subst u; rewrite Hb; reflexivity.
    + discriminate.
    + apply read_privmsg. exact Hs.
  - apply (line_roundtrip _ _ _ _ _ _ _ _ _ (B "* " ++ p_name p ++ B " " ++ ps) _ Hc).
    + rewrite format_privmsg. unfold parse_ctcp. change (beqb (B "PRIVMSG") (B "PRIVMSG") || beqb (B "PRIVMSG") (B "NOTICE")) with true.
      cbv iota. change (aeqb "001" ctcp_byte) with true. cbv iota.
      pose proof (trim_action ps Hp) as E. change (ctcp_byte :: B "ACTION " ++ ps ++ [ctcp_byte]) with ("001"%char :: B "ACTION " ++ ps ++ ["001"%char]) in E.
      rewrite E. assert (Ec : cut_on " " (B "ACTION " ++ ps) = (B "ACTION", Some ps)) by (apply (cut_on_app " " (B "ACTION") ps); vm_compute; intuition discriminate).
      rewrite Ec. reflexivity.
    + discriminate.
    + apply read_action. exact Hs.
Qed.

Lemma notice_roundtrip own entity events p target text h m s :
  clock h m s -> word (p_name p) ->
  unmarshal_line own entity events (marshal_line p (B "NOTICE") [target; text] h m s) =
  Some (Some (LogMsg (nick_prefix (p_name p)) (B "NOTICE") [if beqb entity (p_name p) then own else entity; text], (h, m, s))).
Proof.
  intros Hc Hs. apply (line_roundtrip _ _ _ _ _ _ _ _ _ (B "-" ++ p_name p ++ B "- " ++ text) _ Hc); [reflexivity|discriminate|].
  apply read_notice. exact Hs.
Qed.

(** ** Events *)

Lemma read_event own entity kind rest : word kind ->
  read_body own entity true (B "*** " ++ kind ++ B " " ++ rest) =
  if bmem kind [B "Joins:"; B "Parts:"; B "Quits:"] then read_mask kind entity rest else read_other kind entity rest.
Proof.
  intros Hk. unfold read_body. rewrite after_prefix_app. change (B " " ++ rest) with (" "%char :: rest).
  rewrite cut1_app by exact Hk. reflexivity.
Qed.

Lemma read_event_off own entity rest : read_body own entity false (B "*** " ++ rest) = None.
Proof. reflexivity. Qed.

Definition mask (p : prefix) : bytes := B "(" ++ p_user p ++ B "@" ++ p_host p ++ B ")".

Lemma mask_cut p : ~ In "@"%char (p_user p) ->
  cut1 "@" (trim_suffix1 ")" (trim_prefix1 "(" (mask p))) = Some (p_user p, p_host p).
Proof.
  intros H. unfold mask. change (B "(" ++ ?x) with ("("%char :: x). rewrite trim_prefix_app.
  rewrite !app_assoc. rewrite trim_suffix_app, <- app_assoc. change (B "@" ++ p_host p) with ("@"%char :: p_host p).
  apply cut1_app. exact H.
Qed.

Lemma mask_word p : word (p_user p) -> word (p_host p) -> word (mask p).
Proof.
  intros H1 H2 K. unfold mask in K. rewrite !in_app_iff in K.
  destruct K as [K|[K|[K|[K|K]]]]; try contradiction; cbn in K; destruct K as [K|[]]; discriminate.
Qed.

Lemma read_mask_reason p kind entity reason : word (p_name p) -> word (p_user p) -> word (p_host p) -> ~ In "@"%char (p_user p) ->
  read_mask kind entity (p_name p ++ B " " ++ mask p ++ B " (" ++ reason ++ B ")") =
  (if beqb kind (B "Joins:") then Some (LogMsg p (B "JOIN") [entity])
   else if beqb kind (B "Parts:") then Some (LogMsg p (B "PART") (entity :: opt_param reason))
   else Some (LogMsg p (B "QUIT") (opt_param reason))).
Proof.
  intros H1 H2 H3 H4. unfold read_mask. change (B " " ++ ?x) with (" "%char :: x). rewrite cut1_app by exact H1.
  change (B " (" ++ reason ++ B ")") with (" "%char :: "("%char :: reason ++ [")"%char]).
  rewrite cut_on_app by (apply mask_word; assumption). rewrite mask_cut by exact H4.
  rewrite trim_prefix_app, trim_suffix_app. destruct p; reflexivity.
Qed.

Lemma read_mask_join p entity : word (p_name p) -> word (p_user p) -> word (p_host p) -> ~ In "@"%char (p_user p) ->
  read_mask (B "Joins:") entity (p_name p ++ B " " ++ mask p) = Some (LogMsg p (B "JOIN") [entity]).
Proof.
  intros H1 H2 H3 H4. unfold read_mask. change (B " " ++ ?x) with (" "%char :: x). rewrite cut1_app by exact H1.
  rewrite cut_on_nosep by (apply mask_word; assumption). rewrite mask_cut by exact H4. destruct p; reflexivity.
Qed.

(** Events as they are written. *)
Inductive event_line (p : prefix) : bytes -> list bytes -> bytes -> Prop :=
| ev_join e : event_line p (B "JOIN") [e] (B "Joins:" ++ B " " ++ p_name p ++ B " " ++ mask p)
| ev_part e r : event_line p (B "PART") (e :: r) (B "Parts:" ++ B " " ++ p_name p ++ B " " ++ mask p ++ B " (" ++ param 0 r ++ B ")")
| ev_quit r : event_line p (B "QUIT") r (B "Quits:" ++ B " " ++ p_name p ++ B " " ++ mask p ++ B " (" ++ param 0 r ++ B ")")
| ev_nick n : event_line p (B "NICK") [n] (p_name p ++ B " " ++ B "is now known as " ++ n)
| ev_kick e n r : event_line p (B "KICK") (e :: n :: r) (n ++ B " " ++ B "was kicked by " ++ p_name p ++ B " (" ++ param 0 r ++ B ")")
| ev_topic e t : event_line p (B "TOPIC") [e; t] (p_name p ++ B " " ++ B "changes topic to " ++ B "'" ++ t ++ B "'")
| ev_mode e ms : event_line p (B "MODE") (e :: ms) (p_name p ++ B " " ++ B "sets mode: " ++ join (B " ") ms).

Lemma format_event p c ps l : event_line p c ps l -> format_log p c ps = B "*** " ++ l.
Proof. intros []; reflexivity. Qed.

Lemma event_skipped own entity p c ps l h m s : clock h m s -> event_line p c ps l ->
  unmarshal_line own entity false (marshal_line p c ps h m s) = Some None.
Proof.
  intros Hc He. apply (line_skipped _ _ _ _ _ _ _ _ _ (B "*** " ++ l) Hc).
  - apply format_event. exact He.
  - discriminate.
  - apply read_event_off.
Qed.

Lemma other_kind k : word k -> ~ In ":"%char k -> bmem k [B "Joins:"; B "Parts:"; B "Quits:"] = false.
Proof.
  intros _ H. apply bmem_nIn. cbn [In]. intros K. apply H.
  destruct K as [<-|[<-|[<-|[]]]]; vm_compute; auto 10.
Qed.

Lemma read_event_line own entity k l x : word k ->
  (if bmem k [B "Joins:"; B "Parts:"; B "Quits:"] then read_mask k entity l else read_other k entity l) = Some x ->
  read_body own entity true (B "*** " ++ k ++ B " " ++ l) = Some x.
Proof. intros Hk H. rewrite read_event by exact Hk. exact H. Qed.

Section Events.
Variables (own entity : bytes) (p : prefix) (h m s : Z).
Hypothesis Hc : clock h m s.
Hypothesis Hn : word (p_name p).

Lemma join_roundtrip : word (p_user p) -> word (p_host p) -> ~ In "@"%char (p_user p) ->
  unmarshal_line own entity true (marshal_line p (B "JOIN") [entity] h m s) =
  Some (Some (LogMsg p (B "JOIN") [entity], (h, m, s))).
Proof.
  intros H2 H3 H4. apply (line_roundtrip _ _ _ _ _ _ _ _ _ _ _ Hc (format_event _ _ _ _ (ev_join p entity))); [discriminate|].
  apply read_event_line; [vm_compute; intuition discriminate|]. change (bmem (B "Joins:") _) with true. cbv iota.
  apply read_mask_join; assumption.
Qed.

Lemma part_roundtrip r : word (p_user p) -> word (p_host p) -> ~ In "@"%char (p_user p) ->
  unmarshal_line own entity true (marshal_line p (B "PART") (entity :: r) h m s) =
  Some (Some (LogMsg p (B "PART") (entity :: opt_param (param 0 r)), (h, m, s))).
Proof.
  intros H2 H3 H4. apply (line_roundtrip _ _ _ _ _ _ _ _ _ _ _ Hc (format_event _ _ _ _ (ev_part p entity r))); [discriminate|].
  apply read_event_line; [vm_compute; intuition discriminate|]. change (bmem (B "Parts:") _) with true. cbv iota.
  apply (read_mask_reason p (B "Parts:")); assumption.
Qed.

Lemma quit_roundtrip r : word (p_user p) -> word (p_host p) -> ~ In "@"%char (p_user p) ->
  unmarshal_line own entity true (marshal_line p (B "QUIT") r h m s) =
  Some (Some (LogMsg p (B "QUIT") (opt_param (param 0 r)), (h, m, s))).
Proof.
  intros H2 H3 H4. apply (line_roundtrip _ _ _ _ _ _ _ _ _ _ _ Hc (format_event _ _ _ _ (ev_quit p r))); [discriminate|].
  apply read_event_line; [vm_compute; intuition discriminate|]. change (bmem (B "Quits:") _) with true. cbv iota.
  apply (read_mask_reason p (B "Quits:")); assumption.
Qed.

Lemma nick_roundtrip n : ~ In ":"%char (p_name p) ->
  unmarshal_line own entity true (marshal_line p (B "NICK") [n] h m s) =
  Some (Some (LogMsg (nick_prefix (p_name p)) (B "NICK") [n], (h, m, s))).
Proof.
  intros H. apply (line_roundtrip _ _ _ _ _ _ _ _ _ _ _ Hc (format_event _ _ _ _ (ev_nick p n))); [discriminate|].
  apply read_event_line; [exact Hn|]. rewrite other_kind by assumption. unfold read_other. rewrite after_prefix_app. reflexivity.
Qed.

Lemma kick_roundtrip n r : word n -> ~ In ":"%char n ->
  unmarshal_line own entity true (marshal_line p (B "KICK") (entity :: n :: r) h m s) =
  Some (Some (LogMsg (nick_prefix (p_name p)) (B "KICK") (entity :: n :: opt_param (param 0 r)), (h, m, s))).
Proof.
  intros H H'. apply (line_roundtrip _ _ _ _ _ _ _ _ _ _ _ Hc (format_event _ _ _ _ (ev_kick p entity n r))); [discriminate|].
  apply read_event_line; [exact H|]. rewrite other_kind by assumption. unfold read_other.
  change (after_prefix (B "is now known as ") (B "was kicked by " ++ _)) with (@None bytes). cbv iota. rewrite after_prefix_app.
  change (B " (" ++ ?x) with (" "%char :: "("%char :: x). rewrite cut1_app by exact Hn.
  change (B ")") with [")"%char]. rewrite trim_prefix_app, trim_suffix_app. reflexivity.
Qed.

Lemma topic_roundtrip t : ~ In ":"%char (p_name p) ->
  unmarshal_line own entity true (marshal_line p (B "TOPIC") [entity; t] h m s) =
  Some (Some (LogMsg (nick_prefix (p_name p)) (B "TOPIC") [entity; t], (h, m, s))).
Proof.
  intros H. apply (line_roundtrip _ _ _ _ _ _ _ _ _ _ _ Hc (format_event _ _ _ _ (ev_topic p entity t))); [discriminate|].
  apply read_event_line; [exact Hn|]. rewrite other_kind by assumption. unfold read_other.
  change (after_prefix (B "is now known as ") (B "changes topic to " ++ _)) with (@None bytes). cbv iota.
  change (after_prefix (B "was kicked by ") (B "changes topic to " ++ _)) with (@None bytes). cbv iota. rewrite after_prefix_app.
  change (B "'") with ["'"%char]. cbn [app]. rewrite trim_prefix_app, trim_suffix_app. reflexivity.
Qed.

Lemma mode_roundtrip ms : ~ In ":"%char (p_name p) -> ms <> [] -> Forall word ms ->
  unmarshal_line own entity true (marshal_line p (B "MODE") (entity :: ms) h m s) =
  Some (Some (LogMsg (nick_prefix (p_name p)) (B "MODE") (entity :: ms), (h, m, s))).
Proof.
  intros H Hne Hw. apply (line_roundtrip _ _ _ _ _ _ _ _ _ _ _ Hc (format_event _ _ _ _ (ev_mode p entity ms))); [discriminate|].
  apply read_event_line; [exact Hn|]. rewrite other_kind by assumption. unfold read_other.
  change (after_prefix (B "is now known as ") (B "sets mode: " ++ _)) with (@None bytes). cbv iota.
  change (after_prefix (B "was kicked by ") (B "sets mode: " ++ _)) with (@None bytes). cbv iota.
  change (after_prefix (B "changes topic to ") (B "sets mode: " ++ _)) with (@None bytes). cbv iota. rewrite after_prefix_app.
  change (B " ") with [" "%char]. rewrite split_join; [reflexivity|exact Hne|]. exact Hw.
Qed.
End Events.
