(** C82: clients know the topic and the modes of their channels as they are on the server. *)
From Verif.Proof Require ChanView.
From Verif.Base Require Import Bytes.
From Verif.Model Require Import CaseMap Membership Message Modes ChanView.
From Verif.Spec Require Import ChanView.
From Coq Require Import Permutation.

Section C82.
  Variable cm : bytes -> bytes.
  Variable me server chantypes : bytes.
  Variable avail : list membership.
  Variable table : list (ascii * mode_type).
  Variable order : list (ascii * bytes) -> list (ascii * bytes).
  Hypothesis any_order : forall m, Permutation (order m) m.
  Hypothesis ascii_letters : forall c t, In (c, t) table -> (code c < 128)%N.

  Local Notation reach := (reach cm me server chantypes avail table order).

  (** C82: once everything the server has sent is handled, a client in a channel knows its topic, who
      set it, and when if that was before the user joined. For runs in which only saved channels are
      detached. *)
  Theorem C82_topic_partial : forall b w u v k h i,
    reach (known_detach cm) (Sys b w [] u v) -> x_panic b = false ->
    w k = Some h -> s_named h = true -> In i (x_clients b) -> v_on (v i k) = true ->
    v_topic (v i k) = s_topic h /\
    (s_topic h <> [] -> v_who (v i k) = option_map format_prefix (s_who h) /\
       forall t, s_time h = Some t -> v_time (v i k) = Some (dec t)).
  Proof. exact (Proof.ChanView.topic_known cm me server chantypes avail table order any_order ascii_letters). Qed.

  (** C82: the modes it knows are those of the server, and it knows them if it has asked and nothing
      is on the way to the server either. *)
  Theorem C82_modes_partial : forall b w u v k h i,
    reach (known_detach cm) (Sys b w [] u v) -> x_panic b = false ->
    w k = Some h -> In i (x_clients b) -> v_on (v i k) = true ->
    (forall m, v_modes (v i k) = Some m -> same_modes m (s_modes h)) /\
    (forall t, v_created (v i k) = Some t -> t = s_created h) /\
    (u = [] -> v_asked (v i k) = true -> v_modes (v i k) <> None).
  Proof. exact (Proof.ChanView.modes_known cm me server chantypes avail table order any_order ascii_letters). Qed.

  (** C82: who asks for the topic is answered at once, with that of the server. *)
  Theorem C82_topic_answer_partial : forall b w u v k h id name,
    reach (known_detach cm) (Sys b w [] u v) -> x_panic b = false ->
    w k = Some h -> s_named h = true -> cm name = k ->
    exists l c, on_ev cm me server order b (VTopic id name) = (b, map (fun m => (id, m)) l, []) /\ cm c = k /\
      (s_topic h = [] -> exists tags p text, l = [Message tags p (B "331") [me; c; text]]) /\
      (s_topic h <> [] -> exists tags p rest, l = Message tags p (B "332") [me; c; s_topic h] :: rest /\
         (s_who h = None -> rest = []) /\
         (forall q, s_who h = Some q -> exists t, rest = [Message tags p (B "333") [me; c; format_prefix q; t]] /\
            forall tm, s_time h = Some tm -> t = dec tm)).
  Proof. exact (Proof.ChanView.topic_answer cm me server chantypes avail table order any_order ascii_letters). Qed.

  (** C82: who asks for the modes is answered at once, with those of the server. *)
  Theorem C82_modes_answer_partial : forall b w v k h id name,
    reach (known_detach cm) (Sys b w [] [] v) -> x_panic b = false ->
    w k = Some h -> cm name = k ->
    exists tags p str params rest md, on_ev cm me server order b (VMode id name) =
        (b, (id, Message tags p (B "324") (me :: name :: str :: params)) :: rest, []) /\
      mapply avail table (Some []) str params = (Some md, true) /\ same_modes md (s_modes h) /\
      (rest = [] \/ rest = [(id, Message tags p (B "329") [me; name; s_created h])]).
  Proof. exact (Proof.ChanView.modes_answer cm me server chantypes avail table order any_order ascii_letters). Qed.
End C82.
Print Assumptions C82_topic_partial.
Print Assumptions C82_modes_partial.
Print Assumptions C82_topic_answer_partial.
Print Assumptions C82_modes_answer_partial.

Definition cm0 : bytes -> bytes := casemap CmRFC1459.
Definition avail0 : list membership := [Membership "o" "@"; Membership "v" "+"]%char.
Definition table0 : list (ascii * mode_type) := [("b", ModeA); ("k", ModeB); ("l", ModeC); ("n", ModeD); ("t", ModeD)]%char.
Definition me0 : prefix := Prefix (B "me") (B "u") (B "h").
Definition bob0 : prefix := Prefix (B "bob") (B "b") (B "host").
Local Notation reach0 := (reach cm0 (B "me") (B "srv") (B "#") avail0 table0 (fun m => m)).

Local Notation y0 con := (con cm0 (B "me") (B "#") avail0 table0 (B "#a") [] (Some (Prefix (B "srv") [] [])) (B "#a")).
Local Notation yq con q := (con cm0 (B "me") (B "#") avail0 table0 (B "#a") [] q (B "#a")).
Ltac say H pf := eapply r_speak with (k := B "#a") in H; [|exact pf].
Ltac dlv H := eapply r_deliver with (origin := 0%N) (now := 7%N) in H; [|reflexivity].
Ltac act H e0 := eapply r_client with (e := e0) in H; [|first [exact I|vm_compute; discriminate]|first [exact I|vm_compute; intuition discriminate]|reflexivity].

Definition told (t : bytes) (w : option prefix) (tm : option N) (a b c : bool) : srv := Srv t w tm [("n", [])]%char (B "9") a b c.
Lemma joined (t : bytes) : t <> [] ->
  says cm0 (B "me") (B "#") avail0 table0 (B "#a") None (Message [] (Some me0) (B "JOIN") [B "#A"])
    (Some (told t (Some bob0) (Some 5%N) false false false)).
Proof.
  intros Ht. apply y_join; try reflexivity; try discriminate; try tauto.
  - intros [E|[E|[]]]; discriminate.
  - intros q [= <-]. repeat split; intros E; vm_compute in E; intuition discriminate.
  - split; discriminate.
Qed.
Lemma named t : (0 < length t)%nat ->
  says cm0 (B "me") (B "#") avail0 table0 (B "#a") (Some (told t (Some bob0) (Some 5%N) true true false))
    (Message [] (Some (Prefix (B "srv") [] [])) (B "366") [B "me"; B "#a"; B "End"])
    (Some (told t (Some bob0) (Some 5%N) true true true)).
Proof. intros _. apply (y0 y_names_end [B "End"]); [reflexivity|left; reflexivity|left; reflexivity]. Qed.

(** A topic set before the user joined, modes asked for, a second client, a new topic. *)
Example C82_nonvacuous :
  exists b w v h,
    reach0 (known_detach cm0) (Sys b w [] [] v) /\ x_panic b = false /\ w (B "#a") = Some h /\ s_named h = true /\
    x_clients b = [1%N; 2%N] /\
    v 1%N (B "#a") = CView true (B "more") (Some (B "bob!b@host")) None (Some [("n", []); ("k", B "key")]%char) (Some (B "9")) true /\
    v 2%N (B "#a") = CView true (B "more") (Some (B "bob!b@host")) None None None false /\
    s_topic h = B "more" /\ s_modes h = [("n", []); ("k", B "key")]%char.
Proof.
  pose proof (r_start cm0 (B "me") (B "srv") (B "#") avail0 table0 (fun m => m) (known_detach cm0) (fun _ => None)) as H.
  act H (VConnect 1%N).
  say H (joined (B "news") ltac:(discriminate)).
  say H (y0 y_topic_is (told (B "news") (Some bob0) (Some 5%N) false false false) eq_refl ltac:(discriminate)).
  say H (y0 y_setter bob0 5%N (told (B "news") (Some bob0) (Some 5%N) true false false) eq_refl eq_refl eq_refl).
  say H (named (B "news") ltac:(vm_compute; auto)).
  do 4 dlv H.
  eapply r_answer in H; [|reflexivity|eapply (y0 y_modes (B "+n") [] (told (B "news") (Some bob0) (Some 5%N) true true true) [("n", [])]%char); [reflexivity|reflexivity|intros c; reflexivity]|reflexivity].
  say H (y0 y_created (told (B "news") (Some bob0) (Some 5%N) true true true) eq_refl).
  do 2 dlv H.
  act H (VMode 1%N (B "#A")).
  say H (yq y_mode (Some bob0) (B "+k") [B "key"] (told (B "news") (Some bob0) (Some 5%N) true true true) [("n", []); ("k", B "key")]%char eq_refl eq_refl eq_refl).
  dlv H.
  act H (VConnect 2%N).
  say H (yq y_topic bob0 (B "more") (Srv (B "news") (Some bob0) (Some 5%N) [("n", []); ("k", B "key")]%char (B "9") true true true) eq_refl).
  dlv H.
  do 4 eexists. split; [exact H|]. repeat split; vm_compute; reflexivity.
Qed.

(** Without the restriction: the user leaves with the reason "detach" a channel the bouncer has no
    record of; the clients are told nothing, and nothing about the channel from then on. *)
Theorem C82_topic_refuted :
  exists b w v k h i,
    reach0 (fun _ _ => True) (Sys b w [] [] v) /\ x_panic b = false /\ w k = Some h /\ s_named h = true /\
    In i (x_clients b) /\ v_on (v i k) = true /\ v_topic (v i k) <> s_topic h.
Proof.
  pose proof (r_start cm0 (B "me") (B "srv") (B "#") avail0 table0 (fun m => m) (fun _ _ => True) (fun _ => None)) as H.
  act H (VConnect 1%N).
  say H (joined (B "news") ltac:(discriminate)).
  say H (y0 y_topic_is (told (B "news") (Some bob0) (Some 5%N) false false false) eq_refl ltac:(discriminate)).
  say H (y0 y_setter bob0 5%N (told (B "news") (Some bob0) (Some 5%N) true false false) eq_refl eq_refl eq_refl).
  say H (named (B "news") ltac:(vm_compute; auto)).
  do 4 dlv H.
  eapply r_answer in H; [|reflexivity|eapply (y0 y_modes (B "+n") [] (told (B "news") (Some bob0) (Some 5%N) true true true) [("n", [])]%char); [reflexivity|reflexivity|intros c; reflexivity]|reflexivity].
  dlv H.
  act H (VDetach (B "#a")).
  say H (yq y_topic bob0 (B "more") (told (B "news") (Some bob0) (Some 5%N) true true true) eq_refl).
  dlv H.
  eexists _, _, _, (B "#a"), _, 1%N. split; [exact H|]. repeat split; try (vm_compute; reflexivity).
  - vm_compute. left. reflexivity.
  - vm_compute. discriminate.
Qed.
Print Assumptions C82_topic_refuted.

(** A client in a channel that has had the same topic ever since the user joined asks for it while
    the server is still telling, and is told there is none. *)
Theorem C82_topic_answer_refuted :
  exists b w d u v h m, reach0 (known_detach cm0) (Sys b w d u v) /\ x_panic b = false /\ v_on (v 1%N (B "#a")) = true /\
    w (B "#a") = Some h /\ s_topic h = B "news" /\
    on_ev cm0 (B "me") (B "srv") (fun m => m) b (VTopic 1%N (B "#a")) = (b, [(1%N, m)], []) /\ m_command m = B "331".
Proof.
  pose proof (r_start cm0 (B "me") (B "srv") (B "#") avail0 table0 (fun m => m) (known_detach cm0) (fun _ => None)) as H.
  act H (VConnect 1%N).
  say H (joined (B "news") ltac:(discriminate)).
  dlv H.
  eexists _, _, _, _, _, _, _. split; [exact H|]. split; [vm_compute; reflexivity|]. split; [vm_compute; reflexivity|].
  split; [vm_compute; reflexivity|]. split; [vm_compute; reflexivity|]. split; vm_compute; reflexivity.
Qed.
Print Assumptions C82_topic_answer_refuted.

(** The answer of the server to a question for the topic of a detached channel being joined reaches
    nobody. *)
Theorem C82_lost_answer_refuted :
  exists b b1 b2 q j a, x_clients b = [1%N] /\
    on_ev cm0 (B "me") (B "srv") (fun m => m) b (VTopic 1%N (B "#a")) = (b, [], [q]) /\ q = msg (B "TOPIC") [B "#a"] /\
    m_command j = B "JOIN" /\ on_srv cm0 (B "me") (B "srv") (B "#") avail0 table0 b 0 0 j = (b1, [], [msg (B "MODE") [B "#a"]]) /\
    m_command a = B "332" /\ on_srv cm0 (B "me") (B "srv") (B "#") avail0 table0 b1 1 0 a = (b2, [], []).
Proof.
  exists (VSt [] (fun _ => Some true) [1%N] false). eexists _, _, _, (Message [] (Some me0) (B "JOIN") [B "#a"]), (Message [] None (B "332") [B "me"; B "#a"; B "news"]).
  split; [reflexivity|]. split; [reflexivity|]. split; [reflexivity|]. split; [reflexivity|]. split; [reflexivity|]. split; reflexivity.
Qed.
Print Assumptions C82_lost_answer_refuted.
