(** C103: answers of a server reach the client that asked. *)
From Verif.Base Require Import Bytes.
From Verif.Model Require Import CaseMap Pending Answers.
From Verif.Proof Require Answers.
From Verif.Spec Require Import Answers.
From Coq Require Import NArith.

(** With labels, every line of an answer goes to the one who asked, and to no one else. *)
Theorem C103_labelled cm y j l os y' : reached cm true y -> sstep cm y (EAnswer j l os) y' ->
  no_fault os /\
  (l_cmd l = B "BATCH" \/ l_cmd l = B "ACK" -> delivered os = []) /\
  (l_cmd l <> B "BATCH" -> l_cmd l <> B "ACK" -> delivered os = map (fun c => (c, body_of l)) (asker y j)).
Proof. intros R St. destruct (Proof.Answers.answered cm true y j l os y' R St) as (A & D & E & _). split; [exact A|]. split; [exact D|]. intros X Y. exact (E X Y eq_refl). Qed.
Print Assumptions C103_labelled.

(** There is at most one such client. *)
Theorem C103_one cm labels y j : reached cm labels y -> length (asker y j) <= 1.
Proof. exact (Proof.Answers.no_two cm labels y j). Qed.
Print Assumptions C103_one.

(** Without labels this holds for what can only be an answer to LIST, WHO or WHOIS;
    missing: errors after the client has left, see [C103_gone_refuted], and all other
    lines, which go to every client. *)
Theorem C103_unlabelled_partial cm y j l os y' : reached cm false y -> sstep cm y (EAnswer j l os) y' ->
  no_fault os /\
  (l_cmd l <> B "BATCH" -> l_cmd l <> B "ACK" -> of_query cm j (body_of l) ->
     In (w_client (j_cmd j)) (b_clients (s_b y)) \/ (forall x, ~ error_about x (body_of l)) -> delivered os = map (fun c => (c, body_of l)) (asker y j)) /\
  (l_cmd l <> B "BATCH" -> l_cmd l <> B "ACK" -> ~ of_query cm j (body_of l) -> delivered os = map (fun c => (c, body_of l)) (b_clients (s_b y))).
Proof. intros R St. destruct (Proof.Answers.answered cm false y j l os y' R St) as (A & _ & _ & D & E). split; [exact A|]. split; [exact (D eq_refl)|exact (E eq_refl)]. Qed.
Print Assumptions C103_unlabelled_partial.

(** A server that has answered all queries of a kind has had them all: no client
    waits for a command that is not sent. *)
Theorem C103_all_sent cm labels y k : reached cm labels y -> (forall j, In j (s_jobs y) -> w_kind (j_cmd j) = Some k -> j_done j = true) -> b_queues (s_b y) k = [].
Proof. exact (Proof.Answers.all_sent cm labels y k). Qed.
Print Assumptions C103_all_sent.

(** ** Servers that end an answer twice *)
Definition seen (is : list input) : list (list output) := snd (brun CmASCII (new_bst true) is).
Definition ann : N := 1.
Definition bob : N := 2.
Definition ask_two (k : kind) (a b : bytes) : list input := [Arrive; Arrive; Ask ann k [a]; Ask bob k [b]].

(** Servers answer a WHOIS about nobody with 401 and 318. The second line ends the
    query of another client; its answer is then dropped, although every line has the
    label of its command. *)
Theorem C103_twice_refuted :
  exists la lb, seen (ask_two WHOIS (B "nobody") (B "carol")) = [[]; []; [Send (Sent ann la (Some WHOIS) (B "WHOIS", [B "nobody"]))]; []] /\
  seen (ask_two WHOIS (B "nobody") (B "carol") ++
        [Receive (Line la None (B "BATCH") [B "+1"; B "labeled-response"]);
         Receive (Line [] (Some (B "1")) (B "401") [B "ann"; B "nobody"; B "No such nick"]);
         Receive (Line [] (Some (B "1")) (B "318") [B "ann"; B "nobody"; B "End of WHOIS"]);
         Receive (Line [] None (B "BATCH") [B "-1"]);
         Receive (Line lb None (B "311") [B "ann"; B "carol"; B "u"; B "h"; B "*"; B "Carol"])])
  = [[]; []; [Send (Sent ann la (Some WHOIS) (B "WHOIS", [B "nobody"]))]; []] ++
    [[]; [Send (Sent bob lb (Some WHOIS) (B "WHOIS", [B "carol"])); Deliver ann (B "401", [B "ann"; B "nobody"; B "No such nick"])];
     [Deliver bob (B "318", [B "ann"; B "nobody"; B "End of WHOIS"])]; []; [Fault]].
Proof. exists (label ann 0), (label bob 1). split; vm_compute; reflexivity. Qed.
Print Assumptions C103_twice_refuted.

(** The same with WHO: 263 and 315. *)
Theorem C103_try_again_refuted :
  exists la lb,
  skipn 4 (seen (ask_two WHO (B "#a") (B "#b") ++
        [Receive (Line la None (B "BATCH") [B "+1"; B "labeled-response"]);
         Receive (Line [] (Some (B "1")) (B "263") [B "ann"; B "WHO"; B "Try again"]);
         Receive (Line [] (Some (B "1")) (B "315") [B "ann"; B "#a"; B "End of WHO"]);
         Receive (Line [] None (B "BATCH") [B "-1"]);
         Receive (Line lb None (B "354") [B "ann"; B "x"])]))
  = [[]; [Send (Sent bob lb (Some WHO) (B "WHO", [B "#b"])); Deliver ann (B "263", [B "ann"; B "WHO"; B "Try again"])];
     [Deliver bob (B "315", [B "ann"; B "#a"; B "End of WHO"])]; []; [Fault]].
Proof. exists (label ann 0), (label bob 1). vm_compute. reflexivity. Qed.
Print Assumptions C103_try_again_refuted.

(** The error about a message of one client ends the WHOIS of another one, with the
    label of the former. *)
Theorem C103_other_refuted :
  exists la lb,
  skipn 2 (seen ([Arrive; Arrive; Ask ann WHOIS [B "carol"]; Pass bob (B "PRIVMSG", [B "carol"; B "hi"]);
                  Receive (Line lb None (B "401") [B "ann"; B "carol"; B "No such nick"]);
                  Receive (Line la None (B "318") [B "ann"; B "carol"; B "End of WHOIS"])]))
  = [[Send (Sent ann la (Some WHOIS) (B "WHOIS", [B "carol"]))]; [Send (Sent bob lb None (B "PRIVMSG", [B "carol"; B "hi"]))];
     [Deliver ann (B "401", [B "ann"; B "carol"; B "No such nick"])]; [Fault]] /\ la <> lb.
Proof. exists (label ann 0), (label bob 1). split; [vm_compute; reflexivity|vm_compute; discriminate]. Qed.
Print Assumptions C103_other_refuted.

(** ** Servers without labels *)
Definition who_job (c : N) (chan : bytes) : job := Job (Sent c [] (Some WHO) (B "WHO", [chan])) [] false.

Lemma two_clients labels : reached CmASCII labels (Sys (arrive (arrive (new_bst labels))) []).
Proof.
  eapply RStep with (e := EOther); [eapply RStep with (e := EOther); [apply RStart|apply SArrive; vm_compute; reflexivity]|apply SArrive; vm_compute; reflexivity].
Qed.

(** A client asks and leaves: the error goes to all the others. *)
Theorem C103_gone_refuted : exists y j l os y', reached CmASCII false y /\ sstep CmASCII y (EAnswer j l os) y' /\ of_query CmASCII j (body_of l) /\
  w_client (j_cmd j) = ann /\ asker y j = [] /\ delivered os = [(bob, body_of l)].
Proof.
  set (s0 := arrive (arrive (new_bst false))). set (s1 := fst (ask s0 ann WHO [B "#a"])). set (s2 := leave s1 ann).
  set (l := Line [] None (B "263") [B "ann"; B "WHO"; B "Try again"]). set (j := who_job ann (B "#a")).
  assert (R1 : reached CmASCII false (Sys s1 [j])).
  { eapply RStep with (e := EOther); [exact (two_clients false)|]. exact (SAsk CmASCII s0 [] ann WHO [B "#a"] (or_introl eq_refl) (or_intror (or_introl eq_refl)) eq_refl). }
  assert (E : ends CmASCII WHO (snd (w_body (j_cmd j))) (body_of l)).
  { right. left. left. split; [do 3 right; left; reflexivity|]. split; [exact (le_n 3)|reflexivity]. }
  exists (Sys s2 [j]), j, l, (snd (handle CmASCII s2 l)). eexists. split; [eapply RStep with (e := EOther); [exact R1|apply SLeave]|]. split.
  - apply (SAnswer CmASCII s2 [] j [] l None); [|vm_compute; reflexivity]. apply (AEnd CmASCII [j] j WHO l); [reflexivity|reflexivity|split; reflexivity|exact E].
  - split; [exists WHO; split; [reflexivity|right; exact E]|]. split; [reflexivity|]. split; vm_compute; reflexivity.
Qed.
Print Assumptions C103_gone_refuted.

(** Other answers, here 301 in the answer to a WHOIS, go to every client. *)
Theorem C103_all_refuted : exists y j l os y', reached CmASCII false y /\ sstep CmASCII y (EAnswer j l os) y' /\
  w_kind (j_cmd j) = Some WHOIS /\ l_cmd l = B "301" /\ asker y j = [ann] /\ delivered os = [(ann, body_of l); (bob, body_of l)].
Proof.
  set (s0 := arrive (arrive (new_bst false))). set (s1 := fst (ask s0 ann WHOIS [B "carol"])).
  set (l := Line [] None (B "301") [B "ann"; B "carol"; B "lunch"]). set (j := Job (Sent ann [] (Some WHOIS) (B "WHOIS", [B "carol"])) [] false).
  assert (R1 : reached CmASCII false (Sys s1 [j])).
  { eapply RStep with (e := EOther); [exact (two_clients false)|]. exact (SAsk CmASCII s0 [] ann WHOIS [B "carol"] (or_introl eq_refl) (or_intror (or_intror (or_introl eq_refl))) eq_refl). }
  exists (Sys s1 [j]), j, l, (snd (handle CmASCII s1 l)). eexists. split; [exact R1|]. split.
  - apply (SAnswer CmASCII s1 [] j [] l (Some j)); [|vm_compute; reflexivity]. apply APlain; [split; reflexivity| |left; split; [reflexivity|intro X; exfalso; apply X; reflexivity]].
    right. right. right. apply bmem_nIn. vm_compute. reflexivity.
  - split; [reflexivity|]. split; [reflexivity|]. split; vm_compute; reflexivity.
Qed.
Print Assumptions C103_all_refuted.

(** ** A case *)
(** Two clients ask at once, the first answer is a batch within a batch. *)
Example C103_nonvacuous : exists y j l os y', reached CmASCII true y /\ sstep CmASCII y (EAnswer j l os) y' /\
  j_refs j = [B "2"; B "1"] /\ l_cmd l = B "315" /\ asker y j = [ann] /\ length (b_queues (s_b y) WHO) = 2 /\
  os = [Send (Sent bob (label bob 1) (Some WHO) (B "WHO", [B "#b"])); Deliver ann (body_of l)].
Proof.
  set (s0 := arrive (arrive (new_bst true))). set (s1 := fst (ask s0 ann WHO [B "#a"])). set (s2 := fst (ask s1 bob WHO [B "#b"])).
  set (w := Sent ann (label ann 0) (Some WHO) (B "WHO", [B "#a"])).
  set (l1 := Line (label ann 0) None (B "BATCH") [B "+1"; B "labeled-response"]). set (l2 := Line [] (Some (B "1")) (B "BATCH") [B "+2"; B "x"]).
  set (s3 := fst (handle CmASCII s2 l1)). set (s4 := fst (handle CmASCII s3 l2)).
  set (l := Line [] (Some (B "2")) (B "315") [B "ann"; B "#a"; B "End"]).
  assert (Lne : w_label w <> []) by (vm_compute; discriminate).
  assert (R1 : reached CmASCII true (Sys s1 [Job w [] false])).
  { eapply RStep with (e := EOther); [exact (two_clients true)|]. exact (SAsk CmASCII s0 [] ann WHO [B "#a"] (or_introl eq_refl) (or_intror (or_introl eq_refl)) eq_refl). }
  assert (R2 : reached CmASCII true (Sys s2 [Job w [] false])).
  { eapply RStep with (e := EOther); [exact R1|]. exact (SAsk CmASCII s1 [Job w [] false] bob WHO [B "#b"] (or_intror (or_introl eq_refl)) (or_intror (or_introl eq_refl)) eq_refl). }
  assert (R3 : reached CmASCII true (Sys s3 [Job w [B "1"] false])).
  { eapply RStep; [exact R2|]. apply (SAnswer CmASCII s2 [] (Job w [] false) [] l1 (Some (Job w [B "1"] false))); [|vm_compute; reflexivity].
    apply (AOpen CmASCII [Job w [] false] (Job w [] false) l1 (B "1") (B "labeled-response") []); [exact Lne|reflexivity| |reflexivity|reflexivity|].
    - left. split; [reflexivity|split; reflexivity].
    - intros j' [<-|[]] []. }
  assert (R4 : reached CmASCII true (Sys s4 [Job w [B "2"; B "1"] false])).
  { eapply RStep; [exact R3|]. apply (SAnswer CmASCII s3 [] (Job w [B "1"] false) [] l2 (Some (Job w [B "2"; B "1"] false))); [|vm_compute; reflexivity].
    apply (AOpen CmASCII [Job w [B "1"] false] (Job w [B "1"] false) l2 (B "2") (B "x") []); [exact Lne|reflexivity| |reflexivity|reflexivity|].
    - right. exists (B "1"). split; [left; reflexivity|split; reflexivity].
    - intros j' [<-|[]] [X|[]]. discriminate X. }
  set (j := Job w [B "2"; B "1"] false).
  exists (Sys s4 [j]), j, l, (snd (handle CmASCII s4 l)). eexists. split; [exact R4|]. split.
  - apply (SAnswer CmASCII s4 [] j [] l (Some (Job w [B "2"; B "1"] true))); [|vm_compute; reflexivity]. apply (AEnd CmASCII [j] j WHO l); [reflexivity|reflexivity| |left; reflexivity].
    right. exists (B "2"). split; [left; reflexivity|split; reflexivity].
  - split; [reflexivity|]. split; [reflexivity|]. split; [vm_compute; reflexivity|]. split; vm_compute; reflexivity.
Qed.
