(** What C103 says: a server that answers what it was asked, and who gets the answers. *)
From Verif.Base Require Import Bytes.
From Verif.Model Require Import CaseMap Pending Answers.
From Coq Require Import NArith.

(** A command the server is answering: the batches it has open for it, and whether
    the last line of the answer has been sent. *)
Record job := Job { j_cmd : sent_cmd; j_refs : list bytes; j_done : bool }.
Definition waiting (j : job) : Prop := j_done j = false.

(** Lines of the answer to a command of each kind, in the protocol. *)
Definition part_of (k : kind) (m : body) : Prop :=
  match k with
  | LIST => In (fst m) [B "321"; B "322"]
  | WHO => fst m = B "354" \/ (fst m = B "352" /\ 8 <= length (snd m) /\ In " "%char (nth 7 (snd m) []))
  | WHOIS => In (fst m) [B "276"; B "307"; B "311"; B "312"; B "313"; B "317"; B "319"; B "320"; B "330"; B "338"; B "378"; B "379"; B "671"]
  | _ => False
  end.
Definition is_end (k : kind) (m : body) : Prop :=
  match k with LIST => fst m = B "323" | WHO => fst m = B "315" | WHOIS => fst m = B "318" | _ => False end.
(** An error, with the command it is about. *)
Definition error_about (command : bytes) (m : body) : Prop :=
  (In (fst m) [B "400"; B "421"; B "461"; B "263"] /\ 3 <= length (snd m) /\ nth 1 (snd m) [] = command)
  \/ (fst m = B "FAIL" /\ 2 <= length (snd m) /\ nth 0 (snd m) [] = command).
(** Nobody has this nickname, or no server. *)
Definition no_one (nick : bytes) (m : body) : Prop := In (fst m) [B "401"; B "402"] /\ 3 <= length (snd m) /\ nth 1 (snd m) [] = nick.

Definition ends (cm : casemapping) (k : kind) (params : list bytes) (m : body) : Prop :=
  is_end k m \/ error_about (kind_name k) m
  \/ (k = WHOIS /\ exists nick, no_one nick m /\ casemap cm nick = casemap cm (last params [])).

(** Lines that belong to no kind of query: another line in an answer. *)
Definition query_lines : list bytes :=
  [B "321"; B "322"; B "323"; B "352"; B "354"; B "315"; B "318"; B "276"; B "307"; B "311"; B "312"; B "313"; B "317"; B "319"; B "320"; B "330"; B "338"; B "378"; B "379"; B "671"].
Definition plain (cm : casemapping) (jobs : list job) (m : body) : Prop :=
  (exists command, error_about command m /\ forall k, command <> kind_name k)
  \/ (exists nick, no_one nick m /\ forall j, In j jobs -> waiting j -> w_kind (j_cmd j) = Some WHOIS -> casemap cm (last (snd (w_body (j_cmd j))) []) <> casemap cm nick)
  \/ (fst m = B "341" /\ 3 <= length (snd m))
  \/ ~ In (fst m) (B "BATCH" :: B "FAIL" :: B "341" :: [B "400"; B "421"; B "461"; B "263"] ++ [B "401"; B "402"] ++ query_lines ++ ignored ++ elsewhere).

(** ** The bouncer and the server *)
Record sys := Sys { s_b : bst; s_jobs : list job }.

Definition sent_of (os : list output) : list job := flat_map (fun o => match o with Send w => [Job w [] false] | _ => [] end) os.
Definition delivered (os : list output) : list (N * body) := flat_map (fun o => match o with Deliver c m => [(c, m)] | _ => [] end) os.
Definition no_fault (os : list output) : Prop := ~ In Fault os.

(** A line in an answer, with the label or within one of the batches that have it. *)
Definition tagged (j : job) (l : line) : Prop :=
  if match w_label (j_cmd j) with [] => false | _ => true end
  then (j_refs j = [] /\ l_batch l = None /\ l_label l = w_label (j_cmd j)) \/ (exists r, In r (j_refs j) /\ l_batch l = Some r /\ l_label l = [])
  else l_batch l = None /\ l_label l = [].

(** What the server may send about job [j], and what becomes of the job. A labelled
    answer is one line, or a batch. *)
Inductive answers (cm : casemapping) (jobs : list job) (j : job) : line -> option job -> Prop :=
| APart k l : w_kind (j_cmd j) = Some k -> waiting j -> tagged j l -> (w_label (j_cmd j) <> [] -> j_refs j <> []) -> part_of k (body_of l) ->
    answers cm jobs j l (Some j)
| APlain l after : tagged j l -> plain cm jobs (body_of l) ->
    (after = Some j /\ (w_label (j_cmd j) <> [] -> j_refs j <> []) \/ after = None /\ j_refs j = [] /\ w_kind (j_cmd j) = None) ->
    answers cm jobs j l after
| AEnd k l : w_kind (j_cmd j) = Some k -> waiting j -> tagged j l -> ends cm k (snd (w_body (j_cmd j))) (body_of l) ->
    answers cm jobs j l (match j_refs j with [] => None | _ => Some (Job (j_cmd j) (j_refs j) true) end)
| AOpen l r typ more : w_label (j_cmd j) <> [] -> waiting j -> tagged j l -> l_cmd l = B "BATCH" -> l_params l = ("+"%char :: r) :: typ :: more ->
    (forall j', In j' jobs -> ~ In r (j_refs j')) ->
    answers cm jobs j l (Some (Job (j_cmd j) (r :: j_refs j) (j_done j)))
| AClose l r refs : j_refs j = r :: refs -> (l_batch l = None \/ exists r', In r' refs /\ l_batch l = Some r') -> l_label l = [] ->
    l_cmd l = B "BATCH" -> l_params l = ["-"%char :: r] ->
    (refs = [] -> w_kind (j_cmd j) <> None -> j_done j = true) ->
    answers cm jobs j l (match refs with [] => None | _ => Some (Job (j_cmd j) refs (j_done j)) end)
| AAck l : w_kind (j_cmd j) = None -> j_refs j = [] -> tagged j l -> w_label (j_cmd j) <> [] -> l_cmd l = B "ACK" -> answers cm jobs j l None.

Definition queries : list kind := [LIST; WHO; WHOIS].

(** One step: [EAnswer] is a line about a command, for which [j] is recorded. *)
Inductive event := EOther | EAnswer (j : job) (l : line) (os : list output).
Inductive sstep (cm : casemapping) : sys -> event -> sys -> Prop :=
| SArrive s jobs : (b_ids s + 1 < 2 ^ 64)%N -> sstep cm (Sys s jobs) EOther (Sys (arrive s) jobs)
| SLeave s jobs c : sstep cm (Sys s jobs) EOther (Sys (leave s c) jobs)
| SAsk s jobs c k ps : In c (b_clients s) -> In k queries -> (b_next s + 1 < 2 ^ 64)%N ->
    sstep cm (Sys s jobs) EOther (Sys (fst (ask s c k ps)) (jobs ++ sent_of (snd (ask s c k ps))))
| SPass s jobs c m : In c (b_clients s) -> (b_next s + 1 < 2 ^ 64)%N ->
    sstep cm (Sys s jobs) EOther (Sys (fst (pass s c m)) (jobs ++ sent_of (snd (pass s c m))))
| SAnswer s a j b l after : answers cm (a ++ j :: b) j l after -> (b_next s + 1 < 2 ^ 64)%N ->
    sstep cm (Sys s (a ++ j :: b)) (EAnswer j l (snd (handle cm s l)))
      (Sys (fst (handle cm s l)) (a ++ match after with Some j' => [j'] | None => [] end ++ b ++ sent_of (snd (handle cm s l)))).

Inductive reached (cm : casemapping) (labels : bool) : sys -> Prop :=
| RStart : reached cm labels (Sys (new_bst labels) [])
| RStep y e y' : reached cm labels y -> sstep cm y e y' -> reached cm labels y'.

(** The client who asked, if it is still there. *)
Definition asker (y : sys) (j : job) : list N := filter (N.eqb (w_client (j_cmd j))) (b_clients (s_b y)).
(** A line that only makes sense as the answer to a query. *)
Definition of_query (cm : casemapping) (j : job) (m : body) : Prop :=
  exists k, w_kind (j_cmd j) = Some k /\ (part_of k m \/ ends cm k (snd (w_body (j_cmd j))) m).
