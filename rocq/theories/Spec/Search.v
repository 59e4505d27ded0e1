(** What C102 says: which messages a SEARCH finds. *)
From Verif.Base Require Import Bytes.
From Verif.Model Require Import Message CaseMap TimeFmt Identd ZncLog Glob FsStore Sql SqlQuery History.
From Verif.Spec Require Import TimeFmt SqlQuery.
From Coq Require Import ZArith NArith.

(** ** The command (doc/ext/search.md) *)
Record request := Request { r_in : bytes; r_from : option bytes; r_text : option bytes; r_after : option Z; r_before : option Z; r_limit : option Z }.

Definition given (attrs : list (bytes * bytes)) (name : bytes) (v : option bytes) : Prop :=
  match v with Some v => In (name, v) attrs | None => forall v, ~ In (name, v) attrs end.
Definition means {A} (attrs : list (bytes * bytes)) (name : bytes) (read : bytes -> option A) (a : option A) : Prop :=
  match a with Some a => exists v, In (name, v) attrs /\ read v = Some a | None => forall v, ~ In (name, v) attrs end.
Definition count (s : bytes) : option Z := match atoi s with Some n => if (0 <? n)%Z then Some n else None | None => None end.
Definition requests (attrs : list (bytes * bytes)) (r : request) : Prop :=
  In (B "in", r_in r) attrs /\ given attrs (B "from") (r_from r) /\ given attrs (B "text") (r_text r)
  /\ means attrs (B "after") parse_time (r_after r) /\ means attrs (B "before") parse_time (r_before r) /\ means attrs (B "limit") count (r_limit r).

Definition opt {A} (d : A) (a : option A) : A := match a with Some a => a | None => d end.
(** What is asked of the store: no bound is the zero time, no condition the empty
    text, at most 100 messages. *)
Definition query_of (cm : casemapping) (r : request) : search :=
  Search (opt 0%Z (r_after r)) (opt 0%Z (r_before r)) (opt [] (r_from r)) (casemap cm (r_in r)) (opt [] (r_text r)) (Z.min 100 (opt 100%Z (r_limit r))).

(** ** The log directory *)
Definition occurs (sub s : bytes) : Prop := exists a b, s = a ++ sub ++ b.
Definition log_matches (lower : bytes -> bytes) (q : search) (m : log_msg) : Prop :=
  (q_from q = [] \/ p_name (lm_prefix m) = q_from q) /\ (q_text q = [] \/ occurs (lower (q_text q)) (lower (nth 1 (lm_params m) []))).

(** ** The database *)
(** The code points of a text, each with its bytes. *)
Fixpoint code_points (fuel : nat) (s : bytes) : list (N * bytes) :=
  match fuel, s with
  | S fuel, _ :: _ => let '(r, t) := rune s in (r, firstn (length s - length t) s) :: code_points fuel t
  | _, _ => []
  end.
(** Maximal pieces of a list without elements for which [sep] holds, the empty ones too. *)
Fixpoint pieces {A} (sep : A -> bool) (l : list A) : list (list A) :=
  match l with
  | [] => [[]]
  | x :: l => match pieces sep l with
              | p :: ps => if sep x then [] :: p :: ps else (x :: p) :: ps
              | [] => [[]]
              end
  end.
Definition words (token_rune : N -> bool) (s : bytes) : list bytes :=
  filter (fun w => match w with [] => false | _ => true end)
    (map (fun p => concat (map snd p)) (pieces (fun x => negb (token_rune (fst x))) (code_points (length s) s))).

(** How SQLite reads a sequence of strings (https://www.sqlite.org/fts5.html#fts5_strings):
    between double quotes, of which two stand for one. [inside]: what was read of one. *)
Fixpoint fts5_strings (s : bytes) (inside : option bytes) : option (list bytes) :=
  match s, inside with
  | [], None => Some []
  | [], Some _ => None
  | c :: s', None => if aeqb c " " then fts5_strings s' None else if aeqb c "034" then fts5_strings s' (Some []) else None
  | c :: s', Some w =>
      if aeqb c "034" then
        match s' with
        | [] => Some [w]
        | d :: s'' => if aeqb d "034" then fts5_strings s'' (Some (w ++ [d])) else option_map (cons w) (fts5_strings s' None)
        end
      else fts5_strings s' (Some (w ++ [c]))
  end.

(** SQLite's MATCH for such a sequence: every string occurs in the text of the row. *)
Definition is_match5 (has : bytes -> bytes -> bool) (match5 : bytes -> option bytes -> bool) : Prop :=
  forall e ws row, fts5_strings e None = Some ws ->
    match5 e row = match row with Some text => negb (match ws with [] => true | _ => false end) && forallb (has text) ws | None => false end.

(** A row that a search is to find. *)
Definition row_matches (token_rune : N -> bool) (has : bytes -> bytes -> bool) (q : search) (r : msg_row) : Prop :=
  (exists text, mr_text r = Some text /\ (q_text q = [] \/ (words token_rune (q_text q) <> [] /\ forall w, In w (words token_rune (q_text q)) -> has text w = true)))
  /\ (q_from q = [] \/ mr_sender r = q_from q)
  /\ (q_start q = 0%Z \/ forall t, row_at r t -> (millis (q_start q) < millis t)%Z)
  /\ (q_end q = 0%Z \/ forall t, row_at r t -> (millis t < millis (q_end q))%Z).
