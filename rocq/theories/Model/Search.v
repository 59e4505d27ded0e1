(** Model of searching in message stores: the text of a query in the log directory
    (msgstore/fs.go:524-545) and in the database (database/sqlite.go:1248-1250,
    1305-1346). The command itself is in History, the stores in FsStore, SqlQuery. *)
From Verif.Base Require Import Bytes.
From Verif.Model Require Import Message ZncLog Glob Networks FsStore Sql SqlQuery History.
From Coq Require Import ZArith NArith.
Open Scope nat_scope.

(** ** The log directory *)
Section Fs.
  (** strings.ToLower. *)
  Variable lower : bytes -> bytes.
  (** fs.go:530-532; every message read without events has two parameters, so that
      the index does not fail. *)
  Definition log_contains (m : log_msg) (text : bytes) : bool := contains (lower text) (lower (nth 1 (lm_params m) [])).
  (** fs.go:524-545 for user [own]. *)
  Definition log_search (own : bytes) (files : bytes -> files) (now : Z) (q : search) : option (list (option log_msg)) :=
    fs_search (fun entity events => fs_parse own entity events) files (fun m => p_name (lm_prefix m)) log_contains now q.
End Fs.

(** ** The database *)
Definition quote : ascii := "034"%char.
Section Fts.
  (** unicode.In(r, unicode.L, unicode.N, unicode.Co), sqlite.go:1333. *)
  Variable token_rune : N -> bool.

  Definition flush (cur : bytes) : list bytes := match cur with [] => [] | _ => [cur] end.
  (** strings.FieldsFunc, as in sqlite.go:1332-1334. *)
  Fixpoint fields (fuel : nat) (s cur : bytes) : list bytes :=
    match fuel, s with
    | S fuel, _ :: _ =>
        let '(r, t) := rune s in
        if token_rune r then fields fuel t (cur ++ firstn (length s - length t) s)
        else flush cur ++ fields fuel t []
    | _, _ => flush cur
    end.
  (** sqlite.go:1305. *)
  Definition escape_quotes (s : bytes) : bytes := flat_map (fun c => if aeqb c quote then [quote; quote] else [c]) s.
  (** sqlite.go:1335-1344. A token gives at least two bytes, so that there is a space
      before every one but the first. *)
  Definition quote_fts (query : bytes) : bytes :=
    join [" "%char] (map (fun t => quote :: escape_quotes t ++ [quote]) (fields (length query) query [])).

  (** sqlite.go:1248-1250, with SQLite's MATCH as [match5]. *)
  Definition sqlite_fts (match5 : bytes -> option bytes -> bool) (text : bytes) (row : option bytes) : bool := match5 (quote_fts text) row.
End Fts.
