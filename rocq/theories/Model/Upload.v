(** Model of the file upload paths, fileupload/. Opening files, HTTP headers and
    MIME types are not modelled; [store_upload] works on the set of existing
    files. *)
From Verif.Base Require Import Bytes Path.

(** fileupload/fileupload.go:168-180 (fetch): the name looked up for a request
    path; [None] is the "invalid path" answer. *)
Definition fetch_name (urlpath : bytes) : option bytes :=
  if has_prefix urlpath (B "/uploads/") then
    match skipn 1 (path_join [B "/"; skipn (length (B "/uploads/")) urlpath]) with
    | [] => None
    | f => Some f
    end
  else None.

(** fileupload/fs.go:22-23 (load): the file opened. *)
Definition load_path (dir filename : bytes) : bytes := path_join [dir; filename].

Definition fetch_path (dir urlpath : bytes) : option bytes :=
  match fetch_name urlpath with Some f => Some (load_path dir f) | None => None end.

(** fileupload/fs.go:40-43 (load): the file name sent to the client. *)
Definition shown_name (filename : bytes) : bytes :=
  let base := path_base filename in
  match cut_on "-" base with (_, Some r) => r | (_, None) => base end.

(** fileupload/fs.go:74-80 (store): the candidate file name. [suffix] is the
    extension derived from the MIME type (lines 49-56), [token] the random hex
    string. *)
Definition upload_name (token orig suffix : bytes) : bytes :=
  token ++ (match orig with [] => [] | _ => B "-" ++ orig end) ++ suffix.

(** fileupload/fs.go:64-89 (store): up to 100 attempts, one token each; opening
    with O_EXCL fails when the file exists. [exists_file] tells the existing
    files. The result is the path created. *)
Fixpoint pick_file (exists_file : bytes -> bool) (dir orig suffix : bytes) (tokens : list bytes) : option bytes :=
  match tokens with
  | [] => None
  | t :: tokens' =>
      let p := path_join [dir; upload_name t orig suffix] in
      if exists_file p then pick_file exists_file dir orig suffix tokens' else Some p
  end.

Definition store_upload (exists_file : bytes -> bool) (root username orig suffix : bytes) (tokens : list bytes)
    : option bytes :=
  pick_file exists_file (path_join [root; username]) orig suffix (firstn 100 tokens).

(** fileupload/fs.go:99 (store): the relative URL sent back, before
    percent-encoding of its two components. *)
Definition upload_url (username path : bytes) : bytes := username ++ B "/" ++ path_base path.
