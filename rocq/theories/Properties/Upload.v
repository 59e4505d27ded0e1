(** Properties C38 and C53. *)
From Verif.Base Require Import Bytes Path.
From Verif.Model Require Import Upload.
From Verif.Spec Require Import Upload.
From Verif.Proof Require Upload.

(** C38: the file opened for any request path lies below the upload directory. *)
Theorem C38_download_below_directory :
  forall dir urlpath p, fetch_path dir urlpath = Some p -> below (clean dir) p.
Proof. exact Proof.Upload.fetch_below. Qed.
Print Assumptions C38_download_below_directory.

(** C38: every ordinary relative path below the directory can be requested. *)
Theorem C38_download_reaches_files :
  forall dir names, names <> [] -> Forall safe_name names ->
    fetch_path dir (B "/uploads/" ++ join (B "/") names) = Some (place (clean dir) names).
Proof. exact Proof.Upload.fetch_names. Qed.
Print Assumptions C38_download_reaches_files.

(** C38: storing never picks an existing file, whatever the random tokens, the
    user and the names. *)
Theorem C38_store_never_overwrites :
  forall exists_file root username orig suffix tokens p,
    store_upload exists_file root username orig suffix tokens = Some p -> exists_file p = false.
Proof. intros ex root u o s ts p H. apply Proof.Upload.pick_file_spec in H. apply H. Qed.
Print Assumptions C38_store_never_overwrites.

Example C38_nonvacuous :
  fetch_path (B "/srv/up") (B "/uploads/../../etc//passwd") = Some (B "/srv/up/etc/passwd") /\
  fetch_path (B "/srv/up") (B "/uploads/alice/./0a1b-x.png") = Some (B "/srv/up/alice/0a1b-x.png") /\
  fetch_path (B "/srv/up") (B "/uploads/..") = None /\
  store_upload (fun p => beqb p (B "/srv/up/al/aa-x.png")) (B "/srv/up") (B "al") (B "x.png") [] [B "aa"; B "bb"]
    = Some (B "/srv/up/al/bb-x.png").
Proof. split; [|split; [|split]]; vm_compute; reflexivity. Qed.

(** C53: for a user whose name is an ordinary file name, an uploaded file is
    created inside the user's own directory, the returned location designates
    the same file, and the file name shown is the one given. *)
Theorem C53_upload_then_download_partial :
  forall exists_file root user orig suffix tokens p,
    tokens_ok tokens -> safe_name user -> ~ In "/"%char orig -> ~ In "/"%char suffix ->
    store_upload exists_file root user orig suffix tokens = Some p ->
    (exists name, safe_name name /\ p = place (clean root) [user; name]) /\
    fetch_path root (B "/uploads/" ++ upload_url user p) = Some p /\
    (orig <> [] -> shown_name (upload_url user p) = orig ++ suffix).
Proof. exact Proof.Upload.stored_file_fetched. Qed.
Print Assumptions C53_upload_then_download_partial.

(** User names are not checked: a user called ".." writes outside the upload
    directory, and the file cannot be downloaded. *)
Theorem C53_upload_escapes_refuted :
  exists root user orig tokens p,
    tokens_ok tokens /\
    store_upload (fun _ => false) root user orig [] tokens = Some p /\
    ~ below (clean root) p /\
    fetch_path root (B "/uploads/" ++ upload_url user p) <> Some p.
Proof.
  exists (B "/srv/up"), (B ".."), (B "x.png"), [B "0a"], (B "/srv/0a-x.png").
  split; [|split; [vm_compute; reflexivity|split]].
  - constructor; [|constructor]. split; [discriminate|]. simpl. intros c [<-|[<-|[]]]; [left; reflexivity|right; left; reflexivity].
  - intros (names & Hn & Hs & E). vm_compute in E. discriminate.
  - vm_compute. discriminate.
Qed.
Print Assumptions C53_upload_escapes_refuted.

Example C53_nonvacuous :
  tokens_ok [B "0a1b"] /\ safe_name (B "alice") /\
  store_upload (fun _ => false) (B "up/") (B "alice") (B "cat-1.png") [] [B "0a1b"] = Some (B "up/alice/0a1b-cat-1.png").
Proof.
  split; [|split; [|vm_compute; reflexivity]].
  - constructor; [|constructor]. split; [discriminate|]. simpl.
    intros c [<-|[<-|[<-|[<-|[]]]]]; try (left; reflexivity); right; auto 8.
  - split; [discriminate|]. split; [discriminate|]. split; [discriminate|]. simpl. intuition discriminate.
Qed.
