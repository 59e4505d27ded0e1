(** Property C83. *)
From Verif.Base Require Import Bytes Base64 Path.
From Verif.Proof Require UploadHttp.
From Verif.Model Require Import Upload UploadHttp.
From Verif.Spec Require Import Upload UploadHttp.

Section C83.
  Variable enabled : bool.
  Variable root : bytes.
  Variable limit : N.
  Variable origins : list bytes.
  Variable url_host : bytes -> option bytes.
  Variable matches : bytes -> bytes -> bool.
  Variable parse_media : bytes -> option (bytes * list (bytes * bytes)).
  Variable format_media : bytes -> bytes -> bytes.
  Variable type_by_ext : bytes -> bytes.
  Variable exts_by_type : bytes -> list bytes.
  Variable detect : bytes -> bytes.
  (** No extension of the system's table of types has a slash. *)
  Hypothesis exts_plain : forall mt x, In x (exts_by_type mt) -> ~ In "/"%char x.
  (** mime.ParseMediaType refuses the empty text. *)
  Hypothesis no_type : parse_media [] = None.

  Notation step := (step enabled root limit origins url_host matches parse_media format_media type_by_ext exts_by_type detect).
  Notation exec := (exec enabled root limit origins url_host matches parse_media format_media type_by_ext exts_by_type detect).
  Notation permitted := (permitted origins url_host matches).

  (** C83: whatever requests come, in whatever order their bodies arrive, and however often the
      bouncer is restarted, the files there were before are as they were, and each new file is that of
      one request with valid credentials made from a permitted origin: its content is the beginning of
      the body of this request and of no other, and it is no longer than the limit. For a user whose
      name is an ordinary file name it is in the directory of this user. *)
  Theorem C83_stored :
    forall files l, NoDup (map fst files) -> NoDup (request_ids l) ->
      exists news, h_files (exec files l) = files ++ map snd news /\ NoDup (map fst news) /\
        forall id p c, In (id, (p, c)) news ->
          exists q e user, In (Request id q e) l /\ q_method q = B "POST" /\ q_path q = B "/uploads" /\ permitted q /\
            authorised e q user /\ c = firstn (N.to_nat limit) (received id l) /\
            (tokens_ok (e_tokens e) -> safe_name user -> exists name, safe_name name /\ p = place (clean root) [user; name]).
  Proof. intros files l. apply Proof.UploadHttp.stored. exact exts_plain. Qed.

  (** C83: an upload that is said to have succeeded was made with valid credentials and is whole; for
      a user whose name is an ordinary file name without a colon, the link that is returned leads,
      after whatever else happens and for everybody, to the bytes that were sent, under the name that
      was given to them. *)
  Theorem C83_uploaded_partial :
    forall files l e id r, NoDup (map fst files) -> NoDup (request_ids (l ++ [e])) ->
      In (id, r) (snd (step (exec files l) e)) -> p_code r = 201%N ->
      exists q en user, In (Request id q en) l /\ q_method q = B "POST" /\ permitted q /\ authorised en q user /\
        (N.of_nat (length (received id l)) <= limit)%N /\
        (tokens_ok (e_tokens en) -> safe_name user -> ~ In ":"%char user ->
         exists link path, header r (B "Location") = [link] /\ unescape link = Some path /\
           forall l' i q' en', permitted q' -> q_method q' = B "GET" -> q_path q' = path ->
             exists r' mode name, step (exec files (l ++ e :: l')) (Request i q' en') = (exec files (l ++ e :: l'), [(i, r')]) /\
               p_code r' = 200%N /\ p_body r' = received id l /\
               header r' (B "Content-Disposition") = [format_media mode name] /\
               forall x params n, q_cdisp q <> [] -> parse_media (q_cdisp q) = Some (x, params) -> named params n ->
                 n <> [] -> ~ In "/"%char n ->
                 exists suffix, name = n ++ suffix /\ (In "."%char n -> suffix = [])).
  Proof. intros files l e id r. apply Proof.UploadHttp.uploaded. exact exts_plain. Qed.

  (** C83: every answer forbids scripts, and only a page of a permitted origin may read it. *)
  Theorem C83_headers :
    forall files l e id r, NoDup (map fst files) -> NoDup (request_ids (l ++ [e])) ->
      In (id, r) (snd (step (exec files l) e)) ->
      exists q en, In (Request id q en) (l ++ [e]) /\
        header r (B "Content-Security-Policy") = [B "sandbox; default-src 'none'; script-src 'none'; media-src 'self';"] /\
        (header r (B "Access-Control-Allow-Origin") = [] \/
         header r (B "Access-Control-Allow-Origin") = [q_origin q] /\ q_origin q <> [] /\ permitted q).
  Proof. intros files l e id r. apply Proof.UploadHttp.headers. Qed.

  (** C83: a request of a page of another origin is refused whatever credentials it has: it changes
      nothing and its answer does not depend on what is stored. *)
  Theorem C83_foreign :
    forall id q en, ~ permitted q ->
      exists r, (forall s, step s (Request id q en) = (s, [(id, r)])) /\ p_code r = 403%N /\
        header r (B "Access-Control-Allow-Origin") = [].
  Proof. exact (Proof.UploadHttp.foreign enabled root limit origins url_host matches parse_media format_media type_by_ext exts_by_type detect). Qed.

  (** C83: only sound, pictures, films, plain text and PDF are shown by the browser; anything else,
      such as pages and drawings that may have scripts, is to be saved. *)
  Theorem C83_shown :
    forall s e id r, In (id, r) (snd (step s e)) -> p_code r = 200%N ->
      exists name,
        header r (B "Content-Disposition") = [format_media (B "attachment") name] \/
        header r (B "Content-Disposition") = [format_media (B "inline") name] /\
        exists ct mt params, header r (B "Content-Type") = [ct] /\ parse_media ct = Some (mt, params) /\ harmless mt.
  Proof. intros s e id r. apply Proof.UploadHttp.shown. exact no_type. Qed.

  (** C83: a request that is answered before its body is read has stored nothing. *)
  Theorem C83_refused_partial :
    forall s id q en, snd (step s (Request id q en)) <> [] -> fst (step s (Request id q en)) = s.
  Proof. exact (Proof.UploadHttp.at_once enabled root limit origins url_host matches parse_media format_media type_by_ext exts_by_type detect). Qed.
End C83.
Print Assumptions C83_stored.
Print Assumptions C83_uploaded_partial.
Print Assumptions C83_headers.
Print Assumptions C83_foreign.
Print Assumptions C83_shown.
Print Assumptions C83_refused_partial.

(** A small table of types, and enough of the parsing of header fields for the examples. *)
Definition x_host (o : bytes) : option bytes := if has_prefix o (B "https://") then Some (skipn 8 o) else None.
Definition x_parse (s : bytes) : option (bytes * list (bytes * bytes)) :=
  match s with
  | [] => None
  | _ => match cut_on ";" s with
         | (t, None) => Some (t, [])
         | (t, Some r) => match cut_on "=" (skipn 1 r) with (k, Some v) => Some (t, [(k, v)]) | _ => None end
         end
  end.
Definition x_format (mode name : bytes) : bytes := mode ++ B "; filename=" ++ name.
Definition x_type (ext : bytes) : bytes :=
  if beqb ext (B ".png") then B "image/png" else if beqb ext (B ".html") then B "text/html" else [].
Definition x_exts (mt : bytes) : list bytes :=
  if beqb mt (B "image/png") then [B ".png"] else if beqb mt (B "text/html") then [B ".htm"; B ".html"] else [].
Definition x_detect (s : bytes) : bytes := B "text/plain; charset=utf-8".
Definition x_step := UploadHttp.step true (B "/srv/up") 8 [B "chat.example"] x_host beqb x_parse x_format x_type x_exts x_detect.
Definition x_exec := UploadHttp.exec true (B "/srv/up") 8 [B "chat.example"] x_host beqb x_parse x_format x_type x_exts x_detect.
Definition x_env (tokens : list bytes) : env :=
  Env (Some (fun u p => beqb p (B "pw"))) None tokens true true.
Definition x_post (authz ctype cdisp : bytes) : request :=
  Req (B "POST") (B "irc.example") (B "/uploads") (B "https://chat.example") authz ctype cdisp None.
Definition x_get (path : bytes) : request := Req (B "GET") (B "irc.example") path [] [] [] [] None.

(** Two users upload at once, one of them in two pieces; a third request has no valid password. The
    picture is shown, the page is to be saved. *)
Definition x_run : list ev :=
  [Request 1 (x_post (B "Basic YWxpY2U6cHc=") (B "image/png") (B "attachment; filename=a cat")) (x_env [B "0a"]);
   Data 1 (B "meo");
   Request 2 (x_post (B "basic Ym9iOnB3") [] (B "attachment; filename=x.html")) (x_env [B "0b"]);
   Request 3 (x_post (B "Basic YWxpY2U6bm8=") [] []) (x_env [B "0c"]);
   Data 2 (B "<p>");
   Data 1 (B "wed")].
Example C83_nonvacuous :
  h_files (x_exec [] x_run) = [(B "/srv/up/alice/0a-a cat.png", B "meowed"); (B "/srv/up/bob/0b-x.html", B "<p>")] /\
  map (fun o => (fst o, p_code (snd o), header (snd o) (B "Location"))) (snd (x_step (x_exec [] x_run) (Eof 1 true)))
    = [(1%N, 201%N, [B "/uploads/alice/0a-a%20cat.png"])] /\
  unescape (B "/uploads/alice/0a-a%20cat.png") = Some (B "/uploads/alice/0a-a cat.png") /\
  (let s := x_exec [] (x_run ++ [Eof 1 true; Reboot]) in
   map (fun o => (p_code (snd o), p_body (snd o), header (snd o) (B "Content-Disposition"))) (snd (x_step s (Request 4 (x_get (B "/uploads/alice/0a-a cat.png")) (x_env []))))
     = [(200%N, B "meowed", [B "inline; filename=a cat.png"])] /\
   map (fun o => (p_code (snd o), p_body (snd o), header (snd o) (B "Content-Disposition"))) (snd (x_step s (Request 5 (x_get (B "/uploads/bob/0b-x.html")) (x_env []))))
     = [(200%N, B "<p>", [B "attachment; filename=x.html"])]) /\
  map (fun o => p_code (snd o)) (snd (x_step (x_exec [] (firstn 3 x_run)) (nth 3 x_run Reboot))) = [403%N] /\
  map (fun o => p_code (snd o)) (snd (x_step (x_exec [] x_run)
    (Request 6 (Req (B "GET") (B "irc.example") (B "/uploads/bob/0b-x.html") (B "https://evil.example") [] [] [] None) (x_env [])))) = [403%N] /\
  NoDup (request_ids (x_run ++ [Eof 1 true])) /\ authorised (x_env [B "0a"]) (x_post (B "Basic YWxpY2U6cHc=") (B "image/png") []) (B "alice").
Proof.
  split; [vm_compute; reflexivity|]. split; [vm_compute; reflexivity|]. split; [vm_compute; reflexivity|].
  split; [split; vm_compute; reflexivity|]. split; [vm_compute; reflexivity|]. split; [vm_compute; reflexivity|].
  split; [cbn; repeat constructor; cbn; intuition discriminate|].
  exists (B "Basic"), (B "YWxpY2U6cHc="). split; [left; reflexivity|]. split; [cbn; intuition discriminate|].
  left. split; [reflexivity|]. exists (fun u p => beqb p (B "pw")), (B "pw"). split; [reflexivity|]. split; [cbn; intuition discriminate|].
  split; vm_compute; reflexivity.
Qed.

(** C83: an upload that is answered with an error may still have been stored: what has been written
    of a body that turns out to be too long stays, and is served. *)
Theorem C83_refused_refuted :
  exists l id q en r path, Forall (fun e => forall i b, e <> Eof i b) l /\ In (Request id q en) l /\
    In (id, r) (snd (x_step (x_exec [] (firstn 2 l)) (nth 2 l Reboot))) /\ length l = 3%nat /\ p_code r = 413%N /\
    map (fun o => (p_code (snd o), p_body (snd o))) (snd (x_step (x_exec [] l) (Request 7 (x_get path) (x_env [])))) = [(200%N, B "12345678")].
Proof.
  exists [Request 1 (x_post (B "Basic YWxpY2U6cHc=") [] []) (x_env [B "0a"]); Data 1 (B "12345"); Data 1 (B "6789")], 1%N,
    (x_post (B "Basic YWxpY2U6cHc=") [] []), (x_env [B "0a"]). eexists. exists (B "/uploads/alice/0a").
  split; [repeat constructor; discriminate|]. split; [left; reflexivity|]. split; [vm_compute; left; reflexivity|].
  split; [reflexivity|]. split; vm_compute; reflexivity.
Qed.
Print Assumptions C83_refused_refuted.

(** C83: the link may lead elsewhere: for a user whose name is "a:b", as a bearer token may say, the
    link has another scheme, so that a browser does not come back to the bouncer. *)
Theorem C83_colon_refuted :
  exists l en q r link, en = Env None (Some (fun _ => Some (B "a:b"))) [B "0a"] true true /\ safe_name (B "a:b") /\
    authorised en q (B "a:b") /\ l = [Request 1 q en] /\
    In (1%N, r) (snd (x_step (x_exec [] l) (Eof 1 true))) /\ p_code r = 201%N /\ header r (B "Location") = [link] /\
    has_prefix link (B "/") = false /\ has_prefix link (B "a:") = true.
Proof.
  eexists. eexists. exists (x_post (B "Bearer t") [] []). eexists. eexists. split; [reflexivity|].
  split; [repeat split; try discriminate; cbn; intuition discriminate|]. split.
  { exists (B "Bearer"), (B "t"). split; [left; reflexivity|]. split; [cbn; intuition discriminate|].
    right. split; [reflexivity|]. exists (fun _ => Some (B "a:b")). split; reflexivity. }
  split; [reflexivity|]. split; [vm_compute; left; reflexivity|]. split; [reflexivity|]. split; [vm_compute; reflexivity|]. split; reflexivity.
Qed.
Print Assumptions C83_colon_refuted.

(** C83: a disposition without a file name gives the file the name ".", and it loses the extension
    its type calls for. *)
Theorem C83_noname_refuted :
  exists q en, q_ctype q = B "image/png" /\ x_parse (q_cdisp q) = Some (B "attachment", [(B "x", B "y")]) /\
    h_files (x_exec [] [Request 1 q en]) = [(B "/srv/up/alice/0a-.", [])] /\
    map (fun o => (p_code (snd o), header (snd o) (B "Content-Disposition"), header (snd o) (B "Content-Type")))
      (snd (x_step (x_exec [] [Request 1 q en; Eof 1 true]) (Request 2 (x_get (B "/uploads/alice/0a-.")) en)))
      = [(200%N, [B "inline; filename=."], [B "text/plain; charset=utf-8"])].
Proof.
  exists (x_post (B "Basic YWxpY2U6cHc=") (B "image/png") (B "attachment; x=y")), (x_env [B "0a"]).
  split; [reflexivity|]. split; [reflexivity|]. split; vm_compute; reflexivity.
Qed.
Print Assumptions C83_noname_refuted.
