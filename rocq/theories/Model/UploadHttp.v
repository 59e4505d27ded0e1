(** Model of the HTTP side of file uploads with the driver "fs": fileupload/fileupload.go and
    fileupload/fs.go. A request is handled at once, except that the body of an upload comes in pieces
    while other requests are handled. Not modelled: the driver "http", ranges and conditions of
    downloads (http.ServeContent sends the whole file here), read errors of downloads, the texts of
    errors made of other errors. *)
From Verif.Base Require Import Bytes Base64 Path.
From Verif.Model Require Import Upload.

Record request := Req {
  q_method : bytes;
  q_host : bytes;
  q_path : bytes;          (* decoded *)
  q_origin : bytes;        (* header fields, empty if missing *)
  q_authz : bytes;
  q_ctype : bytes;
  q_cdisp : bytes;
  q_length : option N      (* Content-Length *)
}.
Record response := Resp { p_code : N; p_headers : list (bytes * bytes); p_body : bytes }.

(** What a request meets: who may log in, the random tokens, and whether directories and files can be
    made. *)
Record env := Env {
  e_plain : option (bytes -> bytes -> bool);
  e_bearer : option (bytes -> option bytes);
  e_tokens : list bytes;
  e_mkdir : bool;
  e_open : bool
}.

(** An upload whose body is being read; [j_left] is what MaxBytesReader still lets through. *)
Record job := Job { j_id : N; j_path : bytes; j_user : bytes; j_left : N; j_headers : list (bytes * bytes) }.
Record st := St { h_files : list (bytes * bytes); h_jobs : list job }.

Inductive ev :=
| Request (id : N) (q : request) (e : env)
| Data (id : N) (chunk : bytes)     (* a piece of the body *)
| Eof (id : N) (closed : bool)      (* its end, and whether closing the file works *)
| Broken (id : N)                   (* reading the body or writing the file fails *)
| Reboot.

Fixpoint file_get (l : list (bytes * bytes)) (p : bytes) : option bytes :=
  match l with
  | [] => None
  | (q, c) :: l => if beqb q p then Some c else file_get l p
  end.
Fixpoint file_append (l : list (bytes * bytes)) (p c : bytes) : list (bytes * bytes) :=
  match l with
  | [] => []
  | (q, d) :: l => if beqb q p then (q, d ++ c) :: l else (q, d) :: file_append l p c
  end.
(** The first [n] bytes. *)
Fixpoint take (n : N) (s : bytes) : bytes :=
  match s with
  | [] => []
  | c :: s => if N.eqb n 0 then [] else c :: take (N.pred n) s
  end.

(** filepath.Ext, path.Ext. *)
Fixpoint ext_rev (l acc : bytes) : bytes :=
  match l with
  | [] => []
  | c :: l => if aeqb c "/" then [] else if aeqb c "." then "."%char :: acc else ext_rev l (c :: acc)
  end.
Definition path_ext (s : bytes) : bytes := ext_rev (rev s) [].

(** url.PathEscape. *)
Definition hex_digit (n : N) : ascii := nth (N.to_nat n) (B "0123456789ABCDEF") "0"%char.
Definition plain_byte (c : ascii) : bool :=
  is_digit c || (N.leb 65 (code c) && N.leb (code c) 90)%N || (N.leb 97 (code c) && N.leb (code c) 122)%N
  || amem c (B "-_.~$&+:=@").
Definition escape_byte (c : ascii) : bytes :=
  if plain_byte c then [c] else ["%"%char; hex_digit (code c / 16); hex_digit (N.modulo (code c) 16)].
Definition path_escape (s : bytes) : bytes := flat_map escape_byte s.

(** url.Parse and ResolveReference against "/uploads/" (fileupload.go:339-345), for a relative
    reference of two escaped segments: a colon in the first one ends a scheme, or is an error; the
    first one may be a dot segment. *)
Definition scheme_ok (s : bytes) : bool :=
  match s with
  | c :: _ => ((N.leb 65 (code c) && N.leb (code c) 90) || (N.leb 97 (code c) && N.leb (code c) 122))%N
      && forallb (fun c => is_digit c || (N.leb 65 (code c) && N.leb (code c) 90)%N
                           || (N.leb 97 (code c) && N.leb (code c) 122)%N || amem c (B "+-.")) s
  | [] => false
  end.
Definition location (first second : bytes) : option bytes :=
  match cut_on ":" first with
  | (s, Some r) => if scheme_ok s then Some (to_lower s ++ B ":" ++ r ++ B "/" ++ second) else None
  | (_, None) =>
      match first with
      | [] => Some (B "/" ++ second)
      | _ =>
          if beqb first (B ".") then Some (B "/uploads/" ++ second)
          else if beqb first (B "..") then Some (B "/" ++ second)
          else Some (B "/uploads/" ++ first ++ B "/" ++ second)
      end
  end.

(** fileupload.go:27-43. *)
Definition inline_types : list bytes :=
  [B "application/pdf"; B "audio/aac"; B "audio/mp4"; B "audio/mpeg"; B "audio/ogg"; B "audio/webm";
   B "image/apng"; B "image/gif"; B "image/jpeg"; B "image/png"; B "image/webp"; B "text/plain";
   B "video/mp4"; B "video/ogg"; B "video/webm"].
(** fileupload.go:52-60. *)
Definition primary_exts : list (bytes * bytes) :=
  [(B "audio/aac", B "aac"); (B "audio/mp4", B "mp4"); (B "audio/mpeg", B "mp3"); (B "audio/ogg", B "oga");
   (B "image/jpeg", B "jpeg"); (B "text/plain", B "txt"); (B "video/mp4", B "mp4")].

(** net/http parseBasicAuth. *)
Definition basic_auth (h : bytes) : option (bytes * bytes) :=
  if beqb (to_lower (firstn 6 h)) (B "basic ") then
    match b64_decode B64Std (skipn 6 h) with
    | Some s => match cut_on ":" s with (u, Some p) => Some (u, p) | _ => None end
    | None => None
    end
  else None.

Section UploadHttp.
  Variable enabled : bool.                    (* an uploader is configured *)
  Variable root : bytes.
  Variable limit : N.                         (* maxSize, fileupload.go:21 *)
  Variable origins : list bytes.
  Variable url_host : bytes -> option bytes.  (* url.Parse, Host *)
  Variable matches : bytes -> bytes -> bool.  (* path.Match *)
  Variable parse_media : bytes -> option (bytes * list (bytes * bytes)).
  Variable format_media : bytes -> bytes -> bytes.   (* mode and file name *)
  Variable type_by_ext : bytes -> bytes.
  Variable exts_by_type : bytes -> list bytes.
  Variable detect : bytes -> bytes.           (* http.DetectContentType *)

  (** http.Error. *)
  Definition error (hs : list (bytes * bytes)) (code : N) (text : bytes) : response :=
    Resp code (hs ++ [(B "Content-Type", B "text/plain; charset=utf-8"); (B "X-Content-Type-Options", B "nosniff")]) text.

  Definition csp : bytes * bytes :=
    (B "Content-Security-Policy", B "sandbox; default-src 'none'; script-src 'none'; media-src 'self';").
  Definition cors_static : list (bytes * bytes) :=
    [(B "Access-Control-Allow-Credentials", B "true");
     (B "Access-Control-Allow-Headers", B "Authorization, Content-Type, Content-Disposition");
     (B "Access-Control-Expose-Headers", B "Location, Content-Disposition")].

  (** fileupload.go:120-141 (checkOrigin, setCORS): the header fields, and false for an error.
      strings.EqualFold also folds letters outside ASCII. *)
  Definition set_cors (q : request) : list (bytes * bytes) * bool :=
    match q_origin q with
    | [] => (cors_static, true)
    | o =>
        match url_host o with
        | None => (cors_static, false)
        | Some h =>
            if beqb (to_lower h) (to_lower (q_host q)) || existsb (fun p => matches p h) origins
            then (cors_static ++ [(B "Access-Control-Allow-Origin", o); (B "Vary", B "Origin")], true)
            else (cors_static, false)
        end
    end.

  (** fileupload.go:170-228 (fetch), fs.go:22-46 (load). *)
  Definition fetch (s : st) (hs : list (bytes * bytes)) (q : request) : response :=
    match fetch_name (q_path q) with
    | None => error hs 404 (B "invalid path")
    | Some f =>
        match file_get (h_files s) (load_path root f) with
        | None => Resp 404 hs (B "file not found")
        | Some content =>
            let name := shown_name f in
            let ct := match type_by_ext (path_ext name) with [] => detect (firstn 512 content) | t => t end in
            let mt := match parse_media ct with Some (t, _) => t | None => [] end in
            let mode := if bmem mt inline_types then B "inline" else B "attachment" in
            Resp 200 (hs ++ (match ct with [] => [] | _ => [(B "Content-Type", ct)] end)
                         ++ [(B "Content-Disposition", format_media mode name)])
              (if beqb (q_method q) (B "HEAD") then [] else content)
        end
    end.

  (** fileupload.go:236-279: the user, or the answer. The text of an error of the authenticator is
      its external message. *)
  Definition authorize (e : env) (q : request) : bytes + N :=
    match q_authz q with
    | [] => inr 401%N
    | h =>
        let '(scheme, param) := cut_on " " h in
        let param := match param with Some p => p | None => [] end in
        if beqb (to_lower scheme) (B "basic") then
          match e_plain e with
          | None => inr 400%N
          | Some check =>
              match basic_auth h with
              | None => inr 400%N
              | Some (u, p) => if check u p then inl u else inr 403%N
              end
          end
        else if beqb (to_lower scheme) (B "bearer") then
          match e_bearer e with
          | None => inr 400%N
          | Some check => match check param with Some u => inl u | None => inr 403%N end
          end
        else inr 400%N
    end.

  Definition al_get (l : list (bytes * bytes)) (k : bytes) : bytes :=
    match find (fun p => beqb (fst p) k) l with Some p => snd p | None => [] end.

  (** fileupload.go:281-301: the MIME type, or the answer. *)
  Definition upload_type (q : request) : bytes + N :=
    match q_ctype q with
    | [] => inl []
    | ct =>
        match parse_media ct with
        | None => inr 400%N
        | Some (mt, params) =>
            if bmem (to_lower (al_get params (B "charset"))) [[]; B "utf-8"; B "us-ascii"]
            then inl (if beqb mt (B "application/octet-stream") then [] else mt)
            else inr 415%N
        end
    end.
  (** fileupload.go:303-311: the name given; None is an error. *)
  Definition upload_base (q : request) : option bytes :=
    match q_cdisp q with
    | [] => Some []
    | cd => match parse_media cd with None => None | Some (_, params) => Some (path_base (al_get params (B "filename"))) end
    end.
  (** fs.go:49-56. *)
  Definition upload_suffix (orig mt : bytes) : bytes :=
    match path_ext orig, mt with
    | [], _ :: _ =>
        match find (fun p => beqb (fst p) mt) primary_exts with
        | Some (_, e) => B "." ++ e
        | None => match exts_by_type mt with [e] => e | _ => [] end
        end
    | _, _ => []
    end.

  Definition too_large (hs : list (bytes * bytes)) : response :=
    error (hs ++ [(B "Connection", B "close"); (B "Upload-Limit", B "maxsize=" ++ dec limit)]) 413 (B "failed to write file").

  (** fileupload.go:230-330 and fs.go:48-89 (store), up to the reading of the body. *)
  Definition store (s : st) (hs : list (bytes * bytes)) (id : N) (q : request) (e : env) : st * list (N * response) :=
    if negb (beqb (q_path q) (B "/uploads")) then (s, [(id, error hs 404 (B "invalid path"))])
    else match authorize e q with
    | inr code => (s, [(id, error hs code (B "authentication failed"))])
    | inl user =>
        match upload_type q with
        | inr code => (s, [(id, error hs code (B "Content-Type"))])
        | inl mt =>
            match upload_base q with
            | None => (s, [(id, error hs 400 (B "failed to parse Content-Disposition"))])
            | Some orig =>
                if match q_length q with Some n => N.ltb limit n | None => false end then (s, [(id, too_large hs)])
                else
                  let failed := (s, [(id, error hs 500 (B "failed to write file"))]) in
                  let suffix := upload_suffix orig mt in
                  (* the name "/" with an extension would be that of a file in a directory that is not there *)
                  if negb (e_mkdir e && e_open e) || beqb orig (B "/") && nonempty suffix then failed
                  else match store_upload (fun p => match file_get (h_files s) p with Some _ => true | None => false end)
                               root user orig suffix (e_tokens e) with
                  | None => failed
                  | Some p => (St (h_files s ++ [(p, [])]) (h_jobs s ++ [Job id p user limit hs]), [])
                  end
            end
        end
    end.

  (** fileupload.go:143-168 (ServeHTTP). *)
  Definition serve (s : st) (id : N) (q : request) (e : env) : st * list (N * response) :=
    let '(hs, ok) := set_cors q in
    let hs := csp :: hs in
    let is (m : bytes) := beqb (q_method q) m in
    if negb ok then (s, [(id, error hs 403 (B "unauthorized Origin"))])
    else if negb enabled then (s, [(id, error hs 404 (B "404 page not found"))])
    else if is (B "OPTIONS") then (s, [(id, Resp 204 hs [])])
    else if is (B "HEAD") || is (B "GET") then (s, [(id, fetch s hs q)])
    else if is (B "POST") then store s hs id q e
    else (s, [(id, error hs 405 (B "only OPTIONS, HEAD, GET and POST are allowed"))]).

  Definition the_job (s : st) (id : N) : option job := find (fun j => N.eqb (j_id j) id) (h_jobs s).
  Definition drop_job (s : st) (id : N) : list job := filter (fun j => negb (N.eqb (j_id j) id)) (h_jobs s).
  Definition with_left (j : job) (n : N) : job := Job (j_id j) (j_path j) (j_user j) n (j_headers j).

  (** fs.go:90-99 and fileupload.go:325-352. *)
  Definition step (s : st) (e : ev) : st * list (N * response) :=
    match e with
    | Request id q e => serve s id q e
    | Data id chunk =>
        match the_job s id with
        | None => (s, [])
        | Some j =>
            let fs := file_append (h_files s) (j_path j) (take (j_left j) chunk) in
            let n := N.of_nat (length chunk) in
            if N.ltb (j_left j) n then (St fs (drop_job s id), [(id, too_large (j_headers j))])
            else (St fs (map (fun i => if N.eqb (j_id i) id then with_left i (j_left j - n) else i) (h_jobs s)), [])
        end
    | Eof id closed =>
        match the_job s id with
        | None => (s, [])
        | Some j =>
            let r := if closed then location (path_escape (j_user j)) (path_escape (path_base (j_path j))) else None in
            (St (h_files s) (drop_job s id),
             [(id, match r with
                   | Some l => Resp 201 (j_headers j ++ [(B "Location", l)]) []
                   | None => error (j_headers j) 500 (B "failed to write file")
                   end)])
        end
    | Broken id =>
        match the_job s id with
        | None => (s, [])
        | Some j => (St (h_files s) (drop_job s id), [(id, error (j_headers j) 500 (B "failed to write file"))])
        end
    | Reboot => (St (h_files s) [], [])
    end.
  Definition exec (files : list (bytes * bytes)) (l : list ev) : st :=
    fold_left (fun s e => fst (step s e)) l (St files []).
End UploadHttp.
