(** Specification of uploads over HTTP. *)
From Verif.Base Require Import Bytes Base64 Path.
From Verif.Model Require Import UploadHttp.

(** What a Web browser makes of the path of a link: percent signs start bytes given by two digits. *)
Definition hex_value (c : ascii) : option N :=
  let n := code c in
  if (N.leb 48 n && N.leb n 57)%N then Some (n - 48)%N
  else if (N.leb 65 n && N.leb n 70)%N then Some (n - 55)%N
  else if (N.leb 97 n && N.leb n 102)%N then Some (n - 87)%N
  else None.
Fixpoint unescape (s : bytes) : option bytes :=
  match s with
  | [] => Some []
  | c :: s' =>
      if aeqb c "%" then
        match s' with
        | a :: b :: s'' =>
            match hex_value a, hex_value b, unescape s'' with
            | Some x, Some y, Some r => Some (ascii_of_N (16 * x + y) :: r)
            | _, _, _ => None
            end
        | _ => None
        end
      else match unescape s' with Some r => Some (c :: r) | None => None end
  end.

(** The values of a header field. *)
Definition header (r : response) (name : bytes) : list bytes :=
  map snd (filter (fun h => beqb (fst h) name) (p_headers r)).

(** What has been received of the body of the request [id]. *)
Inductive body := Unknown | Coming (s : bytes) | Ended (s : bytes).
Definition receive (id : N) (b : body) (e : ev) : body :=
  match e, b with
  | Request i _ _, Unknown => if N.eqb i id then Coming [] else b
  | Data i chunk, Coming s => if N.eqb i id then Coming (s ++ chunk) else b
  | Eof i _, Coming s => if N.eqb i id then Ended s else b
  | Broken i, Coming s => if N.eqb i id then Ended s else b
  | Reboot, Coming s => Ended s
  | _, _ => b
  end.
Definition received (id : N) (l : list ev) : bytes :=
  match fold_left (receive id) l Unknown with Unknown => [] | Coming s => s | Ended s => s end.

(** Requests have numbers of their own. *)
Definition request_ids (l : list ev) : list N :=
  flat_map (fun e => match e with Request id _ _ => [id] | _ => [] end) l.

(** The file name among the parameters of a disposition. *)
Definition named (params : list (bytes * bytes)) (n : bytes) : Prop :=
  exists a b, params = a ++ (B "filename", n) :: b /\ ~ In (B "filename") (map fst a).

(** Types a browser shows without running anything: sound, pictures and films that are no documents,
    plain text and PDF. *)
Definition harmless (mt : bytes) : Prop :=
  mt = B "text/plain" \/ mt = B "application/pdf" \/
  exists main sub, mt = main ++ B "/" ++ sub /\ In main [B "audio"; B "image"; B "video"] /\
    forall x, In x (split_on "+" sub) -> x <> B "svg" /\ x <> B "xml".

Section Spec.
  Variable enabled : bool.
  Variable root : bytes.
  Variable limit : N.
  Variable origins : list bytes.
  Variable url_host : bytes -> option bytes.
  Variable matches : bytes -> bytes -> bool.

  (** A request made by a page of the bouncer's own site or of one that is allowed. *)
  Definition permitted (q : request) : Prop :=
    q_origin q = [] \/
    exists h, url_host (q_origin q) = Some h /\
      (to_lower h = to_lower (q_host q) \/ exists p, In p origins /\ matches p h = true).

  (** A request with the credentials of a user. *)
  Definition authorised (e : env) (q : request) (user : bytes) : Prop :=
    exists scheme rest, (q_authz q = scheme ++ B " " ++ rest \/ q_authz q = scheme /\ rest = []) /\ ~ In " "%char scheme /\
      ((to_lower scheme = B "basic" /\ exists check pass, e_plain e = Some check /\ ~ In ":"%char user /\
          b64_decode B64Std rest = Some (user ++ B ":" ++ pass) /\ check user pass = true) \/
       (to_lower scheme = B "bearer" /\ exists check, e_bearer e = Some check /\ check rest = Some user)).
End Spec.
