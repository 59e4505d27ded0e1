(** Model of addresses of networks: url.Parse (Go's standard library), where connectToUpstream
    connects to (upstream.go:240-347), and how the certificate of the server is checked. Attributes of
    BOUNCER commands and records are in Model/Networks.v, net.SplitHostPort is in Model/Identd.v. *)
From Verif.Base Require Import Bytes.
From Verif.Model Require Import Networks.
From Verif.Model Require Identd.

Definition is_letter (c : ascii) : bool := ((97 <=? code c) && (code c <=? 122))%N || ((65 <=? code c) && (code c <=? 90))%N.
Definition alnum (c : ascii) : bool := is_letter c || is_digit c.

(** net/url: getScheme. None is an error; otherwise the scheme, which may be empty, and the rest. *)
Definition get_scheme (raw : bytes) : option (bytes * bytes) :=
  match cut_on ":" raw with
  | ([], Some _) => None
  | (c :: pre, Some rest) => if is_letter c && forallb (fun c => alnum c || amem c (B "+-.")) pre then Some (c :: pre, rest) else Some ([], raw)
  | (_, None) => Some ([], raw)
  end.

(** net/url: unescape, with [any] what is allowed as it is and [esc] what may be escaped. *)
Definition hexval (c : ascii) : N :=
  (if is_digit c then code c - 48 else if code c <=? 70 then code c - 55 else code c - 87)%N.
Fixpoint unescape (any : ascii -> bool) (esc : ascii -> ascii -> bool) (s : bytes) : option bytes :=
  match s with
  | [] => Some []
  | c :: s' =>
      if aeqb c "%" then
        match s' with
        | a :: b :: s'' =>
            if is_hex a && is_hex b && esc a b
            then option_map (cons (ascii_of_N (hexval a * 16 + hexval b))) (unescape any esc s'') else None
        | _ => None
        end
      else if any c then option_map (cons c) (unescape any esc s') else None
  end.
(** shouldEscape(c, encodeHost) and (c, encodeZone) being false, or the byte not ASCII. *)
Definition host_char (c : ascii) : bool := alnum c || amem c (B "!$&'()*+,;=:[]<>-_.~") || aeqb c """" || (128 <=? code c)%N.
Definition is25 (a b : ascii) : bool := aeqb a "2" && aeqb b "5".
Definition un_host := unescape host_char (fun a b => (8 <=? hexval a)%N || is25 a b).
Definition un_zone := unescape host_char (fun a b => let v := ascii_of_N (hexval a * 16 + hexval b) in
  is25 a b || aeqb v " " || (host_char v && (code v <? 128)%N)).
Definition un_path := unescape (fun _ => true) (fun _ _ => true).

(** net/url: validOptionalPort, parseHost. *)
Definition valid_port (s : bytes) : bool := match s with [] => true | c :: p => aeqb c ":" && forallb is_digit p end.
(** strings.Index(s, "%25"): what is before. *)
Fixpoint cut25 (s : bytes) : option (bytes * bytes) :=
  if has_prefix s (B "%25") then Some ([], s)
  else match s with [] => None | c :: s' => option_map (fun '(a, b) => (c :: a, b)) (cut25 s') end.
Definition opt_app (a b : option bytes) : option bytes := match a, b with Some a, Some b => Some (a ++ b) | _, _ => None end.
Definition parse_host (h : bytes) : option bytes :=
  if has_prefix h (B "[") then
    match Identd.cut_last "]" h with
    | None => None
    | Some (pre, port) =>
        if negb (valid_port port) then None
        else match cut25 pre with
             | Some (a, z) => opt_app (un_host a) (opt_app (un_zone z) (un_host (B "]" ++ port)))
             | None => un_host h
             end
    end
  else
    match Identd.cut_last ":" h with
    | Some (_, port) => if forallb is_digit port then un_host h else None
    | None => un_host h
    end.

(** net/url: parseAuthority and validUserinfo. Some (has a user, host). *)
Definition userinfo_char (c : ascii) : bool := alnum c || amem c (B "-._:~!$&'()*+,;=%@").
Definition parse_authority (a : bytes) : option (bool * bytes) :=
  match Identd.cut_last "@" a with
  | None => option_map (pair false) (parse_host a)
  | Some (user, host) =>
      match parse_host host with
      | None => None
      | Some h =>
          if negb (forallb userinfo_char user) then None
          else match cut_on ":" user with
               | (u, None) => match un_path u with Some _ => Some (true, h) | None => None end
               | (u, Some p) => match un_path u, un_path p with Some _, Some _ => Some (true, h) | _, _ => None end
               end
      end
  end.

(** net/url: parse, setFragment. *)
Definition is_ctl (c : ascii) : bool := (code c <? 32)%N || (code c =? 127)%N.
Definition parse_nofrag (raw : bytes) : option url :=
  if existsb is_ctl raw then None
  else if beqb raw (B "*") then Some (Url [] false [] [] [] (B "*"))
  else
    match get_scheme raw with
    | None => None
    | Some (sch, rest) =>
        let sch := to_lower sch in
        let '(rest, q) := cut_on "?" rest in
        let q := of_null q in
        if negb (has_prefix rest (B "/")) && negb (beqb sch []) then Some (Url sch false q [] [] [])
        else if negb (has_prefix rest (B "/")) && amem ":" (fst (cut_on "/" rest)) then None
        else if (negb (beqb sch []) || negb (has_prefix rest (B "///"))) && has_prefix rest (B "//") then
          let '(auth, path) := cut_on "/" (skipn 2 rest) in
          let path := match path with None => [] | Some p => B "/" ++ p end in
          match parse_authority auth, un_path path with
          | Some (us, h), Some p => Some (Url sch us q [] h p)
          | _, _ => None
          end
        else option_map (Url sch false q [] []) (un_path rest)
    end.
Definition parse_url (raw : bytes) : option url :=
  let '(u, frag) := cut_on "#" raw in
  match parse_nofrag u, of_null frag with
  | None, _ => None
  | Some x, [] => Some x
  | Some x, f => option_map (fun f => Url (u_scheme x) (u_has_user x) (u_query x) f (u_host x) (u_path x)) (un_path f)
  end.

(** upstream.go:240-347. A connection with TLS is to an address and for a server name, with a
    certificate of the client, and with a fingerprint for the certificate of the server. *)
Inductive plan :=
| PTls (addr server : bytes) (cert : option bytes) (pin : bytes)
| PPlain (addr : bytes)
| PUnix (path : bytes)
| PFail.

Section Connect.
  (** x509.ParsePKCS8PrivateKey succeeding. *)
  Variable key_ok : bytes -> bool.

  Definition connect (r : netrec) : plan :=
    match net_url parse_url r with
    | None => PFail
    | Some u =>
        if beqb (u_scheme u) (B "ircs") then
          let '(addr, host) := match Identd.split_host_port (u_host u) with
                               | Some (h, _) => (u_host u, h)
                               | None => (u_host u ++ B ":6697", u_host u)
                               end in
          if beqb (n_mech r) EXTERNAL then
            if beqb (n_cert r) [] || beqb (n_key r) [] || negb (key_ok (n_key r)) then PFail
            else PTls addr host (Some (n_cert r)) (n_certfp r)
          else PTls addr host None (n_certfp r)
        else if beqb (u_scheme u) (B "irc+insecure") then
          match Identd.split_host_port (u_host u) with
          | Some _ => PPlain (u_host u)
          | None => PPlain (u_host u ++ B ":6667")
          end
        else if unix_scheme (u_scheme u) then PUnix (u_path u)
        else PFail
    end.
End Connect.

Section Verify.
  (** Hexadecimal SHA-256 and SHA-512 of a certificate, and the usual verification of a chain of certificates
      for a server name. *)
  Variables (sha256 sha512 : bytes -> bytes) (chain_ok : bytes -> list bytes -> bool).

  (** upstream.go:282-314, for the certificates the server presents; None is a panic. *)
  Definition pin_check (pin : bytes) (certs : list bytes) : option bool :=
    match certs with
    | [] => Some false
    | _ =>
        match cut_on ":" pin with
        | (_, None) => None
        | (algo, Some fp) =>
            Some (existsb (fun c => beqb (if beqb algo (B "sha-512") then sha512 c else if beqb algo (B "sha-256") then sha256 c else []) fp) certs)
        end
    end.
  Definition verify (pin server : bytes) (certs : list bytes) : option bool :=
    if beqb pin [] then Some (chain_ok server certs) else pin_check pin certs.
End Verify.

(** database/database.go:207-215 (GetNick), for the record of the user. *)
Definition nick_on (u : ust) (r : netrec) : bytes :=
  match n_nick r with [] => match us_nick u with [] => us_username u | n => n end | n => n end.
