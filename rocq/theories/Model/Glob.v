(** Model of path.Match (Go's standard library, package path) and of the patterns of http-origin: how they are checked
    when the configuration is read (config/config.go:232-236) and used (fileupload/fileupload.go:108-118). *)
From Coq Require Import NArith.
From Verif.Base Require Import Bytes.

(** unicode/utf8: the tables "first" and "acceptRanges". How many bytes follow the first one, and between which
    numbers the second one is. *)
Definition lead (b : N) : option (nat * N * N) :=
  (if b <? 194 then None
   else if b <? 224 then Some (1%nat, 128, 191)
   else if b =? 224 then Some (2%nat, 160, 191)
   else if b =? 237 then Some (2%nat, 128, 159)
   else if b <? 240 then Some (2%nat, 128, 191)
   else if b =? 240 then Some (3%nat, 144, 191)
   else if b <? 244 then Some (3%nat, 128, 191)
   else if b =? 244 then Some (3%nat, 128, 143)
   else None)%N.
Definition within (lo hi : N) (c : ascii) : bool := ((lo <=? code c) && (code c <=? hi))%N.
Definition cont (c : ascii) : bool := within 128 191 c.
Definition low6 (c : ascii) : N := (code c mod 64)%N.
(** utf8.DecodeRuneInString: the first code point of a text, and what follows. *)
Definition rune (s : bytes) : N * bytes :=
  match s with
  | [] => (65533%N, [])
  | c :: x =>
      let b := code c in
      if (b <? 128)%N then (b, x)
      else
        match lead b, x with
        | Some (1%nat, lo, hi), d :: y =>
            if within lo hi d then ((b mod 32) * 64 + low6 d, y)%N else (65533%N, x)
        | Some (2%nat, lo, hi), d :: e :: y =>
            if within lo hi d && cont e then ((b mod 16) * 4096 + low6 d * 64 + low6 e, y)%N else (65533%N, x)
        | Some (3%nat, lo, hi), d :: e :: f :: y =>
            if within lo hi d && cont e && cont f then ((b mod 8) * 262144 + low6 d * 4096 + low6 e * 64 + low6 f, y)%N
            else (65533%N, x)
        | _, _ => (65533%N, x)
        end
  end.

(** utf8.RuneError of width one: not UTF-8. *)
Definition bad_rune (s : bytes) : bool :=
  let '(r, t) := rune s in (r =? 65533)%N && (length s =? S (length t))%nat.

(** path: scanChunk, after the stars; [inr]: between brackets. *)
Fixpoint scan (inr : bool) (p : bytes) : bytes * bytes :=
  match p with
  | [] => ([], [])
  | c :: p' =>
      if aeqb c "\" then
        match p' with
        | [] => ([c], [])
        | d :: p'' => let '(a, b) := scan inr p'' in (c :: d :: a, b)
        end
      else if aeqb c "*" && negb inr then ([], p)
      else let '(a, b) := scan (if aeqb c "[" then true else if aeqb c "]" then false else inr) p' in (c :: a, b)
  end.
Fixpoint stars (p : bytes) : bool * bytes :=
  match p with
  | c :: p' => if aeqb c "*" then (true, snd (stars p')) else (false, p)
  | [] => (false, [])
  end.
(** path: scanChunk again and again. *)
Fixpoint chunks (fuel : nat) (p : bytes) : list (bool * bytes) :=
  match fuel with
  | O => []
  | S fuel =>
      match p with
      | [] => []
      | _ => let '(star, q) := stars p in let '(chunk, rest) := scan false q in (star, chunk) :: chunks fuel rest
      end
  end.

(** path: getEsc; None is ErrBadPattern. *)
Definition get_rune (s : bytes) : option (N * bytes) :=
  if bad_rune s then None
  else let '(r, t) := rune s in match t with [] => None | _ => Some (r, t) end.
Definition get_esc (chunk : bytes) : option (N * bytes) :=
  match chunk with
  | [] => None
  | c :: rest =>
      if aeqb c "-" || aeqb c "]" then None
      else if aeqb c "\" then match rest with [] => None | _ => get_rune rest end
      else get_rune chunk
  end.

(** path: matchChunk, the ranges of a class. [some]: there was one already. *)
Fixpoint class (fuel : nat) (chunk : bytes) (some m : bool) (r : N) : option (bool * bytes) :=
  match fuel with
  | O => None
  | S fuel =>
      let go :=
        match get_esc chunk with
        | None => None
        | Some (lo, chunk1) =>
            match chunk1 with
            | c :: chunk2 =>
                if aeqb c "-" then
                  match get_esc chunk2 with
                  | None => None
                  | Some (hi, chunk3) => class fuel chunk3 true (m || ((lo <=? r)%N && (r <=? hi)%N)) r
                  end
                else class fuel chunk1 true (m || ((lo <=? r)%N && (r <=? lo)%N)) r
            | [] => None
            end
        end in
      match chunk with
      | c :: rest => if aeqb c "]" && some then Some (m, rest) else go
      | [] => go
      end
  end.

(** path: matchChunk. The text is None after a failure; None is ErrBadPattern, Some None a failure. *)
Fixpoint match_chunk (fuel : nat) (chunk : bytes) (s : option bytes) : option (option bytes) :=
  match fuel with
  | O => Some s
  | S fuel =>
      let literal c rest s :=
        match_chunk fuel rest (match s with Some (d :: x) => if aeqb c d then Some x else None | _ => None end) in
      match chunk with
      | [] => Some s
      | c :: rest =>
          let s := match s with Some [] => None | _ => s end in
          if aeqb c "[" then
            let '(r, s1) := match s with Some x => let '(r, t) := rune x in (r, Some t) | None => (0%N, None) end in
            let '(neg, body) := match rest with d :: b => if aeqb d "^" then (true, b) else (false, rest) | [] => (false, rest) end in
            match class (S (length body)) body false false r with
            | None => None
            | Some (m, rest) => match_chunk fuel rest (if Bool.eqb m neg then None else s1)
            end
          else if aeqb c "?" then
            match_chunk fuel rest (match s with Some (d :: x) => if aeqb d "/" then None else Some (snd (rune (d :: x))) | _ => None end)
          else if aeqb c "\" then
            match rest with [] => None | d :: rest => literal d rest s end
          else literal c rest s
      end
  end.
Definition at_chunk (chunk s : bytes) : option (option bytes) := match_chunk (S (length chunk)) chunk (Some s).

(** path: Match, the loop after a star: the chunk at a later place. [last]: nothing may be left over. *)
Fixpoint later (chunk : bytes) (last : bool) (s : bytes) : option (option bytes) :=
  match s with
  | [] => Some None
  | d :: s' =>
      if aeqb d "/" then Some None
      else match at_chunk chunk s' with
           | None => None
           | Some (Some t) => if last && negb (beqb t []) then later chunk last s' else Some (Some t)
           | Some None => later chunk last s'
           end
  end.
(** The check of what remains of the pattern. *)
Fixpoint check (l : list (bool * bytes)) : option bool :=
  match l with
  | [] => Some false
  | (_, chunk) :: l' => match at_chunk chunk [] with None => None | Some _ => check l' end
  end.
(** None is ErrBadPattern. *)
Fixpoint match_loop (l : list (bool * bytes)) (name : bytes) : option bool :=
  match l with
  | [] => Some (beqb name [])
  | (star, chunk) :: l' =>
      let last := match l' with [] => true | _ => false end in
      if star && beqb chunk [] then Some (negb (amem "/" name))
      else
        match at_chunk chunk name with
        | None => None
        | Some r =>
            match (match r with Some t => if beqb t [] || negb last then Some t else None | None => None end) with
            | Some t => match_loop l' t
            | None =>
                match (if star then later chunk last name else Some None) with
                | None => None
                | Some (Some t) => match_loop l' t
                | Some None => check l'
                end
            end
        end
  end.
Definition path_match (pattern name : bytes) : option bool := match_loop (chunks (S (length pattern)) pattern) name.

(** config/config.go:232-236. *)
Definition origins_ok (l : list bytes) : bool := forallb (fun o => match path_match o o with Some _ => true | None => false end) l.

(** fileupload/fileupload.go:108-118; None is a panic. *)
Fixpoint check_origin (origins : list bytes) (host : bytes) : option bool :=
  match origins with
  | [] => Some false
  | o :: l => match path_match o host with None => None | Some true => Some true | Some false => check_origin l host end
  end.
