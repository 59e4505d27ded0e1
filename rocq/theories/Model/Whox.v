(** Model of xirc/whox.go. *)
From Verif.Base Require Import Bytes.
From Verif.Model Require Import Message.

(** whox.go:12 *)
Definition whox_fields : bytes := B "tcuihsnfdlaor".

(** whox.go:14-24 (WHOXInfo). *)
Record whox_info := WhoxInfo {
  w_token : bytes; w_channel : bytes; w_username : bytes; w_hostname : bytes;
  w_server : bytes; w_nickname : bytes; w_flags : bytes; w_account : bytes; w_realname : bytes
}.

(** whox.go:36-44 and 95-101: the hostname must not start with a colon. *)
Definition whox_host (h : bytes) : bytes :=
  if has_prefix h (B ":") then "0"%char :: h else h.

Definition whox_channel (c : bytes) : bytes := match c with [] => B "*" | _ => c end.

(** whox.go:26-68 (get). *)
Definition whox_get (i : whox_info) (k : ascii) : bytes :=
  if aeqb k "t" then w_token i
  else if aeqb k "c" then whox_channel (w_channel i)
  else if aeqb k "u" then w_username i
  else if aeqb k "i" then B "255.255.255.255"
  else if aeqb k "h" then whox_host (w_hostname i)
  else if aeqb k "s" then w_server i
  else if aeqb k "n" then w_nickname i
  else if aeqb k "f" then w_flags i
  else if aeqb k "d" then B "0"
  else if aeqb k "l" then B "0"
  else if aeqb k "a" then
    (if negb (beqb (w_account i) []) && negb (beqb (w_account i) (B "*")) then w_account i else B "0")
  else if aeqb k "o" then B "0"
  else if aeqb k "r" then w_realname i
  else [].

(** whox.go:70-91 (set). *)
Definition whox_set (i : whox_info) (k : ascii) (v : bytes) : whox_info :=
  let (t, c, u, h, s, n, f, a, r) := i in
  if aeqb k "t" then WhoxInfo v c u h s n f a r
  else if aeqb k "c" then WhoxInfo t v u h s n f a r
  else if aeqb k "u" then WhoxInfo t c v h s n f a r
  else if aeqb k "h" then WhoxInfo t c u v s n f a r
  else if aeqb k "s" then WhoxInfo t c u h v n f a r
  else if aeqb k "n" then WhoxInfo t c u h s v f a r
  else if aeqb k "f" then WhoxInfo t c u h s n v a r
  else if aeqb k "a" then WhoxInfo t c u h s n f v r
  else if aeqb k "r" then WhoxInfo t c u h s n f a v
  else i.

(** whox.go:93-132 (GenerateWHOXReply). *)
Definition generate_whox (fields : bytes) (i : whox_info) : message :=
  match fields with
  | [] =>
      msg (B "352") [B "*"; whox_channel (w_channel i); w_username i; whox_host (w_hostname i);
                     w_server i; w_nickname i; w_flags i; B "0 " ++ w_realname i]
  | _ =>
      msg (B "354") (B "*" :: map (whox_get i) (filter (fun k => amem k fields) whox_fields))
  end.

(** whox.go:134-145 (ParseWHOXOptions). Lower-casing is modelled on ASCII. *)
Definition parse_whox_options (options : bytes) : bytes * bytes :=
  match cut_on "%" options with
  | (_, None) => ([], [])
  | (_, Some rest) =>
      let (f, tok) := cut_on "," rest in
      let fields := to_lower f in
      (fields, match tok with Some t => if amem "t" fields then t else [] | None => [] end)
  end.

Definition whox_zero : whox_info := WhoxInfo [] [] [] [] [] [] [] [] [].

(** whox.go:147-175 (ParseWHOXReply). *)
Fixpoint whox_fill (i : whox_info) (ks : bytes) (values : list bytes) : option whox_info :=
  match ks with
  | [] => Some i
  | k :: ks' =>
      match values with
      | [] => None
      | v :: values' => whox_fill (whox_set i k v) ks' values'
      end
  end.

Definition parse_whox_reply (m : message) (fields : bytes) : option whox_info :=
  if negb (beqb (m_command m) (B "354")) then None
  else match m_params m with
       | [] => None
       | _ :: values => whox_fill whox_zero (filter (fun k => amem k fields) whox_fields) values
       end.
