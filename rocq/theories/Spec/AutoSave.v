(** Specification of automatically saved credentials. *)
From Verif.Base Require Import Bytes Base64.
From Verif.Model Require Import AutoSave.
Open Scope nat_scope.

(** ** What is said to NickServ *)

(** UTF-8, for code points up to U+FFFF. *)
Definition utf8 (n : N) : bytes :=
  (if n <? 128 then [ascii_of_N n]
   else if n <? 2048 then [ascii_of_N (192 + n / 64); ascii_of_N (128 + n mod 64)]
   else [ascii_of_N (224 + n / 4096); ascii_of_N (128 + n / 64 mod 64); ascii_of_N (128 + n mod 64)])%N.

(** The property White_Space of Unicode. *)
Definition white_space : list N :=
  [9; 10; 11; 12; 13; 32; 133; 160; 5760; 8192; 8193; 8194; 8195; 8196; 8197; 8198; 8199; 8200; 8201; 8202;
   8232; 8233; 8239; 8287; 12288]%N.
Definition IsBlank (b : bytes) : Prop := exists n, In n white_space /\ b = utf8 n.

(** A word: not empty, without blanks. *)
Definition Word (w : bytes) : Prop := w <> [] /\ forall x b y, IsBlank b -> w <> x ++ b ++ y.
Definition Gap (g : bytes) : Prop := exists bs, Forall IsBlank bs /\ g = concat bs.

(** A text as words and the gaps between them. *)
Inductive Words : bytes -> list bytes -> Prop :=
| words_none g : Gap g -> Words g []
| words_last g w : Gap g -> Word w -> Words (g ++ w) [w]
| words_more g w t ws : Gap g -> Word w -> Words t ws -> (exists b t', IsBlank b /\ t = b ++ t') -> Words (g ++ w ++ t) (w :: ws).

(** A word that reads as an upper case one if case does not matter (with two letters outside ASCII
    which have an ASCII letter as upper case form). *)
Inductive Reads : bytes -> bytes -> Prop :=
| reads_nil : Reads [] []
| reads_same c w k : Reads w k -> Reads (c :: w) (c :: k)
| reads_lower c w k : Reads w k -> Reads (lower_byte c :: w) (c :: k)
| reads_dotless w k : Reads w k -> Reads (utf8 305 ++ w) ("I"%char :: k)
| reads_long w k : Reads w k -> Reads (utf8 383 ++ w) ("S"%char :: k).

(** The user tells NickServ the account name and the password; without account name it is the one of
    the nick. *)
Inductive Tells (nick : bytes) : list bytes -> bytes -> bytes -> Prop :=
| tells_register c p rest : Reads c (B "REGISTER") -> Tells nick (c :: p :: rest) nick p
| tells_identify c p : Reads c (B "IDENTIFY") -> Tells nick [c; p] nick p
| tells_identify_account c u p rest : Reads c (B "IDENTIFY") -> Tells nick (c :: u :: p :: rest) u p
| tells_password c s p : Reads c (B "SET") -> Reads s (B "PASSWORD") -> Tells nick [c; s; p] nick p.

(** Another setting is changed. *)
Inductive OtherSetting : list bytes -> Prop :=
| other_setting c s rest : Reads c (B "SET") -> ~ (Reads s (B "PASSWORD") /\ length rest = 1) -> OtherSetting (c :: s :: rest).

Section Supplied.
  Variable cm : bytes -> bytes.

  (** ** What the user has supplied *)

  (** The parameters of the AUTHENTICATE commands of a client, those that the network supports. *)
  Definition auth_params (es : list aev) (id : N) : list bytes :=
    flat_map (fun e => match e with EAuth i true _ (p :: _) _ _ => if N.eqb i id then [p] else [] | _ => [] end) es.

  (** Consecutive AUTHENTICATE commands carry a response (SASL PLAIN: RFC 4616, with no other
      authorisation identity). *)
  Definition Response (chunks : list bytes) (z u p : bytes) : Prop :=
    b64_decode B64Std (concat (map (fun c => if beqb c (B "+") then [] else c) chunks))
      = Some (z ++ "000"%char :: u ++ "000"%char :: p) /\ (z = [] \/ z = u).

  Inductive Supplied (es : list aev) (u p : bytes) : Prop :=
  | supplied_nickserv id target text nick dbok ws :
      In (EMessage id (B "PRIVMSG") target text nick dbok) es -> cm target = B "nickserv" ->
      Words text ws -> Tells nick ws u p -> Supplied es u p
  | supplied_sasl id pre chunks post z :
      auth_params es id = pre ++ chunks ++ post -> Response chunks z u p -> Supplied es u p
  | supplied_register id cap a email rest now r more dbok now' :
      In (ERegister id cap (a :: email :: p :: rest) now) es ->
      In (ERegistered (r :: u :: more) dbok now') es -> Supplied es u p.

  (** The user asks for no authentication: AUTHENTICATE ANONYMOUS. *)
  Definition AskedAnonymous (es : list aev) : Prop := exists id m, In m (auth_params es id) /\ to_upper m = B "ANONYMOUS".
End Supplied.

(** The bouncer may save credentials of its own accord. *)
Definition Savable (v : saved) : Prop := sv_mech v = [] \/ sv_mech v = B "PLAIN".

(** Events that are not answers of the server to AUTHENTICATE and do not end its connection. *)
Definition undisturbed (e : aev) : bool :=
  match e with
  | EReply _ _ _ _ | EError _ _ | EDown | EConfig _ => false
  | _ => true
  end.

(** Events during which the database does not fail. *)
Definition db_works (e : aev) : bool :=
  match e with
  | EMessage _ _ _ _ _ ok | EAuth _ _ _ _ ok _ | EReply _ _ ok _ | ERegistered _ ok _ => ok
  | _ => true
  end.
