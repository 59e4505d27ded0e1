(** What a server does, and what it may learn of the password. *)
From Verif.Base Require Import Bytes Base64.
From Verif.Model Require Import Message Caps UpReg.
From Verif.Spec Require Import GenMsg.

(** ** The password *)

(** The server acknowledges sasl, and asks for a response. *)
Definition grants_sasl (m : message) : bool :=
  match m_params m with
  | _ :: sub :: text :: _ =>
      beqb (m_command m) (B "CAP") && beqb (to_upper sub) (B "ACK") && existsb (fun t => beqb (to_lower t) (B "sasl")) (fields text)
  | _ => false
  end.
Definition is_result (m : message) : bool :=
  bmem (m_command m) [B "902"; B "903"; B "904"; B "905"; B "906"] && (2 <=? length (m_params m)).
Definition is_prompt (m : message) : bool := beqb (m_command m) (B "AUTHENTICATE").

(** A prompt comes after sasl was acknowledged, and no result is between them. *)
Fixpoint prompted (granted : bool) (l : list gev) : bool :=
  match l with
  | [] => false
  | GAuth _ _ _ :: l => prompted granted l
  | GMsg m :: l =>
      (granted && is_prompt m) ||
      prompted (if grants_sasl m then true else if is_result m then false else granted) l
  end.

Definition with_secret (p : bytes) (c : gcfg) : gcfg :=
  GCfg (g_pass c) (g_nick c) (g_username c) (g_realname c) (g_mech c) (g_user c) p (g_chans c) (g_cmds c).

(** ** A list of capabilities in several lines *)
Definition ls_more (target text : bytes) : message := msg (B "CAP") [target; B "LS"; B "*"; text].
Definition ls_last (target text : bytes) : message := msg (B "CAP") [target; B "LS"; text].
Fixpoint ls_lines (target : bytes) (first : bytes) (rest : list bytes) : list message :=
  match rest with
  | [] => [ls_last target first]
  | t :: rest => ls_more target first :: ls_lines target t rest
  end.

(** ** A server *)
Definition zero : ascii := "000"%char.
Section Server.
  (** The capabilities it offers, in lines; the mechanisms it accepts; who may log in. *)
  Variables (first : bytes) (rest : list bytes).
  Variable mech_ok : bytes -> bool.
  Variable login : bytes -> option bytes.      (* for a decoded response, the account *)

  (** The name of a token, without its value. *)
  Definition cap_name (t : bytes) : bytes := fst (cut_on "=" t).
  Definition tokens : list bytes := flat_map fields (first :: rest).
  Definition offered : list bytes := map cap_name tokens.

  (** sasl is offered without a list of mechanisms, or this one is in the list. *)
  Definition announces (mech : bytes) : bool :=
    existsb (fun t => beqb (cap_name t) (B "sasl") &&
      match snd (cut_on "=" t) with
      | None => true
      | Some v => beqb v [] || existsb (fun m => beqb (to_upper m) (to_upper mech)) (split_on "," v)
      end) tokens.

  (** RFC 4616 without an authorization identity, RFC 4422 appendix A. *)
  Definition credentials (c : gcfg) : bytes :=
    if beqb (g_mech c) (B "PLAIN") then [zero] ++ g_user c ++ [zero] ++ g_secret c else [].

  (** The account the bouncer should be logged in to. *)
  Definition account_of (c : gcfg) : option bytes :=
    if negb (beqb (g_mech c) []) && announces (g_mech c) && mech_ok (g_mech c) then login (credentials c) else None.

  Record sv := Sv { v_busy : bool;              (* between CAP LS and CAP END *)
    v_nick : option bytes; v_user : bool; v_welcomed : bool;
    v_caps : list bytes;                        (* acknowledged *)
    v_chunks : option (list bytes);             (* of the response, during an exchange *)
    v_account : option bytes;
    v_got : list message }.                     (* everything after the welcome *)
  Definition new_sv : sv := Sv false None false false [] None None [].
  Definition set_busy b s := Sv b (v_nick s) (v_user s) (v_welcomed s) (v_caps s) (v_chunks s) (v_account s) (v_got s).
  Definition set_chunks c s := Sv (v_busy s) (v_nick s) (v_user s) (v_welcomed s) (v_caps s) c (v_account s) (v_got s).

  (** It welcomes once it has everything. *)
  Definition settle (s : sv) : sv * list message :=
    match v_nick s with
    | Some n => if negb (v_busy s) && v_user s && negb (v_welcomed s)
                then (Sv (v_busy s) (v_nick s) (v_user s) true (v_caps s) (v_chunks s) (v_account s) (v_got s), [msg (B "001") [n; B "Welcome"]])
                else (s, [])
    | None => (s, [])
    end.

  (** An AUTHENTICATE message: first the mechanism, then the response in chunks. *)
  Definition on_auth (s : sv) (p : bytes) : sv * list message :=
    match v_chunks s with
    | None => if bmem (B "sasl") (v_caps s) && mech_ok p then (set_chunks (Some []) s, [msg (B "AUTHENTICATE") [B "+"]])
              else (s, [msg (B "904") [B "*"; B "failed"]])
    | Some l =>
        match sasl_receive (l ++ [p]) with
        | None => (set_chunks (Some (l ++ [p])) s, [])
        | Some (whole, _) =>
            match b64_decode B64Std whole with
            | None => (set_chunks None s, [msg (B "904") [B "*"; B "failed"]])
            | Some r =>
                match login r with
                | None => (set_chunks None s, [msg (B "904") [B "*"; B "failed"]])
                | Some a => (Sv (v_busy s) (v_nick s) (v_user s) (v_welcomed s) (v_caps s) None (Some a) (v_got s),
                             [msg (B "900") [B "*"; B "*"; a; B "logged in"]; msg (B "903") [B "*"; B "success"]])
                end
            end
        end
    end.

  Definition serve (s : sv) (m : message) : sv * list message :=
    if v_welcomed s then (Sv (v_busy s) (v_nick s) (v_user s) (v_welcomed s) (v_caps s) (v_chunks s) (v_account s) (v_got s ++ [m]), [])
    else if beqb (m_command m) (B "CAP") then
      match m_params m with
      | [sub] => if beqb sub (B "END") then settle (set_busy false s) else (s, [])
      | [sub; x] =>
          if beqb sub (B "LS") then (set_busy true s, ls_lines (B "*") first rest)
          else if beqb sub (B "REQ") then
            if forallb (fun c => bmem c offered) (fields x)
            then (Sv (v_busy s) (v_nick s) (v_user s) (v_welcomed s) (v_caps s ++ fields x) (v_chunks s) (v_account s) (v_got s), [msg (B "CAP") [B "*"; B "ACK"; x]])
            else (s, [msg (B "CAP") [B "*"; B "NAK"; x]])
          else (s, [])
      | _ => (s, [])
      end
    else if beqb (m_command m) (B "NICK") then
      match m_params m with
      | [n] => settle (Sv (v_busy s) (Some n) (v_user s) (v_welcomed s) (v_caps s) (v_chunks s) (v_account s) (v_got s))
      | _ => (s, [])
      end
    else if beqb (m_command m) (B "USER") then
      settle (Sv (v_busy s) (v_nick s) true (v_welcomed s) (v_caps s) (v_chunks s) (v_account s) (v_got s))
    else if beqb (m_command m) (B "AUTHENTICATE") then
      match m_params m with [p] => on_auth s p | _ => (s, []) end
    else (s, []).

  (** ** The two of them, with messages under way in both directions *)
  Section System.
    Variable order : nat -> list bytes.
    Variable sorted : list (bytes * bytes) -> list (bytes * bytes).
    Variable parse_command : bytes -> option message.
    Variable cfg : gcfg.
    Record sys := Sys { y_b : gst; y_v : sv; to_b : list message; to_v : list message }.
    Definition start : sys := Sys new_gst new_sv [] (register cfg).
    Inductive move : sys -> sys -> Prop :=
    | move_server b v qb m qv :
        move (Sys b v qb (m :: qv)) (Sys b (fst (serve v m)) (qb ++ snd (serve v m)) qv)
    | move_bouncer b v m qb qv :
        move (Sys b v (m :: qb) qv)
             (Sys (fst (on_server order sorted parse_command cfg b m)) v qb (qv ++ snd (on_server order sorted parse_command cfg b m))).
    Inductive moves : nat -> sys -> sys -> Prop :=
    | moves_O s : moves 0 s s
    | moves_S n s s1 s2 : move s s1 -> moves n s1 s2 -> moves (S n) s s2.
    Definition idle (s : sys) : Prop := to_b s = [] /\ to_v s = [].
  End System.
End Server.
