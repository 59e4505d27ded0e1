(** What may be written in the configuration file, what it means, and which configuration runs. *)
From Coq Require Import NArith ZArith.
From Verif.Base Require Import Bytes.
From Verif.Model Require Import IPAddr Glob Config.
From Verif.Spec Require Import IPAddr Glob.
Open Scope N_scope.

(** A driver and its source. *)
Definition words (l : list bytes) (x : bytes * bytes) : Prop := l = [fst x; snd x] \/ (l = [fst x] /\ snd x = []).
Definition takes (without needing : list bytes) (x : bytes * bytes) : Prop :=
  (In (fst x) without /\ snd x = []) \/ (In (fst x) needing /\ snd x <> []).
Definition store_words l x : Prop := words l x /\ takes [B "memory"; B "db"] [B "fs"] x.
Definition auth_words l x : Prop := words l x /\ takes [B "internal"; B "pam"] [B "http"; B "oauth2"] x.
Definition upload_words l x : Prop := words l x /\ takes [] [B "fs"; B "http"] x.

(** message-store, or else the old name of it. *)
Definition in_force (r : raw) (l : list bytes) : Prop := r_store r = Some l \/ (r_store r = None /\ r_log r = Some l).

(** upstream-user-ip: an IPv4 range, an IPv6 range, both, none. *)
Definition range4 (s : bytes) : Prop := exists base k, range s base k /\ is_v4 base /\ 96 <= k.
Definition range6 (s : bytes) : Prop := exists base k, range s base k /\ ~ (is_v4 base /\ 96 <= k).
Definition user_ips_valid (l : list bytes) : Prop :=
  l = [] \/ (exists s, l = [s] /\ (range4 s \/ range6 s)) \/ (exists a b, (l = [a; b] \/ l = [b; a]) /\ range4 a /\ range6 b).

Definition bool_text (s : bytes) (b : bool) : Prop :=
  In s (if b then [B "1"; B "t"; B "T"; B "TRUE"; B "true"; B "True"] else [B "0"; B "f"; B "F"; B "FALSE"; B "false"; B "False"]).

Section Meaning.
  Variable system_host : bytes.
  Variable days : bytes -> option Z.

  Definition valid (r : raw) : Prop :=
    (forall l, in_force r l -> exists x, store_words l x) /\
    (forall l, In l (r_auth r) -> exists x, auth_words l x) /\
    (forall l, r_upload r = Some l -> exists x, upload_words l x) /\
    (forall o, In o (r_origins r) -> exists l, pat o l) /\
    (forall s, In s (r_proxies r) -> proxy_valid s) /\
    user_ips_valid (r_user_ips r) /\
    (r_inactive r = [] \/ exists x n, r_inactive r = x ++ B "d" /\ days x = Some n /\ (0 <= n)%Z) /\
    (r_enable r = [] \/ exists b, bool_text (r_enable r) b).

  (** The text, or what stands for it if there is none. *)
  Definition or_else (s d v : bytes) : Prop := (s <> [] /\ v = s) \/ (s = [] /\ v = d).
  Definition says (r : raw) (s : server) : Prop :=
    s_listen s = r_listen r /\ s_tls s = r_tls r /\ s_title s = r_title r /\ s_motd s = r_motd r /\
    or_else (r_hostname r) system_host (s_hostname s) /\
    or_else (r_ingress r) (B "https://" ++ s_hostname s) (s_ingress s) /\
    (forall x, r_db r = Some x -> s_db s = x) /\ (r_db r = None -> s_db s = (B "sqlite3", B "soju.db")) /\
    (forall l, in_force r l -> store_words l (s_store s)) /\ ((forall l, ~ in_force r l) -> s_store s = (B "memory", [])) /\
    (r_auth r = [] -> s_auth s = [(B "internal", [])]) /\ (r_auth r <> [] -> Forall2 auth_words (r_auth r) (s_auth s)) /\
    (forall l, r_upload r = Some l -> exists x, s_upload s = Some x /\ upload_words l x) /\ (r_upload r = None -> s_upload s = None) /\
    s_origins s = r_origins r /\
    (forall a, address a -> set_contains (s_proxies s) a = true <-> exists w, In w (r_proxies r) /\ proxy_word w a) /\
    (forall n, r_max r = Some n -> s_max s = n) /\ (r_max r = None -> s_max s = (-1)%Z) /\
    Forall2 (fun w n => forall a, address a -> cidr_contains n a = true <-> exists base k, range w base k /\ covers base k a) (r_user_ips r) (s_user_ips s) /\
    (r_inactive r = [] -> s_inactive s = 0%Z) /\ (forall x, r_inactive r = x ++ B "d" -> days x = Some (s_inactive s)) /\
    (r_enable r = [] -> s_enable s = false) /\ (r_enable r <> [] -> bool_text (r_enable r) (s_enable s)).
End Meaning.

(** One element of the list, at most, is such; it is that one. *)
Inductive only {A} (P : A -> Prop) : list A -> option A -> Prop :=
| OnlyNone l : Forall (fun x => ~ P x) l -> only P l None
| OnlyOne l1 x l2 : P x -> Forall (fun x => ~ P x) l1 -> Forall (fun x => ~ P x) l2 -> only P (l1 ++ x :: l2) (Some x).

(** Who checks passwords, who checks tokens. *)
Definition for_plain (x : bytes * bytes) : Prop := In (fst x) [B "internal"; B "http"; B "pam"].
Definition for_token (x : bytes * bytes) : Prop := fst x = B "oauth2".
Definition checks (x : bytes * bytes) (c : checker) : Prop :=
  (fst x = B "internal" /\ c = Internal) \/ (fst x = B "http" /\ c = Http (snd x)) \/ (fst x = B "pam" /\ c = Pam).
Definition auth_says (ok : bytes -> bytes -> bool) (l : list (bytes * bytes)) (a : auth) : Prop :=
  exists p t, only for_plain l p /\ only for_token l t /\
    (forall x, In x l -> In (fst x) [B "oauth2"; B "pam"] -> ok (fst x) (snd x) = true) /\
    a_token a = option_map snd t /\
    match p, t with
    | Some x, _ => exists c, checks x c /\ a_plain a = Some c
    | None, Some y => a_plain a = Some (Oauth (snd y))
    | None, None => a_plain a = None
    end.

Section Running.
  Variable system_host : bytes.
  Variable days : bytes -> option Z.

  (** At that time the files make this configuration. *)
  Definition loads (w : world) (c : config) : Prop :=
    exists r, w_raw w = Some r /\ load system_host days r = Some (c_server c) /\
      ((s_motd (c_server c) = [] /\ c_motd c = []) \/
       (s_motd (c_server c) <> [] /\ exists f, w_file w (s_motd (c_server c)) = Some f /\
          (f = c_motd c ++ [newline] \/ (f = c_motd c /\ forall x, f <> x ++ [newline])))) /\
      auth_says (w_new_auth w) (s_auth (c_server c)) (c_auth c) /\
      (forall p, s_tls (c_server c) = Some p -> w_cert w p <> None) /\
      c_uploader c = s_upload (c_server c).

  (** The configuration of the last time that they made one. *)
  Definition last_loaded (ws : list world) (c : config) : Prop :=
    exists ws1 w ws2, ws = ws1 ++ w :: ws2 /\ loads w c /\ Forall (fun w' => forall c', ~ loads w' c') ws2.
  (** The certificate of the last of these that has one. *)
  Definition no_cert (w : world) : Prop := forall c, loads w c -> s_tls (c_server c) = None.
  Definition last_cert (ws : list world) (x : option bytes) : Prop :=
    (x = None /\ Forall no_cert ws) \/
    exists ws1 w ws2 c p, ws = ws1 ++ w :: ws2 /\ loads w c /\ s_tls (c_server c) = Some p /\ x = w_cert w p /\ x <> None /\ Forall no_cert ws2.

  (** The signals. *)
  Fixpoint hups (l : list op) : list world :=
    match l with [] => [] | Hup w :: l' => w :: hups l' | _ :: l' => hups l' end.
End Running.
