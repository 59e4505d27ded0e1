(** What a client understands of the capability negotiation. *)
From Verif.Base Require Import Bytes.
From Verif.Model Require Import Caps.
From Coq Require Import ZArith.
Open Scope nat_scope.

(** A capability as written in CAP LS and CAP NEW: name, or name=value. *)
Definition read_cap (t : bytes) : bytes * bytes :=
  match cut_on "=" t with (k, Some v) => (k, v) | (k, None) => (k, []) end.
Definition words (s : bytes) : list bytes := match s with [] => [] | _ => split_on " " s end.

(** The capabilities offered by the server as seen by a client: LS lists all of them, NEW adds
    or changes some, DEL removes some. *)
Definition offered := bytes -> option bytes.
Definition see_offer (o : offered) (c : cout) : offered :=
  match c with
  | Cap sub text =>
      if beqb sub (B "LS") then
        fun k => option_map snd (find (fun p => beqb (fst p) k) (map read_cap (words text)))
      else if beqb sub (B "NEW") then
        fold_left (fun o p k => if beqb (fst p) k then Some (snd p) else o k) (map read_cap (words text)) o
      else if beqb sub (B "DEL") then
        fold_left (fun o w k => if beqb w k then None else o k) (words text) o
      else o
  | _ => o
  end.
Definition nothing_offered : offered := fun _ => None.

(** A requested capability: "-name" asks to disable it. *)
Definition wanted (text : bytes) : list (bytes * bool) := map req_token (fields text).

(** A request that does not ask for both the enabling and the disabling of a capability. *)
Definition coherent (l : list (bytes * bool)) : Prop :=
  forall n b b', In (n, b) l -> In (n, b') l -> b = b'.

(** A change that must be refused: of a capability that is not offered, disabling cap-notify
    under version 302, enabling the informational capability. *)
Definition refused (s : cstate) (x : bytes * bool) : Prop :=
  snd x <> is_enabled s (fst x) /\
  (is_available s (fst x) = false \/
   (fst x = B "cap-notify" /\ snd x = false /\ (302 <= cs_version s)%Z) \/
   fst x = B "soju.im/account-required").

(** The capabilities that a client believes to be enabled: what was acknowledged, in order, and not
    deleted since; cap-notify is implied by version 302. *)
Definition believe (en : list bytes) (x : bytes * bool) : list bytes :=
  if snd x then fst x :: en else filter (fun n => negb (beqb n (fst x))) en.
Definition see_enabled (en : list bytes) (c : cout) : list bytes :=
  match c with
  | Cap sub text =>
      if beqb sub (B "ACK") then fold_left believe (wanted text) en
      else if beqb sub (B "DEL") then fold_left believe (map (fun w => (w, false)) (words text)) en
      else en
  | _ => en
  end.

(** The version that a command of the client announces. *)
Definition announces (atoi : bytes -> option Z) (e : cev) : option Z :=
  match e with
  | ECap _ (cmd :: a :: _) => if beqb (to_upper cmd) (B "LS") then atoi a else None
  | _ => None
  end.

(** The versions that the client announces are at least 302. *)
Definition modern (atoi : bytes -> option Z) (e : cev) : Prop :=
  forall v, announces atoi e = Some v -> (302 <= v)%Z.

(** The requests are coherent. *)
Definition coherent_ev (e : cev) : Prop :=
  match e with
  | ECap _ (cmd :: a :: _) => to_upper cmd = B "REQ" -> coherent (wanted a)
  | _ => True
  end.

(** Maps are visited in some order; the values sent by upstream servers are words. *)
Definition valid_ev (e : cev) : Prop :=
  match e with
  | ECap ord _ => forall l, Permutation l (ord l)
  | ERegistered => True
  | EUpdate names _ up _ =>
      Permutation names need_all_caps /\
      match up with Some u => ~ In " "%char (up_account_reg u) | None => True end
  end.

(** The line of a CAP reply. *)
Definition cap_line (hostname nick : bytes) (c : cout) : bytes :=
  match c with
  | Cap sub text => B ":" ++ hostname ++ B " CAP " ++ nick ++ B " " ++ sub ++ B " :" ++ text ++ ["013"; "010"]%char
  | _ => []
  end.
