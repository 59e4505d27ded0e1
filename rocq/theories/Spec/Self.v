(** What a client makes of the messages it is sent, as far as they are about its own user. *)
From Verif.Base Require Import Bytes.
From Verif.Model Require Import Message Self.

Record know := Know { k_nick : bytes; k_user : bytes; k_host : bytes; k_real : bytes; k_acct : bytes }.

Section Spec.
  (** Case mapping of nicknames. *)
  Variable cm : bytes -> bytes.

  Definition mine (k : know) (p : option prefix) : bool :=
    match p with Some p => beqb (cm (p_name p)) (cm (k_nick k)) | None => false end.

  (** RPL_WELCOME gives the nickname; NICK, CHGHOST and SETNAME from the user itself change it, user and
      host names, and the realname; RPL_VISIBLEHOST gives the host name, RPL_LOGGEDIN and RPL_LOGGEDOUT
      give the account. *)
  Definition learn (k : know) (m : message) : know :=
    match m_params m with
    | [] => k
    | p :: ps =>
        if beqb (m_command m) (B "001") then Know p (k_user k) (k_host k) (k_real k) (k_acct k)
        else if beqb (m_command m) (B "NICK") then
          if mine k (m_prefix m) then Know p (k_user k) (k_host k) (k_real k) (k_acct k) else k
        else if beqb (m_command m) (B "SETNAME") then
          if mine k (m_prefix m) then Know (k_nick k) (k_user k) (k_host k) p (k_acct k) else k
        else if beqb (m_command m) (B "CHGHOST") then
          match ps with
          | [h] => if mine k (m_prefix m) then Know (k_nick k) p h (k_real k) (k_acct k) else k
          | _ => k
          end
        else if beqb (m_command m) (B "396") then
          match ps with h :: _ => Know (k_nick k) (k_user k) h (k_real k) (k_acct k) | [] => k end
        else if beqb (m_command m) (B "900") then
          match ps with _ :: a :: _ => Know (k_nick k) (k_user k) (k_host k) (k_real k) a | _ => k end
        else if beqb (m_command m) (B "901") then Know (k_nick k) (k_user k) (k_host k) (k_real k) []
        else k
    end.

  (** Knowledge of the client [id] after what could be observed; a client starts out with the user name
      and the address it connects with. *)
  Definition observe (id : N) (k : know) (o : out) : know :=
    match o with
    | OHello i u h => if N.eqb i id then Know [] u h [] [] else k
    | OMsg i m => if N.eqb i id then learn k m else k
    | _ => k
    end.
  Definition knows (id : N) (l : list out) : know := fold_left (observe id) l (Know [] [] [] [] []).
End Spec.

(** The client [id] has a capability at all times: clients are numbered as they connect. *)
Fixpoint keeps (f : caps -> bool) (id n : N) (l : list ev) : Prop :=
  match l with
  | [] => True
  | Join _ c _ :: l' => ((n + 1)%N = id -> f c = true) /\ keeps f id (n + 1) l'
  | DCaps i c :: l' => (i = id -> f c = true) /\ keeps f id n l'
  | _ :: l' => keeps f id n l'
  end.

(** Commands sent to the server, and clients that are sent anything. *)
Definition sent (l : list out) : list (bytes * bytes) := flat_map (fun o => match o with OUp c a => [(c, a)] | _ => [] end) l.
Definition told (id : N) (l : list out) : list message := flat_map (fun o => match o with OMsg i m => if N.eqb i id then [m] else [] | _ => [] end) l.

(** A nickname that clients may choose. *)
Definition nick_ok (n : bytes) : Prop := n <> [] /\ forall c, In c n -> ~ In c (B " :@!*?$,.").
(** A user that has just been loaded. *)
Definition fresh (name nick real wn wu wr : bytes) : st := St name nick real wn wu wr 0 [] None None [] None.
