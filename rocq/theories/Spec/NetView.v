(** What a client knows of the networks of its user, from the messages it gets
    (doc/ext/bouncer-networks.md): attributes that are named are updated, an
    attribute without a value is removed, "*" removes the network, and a batch is
    the list of all networks. *)
From Verif.Base Require Import Bytes.
From Verif.Model Require Import Message Networks NetView.
From Coq Require Import ZArith NArith Permutation.

(** The value of each attribute of each network that is known; the empty one
    stands for no value. *)
Definition view := bytes -> option (bytes -> bytes).
Definition blank : view := fun _ => None.
Definition hear (m : message) (v : view) : view :=
  match m_params m with
  | [sub; id; text] =>
      if beqb sub (B "NETWORK") then
        fun i => if beqb i id then
            if beqb text (B "*") then None
            else Some (fun k => match find (fun a => beqb (fst a) k) (parse_attrs text) with
                                | Some a => snd a
                                | None => match v i with Some f => f k | None => [] end end)
          else v i
      else v
  | _ => v
  end.
Definition hear_all (l : list message) (v : view) : view := fold_left (fun v m => hear m v) l v.
Definition hear_out (c : N) (o : vout) (v : view) : view :=
  match o with
  | VMsg c' m => if N.eqb c' c then hear m v else v
  | VBatch c' l => if N.eqb c' c then hear_all l blank else v
  end.
Definition heard (c : N) (l : list vout) (v : view) : view := fold_left (fun v o => hear_out c o v) l v.

(** Two views agree: on which networks there are, and on attribute [k]. *)
Definition same_nets (v w : view) : Prop := forall i, v i = None <-> w i = None.
Definition same_attr (k : bytes) (v w : view) : Prop := forall i f g, v i = Some f -> w i = Some g -> f k = g k.

Section Spec.
  Variable parse_url : bytes -> option url.
  Variable split_host_port : bytes -> option (bytes * bytes).
  Variable shuffle : list (bytes * bytes) -> list (bytes * bytes).
  Notation vstep := (vstep parse_url split_host_port shuffle).
  Notation vsteps := (vsteps parse_url split_host_port shuffle).

  (** What BOUNCER LISTNETWORKS answers to client [c]. *)
  Definition truth (c : N) (s : vst) : view :=
    match vstep (VList c) s with Some (_, o) => heard c o blank | None => blank end.

  Definition reachable (s : vst) : Prop :=
    exists username nick realname enabled recs l out,
      (forall r, In r recs -> (0 < n_id r)%Z) /\ NoDup (map n_id recs) /\
      vsteps l (new_vst username nick realname enabled recs) = Some (s, out).

  (** The client stays and keeps the capability. *)
  Definition stays (c : N) (l : list vev) : Prop :=
    forall e, In e l -> match e with VClose c' | VCap c' _ => c' <> c | _ => True end.

  (** An object that was replaced still has something to say about a network that
      is there. *)
  Definition late (s : vst) (n : N) : Prop :=
    exists o x, find_obj n (vs_nets s) = None /\ find_obj n (vs_old s) = Some o /\ In x (vs_nets s) /\ n_id (v_rec x) = n_id (v_rec o).
  Definition fresh (s : vst) (e : vev) : Prop := match e with VUp n _ | VFail n _ => ~ late s n | _ => True end.

  (** The events whose effect on attribute [k] is announced. *)
  Definition loud (k : bytes) (s : vst) (e : vev) : Prop :=
    match e with
    | VNick _ _ => k <> B "nickname" /\ k <> B "realname"
    | VUser _ _ _ _ => k <> B "nickname" /\ k <> B "realname" /\ k <> B "error"
    | VUpdate _ => forall s1 o i f g, vstep e s = Some (s1, o) -> truth 0 s i = Some f -> truth 0 s1 i = Some g -> g k = [] -> f k = []
    | _ => True
    end.

  Inductive along (P : vst -> vev -> Prop) : list vev -> vst -> Prop :=
  | along_nil s : along P [] s
  | along_cons e l s s1 o : vstep e s = Some (s1, o) -> P s e -> along P l s1 -> along P (e :: l) s.
End Spec.
