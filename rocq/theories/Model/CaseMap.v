(** Model of xirc/casemapping.go. *)
From Verif.Base Require Import Bytes.

(** xirc/casemapping.go:51-55: the three case mappings in use. *)
Inductive casemapping := CmASCII | CmRFC1459 | CmRFC1459Strict.

(** xirc/casemapping.go:6,16,34: ['A' <= r && r <= 'Z'] and [r + 'a' - 'A']. *)
Definition fold_letter (r : ascii) : option ascii :=
  if (N.leb 65 (code r) && N.leb (code r) 90)%N
  then Some (ascii_of_N (code r + 97 - 65)) else None.

(** xirc/casemapping.go:3-11 (casemapASCII), loop body. *)
Definition fold_ascii (r : ascii) : ascii :=
  match fold_letter r with Some c => c | None => r end.

(** xirc/casemapping.go:13-29 (casemapRFC1459), loop body. *)
Definition fold_rfc1459 (r : ascii) : ascii :=
  match fold_letter r with
  | Some c => c
  | None => if aeqb r "{" then "["%char
            else if aeqb r "}" then "]"%char
            else if aeqb r "\" then "|"%char
            else if aeqb r "~" then "^"%char
            else r
  end.

(** xirc/casemapping.go:31-45 (casemapRFC1459Strict), loop body. *)
Definition fold_rfc1459_strict (r : ascii) : ascii :=
  match fold_letter r with
  | Some c => c
  | None => if aeqb r "{" then "["%char
            else if aeqb r "}" then "]"%char
            else if aeqb r "\" then "|"%char
            else r
  end.

(** xirc/casemapping.go:3-45: the loops replace every byte independently. *)
Definition casemap (cm : casemapping) (name : bytes) : bytes :=
  match cm with
  | CmASCII => map fold_ascii name
  | CmRFC1459 => map fold_rfc1459 name
  | CmRFC1459Strict => map fold_rfc1459_strict name
  end.

(** xirc/casemapping.go:57-68 (ParseCaseMapping); [None] is the nil function. *)
Definition parse_case_mapping (s : bytes) : option casemapping :=
  if beqb s (B "ascii") then Some CmASCII
  else if beqb s (B "rfc1459") then Some CmRFC1459
  else if beqb s (B "rfc1459-strict") then Some CmRFC1459Strict
  else None.

Section Map.
  Context {V : Type}.

  (** xirc/casemapping.go:75-78 (caseMappingEntry). *)
  Record entry := Entry { original_key : bytes; entry_value : V }.

  (** The Go map from folded name to entry, as an association list without
      repeated keys (an invariant, not enforced by the type). *)
  Definition gomap := list (bytes * entry).

  Fixpoint gm_lookup (m : gomap) (k : bytes) : option entry :=
    match m with
    | [] => None
    | (k', e) :: m' => if beqb k k' then Some e else gm_lookup m' k
    end.

  (** Go map assignment [m[k] = e]. *)
  Fixpoint gm_set (m : gomap) (k : bytes) (e : entry) : gomap :=
    match m with
    | [] => [(k, e)]
    | (k', e') :: m' => if beqb k k' then (k', e) :: m' else (k', e') :: gm_set m' k e
    end.

  (** Go [delete(m, k)]. *)
  Fixpoint gm_del (m : gomap) (k : bytes) : gomap :=
    match m with
    | [] => []
    | (k', e') :: m' => if beqb k k' then gm_del m' k else (k', e') :: gm_del m' k
    end.

  (** xirc/casemapping.go:70-73 (CaseMappingMap). *)
  Record cmmap := CMMap { cm_m : gomap; cm_fold : casemapping }.

  (** xirc/casemapping.go:80-85 (NewCaseMappingMap). *)
  Definition cm_new (cm : casemapping) : cmmap := CMMap [] cm.

  (** xirc/casemapping.go:87-90 (Has). *)
  Definition cm_has (t : cmmap) (name : bytes) : bool :=
    match gm_lookup (cm_m t) (casemap (cm_fold t) name) with Some _ => true | None => false end.

  (** xirc/casemapping.go:92-94 (Len). *)
  Definition cm_len (t : cmmap) : nat := length (cm_m t).

  (** xirc/casemapping.go:96-103 (Get); [None] stands for V's zero value. *)
  Definition cm_get (t : cmmap) (name : bytes) : option V :=
    match gm_lookup (cm_m t) (casemap (cm_fold t) name) with
    | Some e => Some (entry_value e)
    | None => None
    end.

  (** xirc/casemapping.go:105-117 (Set). *)
  Definition cm_set (t : cmmap) (name : bytes) (v : V) : cmmap :=
    let name_cm := casemap (cm_fold t) name in
    match gm_lookup (cm_m t) name_cm with
    | None => CMMap (gm_set (cm_m t) name_cm (Entry name v)) (cm_fold t)
    | Some e => CMMap (gm_set (cm_m t) name_cm (Entry (original_key e) v)) (cm_fold t)
    end.

  (** xirc/casemapping.go:119-121 (Del). *)
  Definition cm_del (t : cmmap) (name : bytes) : cmmap :=
    CMMap (gm_del (cm_m t) (casemap (cm_fold t) name)) (cm_fold t).

  (** xirc/casemapping.go:123-127 (ForEach): the pairs passed to the callback,
      in some order. *)
  Definition cm_entries (t : cmmap) : list (bytes * V) :=
    map (fun ke => (original_key (snd ke), entry_value (snd ke))) (cm_m t).

  (** xirc/casemapping.go:129-136 (SetCaseMapping). [order] is the sequence in
      which Go's range statement visits the old map's entries: any permutation. *)
  Definition cm_set_casemapping (order : list entry) (new : casemapping) : cmmap :=
    CMMap (fold_left (fun m e => gm_set m (casemap new (original_key e)) e) order []) new.
End Map.

Arguments entry : clear implicits.
Arguments gomap : clear implicits.
Arguments cmmap : clear implicits.

(** One operation on a case-mapped map. *)
Inductive cm_op (V : Type) := OpSet (name : bytes) (v : V) | OpDel (name : bytes).
Arguments OpSet {V}.
Arguments OpDel {V}.

Definition cm_step {V} (t : cmmap V) (o : cm_op V) : cmmap V :=
  match o with OpSet n v => cm_set t n v | OpDel n => cm_del t n end.

Definition cm_run {V} (cm : casemapping) (h : list (cm_op V)) : cmmap V :=
  fold_left cm_step h (cm_new cm).
