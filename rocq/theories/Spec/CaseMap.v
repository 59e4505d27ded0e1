(** Specification of IRC case mappings and of maps keyed by folded names. *)
From Verif.Base Require Import Bytes.
From Verif.Model Require Import CaseMap.

(** The letter pairs every mapping identifies. *)
Definition letter_pairs : list (ascii * ascii) :=
  combine (B "ABCDEFGHIJKLMNOPQRSTUVWXYZ") (B "abcdefghijklmnopqrstuvwxyz").

(** ISUPPORT CASEMAPPING specification: ascii identifies the letters only,
    rfc1459-strict also {}| with []\, rfc1459 also ^ with ~. *)
Definition strict_pairs : list (ascii * ascii) :=
  letter_pairs ++ combine (B "[]\") (B "{}|").

Definition rfc1459_pairs : list (ascii * ascii) :=
  strict_pairs ++ [("~", "^")]%char.

Definition pairs_of (cm : casemapping) : list (ascii * ascii) :=
  match cm with
  | CmASCII => letter_pairs
  | CmRFC1459Strict => strict_pairs
  | CmRFC1459 => rfc1459_pairs
  end.

(** Two bytes are the same up to case. *)
Definition byte_equiv (cm : casemapping) (a b : ascii) : Prop :=
  a = b \/ In (a, b) (pairs_of cm) \/ In (b, a) (pairs_of cm).

(** Two names are the same name. *)
Definition name_equiv (cm : casemapping) (x y : bytes) : Prop := Forall2 (byte_equiv cm) x y.

(** [cm_coarser a b]: mapping [a] identifies at least what [b] identifies. *)
Definition coarser (a b : casemapping) : Prop :=
  forall x y, name_equiv b x y -> name_equiv a x y.

(** What a lookup of [name] must return after history [h]: a pair of the
    spelling fixed by the Set that created the entry, and the last value. *)
Inductive lookup_spec {V} (cm : casemapping) (name : bytes) :
  list (cm_op V) -> option (bytes * V) -> Prop :=
| LsNil : lookup_spec cm name [] None
| LsSetNew h n v : name_equiv cm n name -> lookup_spec cm name h None ->
    lookup_spec cm name (h ++ [OpSet n v]) (Some (n, v))
| LsSetUpd h n v n0 v0 : name_equiv cm n name -> lookup_spec cm name h (Some (n0, v0)) ->
    lookup_spec cm name (h ++ [OpSet n v]) (Some (n0, v))
| LsDel h n r : name_equiv cm n name -> lookup_spec cm name h r ->
    lookup_spec cm name (h ++ [OpDel n]) None
| LsSetOther h n v r : ~ name_equiv cm n name -> lookup_spec cm name h r ->
    lookup_spec cm name (h ++ [OpSet n v]) r
| LsDelOther h n r : ~ name_equiv cm n name -> lookup_spec cm name h r ->
    lookup_spec cm name (h ++ [OpDel n]) r.
