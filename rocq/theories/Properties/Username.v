(** Property C20. *)
From Verif.Base Require Import Bytes.
From Verif.Model Require Import Username.
From Verif.Proof Require Username.

(** C20: each way to write a login name decodes to (user, client, network). *)
Theorem C20_login_name_roundtrip :
  forall user client network,
    (forall p, In p [user; client; network] -> ~ In "/"%char p /\ ~ In "@"%char p) ->
    unmarshal_username user = (user, [], []) /\
    unmarshal_username (user ++ B "/" ++ network) = (user, [], network) /\
    unmarshal_username (user ++ B "@" ++ client) = (user, client, []) /\
    unmarshal_username (user ++ B "/" ++ network ++ B "@" ++ client) = (user, client, network) /\
    unmarshal_username (user ++ B "@" ++ client ++ B "/" ++ network) = (user, client, network).
Proof.
  intros u c n H.
  assert (Hu : Proof.Username.no_sep u) by (apply H; left; reflexivity).
  assert (Hc : Proof.Username.no_sep c) by (apply H; right; left; reflexivity).
  assert (Hn : Proof.Username.no_sep n) by (apply H; right; right; left; reflexivity).
  split; [exact (Proof.Username.unmarshal_user u Hu)|].
  split; [exact (Proof.Username.unmarshal_one u "/" n Hu Hn eq_refl)|].
  split; [exact (Proof.Username.unmarshal_one u "@" c Hu Hc eq_refl)|].
  split; [exact (Proof.Username.unmarshal_two u "/" n "@" c Hu Hn Hc eq_refl eq_refl)|].
  exact (Proof.Username.unmarshal_two u "@" c "/" n Hu Hc Hn eq_refl eq_refl).
Qed.
Print Assumptions C20_login_name_roundtrip.

Example C20_nonvacuous :
  unmarshal_username (B "alice/libera@laptop") = (B "alice", B "laptop", B "libera") /\
  unmarshal_username (B "alice@laptop/libera") = (B "alice", B "laptop", B "libera").
Proof. split; vm_compute; reflexivity. Qed.
