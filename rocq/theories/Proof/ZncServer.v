(** What is made of the line of a server. *)
From Verif.Base Require Import Bytes.
From Verif.Model Require Import Sql ZncImport Glob.
From Verif.Model Require Words Addr.
From Verif.Proof Require Addr.
From Verif.Proof Require Import ZncParse.
From Verif.Spec Require Import Sql Postgres ZncImport.
From Verif.Spec Require Addr.
From Coq Require Import NArith Lia.

Lemma split_solid w l acc : (forall c, In c w -> solid c) -> split_space (map point w ++ l) acc = split_space l (acc ++ write_text w).
Proof.
  revert acc. induction w as [|c w IH]; intros acc H; [cbn; rewrite app_nil_r; reflexivity|].
  cbn [map app split_space]. unfold point at 1 2. cbn [fst snd]. rewrite (H c (or_introl eq_refl)).
  rewrite IH by (intros y Hy; apply H; right; exact Hy). unfold write_text. cbn [flat_map]. rewrite app_assoc. reflexivity.
Qed.
Lemma split_blank b l : (forall c, In c b -> blank c) -> split_space (map point b ++ l) [] = split_space l [].
Proof.
  induction b as [|c b IH]; intros H; [reflexivity|]. cbn [map app split_space]. unfold point at 1. cbn [fst].
  rewrite (proj2 (H c (or_introl eq_refl))). apply IH. intros y Hy. apply H. right. exact Hy.
Qed.
Lemma split_word b l w : b <> [] -> (forall c, In c b -> blank c) -> w <> [] -> split_space (map point b ++ l) w = w :: split_space l [].
Proof.
  intros N H W. destruct b as [|c b]; [contradiction|]. cbn [map app split_space]. unfold point at 1. cbn [fst].
  rewrite (proj2 (H c (or_introl eq_refl))). destruct w as [|a w]; [contradiction|]. f_equal. apply split_blank.
  intros y Hy. apply H. right. exact Hy.
Qed.

Lemma simple_char c : Proof.Addr.simple c = true ->
  (0 < code c < 128)%N /\ Words.is_space (code c) = false /\ Model.Addr.host_char c = true /\ c <> "+"%char.
Proof.
  intros H. assert (G : forall c, implb (Proof.Addr.simple c) ((0 <? code c)%N && (code c <? 128)%N && negb (Words.is_space (code c)) && Model.Addr.host_char c && negb (aeqb c "+")) = true).
  { apply byte_forall. vm_compute. reflexivity. }
  specialize (G c). rewrite H in G. cbn [implb] in G. repeat (apply andb_true_iff in G; destruct G as [G ?]).
  apply N.ltb_lt in G. split; [split; [exact G|apply N.ltb_lt; assumption]|]. split; [apply negb_true_iff; assumption|]. split; [assumption|].
  intros ->. discriminate.
Qed.

Lemma text_ascii s : (forall c, In c s -> (code c < 128)%N) -> write_text (map code s) = s.
Proof.
  unfold write_text. induction s as [|c s IH]; intros H; [reflexivity|]. cbn [map flat_map].
  rewrite IH by (intros y Hy; apply H; right; exact Hy). unfold encode. pose proof (H c (or_introl eq_refl)) as L. apply N.ltb_lt in L. rewrite L.
  unfold octet, code. rewrite ascii_N_embedding. reflexivity.
Qed.

Lemma escape_simple s : Proof.Addr.simples s -> escape_host s = s.
Proof.
  unfold escape_host. induction s as [|c s IH]; intros H; [reflexivity|]. cbn [flat_map].
  destruct (simple_char c (H c (or_introl eq_refl))) as ([_ L] & _ & Hc & _). apply N.ltb_lt in L. rewrite Hc, L. cbn [andb app]. f_equal.
  apply IH. intros y Hy. apply H. right. exact Hy.
Qed.

Lemma scalar_ascii c : (0 < c < 128)%N -> scalar c.
Proof. unfold scalar. lia. Qed.

Lemma server_read tls w h p line q : server_line tls w p line q -> Spec.Addr.host_of w h -> Spec.Addr.port_number p ->
  exists addr, import_server line = Some (addr, q) /\ Spec.Addr.written tls (w ++ B ":" ++ p) addr.
Proof.
  intros L Hw Hp.
  pose proof (Proof.Addr.host_simple w h Hw) as Sw. destruct (Proof.Addr.port_simple p Hp) as (Sp & _).
  assert (Nw : w <> []) by (destruct Hw as [x [X _]|x _]; [exact X|discriminate]).
  assert (Np : p <> []) by (destruct Hp as [X _]; exact X).
  set (plus := if tls then B "+" else []) in *.
  assert (Ap : forall c, In c (plus ++ p) -> (0 < code c < 128)%N /\ Words.is_space (code c) = false).
  { intros c Hc. apply in_app_iff in Hc. destruct Hc as [Hc|Hc].
    - unfold plus in Hc. destruct tls; [|destruct Hc]. destruct Hc as [<-|[]]. split; [split; vm_compute; reflexivity|vm_compute; reflexivity].
    - destruct (simple_char c (Sp c Hc)) as (A & B' & _). auto. }
  assert (Aw : forall c, In c w -> (0 < code c < 128)%N /\ Words.is_space (code c) = false).
  { intros c Hc. destruct (simple_char c (Sw c Hc)) as (A & B' & _). auto. }
  assert (F : exists rest, fields line = w :: (plus ++ p) :: rest /\ q = match rest with [] => [] | x :: _ => x end).
  { assert (Tw : write_text (map code w) = w) by (apply text_ascii; intros c Hc; apply Aw; exact Hc).
    assert (Tp : write_text (map code (plus ++ p)) = plus ++ p) by (apply text_ascii; intros c Hc; apply Ap; exact Hc).
    assert (Sw' : forall c, In c (map code w) -> scalar c /\ solid c).
    { intros c Hc. apply in_map_iff in Hc. destruct Hc as (x & <- & Hx). destruct (Aw x Hx). split; [apply scalar_ascii|]; assumption. }
    assert (Sp' : forall c, In c (map code (plus ++ p)) -> scalar c /\ solid c).
    { intros c Hc. apply in_map_iff in Hc. destruct Hc as (x & <- & Hx). destruct (Ap x Hx). split; [apply scalar_ascii|]; assumption. }
    assert (Npp : plus ++ p <> []) by (destruct plus; [exact Np|discriminate]).
    inversion L as [b Nb Hb EL Eq|b b' x Nb Hb Nb' Hb' Nx Hx EL Eq].
    - exists []. split; [|reflexivity]. subst q. fold plus.
      replace (w ++ write_text b ++ plus ++ p) with (write_text (map code w ++ b ++ map code (plus ++ p)))
        by (unfold write_text in *; rewrite !flat_map_app, Tw, Tp; reflexivity).
      unfold fields. rewrite points_text.
      2:{ intros c Hc. apply in_app_iff in Hc. destruct Hc as [Hc|Hc]; [apply Sw', Hc|]. apply in_app_iff in Hc. destruct Hc as [Hc|Hc]; [apply Hb, Hc|apply Sp', Hc]. }
      rewrite !(map_app point). rewrite split_solid by (intros c Hc; apply Sw', Hc). cbn [app]. rewrite Tw.
      rewrite split_word by assumption. rewrite <- (app_nil_r (map point (map code (plus ++ p)))).
      rewrite split_solid by (intros c Hc; apply Sp', Hc). cbn [app]. rewrite Tp. cbn [split_space]. destruct (plus ++ p); [contradiction|reflexivity].
    - exists [write_text x]. split; [|reflexivity]. subst q. fold plus.
      replace (w ++ write_text b ++ plus ++ p ++ write_text b' ++ write_text x) with (write_text (map code w ++ b ++ map code (plus ++ p) ++ b' ++ x)).
      2:{ unfold write_text in *. rewrite !flat_map_app, Tw, Tp, <- !app_assoc. reflexivity. }
      unfold fields. rewrite points_text.
      2:{ intros c Hc. apply in_app_iff in Hc. destruct Hc as [Hc|Hc]; [apply Sw', Hc|]. apply in_app_iff in Hc. destruct Hc as [Hc|Hc]; [apply Hb, Hc|].
          apply in_app_iff in Hc. destruct Hc as [Hc|Hc]; [apply Sp', Hc|]. apply in_app_iff in Hc. destruct Hc as [Hc|Hc]; [apply Hb', Hc|apply Hx, Hc]. }
      rewrite !(map_app point). rewrite split_solid by (intros c Hc; apply Sw', Hc). cbn [app]. rewrite Tw.
      rewrite split_word by assumption. rewrite split_solid by (intros c Hc; apply Sp', Hc). cbn [app]. rewrite Tp.
      rewrite split_word by assumption. rewrite <- (app_nil_r (map point x)), split_solid by (intros c Hc; apply Hx, Hc). cbn [app split_space].
      assert (Nt : write_text x <> []).
      { destruct x as [|c x]; [contradiction|]. unfold write_text. cbn [flat_map]. destruct (encode_cons c (proj1 (Hx c (or_introl eq_refl)))) as (a & y & ->). discriminate. }
      destruct (write_text x); [contradiction|reflexivity]. }
  destruct F as (rest & F & ->). unfold import_server. rewrite F. clear F L. unfold plus.
  assert (Sa : escape_host (w ++ B ":" ++ p) = w ++ B ":" ++ p).
  { apply escape_simple. apply Proof.Addr.simples_app; [exact Sw|]. apply Proof.Addr.simples_app; [|exact Sp]. intros c [<-|[]]. vm_compute. reflexivity. }
  destruct tls.
  - change (B "+" ++ p) with ("+"%char :: p). cbv iota beta. rewrite aeqb_refl, Sa.
    eexists. split; [reflexivity|]. exact (Spec.Addr.WTls (w ++ B ":" ++ p)).
  - cbn [app]. destruct p as [|c p]; [contradiction|]. destruct (aeqb_spec c "+") as [->|_].
    { exfalso. exact (proj2 (proj2 (proj2 (simple_char _ (Sp _ (or_introl eq_refl))))) eq_refl). }
    rewrite Sa. eexists. split; [reflexivity|]. exact (Spec.Addr.WPlain (w ++ B ":" ++ c :: p)).
Qed.

Lemma server_ok line addr pass : import_server line = Some (addr, pass) -> server_says line addr pass.
Proof.
  intros E tls w h p q L Hw Hp. destruct (server_read tls w h p line q L Hw Hp) as (a & Ea & Wa).
  rewrite E in Ea. assert (addr = a /\ pass = q) as [-> ->] by (split; congruence). auto.
Qed.
