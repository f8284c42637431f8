(** Proofs for C84. *)
From Coq Require Import ZArith List Bool Lia ZifyBool.
From Verif Require Import Py Base Msg Daemon SpecMsg SpecDaemon SpecPieces MsgProofs DaemonProofs.
Import ListNotations.
Open Scope Z_scope.

Lemma step_packet scan d fd chunk u : chunk <> [] -> zlen (dm_packet d) = 56 ->
  snd (daemon_step scan d (DClient fd chunk u)) = [ToBus (dm_packet (fst (daemon_step scan d (DClient fd chunk u))))].
Proof.
  intros N L. rewrite client_step by exact N. cbn [fst snd dm_packet]. rewrite ztake_ge; [reflexivity|].
  destruct (read_steps scan u chunk (dm_packet d) N) as (t1 & _ & ->). destruct (negb _); [cbn; lia|].
  pose proof (parse_length scan (Z.to_nat (Z.quot (left_bytes u chunk) 2)) 0 (chunk ++ ar_behind u) (dm_packet d)) as P.
  destruct (parse_loop scan (Z.to_nat (Z.quot (left_bytes u chunk) 2)) 0 (chunk ++ ar_behind u) (dm_packet d)) as [[r p] t]. cbn [fst snd] in *. lia.
Qed.
Lemma stores_step scan d fd p q u : c_scanner scan -> zlen (dm_packet d) = 56 -> p <> [] -> zlen p <= 113 -> stores p q ->
  dm_packet (fst (daemon_step scan d (DClient fd p u))) = over q (dm_packet d).
Proof.
  intros CS L N Lp S. rewrite client_step by exact N. cbn [fst dm_packet].
  destruct S as [digits q eol D E|digits c v q eol D H E].
  - assert (En : ends eol) by (destruct E as [-> | ->]; split; repeat constructor; discriminate).
    pose proof (denotes_len _ _ D) as Ld. rewrite zlen_app in Lp. pose proof (zlen_nonneg eol).
    destruct (line_read scan u digits q eol (dm_packet d) CS D En N ltac:(lia)) as (r & _ & ->). reflexivity.
  - assert (En : ends eol) by (destruct E as [-> | ->]; split; repeat constructor; discriminate).
    rewrite app_assoc. rewrite odd_read; [reflexivity| |exact En|].
    + intros X. apply eol_spec in X. rewrite (hex_not_eol _ _ H) in X. discriminate X.
    + rewrite zlen_app, (denotes_len _ _ D). change (zlen [c]) with 1. rewrite Z.odd_add, Z.odd_mul. reflexivity.
Qed.
(** Every part of a line is such a piece. *)
Lemma denotes_cut : forall text o, denotes text o -> forall a b, text = a ++ b ->
  (exists qa qb, denotes a qa /\ denotes b qb /\ o = qa ++ qb) \/
  (exists a' c b' v w qa qb x, a = a' ++ [c] /\ b = x :: b' /\ denotes a' qa /\ hex_code c v /\ hex_code x w /\ denotes b' qb /\ o = qa ++ 16 * v + w :: qb).
Proof.
  induction 1 as [|c1 c2 h l text o H1 H2 D IH]; intros a b E.
  - symmetry in E. apply app_eq_nil in E. destruct E as [-> ->]. left. exists [], []. repeat split; constructor.
  - destruct a as [|a1 [|a2 a]].
    + cbn [app] in E. subst b. left. exists [], (16 * h + l :: o). repeat split; [constructor|]. constructor; assumption.
    + cbn [app] in E. injection E as <- E. right. exists [], c1, text, h, l, [], o, c2. subst b. repeat split; try assumption; constructor.
    + cbn [app] in E. injection E as <- <- E. destruct (IH a b E) as [(qa & qb & A & B & ->)|(a' & c & b' & v & w & qa & qb & x & -> & -> & A & C & X & B & ->)].
      * left. exists (16 * h + l :: qa), qb. repeat split; [constructor; assumption|assumption].
      * right. exists (c1 :: c2 :: a'), c, b', v, w, (16 * h + l :: qa), qb, x. repeat split; try assumption. constructor; assumption.
Qed.
Lemma odd_digits : forall n text o, zlen text <= n -> denotes text o -> forall x w, hex_code x w ->
  exists t c q v, x :: text = t ++ [c] /\ denotes t q /\ hex_code c v.
Proof.
  intros n text o _ D. induction D as [|c1 c2 h l text o H1 H2 D IH]; intros x w X.
  - exists [], x, [], w. repeat split; [constructor|assumption].
  - destruct (IH c2 l H2) as (t & c & q & v & E & T & C). exists (x :: c1 :: t), c, (16 * w + h :: q), v.
    split; [cbn [app]; rewrite <- E; reflexivity|]. split; [constructor; assumption|assumption].
Qed.
