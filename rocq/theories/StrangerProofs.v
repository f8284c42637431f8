(** Lemmas for C111. *)
From Coq Require Import String Ascii ZArith List Bool Lia ZifyBool.
From Verif Require Import Py Base Msg Address Dpt Tables LData Inet State Encode Decode Client.
From Verif Require Import SpecMsg SpecTables SpecWire SpecDecode SpecClient SpecLeft SpecStranger.
From Verif Require Import MsgProofs DecodeProofs OctetsProofs ClientProofs DeliveryProofs LeftProofs Props_Client Props_Left.
Import ListNotations.
Open Scope Z_scope.

Lemma expected_remote ip c msgs es : well_made ip c msgs -> orderly false es -> st_remote (c_state (after c es)) = expected c es.
Proof. intros W O. exact (C35_counter ip c msgs es W O). Qed.

(** ** What cannot change anything *)
Lemma unmoved ip c msgs es d : well_made ip c msgs -> orderly false (es ++ [EvData d]) -> ~ matters c es d ->
  after c (es ++ [EvData d]) = after c es.
Proof.
  intros W O N. pose proof (orderly_prefix _ _ _ O) as O1. pose proof (well_made_history ip c msgs es W O1) as S.
  destruct (well_made_allowed ip c msgs es _ W O) as [T Od]. pose proof (s_good _ _ _ _ S) as Gd.
  pose proof (expected_remote ip c msgs es W O1) as R. rewrite after_snoc.
  destruct (tunnelled d) as [[n cemi]|] eqn:Ht.
  - assert (En : n <> st_remote (c_state (after c es))).
    { intros E. apply N. right. right. right. exists cemi. rewrite Ht, E, R. reflexivity. }
    destruct (step_refused ip _ d n cemi Gd T Od Ht En) as (ch & _ & X). rewrite X. reflexivity.
  - assert (Na : connect_answer d = false) by (destruct (connect_answer d) eqn:E; [elim N; left; exact E|reflexivity]).
    destruct (step_other ip _ d Gd Od Na Ht) as [_ X]. rewrite X. cbn [fst]. clear X.
    pose proof Gd as (_ & _ & F & Ho & _). pose proof F as (M & _).
    rewrite C106_decode; [|exact Od|reflexivity]. unfold left_by_decoding. rewrite M. unfold on_bus. rewrite M, Ht.
    assert (L : local_after d (st_local (c_state (after c es))) = st_local (c_state (after c es))).
    { rewrite (s_local _ _ _ _ S). destruct (Z.eq_dec (local_after d (next_local c es)) (next_local c es)) as [E|E]; [exact E|].
      elim N. right. right. left. exact E. }
    assert (C : channel_after d (st_channel (c_state (after c es))) = st_channel (c_state (after c es))).
    { rewrite (s_channel _ _ _ _ S). fold (channel_now c es).
      assert (D : {channel_after d (channel_now c es) = channel_now c es} + {channel_after d (channel_now c es) <> channel_now c es}) by (decide equality; apply Z.eq_dec).
      destruct D as [E|E]; [exact E|]. elim N. right. left. exact E. }
    rewrite L, C. clear - Ho M. destruct (after c es) as [a b st t cn w o]. cbn in *. subst o. unfold with_state. cbn. f_equal.
    destruct st; cbn in *. subst. reflexivity.
Qed.

(** ** Counters *)
Lemma ack_local ch n l : local_after (tunnelling_ack ch n 0) l = if n mod 256 =? l then (l + 1) mod 256 else l.
Proof. reflexivity. Qed.
Lemma acks_local ch l : 0 <= l < 256 -> forall n, (n <= 256)%nat ->
  fold_left local_step (false_acks ch (Z.of_nat n)) l = if l <? Z.of_nat n then Z.of_nat n mod 256 else l.
Proof.
  intros Hl. induction n as [|n IH]; intros Hn; [cbn; destruct (l <? 0) eqn:E; lia|].
  replace (Z.of_nat (S n)) with (Z.of_nat n + 1) by lia. unfold false_acks in *. rewrite upto_S, map_app, fold_left_app, IH by lia.
  cbn [map fold_left local_step]. rewrite ack_local.
  destruct (l <? Z.of_nat n) eqn:E1; destruct (l <? Z.of_nat n + 1) eqn:E2; try lia;
    destruct (Z.of_nat n mod 256 =? _) eqn:E3; lia.
Qed.

Lemma guesses_S ch f n : 0 <= n -> guesses ch f (n + 1) = guesses ch f n ++ [EvData (tunnelling_request ch n f)].
Proof. intros H. unfold guesses. rewrite upto_S, map_app by exact H. reflexivity. Qed.
Lemma guesses_orderly ch f l : octets f -> orderly true (map (fun i => EvData (tunnelling_request ch i f)) l).
Proof.
  intros O. induction l as [|i l IH]; [exact Logic.I|]. cbn [map orderly]. split; [reflexivity|]. split; [apply request_octets; exact O|exact IH].
Qed.
Lemma guess_run ip c msgs es ch f m : well_made ip c msgs -> orderly false es -> fold_left up_step es false = true -> octets f ->
  meaning (c_state c) f = Ok m -> forall n, (n <= 256)%nat ->
  orderly false (es ++ guesses ch f (Z.of_nat n)) /\
  flat_map deliveries (observations (after c es) (guesses ch f (Z.of_nat n))) = concat (repeat m (n - Z.to_nat (expected c es))) /\
  expected c (es ++ guesses ch f (Z.of_nat n)) = if expected c es <? Z.of_nat n then Z.of_nat n mod 256 else expected c es.
Proof.
  intros W O Up Of M n. pose proof (Z.mod_pos_bound (taken (st_remote (c_state c)) (trace c es)) 256 ltac:(lia)) as R. fold (expected c es) in R.
  assert (Og : forall k, orderly false (es ++ guesses ch f k)).
  { intros k. apply orderly_app. split; [exact O|]. rewrite Up. apply guesses_orderly. exact Of. }
  induction n as [|n IH]; intros Hn.
  { split; [apply Og|]. change (guesses ch f (Z.of_nat 0)) with (@nil event). rewrite app_nil_r. cbn. destruct (expected c es <? 0) eqn:E; [lia|auto]. }
  split; [apply Og|]. destruct (IH ltac:(lia)) as (_ & D & X). clear IH.
  replace (Z.of_nat (S n)) with (Z.of_nat n + 1) by lia. rewrite guesses_S by lia.
  set (es1 := es ++ guesses ch f (Z.of_nat n)) in *. set (d := tunnelling_request ch (Z.of_nat n) f).
  assert (O1 : orderly false (es1 ++ [EvData d])). { pose proof (Og (Z.of_nat n + 1)) as H. rewrite guesses_S, app_assoc in H by lia. exact H. }
  pose proof (request_tunnelled ch (Z.of_nat n) f) as Ht. fold d in Ht. rewrite Z.mod_small in Ht by lia.
  rewrite observations_app, flat_map_app, <- after_app, D. fold es1.
  replace (observations (after c es1) [EvData d]) with [shown c es1 (EvData d)]
    by (unfold observations, shown; cbn [client_run]; destruct (client_step (after c es1) (EvData d)); reflexivity).
  cbn [flat_map]. rewrite app_nil_r, app_assoc. fold es1. unfold expected in X |- *. 
  destruct (Z.eq_dec (Z.of_nat n) (expected c es1)) as [En|En].
  - pose proof (C35_due ip c msgs es1 d _ f W O1 Ht En) as Y. cbv zeta in Y. rewrite M in Y. destruct Y as (Y1 & _ & Y2). rewrite Y1, Y2.
    unfold expected in En. fold (expected c es) in X |- *. rewrite <- En in X. split.
    + assert (En2 : Z.of_nat n >= expected c es) by (destruct (expected c es <? Z.of_nat n) eqn:E; lia).
      replace (S n - Z.to_nat (expected c es))%nat with (S (n - Z.to_nat (expected c es))) by lia.
      generalize (n - Z.to_nat (expected c es))%nat. intros j. clear. cbn [repeat concat].
      induction j as [|j IH]; cbn; [rewrite app_nil_r; reflexivity|]. rewrite <- app_assoc, IH. reflexivity.
    + destruct (expected c es <? Z.of_nat n) eqn:E; destruct (expected c es <? Z.of_nat n + 1) eqn:E2; try lia.
  - pose proof (C35_undue ip c msgs es1 d _ f W O1 Ht) as Y. cbv zeta in Y. fold (expected c es1) in Y. destruct (Y En) as [Y1 Y2]. rewrite Y1, Y2.
    fold (expected c es1) in X |- *. fold (expected c es) in X |- *. rewrite app_nil_r. rewrite X in En |- *.
    destruct (expected c es <? Z.of_nat n) eqn:E; [lia|]. destruct (expected c es <? Z.of_nat n + 1) eqn:E2; [lia|]. split; [|reflexivity].
    replace (S n - Z.to_nat (expected c es))%nat with 0%nat by lia. replace (n - Z.to_nat (expected c es))%nat with 0%nat by lia. reflexivity.
Qed.

(** ** The channel *)
Lemma channel_kept es : Forall keeps_channel es -> forall ch, fold_left channel_step es ch = ch.
Proof.
  induction 1 as [|e es K _ IH]; intros ch; [reflexivity|]. cbn [fold_left]. replace (channel_step ch e) with ch; [apply IH|].
  destruct e as [| |d|]; try reflexivity. cbn [channel_step keeps_channel] in *. unfold channel_after.
  destruct (ip_service d) as [[sv r]|]; [|reflexivity]. destruct r as [|? [|? [|h [|sta r]]]]; try reflexivity.
  destruct (sv =? 518) eqn:E1; [lia|]. destruct (sv =? 522) eqn:E2; [lia|]. reflexivity.
Qed.
