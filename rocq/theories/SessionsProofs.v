(** Proofs about a client that connects again and again (C115). *)
From Coq Require Import String Ascii ZArith List Bool Lia ZifyBool.
From Verif Require Import Py Base Msg Address Dpt Tables LData Inet State Encode Decode Client.
From Verif Require Import SpecMsg SpecTables SpecWire SpecDecode SpecClient SpecSystem SpecLossy SpecSessions.
From Verif Require Import DecodeProofs ClientProofs DeliveryProofs SystemProofs LossyProofs.
Import ListNotations.
Open Scope Z_scope.

(** What the client has met in a session. *)
Record met (c : client) (s : system) : Prop := {
  me_client : sy_client s = after c (map fst (sy_log s));
  me_order : orderly true (map fst (sy_log s));
  me_up : fold_left up_step (map fst (sy_log s)) true = true;
  me_down : Forall octets (sy_down s)
}.
Lemma met_event c s down e : met c s -> Forall octets down ->
  match e with EvData d => octets d | EvWriter => True | _ => False end -> met c (sy_client_event s down e).
Proof.
  intros [] D E. unfold sy_client_event. destruct (client_step (sy_client s) e) as [c' o] eqn:Q.
  constructor; cbn [sy_client sy_log sy_down]; rewrite ?map_app; cbn [map fst].
  - rewrite after_snoc, <- me_client0, Q. reflexivity.
  - apply orderly_app. split; [assumption|]. rewrite me_up0. destruct e; cbn; tauto.
  - rewrite fold_left_app, me_up0. destruct e; cbn; tauto.
  - exact D.
Qed.
Lemma answer_octets g d : Forall octets (snd (gw_receive g d)).
Proof.
  assert (A : forall x y z, Forall octets [tunnelling_ack x y z]) by (intros; constructor; [apply ack_octets|constructor]).
  unfold gw_receive. destruct (ip_service d) as [[service [|x1 [|x2 [|x3 [|ch [|n [|sta cemi]]]]]]]|]; try constructor.
  repeat match goal with |- context [if ?b then _ else _] => destruct b end; cbn [snd]; auto.
Qed.
Lemma met_step c frame s h : sendable frame -> met c s -> met c (sy_step frame s h).
Proof.
  intros Mf H. pose proof H as []. destruct h; cbn [sy_step].
  - constructor; cbn [sy_client sy_log sy_down]; try assumption. apply Forall_app. split; [assumption|].
    constructor; [apply request_octets, Mf|constructor].
  - destruct (sy_down s) as [|d r]; [exact H|]. inversion me_down0; subst. apply met_event; assumption.
  - destruct (sy_up s) as [|d r]; [exact H|]. pose proof (answer_octets (sy_gw s) d) as A. destruct (gw_receive (sy_gw s) d) as [g an].
    constructor; cbn [sy_client sy_log sy_down snd] in *; try assumption. apply Forall_app. split; assumption.
  - apply met_event; [exact H|assumption|exact I].
  - constructor; cbn [sy_client sy_log sy_down]; try assumption. apply (incl_Forall' _ _ _ (lose_incl n (sy_down s)) me_down0).
  - constructor; cbn [sy_client sy_log sy_down]; assumption.
  - constructor; cbn [sy_client sy_log sy_down]; try assumption. apply (incl_Forall' _ _ _ (again_incl n (sy_down s)) me_down0).
  - constructor; cbn [sy_client sy_log sy_down]; assumption.
Qed.
Lemma met_run c frame hs : sendable frame -> forall s, met c s -> met c (sy_run frame s hs).
Proof. intros Mf. induction hs as [|h hs IH]; intros s H; [exact H|]. apply IH. apply met_step; assumption. Qed.

(** A session of a client with any history. *)
Lemma session_linked ip c0 msgs es x : well_made ip c0 msgs -> orderly false es -> accepting x ->
  linked ip c0 msgs (es ++ [EvMade; EvData (ss_answer x)]) (ss_channel x) /\
  st_local (c_state (after c0 (es ++ [EvMade; EvData (ss_answer x)]))) = st_local (c_state (after c0 es)).
Proof.
  intros W O (Od & A & Ec & Hch). set (es1 := es ++ [EvMade; EvData (ss_answer x)]).
  assert (O1 : orderly false es1).
  { apply orderly_app. split; [exact O|]. cbn. split; [reflexivity|]. split; [exact Od|exact I]. }
  pose proof (well_made_history ip c0 msgs es1 W O1) as S1. pose proof (well_made_history ip c0 msgs es W O) as S0.
  assert (Ch : forall o, channel_after (ss_answer x) o = Some (ss_channel x)).
  { intros o. revert Ec A. unfold channel_after, connect_answer. destruct (ip_service (ss_answer x)) as [[v [|a1 [|a2 [|ch [|sta r]]]]]|]; try discriminate.
    destruct ((v =? 518) && (sta =? 0) && (12 <=? zlen r)); [intros E _; exact E|].
    destruct ((v =? 522) && (sta =? 0)) eqn:V; [|discriminate]. intros _ B. apply andb_true_iff in B. lia. }
  assert (La : local_after (ss_answer x) (st_local (c_state (after c0 es))) = st_local (c_state (after c0 es))).
  { revert A. unfold local_after, connect_answer. destruct (ip_service (ss_answer x)) as [[v [|a1 [|a2 [|a3 [|sta [|n r]]]]]]|]; try reflexivity;
      repeat match goal with |- context [match ?l with [] => _ | _ :: _ => _ end] => destruct l end; try reflexivity;
      intros B; apply andb_true_iff in B; try (destruct (v =? 1057) eqn:V; [lia|]); reflexivity. }
  assert (T : c_transport (after c0 es1) = true) by (rewrite (s_up _ _ _ _ S1); unfold es1; rewrite fold_left_app; reflexivity).
  split.
  - split; [exact W|]. split; [exact O1|]. split; [exact T|]. split.
    + rewrite (s_channel _ _ _ _ S1). unfold es1. rewrite fold_left_app. cbn [fold_left channel_step]. apply Ch.
    + split; [exact Hch|]. rewrite (well_made_remote ip c0 msgs es1 W O1).
      unfold es1. replace (es ++ [EvMade; EvData (ss_answer x)]) with ((es ++ [EvMade]) ++ [EvData (ss_answer x)]) by (rewrite <- app_assoc; reflexivity).
      rewrite trace_snoc. unfold taken. rewrite fold_left_app. cbn [fold_left taken_step]. rewrite A. reflexivity.
  - rewrite (s_local _ _ _ _ S1). unfold es1. rewrite fold_left_app. cbn [fold_left local_step].
    rewrite <- (s_local _ _ _ _ S0). exact La.
Qed.
Lemma session_end ip c0 msgs es x : well_made ip c0 msgs -> orderly false es -> accepting x -> sendable (ss_frame x) ->
  exists es', orderly false es' /\ after (sy_client (held (after c0 es) x)) [EvLost] = after c0 es' /\
    st_local (c_state (after c0 es')) = counter_of (held (after c0 es) x).
Proof.
  intros W O A Mf. set (c := after (after c0 es) [EvMade; EvData (ss_answer x)]).
  assert (H : met c (sy_start c (ss_channel x))) by (constructor; cbn; auto).
  apply (met_run c (ss_frame x) (ss_course x) Mf) in H. fold c in H. change (sy_run (ss_frame x) (sy_start c (ss_channel x)) (ss_course x)) with (held (after c0 es) x) in H.
  set (s := held (after c0 es) x) in *. pose proof H as [].
  exists (es ++ [EvMade; EvData (ss_answer x)] ++ map fst (sy_log s) ++ [EvLost]).
  assert (E : after (sy_client s) [EvLost] = after c0 (es ++ [EvMade; EvData (ss_answer x)] ++ map fst (sy_log s) ++ [EvLost])).
  { rewrite !after_app, me_client0. reflexivity. }
  split; [|split; [exact E|]].
  - apply orderly_app. split; [exact O|]. destruct A as (Od & _). cbn [app orderly]. split; [reflexivity|]. split; [exact Od|].
    apply orderly_app. split; [exact me_order0|]. rewrite me_up0. exact I.
  - rewrite <- E. reflexivity.
Qed.
