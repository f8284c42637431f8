(** C94: what happens to a client that keeps silent. *)
From Coq Require Import String Ascii ZArith List Bool Lia ZifyBool.
From Verif Require Import Py Base Msg Address Dpt Tables LData Inet State Encode Decode Client ClientTime.
From Verif Require Import SpecMsg SpecTables SpecWire SpecDecode SpecClient SpecSystem SpecTime SpecSends SpecBeat.
From Verif Require Import MsgProofs EncodeProofs DecodeProofs ClientProofs DeliveryProofs SystemProofs TimeProofs SendsProofs.
From Verif Require Import Props_Tables Props_Encode Props_Decode Props_Client Props_System Props_Sends Props_Time.
Import ListNotations.
Open Scope Z_scope.

(** ** The writer comes to its end in any history *)
Lemma writer_ends ip c msgs es1 : well_made ip c msgs -> Forall (transmissible (c_state c)) msgs -> answered es1 = true ->
  forall es2, orderly false (es1 ++ es2) -> ~ In EvLost (es1 ++ es2) -> (length msgs < turns es2)%nat -> c_writer (after c (es1 ++ es2)) = WStopped.
Proof.
  intros W Enc A. destruct (well_made_start ip c msgs W) as (G & T & K & Wr & _).
  assert (Enc' : forall m, In m msgs -> message_repr m = Ok tt /\ forall s, same_tables (c_state c) s -> st_channel s <> None -> exists b, fst (encode_msg m s) = Ok b).
  { rewrite Forall_forall in Enc. intros m Im. destruct (Enc m Im) as [D H]. split; [rewrite repr_displayable, D; reflexivity|exact H]. }
  assert (X : forall es2, orderly false (es1 ++ es2) ->
    match c_writer (after c (es1 ++ es2)) with
    | WWait l => turns es2 = 0%nat /\ length l = length msgs
    | WSend l => (turns es2 + length l <= length msgs)%nat
    | WStopped | WDead _ => True
    end).
  { induction es2 as [|e es2 IH] using rev_ind; intros O.
    - rewrite app_nil_r in *. pose proof O as O1. rewrite <- T in O1. destruct (writer_history ip c es1 msgs G Wr O1) as (dn & rest & E & _ & X).
      apply (f_equal (@length _)) in E. rewrite app_length in E. destruct (c_writer (after c es1)); try exact I.
      + destruct X as [-> ->]. split; [reflexivity|]. symmetry. exact E.
      + subst rest. cbn. lia.
    - rewrite app_assoc in *. pose proof (proj1 (orderly_app _ _ _) O) as [O1 _]. specialize (IH O1). pose proof O1 as O2. rewrite <- T in O, O1.
      pose proof (history ip c _ G O1) as S. pose proof (allowed_of ip c _ e S O) as Al. rewrite turns_snoc.
      destruct (match e with EvWriter => true | _ => false end) eqn:Ee.
      2: { rewrite (other_writer ip) by (assumption || (intros ->; discriminate Ee)). destruct (c_writer (after c (es1 ++ es2))); destruct e; try discriminate Ee; try exact I; lia. }
      destruct e; try discriminate Ee. destruct (shown_writer ip c _ S) as [_ ->].
      assert (Hc : c_connected (after c (es1 ++ es2)) = true).
      { rewrite (s_conn _ _ _ _ S), K. unfold answered. rewrite existsb_app. fold (answered es1). rewrite A. reflexivity. }
      assert (Z0 : forall l, match fst (turn (after c (es1 ++ es2)) l) with WWait _ => False | WSend k => length l = (length k + 1)%nat | _ => True end).
      { intros [|m l]; [exact I|]. cbn [turn]. destruct (message_repr m); [|exact I]. destruct (fst (encode_msg m _)); [|exact I]. destruct (c_transport (after c (es1 ++ es2))); [cbn; lia|exact I]. }
      unfold turned. destruct (c_writer (after c (es1 ++ es2))) as [l|l| |z]; cbn [fst]; try exact I; [rewrite Hc|]; specialize (Z0 l);
        (destruct (fst (turn (after c (es1 ++ es2)) l)); [destruct Z0|lia|exact I|exact I]). }
  intros es2 O N L. specialize (X es2 O). pose proof (never_dead ip c msgs G Wr K T Enc' _ O N) as D.
  destruct (c_writer (after c (es1 ++ es2))) as [l|l| |z]; [lia|lia|reflexivity|destruct (D z); reflexivity].
Qed.

(** ** The history of the client in such a system *)
Definition bystander (e : event) : Prop :=
  match e with EvData d => octets d /\ connect_answer d = false | EvWriter => True | EvMade | EvLost => False end.
Record told (c : client) (ch : Z) (s : system) (es : list event) : Prop := {
  td_log : sy_log s = trace c es;
  td_client : sy_client s = after c es;
  td_events : Forall bystander es;
  td_down : Forall (fun d => octets d /\ connect_answer d = false) (sy_down s);
  td_up : Forall (fun d => In d (sent c es)) (sy_up s);
  td_ch : gw_channel (sy_gw s) = ch
}.
Lemma bystander_orderly es : Forall bystander es -> orderly true es /\ fold_left up_step es true = true.
Proof. induction 1 as [|e es H _ IH]; [split; [exact I|reflexivity]|]. destruct e; try destruct H; cbn; tauto. Qed.
Lemma sent_snoc c es e : sent c (es ++ [e]) = sent c es ++ o_sent (shown c es e).
Proof.
  unfold sent. rewrite observations_app, flat_map_app. f_equal. unfold shown, observations. cbn [client_run]. destruct (client_step (after c es) e). cbn. apply app_nil_r.
Qed.
Lemma told_event c ch s es down e : told c ch s es -> bystander e -> Forall (fun d => octets d /\ connect_answer d = false) down ->
  told c ch (sy_client_event s down e) (es ++ [e]).
Proof.
  intros [] B D. unfold sy_client_event. assert (Sh : snd (client_step (sy_client s) e) = shown c es e) by (rewrite td_client0; reflexivity).
  assert (Cl : fst (client_step (sy_client s) e) = after c (es ++ [e])) by (rewrite after_snoc, td_client0; reflexivity).
  destruct (client_step (sy_client s) e) as [c1 o]. cbn [fst snd] in *. subst o c1.
  constructor; cbn [sy_log sy_client sy_down sy_up sy_gw]; try assumption.
  - rewrite trace_snoc, td_log0. reflexivity.
  - reflexivity.
  - apply Forall_app. split; [exact td_events0|constructor; [exact B|constructor]].
  - apply Forall_app. rewrite sent_snoc. split; [|apply Forall_forall; intros d I; apply in_or_app; right; exact I].
    eapply Forall_impl; [|exact td_up0]. intros d I. apply in_or_app. left. exact I.
Qed.
Lemma told_step c ch frame s es h : sendable frame -> told c ch s es ->
  told c ch (sy_step frame s h) es /\ h <> Turn \/ (exists e, told c ch (sy_step frame s h) (es ++ [e]) /\ (e = EvWriter <-> h = Turn)).
Proof.
  intros Mf T. pose proof T as []. destruct h as [| | | |n|n|n|n]; cbn [sy_step].
  - left. split; [|discriminate]. constructor; cbn; try assumption. apply Forall_app. split; [exact td_down0|]. constructor; [|constructor].
    split; [apply request_octets; apply Mf|apply request_plain].
  - destruct (sy_down s) as [|d r] eqn:E; [left; split; [exact T|discriminate]|]. right. exists (EvData d). split; [|split; discriminate].
    apply told_event; [exact T|exact (Forall_inv td_down0)|exact (Forall_inv_tail td_down0)].
  - left. split; [|discriminate]. destruct (sy_up s) as [|d r] eqn:E; [exact T|]. destruct (gw_receive (sy_gw s) d) as [g answer] eqn:Eg.
    assert (X : gw_channel g = gw_channel (sy_gw s) /\ Forall (fun d => octets d /\ connect_answer d = false) answer).
    { assert (Ak : forall n, Forall (fun d => octets d /\ connect_answer d = false) [tunnelling_ack (gw_channel (sy_gw s)) n 0]).
      { intros n. constructor; [|constructor]. split; [apply ack_octets|apply ack_plain]. }
      unfold gw_receive in Eg. destruct (ip_service d) as [[sv [|a [|b [|a2 [|b2 [|n [|sta cemi]]]]]]]|]; try (injection Eg as <- <-; split; [reflexivity|constructor]).
      destruct (negb _); [injection Eg as <- <-; split; [reflexivity|constructor]|].
      destruct (sv =? _); [injection Eg as <- <-; split; [destruct (_ && _); reflexivity|constructor]|].
      destruct (sv =? _); [|injection Eg as <- <-; split; [reflexivity|constructor]].
      destruct (n =? _); [injection Eg as <- <-; split; [reflexivity|apply Ak]|].
      destruct (n =? _); injection Eg as <- <-; (split; [reflexivity|]); [apply Ak|constructor]. }
    destruct X as [X1 X2]. constructor; cbn; try assumption; [apply Forall_app; split; assumption|exact (Forall_inv_tail td_up0)|congruence].
  - right. exists EvWriter. split; [|split; reflexivity]. apply told_event; [exact T|exact I|exact td_down0].
  - left. split; [|discriminate]. constructor; cbn; try assumption. apply (incl_Forall' _ _ _ (lose_incl n _) td_down0).
  - left. split; [|discriminate]. constructor; cbn; try assumption. apply (incl_Forall' _ _ _ (lose_incl n _) td_up0).
  - left. split; [|discriminate]. constructor; cbn; try assumption. apply (incl_Forall' _ _ _ (again_incl n _) td_down0).
  - left. split; [|discriminate]. constructor; cbn; try assumption. apply (incl_Forall' _ _ _ (again_incl n _) td_up0).
Qed.
Lemma written_grows s s' c es es' : sy_log s = trace c es -> sy_log s' = trace c (es ++ es') -> exists w, written s' = written s ++ w.
Proof.
  intros E E'. unfold written. rewrite E, E', trace_app. unfold writer_sent. rewrite !flat_map_app. eexists. reflexivity.
Qed.

Section Watched.
Variables (ip : list Z) (c0 : client) (msgs : list message) (es0 : list event) (ch : Z) (frame : Z -> list Z) (d t0 b : Z) (gip : list Z) (gport : Z).
Hypothesis Li : linked ip c0 msgs es0 ch.
Hypothesis Mf : sendable frame.
Hypothesis Lk : Forall (fun m => link_request m = true) msgs.
Hypothesis Gi : ipv4 gip.
Hypothesis Hb : t0 <= b.
Lemma linked_orderly es : Forall bystander es -> orderly false (es0 ++ es).
Proof.
  intros F. destruct Li as (W & O & T & _). apply orderly_app. split; [exact O|].
  destruct (well_made_start ip c0 msgs W) as (_ & T0 & _).
  pose proof (s_up _ _ _ _ (well_made_history ip c0 msgs es0 W O)) as U. rewrite T0 in U. rewrite <- U, T. apply bystander_orderly, F.
Qed.
Lemma no_beat es x : Forall bystander es -> In x (sent (after c0 es0) es) -> of_service 0x0207 x = false.
Proof.
  intros F. apply (C85_no_heartbeat ip c0 msgs es0 es (proj1 Li) (linked_orderly es F) Lk).
  intros y I. rewrite Forall_forall in F. exact (proj2 (F _ I)).
Qed.
Lemma disconnect_plain : octets (disconnect_request ch gip gport) /\ connect_answer (disconnect_request ch gip gport) = false.
Proof.
  destruct Li as (_ & _ & _ & _ & Hc & _). split; [|reflexivity]. apply C85_disconnect; [|exact Gi]. constructor; [exact Hc|constructor].
Qed.
Notation start := (ti_start (after c0 es0) ch t0).
Notation wstart := (wa_start (after c0 es0) ch t0 b).
Lemma told_closed x e es : told (after c0 es0) ch (ti_sys x) es ->
  exists es', told (after c0 es0) ch (ti_sys (closed_step frame x e)) (es ++ es') /\ turns es' = (match snd e with Turn => 1 | _ => 0 end)%nat /\
  sy_gw (ti_sys (closed_step frame x e)) = sy_gw (ti_sys x) /\ ti_now (closed_step frame x e) = fst e.
Proof.
  intros T. destruct e as [t h]. unfold closed_step. cbn [fst snd].
  assert (Y : forall h, h <> Arrive_up -> exists es', told (after c0 es0) ch (sy_step frame (ti_sys x) h) (es ++ es') /\ turns es' = (match h with Turn => 1 | _ => 0 end)%nat /\
    sy_gw (sy_step frame (ti_sys x) h) = sy_gw (ti_sys x)).
  { intros k N. assert (Eg : sy_gw (sy_step frame (ti_sys x) k) = sy_gw (ti_sys x)).
    { destruct k; cbn [sy_step]; try (destruct N; reflexivity); try (destruct (sy_down (ti_sys x)); [reflexivity|]);
        try reflexivity; unfold sy_client_event; destruct (client_step _ _); reflexivity. }
    destruct (told_step _ ch frame _ es k Mf T) as [[X Nt]|(e & X & Et)].
    - exists []. rewrite app_nil_r. split; [exact X|]. split; [|exact Eg]. destruct k; try reflexivity. destruct Nt. reflexivity.
    - exists [e]. split; [exact X|]. split; [|exact Eg]. destruct k; unfold turns; cbn; (destruct e; cbn; try reflexivity; try (discriminate (proj1 Et eq_refl))); discriminate (proj2 Et eq_refl). }
  destruct h as [| | | |n|n|n|n]; try (match goal with |- context [ti_step frame x (t, ?k)] => destruct (Y k) as (es' & X1 & X2 & X3) end; [discriminate|exists es'; split; [exact X1|]; split; [exact X2|]; split; [exact X3|reflexivity]]).
  - exists []. rewrite app_nil_r. cbn [ti_sys ti_now]. auto.
  - exists []. rewrite app_nil_r. cbn [ti_sys ti_now]. repeat split; try apply T. cbn. pose proof (td_up _ _ _ _ T) as U. destruct (sy_up (ti_sys x)); [constructor|exact (Forall_inv_tail U)].
Qed.
Lemma wa_timely_app : forall a x z, wa_timely d frame gip gport x (a ++ z) <-> wa_timely d frame gip gport x a /\ wa_timely d frame gip gport (wa_run frame gip gport x a) z.
Proof. induction a as [|e a IH]; intros x z; cbn [app wa_timely]; [cbn; tauto|]. rewrite IH. cbn. tauto. Qed.
Lemma timely_app : forall a x z, timely d frame x a -> timely d frame (ti_run frame x a) z -> timely d frame x (a ++ z).
Proof. induction a as [|e a IH]; intros x z; cbn [app timely]; [cbn; tauto|]. intros [A B] C. split; [exact A|]. apply IH; assumption. Qed.
(** Up to some point the gateway behaves as the one of SpecSystem.v, and from then
    on it does nothing. *)
Lemma watched_run es : wa_timely d frame gip gport wstart es ->
  let x := wa_run frame gip gport wstart es in
  (exists ev, told (after c0 es0) ch (wa_sys x) ev /\ turns ev = how_often (map snd es)) /\
  exists es1, timely d frame start es1 /\ ti_now (ti_run frame start es1) <= b + silence_limit /\
  sy_gw (wa_sys x) = sy_gw (ti_sys (ti_run frame start es1)) /\ (exists w, written (wa_sys x) = written (ti_sys (ti_run frame start es1)) ++ w) /\
  (ti_now (wa_timed x) <= b + silence_limit -> es1 = es /\ wa_timed x = ti_run frame start es1) /\
  (wa_open x = true -> wa_timed x = ti_run frame start es1 /\ es1 = es /\ wa_beat x = b) /\
  (wa_open x = false -> b + silence_limit < ti_now (wa_timed x)).
Proof.
  induction es as [|[t h] es IH] using rev_ind; intros P; cbv zeta.
  - split; [exists []; split; [|reflexivity]; constructor; try reflexivity; constructor|].
    exists []. cbn. unfold silence_limit. repeat split; try lia; try discriminate. exists []. reflexivity.
  - apply wa_timely_app in P. destruct P as [P [P1 _]]. specialize (IH P). cbv zeta in IH.
    unfold wa_run in *. rewrite fold_left_app. cbn [fold_left]. set (x := fold_left (wa_step frame gip gport) es wstart) in *.
    destruct IH as ((ev & T & Tn) & es1 & Ti & Nw & Gw & (w & Wr) & Ea & Op & Cl).
    assert (Hn : how_often (map snd (es ++ [(t, h)])) = (how_often (map snd es) + match h with Turn => 1 | _ => 0 end)%nat).
    { unfold how_often. rewrite map_app, filter_app, app_length. f_equal. destruct h; reflexivity. }
    pose proof P1 as (Now & _). cbn [fst] in Now.
    unfold wa_step. destruct (wa_open x) eqn:Eo.
    + destruct (Op eq_refl) as (E1 & -> & Eb). cbn [fst snd]. destruct (t <=? wa_beat x + silence_limit) eqn:El.
      * unfold wa_sys. cbn [wa_timed wa_open wa_beat]. assert (T1 : exists ev', told (after c0 es0) ch (ti_sys (ti_step frame (wa_timed x) (t, h))) ev' /\ turns ev' = how_often (map snd (es ++ [(t, h)]))).
        { cbn [ti_step ti_sys]. destruct (told_step _ ch frame _ ev h Mf T) as [[X Nt]|(e & X & Et)].
          - exists ev. split; [exact X|]. rewrite Hn, Tn. destruct h; lia || (destruct Nt; reflexivity).
          - exists (ev ++ [e]). split; [exact X|]. rewrite turns_snoc, Hn, Tn. destruct h; destruct e; try reflexivity; try (discriminate (proj1 Et eq_refl)); discriminate (proj2 Et eq_refl). }
        split; [exact T1|]. exists (es ++ [(t, h)]).
        assert (Er : ti_run frame start (es ++ [(t, h)]) = ti_step frame (wa_timed x) (t, h)) by (unfold ti_run; rewrite fold_left_app, E1; reflexivity).
        rewrite Er. split; [|split; [|split; [|split; [|split; [|split]]]]].
        -- apply timely_app; [exact Ti|]. rewrite <- E1. split; [exact P1|exact I].
        -- cbn. lia.
        -- reflexivity.
        -- exists []. symmetry. apply app_nil_r.
        -- auto.
        -- intros _. split; [reflexivity|]. split; [reflexivity|]. unfold heartbeat. destruct h; try exact Eb.
           destruct (sy_up (ti_sys (wa_timed x))) as [|y r] eqn:Eu; [exact Eb|].
           pose proof (td_up _ _ _ _ T) as U. unfold wa_sys in U. rewrite Eu in U.
           rewrite (no_beat ev y (td_events _ _ _ _ T) (Forall_inv U)). exact Eb.
        -- discriminate.
      * unfold wa_sys in *. cbn [wa_timed wa_open wa_beat].
        assert (Tc : told (after c0 es0) ch (ti_sys (closing gip gport t (wa_timed x))) ev).
        { destruct T. constructor; cbn; try assumption. apply Forall_app. split; [exact td_down0|]. constructor; [|constructor]. rewrite td_ch0. exact disconnect_plain. }
        destruct (told_closed _ (t, h) ev Tc) as (es' & T2 & Tu & Gw2 & Now2). cbn [fst snd] in *.
        split; [exists (ev ++ es'); split; [exact T2|]; rewrite Hn; unfold turns in *; rewrite filter_app, app_length, Tu, Tn; reflexivity|].
        exists es. split; [exact Ti|]. split; [exact Nw|]. split; [rewrite Gw2; exact Gw|]. split; [|split; [|split]].
        -- destruct (written_grows _ _ _ _ _ (td_log _ _ _ _ T) (td_log _ _ _ _ T2)) as (w' & ->). rewrite Wr, <- app_assoc. eexists. reflexivity.
        -- rewrite Now2. lia.
        -- discriminate.
        -- intros _. rewrite Now2. lia.
    + specialize (Cl eq_refl). unfold wa_sys in *. cbn [wa_timed wa_open wa_beat].
      destruct (told_closed _ (t, h) ev T) as (es' & T2 & Tu & Gw2 & Now2). cbn [fst snd] in *.
      split; [exists (ev ++ es'); split; [exact T2|]; rewrite Hn; unfold turns in *; rewrite filter_app, app_length, Tu, Tn; reflexivity|].
      exists es1. split; [exact Ti|]. split; [exact Nw|]. split; [rewrite Gw2; exact Gw|]. split; [|split; [|split]].
      -- destruct (written_grows _ _ _ _ _ (td_log _ _ _ _ T) (td_log _ _ _ _ T2)) as (w' & ->). rewrite Wr, <- app_assoc. eexists. reflexivity.
      -- rewrite Now2. lia.
      -- discriminate.
      -- intros _. rewrite Now2. lia.
Qed.
End Watched.

(** Whatever the client has to say: a gateway that keeps to the standard lets at
    most 41 messages through, the first ones. *)
Theorem C94_limit : forall ip c0 msgs es0 ch frame d t0 b gip gport es, linked ip c0 msgs es0 ch -> sendable frame ->
  st_local (c_state (after c0 es0)) = 0 -> 2 * d < 3000 -> Forall (fun m => link_request m = true) msgs -> ipv4 gip -> t0 <= b <= t0 + d ->
  wa_timely d frame gip gport (wa_start (after c0 es0) ch t0 b) es ->
  let s := wa_sys (wa_run frame gip gport (wa_start (after c0 es0) ch t0 b) es) in
  zlen (gw_bus (sy_gw s)) <= 41 /\ exists rest, written s = gw_bus (sy_gw s) ++ rest.
Proof.
  intros ip c0 msgs es0 ch frame d t0 b gip gport es Li Mf El Hd Lk Gi Hb P s.
  destruct (watched_run ip c0 msgs es0 ch frame d t0 b gip gport Li Mf Lk Gi (proj1 Hb) es P) as (_ & es1 & Ti & Nw & Gw & (w & Wr) & _). fold s in Gw, Wr.
  destruct (C87_bus ip c0 msgs es0 ch frame d t0 es1 Li Mf El Hd Ti) as (rest & E & _ & _).
  pose proof (C87_rate ip c0 msgs es0 ch frame d t0 es1 Li Mf El Hd Ti) as R. cbv zeta in R. rewrite Gw, Wr, E. rewrite E, zlen_app' in R. unfold silence_limit in Nw.
  split; [|exists (rest ++ w); symmetry; apply app_assoc]. pose proof (zlen_pos rest). lia.
Qed.
Print Assumptions C94_limit.
(** The client does not notice: it sends all messages, the writer ends as usual,
    and those after the first 41 are lost. *)
Theorem C94_lost : forall ip c0 msgs es0 ch frame d t0 b gip gport es, linked ip c0 msgs es0 ch -> sendable frame ->
  st_local (c_state (after c0 es0)) = 0 -> 2 * d < 3000 -> Forall (fun m => link_request m = true) msgs -> ipv4 gip -> t0 <= b <= t0 + d ->
  Forall (transmissible (c_state c0)) msgs -> answered es0 = true -> ~ In EvWriter es0 -> ~ In EvLost es0 ->
  wa_timely d frame gip gport (wa_start (after c0 es0) ch t0 b) es -> (length msgs < how_often (map snd es))%nat ->
  let s := wa_sys (wa_run frame gip gport (wa_start (after c0 es0) ch t0 b) es) in
  c_writer (sy_client s) = WStopped /\ Forall2 (frame_of (c_state c0)) msgs (written s) /\
  exists rest, written s = gw_bus (sy_gw s) ++ rest /\ zlen msgs - 41 <= zlen rest.
Proof.
  intros ip c0 msgs es0 ch frame d t0 b gip gport es Li Mf El Hd Lk Gi Hb Tr An Nw Nl P Ho s.
  destruct (watched_run ip c0 msgs es0 ch frame d t0 b gip gport Li Mf Lk Gi (proj1 Hb) es P) as ((ev & T & Tn) & _). fold s in T.
  pose proof (linked_orderly ip c0 msgs es0 ch Li ev (td_events _ _ _ _ T)) as O.
  assert (N : ~ In EvLost (es0 ++ ev)).
  { intros I. apply in_app_or in I. destruct I as [I|I]; [exact (Nl I)|]. pose proof (td_events _ _ _ _ T) as F. rewrite Forall_forall in F. exact (F _ I). }
  assert (St : c_writer (after c0 (es0 ++ ev)) = WStopped).
  { apply (writer_ends ip c0 msgs es0 (proj1 Li) Tr An ev O N). rewrite Tn. exact Ho. }
  assert (Ws : c_writer (sy_client s) = WStopped) by (rewrite (td_client _ _ _ _ T), <- after_app; exact St).
  assert (F : Forall2 (frame_of (c_state c0)) msgs (written s)).
  { unfold written. rewrite (td_log _ _ _ _ T). apply (stopped_written ip c0 msgs es0 ev (proj1 Li) O Lk (no_turn_nothing c0 es0 Nw) St). }
  split; [exact Ws|]. split; [exact F|].
  destruct (C94_limit ip c0 msgs es0 ch frame d t0 b gip gport es Li Mf El Hd Lk Gi Hb P) as [L (rest & E)]. fold s in L, E.
  exists rest. split; [exact E|]. apply Forall2_len in F. rewrite E, app_length in F. unfold zlen in *. lia.
Qed.
Print Assumptions C94_lost.
(** A client that is done within the two minutes loses nothing. *)
Theorem C94_short : forall ip c0 msgs es0 ch frame d t0 b gip gport es, linked ip c0 msgs es0 ch -> sendable frame ->
  st_local (c_state (after c0 es0)) = 0 -> 2 * d < 3000 -> Forall (fun m => link_request m = true) msgs -> ipv4 gip -> t0 <= b <= t0 + d ->
  writer_sent (trace c0 es0) = [] ->
  wa_timely d frame gip gport (wa_start (after c0 es0) ch t0 b) es ->
  let x := wa_run frame gip gport (wa_start (after c0 es0) ch t0 b) es in
  c_writer (sy_client (wa_sys x)) = WStopped -> ti_now (wa_timed x) <= b + 120000 ->
  Forall2 (frame_of (c_state c0)) msgs (gw_bus (sy_gw (wa_sys x))).
Proof.
  intros ip c0 msgs es0 ch frame d t0 b gip gport es Li Mf El Hd Lk Gi Hb Ws P x St Nw.
  destruct (watched_run ip c0 msgs es0 ch frame d t0 b gip gport Li Mf Lk Gi (proj1 Hb) es P) as (_ & es1 & Ti & _ & _ & _ & E & _). fold x in E.
  destruct (E Nw) as [_ E1]. unfold wa_sys in *. rewrite E1 in *. apply (C87_messages ip c0 msgs es0 ch frame d t0 es1); assumption.
Qed.
Print Assumptions C94_short.

(** Forty-two times the same message, and a network without delay: the message
    sent after exactly two minutes is the last to get through. *)
Definition ex_many : list message := repeat (MGroupValueReadReq (mkasap 1 None)) 42.
Definition ex_talker : client := client_new (dotted ex_ip) 3671 ex_cst ex_many.
Definition ex_talk : list (Z * happening) :=
  flat_map (fun i => [(3000 * i, Turn); (3000 * i, Arrive_up); (3000 * i, Arrive_down)]) (upto 43).
Example C94_example :
  linked ex_ip ex_talker ex_many [EvMade; EvData ex_accept] 0x15 /\ sendable ex_frames /\
  st_local (c_state (after ex_talker [EvMade; EvData ex_accept])) = 0 /\ Forall (fun m => link_request m = true) ex_many /\ ipv4 [192; 168; 0; 1] /\
  Forall (transmissible (c_state ex_talker)) ex_many /\ answered [EvMade; EvData ex_accept] = true /\
  let x0 := wa_start (after ex_talker [EvMade; EvData ex_accept]) 0x15 0 0 in
  wa_timely 0 ex_frames [192; 168; 0; 1] 3671 x0 ex_talk /\ (length ex_many < how_often (map snd ex_talk))%nat /\
  let x := wa_run ex_frames [192; 168; 0; 1] 3671 x0 ex_talk in
  c_writer (sy_client (wa_sys x)) = WStopped /\ wa_open x = false /\ length (written (wa_sys x)) = 42%nat /\ length (gw_bus (sy_gw (wa_sys x))) = 41%nat.
Proof.
  split.
  { split.
    { exists 3671, ex_cst. split; [reflexivity|]. split; [exact ex_ip_ok|]. repeat split; try discriminate. apply Forall_forall. intros m I. apply repeat_spec in I. subst m. reflexivity. }
    split; [orderly_tac|]. split; [vm_compute; reflexivity|]. split; [vm_compute; reflexivity|]. split; [lia|]. vm_compute. reflexivity. }
  split; [exact (meaningful_sendable _ _ ex_meaningful)|]. split; [vm_compute; reflexivity|].
  split; [apply Forall_forall; intros m I; apply repeat_spec in I; subst m; reflexivity|].
  split; [repeat split; repeat constructor; lia|].
  split. { apply Forall_forall. intros m I. apply repeat_spec in I. subst m. exact (Forall_inv ex_two_transmissible). }
  split; [vm_compute; reflexivity|]. cbv zeta.
  split; [timely_tac|]. vm_compute. repeat split. lia.
Qed.
