(** C93: how soon the tunnelling client sends. *)
From Coq Require Import ZArith List Bool Lia ZifyBool.
From Verif Require Import Py Base Msg Address Dpt Tables State Encode Decode Client ClientTime.
From Verif Require Import SpecMsg SpecTables SpecWire SpecDecode SpecClient SpecSystem SpecTime SpecPrompt.
From Verif Require Import ClientProofs DeliveryProofs.
From Verif Require Import Props_Decode Props_Client.
Import ListNotations.
Open Scope Z_scope.

Lemma ck_client_run : forall es x, ck_client (ck_run x es) = after (ck_client x) (map snd es).
Proof.
  unfold ck_run, after. induction es as [|[t e] es IH]; intros x; [reflexivity|]. cbn [fold_left map client_run snd]. rewrite IH. cbn [ck_step ck_client snd].
  destruct (client_step (ck_client x) e) as [c1 o]. cbn [fst]. destruct (client_run c1 (map snd es)). reflexivity.
Qed.
Lemma prompt_app late : forall a x b, prompt late x (a ++ b) <-> prompt late x a /\ prompt late (ck_run x a) b.
Proof. induction a as [|e a IH]; intros x b; cbn [app prompt]; [cbn; tauto|]. rewrite IH. cbn. tauto. Qed.
Lemma ck_run_snoc x es e : ck_run x (es ++ [e]) = ck_step (ck_run x es) e.
Proof. unfold ck_run. rewrite fold_left_app. reflexivity. Qed.
Section Waiting.
Variables (ip : list Z) (c : client) (msgs : list message) (late t0 : Z).
Hypothesis G : good ip c.
Hypothesis Wr : c_writer c = WWait msgs.
Hypothesis K : c_connected c = false.
Hypothesis T : c_transport c = false.
Hypothesis L : 0 <= late.
Lemma waiting_clock : forall es, prompt late (ck_start c t0) es -> orderly false (map snd es) -> answered (map snd es) = false ->
  let x := ck_run (ck_start c t0) es in
  c_writer (ck_client x) = WWait msgs /\ ck_wake x <= ck_now x + 1000 /\ ck_now x <= ck_wake x + late /\ t0 + 1000 * Z.of_nat (turns (map snd es)) <= ck_wake x.
Proof.
  induction es as [|[t e] es IH] using rev_ind; intros P O A; cbv zeta.
  - cbn. unfold turns. cbn. repeat split; try assumption; lia.
  - assert (W1 : c_writer (ck_client (ck_run (ck_start c t0) (es ++ [(t, e)]))) = WWait msgs).
    { rewrite ck_client_run. rewrite <- T in O. apply (writer_before ip c _ msgs G Wr K O A). }
    apply prompt_app in P. destruct P as [P ((Q1 & Q2 & Q3) & _)]. rewrite map_app in *. cbn [map snd] in *.
    apply orderly_app in O. destruct O as [O _]. unfold answered in A. rewrite existsb_app in A. apply orb_false_iff in A. destruct A as [A _].
    destruct (IH P O A) as (X1 & X2 & X4 & X3). destruct Q3 as [Q3|Q3]; [rewrite X1 in Q3; destruct Q3|]. rewrite ck_run_snoc in *. cbn [fst snd] in *. rewrite turns_snoc.
    split; [exact W1|]. unfold ck_step in *. cbn [fst snd ck_client ck_wake ck_now] in *. destruct e; cbn [fst snd] in *; try lia.
    rewrite W1. cbn [pause]. specialize (Q2 eq_refl). lia.
Qed.
End Waiting.
Section Sending.
Variables (ip : list Z) (c : client) (msgs : list message) (late t0 : Z) (es1 : list (Z * event)) (ta : Z) (d : list Z).
Hypothesis G : good ip c.
Hypothesis Wr : c_writer c = WWait msgs.
Hypothesis K : c_connected c = false.
Hypothesis T : c_transport c = false.
Hypothesis L : 0 <= late.
Hypothesis A1 : answered (map snd es1) = false.
Hypothesis A2 : connect_answer d = true.
Definition whole (es2 : list (Z * event)) := (es1 ++ [(ta, EvData d)]) ++ es2.
Definition sent_by (es : list (Z * event)) : Z := Z.of_nat (length (writer_sent (trace c (map snd es)))).
Lemma sending_clock : forall es2, prompt late (ck_start c t0) (whole es2) -> orderly false (map snd (whole es2)) ->
  let x := ck_run (ck_start c t0) (whole es2) in
  let n := Z.of_nat (turns (map snd es2)) in
  ta <= ck_now x /\ 3000 * (sent_by (whole es2) - 1) <= ck_now x - ta /\
  match c_writer (ck_client x) with
  | WWait _ => n = 0 /\ sent_by (whole es2) = 0 /\ ck_wake x <= ta + 1000 /\ ck_now x <= ck_wake x + late
  | WSend _ => 1 <= n /\ sent_by (whole es2) = n /\ ta + 3000 * n <= ck_wake x <= ck_now x + 3000 /\
               ck_wake x <= ta + 1000 + late + (n - 1) * (3000 + late) + 3000 /\ ck_now x <= ck_wake x + late
  | WStopped | WDead _ => True
  end.
Proof.
  induction es2 as [|[t e] es2 IH] using rev_ind; intros P O; cbv zeta.
  - unfold whole in *. rewrite app_nil_r in *. pose proof O as O'. rewrite map_app in O'. cbn [map snd] in O'.
    apply prompt_app in P. destruct P as [P ((Q1 & Q2 & Q3) & _)]. pose proof (proj1 (orderly_app _ _ _) O') as [O1 _].
    destruct (waiting_clock ip c msgs late t0 G Wr K T L es1 P O1 A1) as (X1 & X2 & X4 & X3). destruct Q3 as [Q3|Q3]; [rewrite X1 in Q3; destruct Q3|].
    rewrite <- T in O', O1. pose proof (history ip c _ G O1) as S. pose proof (allowed_of ip c _ (EvData d) S O') as Al.
    destruct (writer_before ip c _ msgs G Wr K O1 A1) as [B1 B2].
    assert (Ws : c_writer (after c (map snd es1 ++ [EvData d])) = WWait msgs) by (rewrite (other_writer ip) by (assumption || discriminate); exact B2).
    assert (Sn : sent_by (es1 ++ [(ta, EvData d)]) = 0).
    { unfold sent_by. rewrite map_app. cbn [map snd]. rewrite writer_sent_snoc, B1. reflexivity. }
    rewrite Sn, ck_client_run, map_app. cbn [map snd ck_start ck_client]. rewrite Ws. rewrite ck_run_snoc. unfold ck_step. cbn [fst snd ck_now ck_wake] in *. unfold turns. cbn. lia.
  - unfold whole in *. rewrite app_assoc in *. set (es := (es1 ++ [(ta, EvData d)]) ++ es2) in *.
    apply prompt_app in P. destruct P as [P ((Q1 & Q2 & Q3) & _)]. pose proof O as O'. rewrite map_app in O'. cbn [map snd] in O'.
    pose proof (proj1 (orderly_app _ _ _) O') as [O1 _]. specialize (IH P O1). cbv zeta in IH. destruct IH as (Y1 & Y2 & Y3).
    rewrite <- T in O', O1. pose proof (history ip c _ G O1) as S. pose proof (allowed_of ip c _ e S O') as Al.
    cbn [fst snd] in Q1, Q2, Q3. rewrite ck_client_run in Y3, Q3. rewrite ck_run_snoc. unfold ck_step. cbn [fst snd ck_now ck_wake ck_client].
    rewrite ck_client_run. cbn [ck_start ck_client] in *. rewrite <- after_snoc.
    unfold sent_by in *. rewrite !map_app. cbn [map snd]. rewrite turns_snoc.
    rewrite writer_sent_snoc.
    destruct (match e with EvWriter => true | _ => false end) eqn:Ee.
    2: { rewrite (other_writer ip) by (assumption || (intros ->; discriminate Ee)).
         assert (E0 : (match e with EvWriter => o_sent (shown c (map snd es) e) | _ => [] end) = []) by (destruct e; reflexivity || discriminate Ee).
         rewrite E0, app_nil_r.
         destruct (c_writer (after c (map snd es))); destruct e; try discriminate Ee; cbn [ended] in Q3; try destruct Q3 as [[]|Q3]; lia. }
    destruct e; try discriminate Ee. specialize (Q2 eq_refl). destruct (shown_writer ip c _ S) as [-> ->].
    assert (Hc : c_connected (after c (map snd es)) = true).
    { rewrite (s_conn _ _ _ _ S), K. unfold es, answered. rewrite !map_app, !existsb_app. cbn [map snd existsb]. rewrite A2. cbn. rewrite ?orb_true_r. reflexivity. }
    rewrite app_length.
    assert (Z0 : forall l,
      let r := turn (after c (map snd es)) l in
      match fst r with WWait _ => False | WSend _ => length (snd r) = 1%nat | _ => length (snd r) = 0%nat end).
    { intros l. cbv zeta. unfold turn. destruct l as [|m l]; [reflexivity|]. destruct (message_repr m); [|reflexivity].
      destruct (fst (encode_msg m _)); [|reflexivity]. destruct (c_transport (after c (map snd es))); reflexivity. }
    unfold turned. destruct (c_writer (after c (map snd es))) as [l|l| |z] eqn:Ew.
    + rewrite Hc. specialize (Z0 l). cbv zeta in Z0. destruct Q3 as [[]|Q3].
      destruct (turn _ l) as [w o]. cbn [fst snd] in *. destruct w; cbn [pause]; lia.
    + specialize (Z0 l). cbv zeta in Z0. destruct Q3 as [[]|Q3].
      destruct (turn _ l) as [w o]. cbn [fst snd] in *. destruct w; cbn [pause]; lia.
    + cbn. lia.
    + cbn. lia.
Qed.
End Sending.

Lemma first_answer late : forall es x t d, prompt late x es -> In (t, EvData d) es -> connect_answer d = true ->
  exists es1 ta d1 es2, es = (es1 ++ [(ta, EvData d1)]) ++ es2 /\ answered (map snd es1) = false /\ connect_answer d1 = true /\ ta <= t.
Proof.
  induction es as [|[u e] es IH]; intros x t d P I A; [destruct I|].
  destruct P as [(Q & _) P].
  assert (Lt : forall y es u, prompt late y es -> In (u, EvData d) es -> ck_now y <= u).
  { clear. intros y es. revert y. induction es as [|[v f] es IH]; intros y u P I; [destruct I|]. destruct P as [(Q & _) P]. cbn [fst] in Q.
    destruct I as [E|I]; [injection E as -> _; exact Q|]. specialize (IH _ u P I). cbn in IH. lia. }
  destruct (match e with EvData d1 => connect_answer d1 | _ => false end) eqn:Ee.
  - destruct e as [| |d1|]; try discriminate Ee. exists [], u, d1, es. repeat split; try assumption.
    destruct I as [E|I]; [injection E as -> _; lia|]. specialize (Lt _ _ t P I). exact Lt.
  - destruct I as [E|I]; [injection E as -> ->; congruence|].
    destruct (IH _ t d P I A) as (es1 & ta & d1 & es2 & -> & A1 & A2 & L). exists ((u, e) :: es1), ta, d1, es2.
    repeat split; try assumption. unfold answered in *. cbn [map snd existsb]. rewrite A1. destruct e; try reflexivity. rewrite Ee. reflexivity.
Qed.

Section Bounds.
Variables (ip : list Z) (c : client) (msgs : list message) (late t0 : Z) (es : list (Z * event)) (ta : Z) (d : list Z).
Hypothesis W : well_made ip c msgs.
Hypothesis Enc : Forall (transmissible (c_state c)) msgs.
Hypothesis L : 0 <= late.
Hypothesis P : prompt late (ck_start c t0) es.
Hypothesis O : orderly false (map snd es).
Hypothesis Nl : ~ In EvLost (map snd es).
Hypothesis In1 : In (ta, EvData d) es.
Hypothesis A : connect_answer d = true.
Lemma bounds : forall k, ta + 1000 + late + Z.of_nat k * (3000 + late) < ck_now (ck_run (ck_start c t0) es) ->
  c_writer (after c (map snd es)) = WStopped /\ length (writer_sent (trace c (map snd es))) = length msgs \/
  (S k <= length (writer_sent (trace c (map snd es))))%nat.
Proof.
  intros k B. destruct (well_made_start ip c msgs W) as (G & T & K & Wr & _).
  destruct (first_answer late es _ ta d P In1 A) as (es1 & ta1 & d1 & es2 & E & A1 & A2 & Lt).
  assert (Enc' : forall m, In m msgs -> message_repr m = Ok tt /\ forall s, same_tables (c_state c) s -> st_channel s <> None -> exists b, fst (encode_msg m s) = Ok b).
  { rewrite Forall_forall in Enc. intros m Im. destruct (Enc m Im) as [D H]. split; [rewrite repr_displayable, D; reflexivity|exact H]. }
  pose proof (never_dead ip c msgs G Wr K T Enc' _ O Nl) as D.
  pose proof O as O'. rewrite <- T in O'. destruct (writer_history ip c _ msgs G Wr O') as (dn & rest & Em & F & X).
  apply Forall2_len in F. pose proof P as P'. pose proof O as O1. rewrite E in P', O1.
  destruct (sending_clock ip c msgs late t0 es1 ta1 d1 G Wr K T L A1 A2 es2 P' O1) as (X1 & X2 & X3). unfold whole in *. rewrite <- E in *.
  rewrite ck_client_run in X3. cbn [ck_start ck_client] in X3. unfold sent_by in *.
  destruct (c_writer (after c (map snd es))) as [l|l| |z].
  - exfalso. nia.
  - right. assert (Z.of_nat k < Z.of_nat (length (writer_sent (trace c (map snd es))))) by nia. lia.
  - left. split; [reflexivity|]. subst rest. rewrite app_nil_r in Em. congruence.
  - destruct (D z). reflexivity.
Qed.
End Bounds.
(** Once the gateway has accepted the client, at time [ta], the first message is
    sent within a second and each further one within three, the delays of the
    event loop added. *)
Theorem C93_sends : forall ip c msgs late t0 es ta d k, well_made ip c msgs -> Forall (transmissible (c_state c)) msgs -> 0 <= late ->
  prompt late (ck_start c t0) es -> orderly false (map snd es) -> ~ In EvLost (map snd es) ->
  In (ta, EvData d) es -> connect_answer d = true ->
  ta + 1000 + late + Z.of_nat k * (3000 + late) < ck_now (ck_run (ck_start c t0) es) ->
  (Nat.min (length msgs) (S k) <= length (writer_sent (trace c (map snd es))))%nat.
Proof.
  intros ip c msgs late t0 es ta d k W Enc L P O N I A B.
  destruct (bounds ip c msgs late t0 es ta d W Enc L P O N I A k B) as [[_ ->]|H]; lia.
Qed.
Print Assumptions C93_sends.
(** Three seconds after the last message the writer ends. *)
Theorem C93_ends : forall ip c msgs late t0 es ta d, well_made ip c msgs -> Forall (transmissible (c_state c)) msgs -> 0 <= late ->
  prompt late (ck_start c t0) es -> orderly false (map snd es) -> ~ In EvLost (map snd es) ->
  In (ta, EvData d) es -> connect_answer d = true ->
  ta + 1000 + late + zlen msgs * (3000 + late) < ck_now (ck_run (ck_start c t0) es) ->
  c_writer (after c (map snd es)) = WStopped /\ length (writer_sent (trace c (map snd es))) = length msgs.
Proof.
  intros ip c msgs late t0 es ta d W Enc L P O N I A B. unfold zlen in B.
  destruct (bounds ip c msgs late t0 es ta d W Enc L P O N I A _ B) as [H|H]; [exact H|]. exfalso.
  destruct (well_made_start ip c msgs W) as (G & T & K & Wr & _). rewrite <- T in O. destruct (writer_history ip c _ msgs G Wr O) as (dn & rest & Em & F & _).
  apply Forall2_len in F. rewrite Em, app_length in H. lia.
Qed.
Print Assumptions C93_ends.
(** And not sooner, whatever the delays: until the gateway answers the writer
    looks at most once a second, and then at least three seconds lie between
    messages. *)
Theorem C93_looks : forall ip c msgs late t0 es, well_made ip c msgs -> 0 <= late -> prompt late (ck_start c t0) es -> orderly false (map snd es) ->
  (forall d, In (EvData d) (map snd es) -> connect_answer d = false) ->
  1000 * (Z.of_nat (turns (map snd es)) - 1) <= ck_now (ck_run (ck_start c t0) es) - t0.
Proof.
  intros ip c msgs late t0 es W L P O A. destruct (well_made_start ip c msgs W) as (G & T & K & Wr & _).
  assert (A1 : answered (map snd es) = false).
  { unfold answered. destruct (existsb _ _) eqn:E; [|reflexivity]. apply existsb_exists in E. destruct E as ([| |d|] & I & E); try discriminate E. rewrite (A d I) in E. discriminate E. }
  destruct (waiting_clock ip c msgs late t0 G Wr K T L es P O A1) as (X1 & X2 & X3 & X4). lia.
Qed.
Print Assumptions C93_looks.
Theorem C93_apart : forall ip c msgs late t0 es1 ta d es2, well_made ip c msgs -> 0 <= late ->
  let es := es1 ++ (ta, EvData d) :: es2 in
  prompt late (ck_start c t0) es -> orderly false (map snd es) ->
  (forall d1, In (EvData d1) (map snd es1) -> connect_answer d1 = false) -> connect_answer d = true ->
  3000 * (Z.of_nat (length (writer_sent (trace c (map snd es)))) - 1) <= ck_now (ck_run (ck_start c t0) es) - ta.
Proof.
  intros ip c msgs late t0 es1 ta d es2 W L es P O A1 A2. destruct (well_made_start ip c msgs W) as (G & T & K & Wr & _).
  assert (A : answered (map snd es1) = false).
  { unfold answered. destruct (existsb _ _) eqn:E; [|reflexivity]. apply existsb_exists in E. destruct E as ([| |d1|] & I & E); try discriminate E. rewrite (A1 d1 I) in E. discriminate E. }
  assert (E : es = whole es1 ta d es2) by (unfold es, whole; rewrite <- app_assoc; reflexivity). rewrite E in *.
  apply (sending_clock ip c msgs late t0 es1 ta d G Wr K T L A A2 es2 P O).
Qed.
Print Assumptions C93_apart.
(** The client of the example is made at 0, looks at 0 and 1003, is accepted at
    1500, sends at 2005 and 5010 and is done at 8020. *)
Example C93_example :
  let c := client_new (dotted ex_ip) 3671 ex_cst (firstn 2 ex_msgs) in
  let es := [(0, EvMade); (0, EvWriter); (1003, EvWriter); (1500, EvData ex_accept); (2005, EvWriter); (2030, EvData (ex_ack 0));
             (5010, EvWriter); (8020, EvWriter); (9000, EvData (ex_ack 1))] in
  well_made ex_ip c (firstn 2 ex_msgs) /\ Forall (transmissible (c_state c)) (firstn 2 ex_msgs) /\
  prompt 20 (ck_start c 0) es /\ orderly false (map snd es) /\ ~ In EvLost (map snd es) /\ connect_answer ex_accept = true /\
  1500 + 1000 + 20 + zlen (firstn 2 ex_msgs) * (3000 + 20) < ck_now (ck_run (ck_start c 0) es) /\
  c_writer (after c (map snd es)) = WStopped /\ length (writer_sent (trace c (map snd es))) = 2%nat /\
  map (fun x => length (o_sent x)) (observations c (map snd es)) = [1; 0; 0; 1; 1; 0; 1; 0; 0]%nat.
Proof.
  cbv zeta. pose proof C52_progress_example as X. cbv zeta in X. destruct X as (X1 & X2 & _).
  split; [exact X1|]. split; [apply Forall_forall; exact X2|].
  assert (Pr : prompt 20 (ck_start (client_new (dotted ex_ip) 3671 ex_cst (firstn 2 ex_msgs)) 0)
     [(0, EvMade); (0, EvWriter); (1003, EvWriter); (1500, EvData ex_accept); (2005, EvWriter); (2030, EvData (ex_ack 0));
             (5010, EvWriter); (8020, EvWriter); (9000, EvData (ex_ack 1))]).
  { repeat (split; [vm_compute; repeat split; try discriminate; try (right; discriminate); try (left; exact I)|]). exact I. }
  split; [exact Pr|]. split; [orderly_tac|]. split; [cbn; intuition discriminate|]. repeat split; vm_compute; reflexivity.
Qed.
