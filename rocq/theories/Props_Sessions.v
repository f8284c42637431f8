(** C115: the messages of a client that connects again and again. *)
From Coq Require Import ZArith List Bool Lia ZifyBool.
From Verif Require Import Py Base Msg State Decode Client SpecMsg SpecWire SpecDecode SpecClient SpecSystem SpecLossy SpecSessions.
From Verif Require Import ClientProofs SystemProofs LossyProofs SessionsProofs Props_Decode Props_Client Props_System Props_Lossy.
Import ListNotations.
Open Scope Z_scope.

Lemma life_deaf ip c0 msgs : well_made ip c0 msgs -> forall l es, orderly false es ->
  Forall accepting l -> Forall (fun x => sendable (ss_frame x)) l -> 1 <= st_local (c_state (after c0 es)) <= 254 ->
  Forall (fun s => gw_bus (sy_gw s) = [] /\ gw_taken (sy_gw s) = 0 /\ counter_of s = st_local (c_state (after c0 es))) (life (after c0 es) l).
Proof.
  intros W. induction l as [|x l IH]; intros es O A F R; [constructor|].
  inversion A; subst. inversion F; subst. destruct (session_linked ip c0 msgs es x W O H1) as (L & El).
  cbn [life]. rewrite <- El in R.
  pose proof (C67_deaf ip c0 msgs _ _ (ss_frame x) (ss_course x) L H3 R) as (B & T & Lc).
  assert (Hh : sy_run (ss_frame x) (sy_start (after c0 (es ++ [EvMade; EvData (ss_answer x)])) (ss_channel x)) (ss_course x) = held (after c0 es) x)
    by (unfold held; rewrite after_app; reflexivity).
  rewrite Hh in B, T, Lc. rewrite El in Lc, R. fold (counter_of (held (after c0 es) x)) in Lc.
  constructor; [auto|].
  destruct (session_end ip c0 msgs es x W O H1 H3) as (es' & O' & E' & L'). rewrite E'.
  rewrite Lc in L'. rewrite <- L' in R |- *. apply IH; assumption.
Qed.

(** Once a session ends with the client's counter between 1 and 254, nothing the
    client sends in any later session reaches the bus or is acknowledged, whatever
    happens in them and however many there are. *)
Theorem C115_never_again : forall ip c0 msgs before x behind s, well_made ip c0 msgs ->
  Forall accepting (before ++ x :: behind) -> Forall (fun y => sendable (ss_frame y)) (before ++ x :: behind) ->
  nth_error (life c0 (before ++ x :: behind)) (length before) = Some s -> 1 <= counter_of s <= 254 ->
  Forall (fun s' => gw_bus (sy_gw s') = [] /\ gw_taken (sy_gw s') = 0 /\ counter_of s' = counter_of s)
    (skipn (length before + 1) (life c0 (before ++ x :: behind))).
Proof.
  intros ip c0 msgs before x behind s W A F N R.
  assert (G : forall l es, orderly false es -> Forall accepting (l ++ x :: behind) -> Forall (fun y => sendable (ss_frame y)) (l ++ x :: behind) ->
    nth_error (life (after c0 es) (l ++ x :: behind)) (length l) = Some s ->
    Forall (fun s' => gw_bus (sy_gw s') = [] /\ gw_taken (sy_gw s') = 0 /\ counter_of s' = counter_of s)
      (skipn (length l + 1) (life (after c0 es) (l ++ x :: behind)))).
  { induction l as [|y l IH]; intros es O A' F' N'; cbn [app] in A', F'; inversion A'; subst; inversion F'; subst.
    - cbn in N'. injection N' as <-. destruct (session_end ip c0 msgs es x W O H1 H3) as (es' & O' & E' & L').
      cbn [app length life skipn Nat.add]. rewrite E'. rewrite <- L' in R |- *. apply (life_deaf ip c0 msgs W); assumption.
    - destruct (session_end ip c0 msgs es y W O H1 H3) as (es' & O' & E' & L').
      cbn [app length life skipn Nat.add nth_error] in *. rewrite E' in *. apply IH; assumption. }
  exact (G before [] I A F N).
Qed.
Print Assumptions C115_never_again.

(** Every session: given the fates of the messages in each (C114), what reaches
    the bus in each follows from the counter the client was made with. *)
Theorem C115_buses : forall ip c0 msgs l plan, well_made ip c0 msgs ->
  Forall accepting l -> Forall (fun x => meaningful (c_state c0) (ss_frame x)) l ->
  map ss_course l = map (fun p => courses (fst p)) plan ->
  map written (life c0 l) = map snd plan -> Forall (fun p => zlen (snd p) = count of_message (fst p)) plan ->
  map (fun s => gw_bus (sy_gw s)) (life c0 l) = buses (st_local (c_state c0)) plan.
Proof.
  intros ip c0 msgs l plan W. change c0 with (after c0 []) at 2 3 4. generalize (I : orderly false []). generalize (@nil event) as es. revert plan.
  induction l as [|x l IH]; intros [|[fs messages] plan] es O A F C Wr Len; try discriminate; [reflexivity|].
  inversion A; subst. inversion F; subst. inversion Len; subst. cbn [map fst snd life] in *. injection C as Cx C. injection Wr as Wx Wr.
  destruct (session_linked ip c0 msgs es x W O H1) as (L & El).
  assert (Hh : sy_run (ss_frame x) (sy_start (after c0 (es ++ [EvMade; EvData (ss_answer x)])) (ss_channel x)) (ss_course x) = held (after c0 es) x)
    by (unfold held; rewrite after_app; reflexivity).
  destruct (session_end ip c0 msgs es x W O H1 (meaningful_sendable _ _ H3)) as (es' & O' & E' & L').
  rewrite E' in *. specialize (IH plan es' O' H2 H4 C Wr H6). cbn [buses].
  pose proof (local_range ip c0 msgs _ _ L) as R. rewrite El in R.
  set (k := st_local (c_state (after c0 es))) in *.
  destruct ((k =? 0) || (k =? 255)) eqn:K.
  - destruct (C114_arriving ip c0 msgs _ _ (ss_frame x) [] fs messages (k =? 255) L H3) as (B & _ & Q & _).
    + split; [reflexivity|]. split; [reflexivity|]. split; [reflexivity|]. cbn [sy_run fold_left sy_start sy_client sy_gw gw_taken].
      rewrite El. fold k. destruct (k =? 255) eqn:E; lia.
    + cbn [sy_run fold_left] in *. change (fold_left (sy_step (ss_frame x)) (courses fs)) with (fun s => sy_run (ss_frame x) s (courses fs)). cbv beta.
      rewrite <- Cx, Hh, Wx. reflexivity.
    + assumption.
    + cbn [sy_run fold_left] in B, Q. change (fold_left (sy_step (ss_frame x)) (courses fs)) with (fun s => sy_run (ss_frame x) s (courses fs)) in B, Q. cbv beta in B, Q.
      rewrite <- Cx, Hh in B, Q. cbn [sy_start sy_gw gw_bus app sy_client] in B, Q. rewrite El in Q. fold k in Q.
      rewrite B. f_equal. rewrite IH. f_equal. rewrite L'. exact Q.
  - assert (R1 : 1 <= st_local (c_state (after c0 (es ++ [EvMade; EvData (ss_answer x)]))) <= 254) by (rewrite El; fold k; lia).
    pose proof (C67_deaf ip c0 msgs _ _ (ss_frame x) (ss_course x) L (meaningful_sendable _ _ H3) R1) as (B & T & Lc).
    rewrite Hh in B, T, Lc. rewrite B. f_equal. rewrite IH. f_equal. rewrite L'. unfold counter_of. rewrite Lc. exact El.
Qed.
Print Assumptions C115_buses.

(** The whole life of a new client whose messages met any fates in the first
    session: if the acknowledgements seen there were 1 to 254 (up to multiples of
    256), the bus has got what arrived in that session and never gets more. *)
Theorem C115_first_only : forall ip c0 msgs x rest fs messages, well_made ip c0 msgs -> st_local (c_state c0) = 0 ->
  Forall accepting (x :: rest) -> meaningful (c_state c0) (ss_frame x) -> Forall (fun y => sendable (ss_frame y)) rest ->
  ss_course x = courses fs -> written (held c0 x) = messages -> zlen messages = count of_message fs ->
  1 <= count confirmed fs mod 256 <= 254 ->
  concat (map (fun s => gw_bus (sy_gw s)) (life c0 (x :: rest))) = arriving false fs messages.
Proof.
  intros ip c0 msgs x rest fs messages W Z0 A M F C Wr Len R.
  inversion A; subst x0 l. cbn [life map concat].
  assert (B : gw_bus (sy_gw (held c0 x)) = arriving false fs messages).
  { pose proof (C115_buses ip c0 msgs [x] [(fs, messages)] W) as Q. cbn [life map fst snd buses] in Q. rewrite Z0 in Q. cbn in Q.
    assert (Y : [gw_bus (sy_gw (held c0 x))] = [arriving false fs messages]).
    { apply Q; [constructor; [assumption|constructor]|constructor; [assumption|constructor]|rewrite C; reflexivity|rewrite Wr; reflexivity|constructor; [assumption|constructor]]. }
    congruence. }
  assert (K : counter_of (held c0 x) = count confirmed fs mod 256).
  { destruct (session_linked ip c0 msgs [] x W I H1) as (L & El). cbn [app] in L, El. change (after c0 []) with c0 in El. rewrite Z0 in El.
    destruct (C114_arriving ip c0 msgs _ _ (ss_frame x) [] fs messages false L M) as (_ & _ & Q & _).
    - split; [reflexivity|]. split; [reflexivity|]. split; [reflexivity|]. exact El.
    - cbn [sy_run fold_left]. change (fold_left (sy_step (ss_frame x)) (courses fs)) with (fun s => sy_run (ss_frame x) s (courses fs)). cbv beta.
      rewrite <- C. exact Wr.
    - assumption.
    - cbn [sy_run fold_left] in Q. change (fold_left (sy_step (ss_frame x)) (courses fs)) with (fun s => sy_run (ss_frame x) s (courses fs)) in Q. cbv beta in Q.
      rewrite <- C in Q. cbn [sy_start sy_client] in Q. rewrite El in Q. exact Q. }
  rewrite B. destruct (session_end ip c0 msgs [] x W I H1 (meaningful_sendable _ _ M)) as (es' & O' & E' & L').
  change (after c0 []) with c0 in E', L'. rewrite E'. rewrite K in L'.
  pose proof (life_deaf ip c0 msgs W rest es' O' H2 F ltac:(rewrite L'; exact R)) as D.
  assert (N : concat (map (fun s => gw_bus (sy_gw s)) (life (after c0 es') rest)) = []).
  { induction D as [|s l (Hb & _) D IH]; [reflexivity|]. cbn [map concat]. rewrite Hb. exact IH. }
  rewrite N. apply app_nil_r.
Qed.
Print Assumptions C115_first_only.

(** Two sessions of a client with two messages.  The first message arrives in the
    first session, the second never.  If the acknowledgement of the first was
    lost, the second arrives in the new session. *)
Definition ex_session (fs : list fate) : session := mkses ex_accept 0x15 ex_frames (courses fs).
Example C115_example : well_made ex_ip ex_client ex_msgs /\ st_local (c_state ex_client) = 0 /\
  accepting (ex_session [Fine]) /\ meaningful (c_state ex_client) ex_frames /\
  (let l := life ex_client [ex_session [Fine]; ex_session [From_bus; Fine]; ex_session [From_bus]] in
   exists m n, map written l = [[m]; [n]; []] /\ map (fun s => gw_bus (sy_gw s)) l = [[m]; []; []] /\
   buses 0 [([Fine], [m]); ([From_bus; Fine], [n]); ([From_bus], [])] = [[m]; []; []] /\
   map counter_of l = [1; 1; 1] /\ map client_taken l = [0; 1; 1]) /\
  (let l := life ex_client [ex_session [Answer_lost]; ex_session [From_bus; Fine]] in
   exists m n, map written l = [[m]; [n]] /\ map (fun s => gw_bus (sy_gw s)) l = [[m]; [n]] /\
   buses 0 [([Answer_lost], [m]); ([From_bus; Fine], [n])] = [[m]; [n]]) /\
  count confirmed [Fine] mod 256 = 1.
Proof.
  split; [exact ex_well_made|]. split; [reflexivity|].
  split; [split; [vm_compute; octets_tac|]; split; [vm_compute; reflexivity|]; split; [vm_compute; reflexivity|cbn; lia]|].
  split; [exact ex_meaningful|]. cbv zeta.
  split; [do 2 eexists; split; [vm_compute; reflexivity|]; split; [vm_compute; reflexivity|]; split; [vm_compute; reflexivity|]; split; vm_compute; reflexivity|].
  split; [do 2 eexists; split; [vm_compute; reflexivity|]; split; vm_compute; reflexivity|]. reflexivity.
Qed.
