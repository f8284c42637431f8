(** C86: the rounds of the daemon's loop. *)
From Coq Require Import ZArith List Bool Lia ZifyBool Sorted.
From Verif Require Import Py Base Daemon DaemonSelect SpecMsg SpecDaemon SpecSelect DaemonProofs SelectProofs Props_Daemon.
Import ListNotations.
Open Scope Z_scope.

(** The loop does, round by round, what the events of the rounds do one after
    the other, and these events are possible in the sense of C55-C58 and C84: the
    theorems there hold for every run of the loop. *)
Theorem C86_rounds : forall scan packet rs es, history [] rs es ->
  rounds scan (daemon_new packet) rs = daemon_run scan (daemon_new packet) es /\ possible [] es.
Proof.
  intros scan packet rs es H. destruct (history_run scan [] rs es H (Forall_nil _) (daemon_new packet)) as (H1 & H2 & _). auto.
Qed.
Print Assumptions C86_rounds.
(** Whatever the next round is, it has events; they are determined. *)
Theorem C86_next : forall rs es r, history [] rs es -> round_ok (connected es) r ->
  exists es', handled r es' /\ history [] (rs ++ [r]) (es ++ es') /\ forall es2, handled r es2 -> es2 = es'.
Proof.
  intros rs es r H R.
  destruct (history_run (fun _ => None) [] rs es H (Forall_nil _) (daemon_new [])) as (_ & _ & P).
  pose proof (handled_visited r (connected es)) as E. exists (map (case_of r) (visited r)).
  split; [apply (E _ R (positive _ P)); reflexivity|]. split.
  - assert (X : forall conn, history conn rs es -> round_ok (fold_left connect1 es conn) r -> Forall (fun fd => 4 < fd) (fold_left connect1 es conn) ->
      history conn (rs ++ [r]) (es ++ map (case_of r) (visited r))).
    { clear. induction 1 as [conn|conn r0 es rs es' R0 Hd _ IH]; intros R P.
      - cbn [app]. rewrite <- (app_nil_r (map _ _)). apply history_cons; [exact R| |constructor].
        apply (handled_visited r conn _ R (positive _ P)). reflexivity.
      - rewrite fold_left_app in R, P. rewrite <- app_assoc. cbn [app]. apply history_cons; auto. }
    apply X; assumption.
  - intros es2 H2. apply (E es2 R (positive _ P)). exact H2.
Qed.
Print Assumptions C86_next.

(** Every client with something to read is read in this round, once. *)
Theorem C86_served : forall rs es r es' fd, history [] rs es -> round_ok (connected es) r -> handled r es' ->
  In fd (rd_ready r) -> 4 < fd < 1024 ->
  exists a b, es' = a ++ DClient fd (rd_text r fd) (rd_around r fd) :: b /\
  forall text u, ~ In (DClient fd text u) (a ++ b).
Proof.
  intros rs es r es' fd H R (fds & S & E & F) I B. apply cases_spec in F. subst es'.
  assert (J : In fd fds) by (apply E; split; [exact I|lia]). apply in_split in J. destruct J as (x & y & ->).
  exists (map (case_of r) x), (map (case_of r) y). split.
  - rewrite map_app. cbn [map]. do 2 f_equal. symmetry. apply (proj1 (case_spec r fd _)). repeat split; intros; lia || reflexivity.
  - intros text u K. rewrite <- map_app in K. apply in_map_iff in K. destruct K as (i & Ei & Hi).
    unfold case_of, sock, fd_cemi in Ei. destruct (i =? 3); [discriminate Ei|]. destruct (i =? 4); [discriminate Ei|].
    injection Ei as -> _ _. clear -S Hi. induction x as [|z x IH]; cbn [app] in *.
    + inversion S as [|? ? _ F]; subst. rewrite Forall_forall in F. apply F in Hi. lia.
    + inversion S as [|? ? S2 F]; subst. rewrite Forall_forall in F. destruct Hi as [->|Hi]; [|exact (IH S2 Hi)].
      assert (J : In fd (x ++ fd :: y)) by (apply in_or_app; right; left; reflexivity). apply F in J. lia.
Qed.
Print Assumptions C86_served.

(** Descriptors stay below 5 + n when never more than n clients are connected at
    a time; with at most 1019 all bits that are set and tested are bits of the
    1024-bit sets. *)
Theorem C86_descriptors : forall n rs es, history [] rs es -> at_most n es ->
  forall fd, In fd (connected es) -> 4 < fd <= 4 + n.
Proof.
  intros n rs es H M fd I. pose proof (history_bound n [] rs es H (Forall_nil _) M) as X. rewrite Forall_forall in X. exact (X fd I).
Qed.
Print Assumptions C86_descriptors.
Theorem C86_inside : forall rs es, history [] rs es -> at_most 1019 es ->
  forall fd, In fd (connected es) -> 0 <= fd < 1024.
Proof. intros rs es H M fd I. pose proof (C86_descriptors 1019 rs es H M fd I). lia. Qed.
Print Assumptions C86_inside.
(** One client more, and FD_SET stores outside its set. *)
Theorem C86_inside_refuted : exists rs es, history [] rs es /\ at_most 1020 es /\ In 1024 (connected es).
Proof.
  exists (map arrival (range 5 (Z.to_nat 1020))), (map DAccept (range 5 (Z.to_nat 1020))).
  destruct (crowd (Z.to_nat 1020) 5 [] ltac:(lia) ltac:(intros x; cbn; lia)) as [H1 H2]. split; [exact H1|]. split; [|apply H2; lia].
  intros es1 es2 E.
  assert (L : (length es1 <= Z.to_nat 1020)%nat).
  { apply (f_equal (@length devent)) in E. rewrite app_length, map_length in E.
    assert (Len : forall n i, length (range i n) = n) by (induction n as [|n IH]; intros i; cbn; [|rewrite IH]; reflexivity).
    rewrite Len in E. lia. }
  assert (X : forall l conn, zlen (fold_left connect1 l conn) <= zlen conn + zlen l).
  { induction l as [|e l IH]; intros conn; cbn [fold_left]; [unfold zlen; cbn; lia|]. specialize (IH (connect1 conn e)).
    rewrite zlen_cons. assert (zlen (connect1 conn e) <= zlen conn + 1).
    { destruct e as [fd|data|fd chunk u]; cbn [connect1]; [rewrite zlen_cons; lia|cbn; lia|].
      destruct chunk; cbn; [|lia]. unfold without, zlen. clear. induction conn as [|c conn IH]; cbn [filter length]; [lia|]. destruct (negb (c =? fd)); cbn [length]; lia. }
    lia. }
  specialize (X es1 []). unfold connected. unfold zlen in *. cbn [length] in X. lia.
Qed.
Print Assumptions C86_inside_refuted.

(** Two rounds: in the first, two clients are connected already and both have
    something to read, the bus has a packet and a third client comes: it is
    accepted first, gets the descriptor that had become free, then the packet is
    forwarded to all three, and the clients are read in order. *)
Example C86_example :
  let r1 := mkround [3] 5 [] (fun _ => []) (fun _ => ex_around) in
  let r2 := mkround [3] 6 [] (fun _ => []) (fun _ => ex_around) in
  let r3 := mkround [3] 7 [] (fun _ => []) (fun _ => ex_around) in
  let r4 := mkround [6] 0 [] (fun _ => []) (fun _ => ex_around) in
  let r5 := mkround [7; 4; 3; 5] 6 [0x13; 0x01] (fun i => if i =? 5 then [48; 65; 10] else [48; 66; 10]) (fun _ => ex_around) in
  let es := [DAccept 5; DAccept 6; DAccept 7; DClient 6 [] ex_around; DAccept 6; DBus [0x13; 0x01];
             DClient 5 [48; 65; 10] ex_around; DClient 7 [48; 66; 10] ex_around] in
  history [] [r1; r2; r3; r4; r5] es /\ connected es = [6; 7; 5] /\
  map (map (fun o => match o with ToBus p => firstn 3 p | ToClient fd t => fd :: t end))
      (snd (rounds ex_scan (daemon_new ex_packet) [r1; r2; r3; r4; r5])) =
  [[]; []; []; []; []; [[5; 49; 51; 48; 49; 10]; [6; 49; 51; 48; 49; 10]; [7; 49; 51; 48; 49; 10]];
   [[0x0A; 0x01; nth 2 ex_packet 0]]; [[0x0B; 0x01; nth 2 ex_packet 0]]].
Proof.
  intros r1 r2 r3 r4 r5 es.
  assert (K : forall r, In r [r1; r2; r3; r4; r5] -> octets (rd_bus r) /\ zlen (rd_bus r) <= 56 /\
    forall i, octets (rd_text r i) /\ zlen (rd_text r i) <= 113 /\
      is_octet (ar_before (rd_around r i)) /\ octets (ar_behind (rd_around r i))).
  { intros r H. repeat (destruct H as [<-|H]); try destruct H; cbn; (split; [octs|split; [discriminate|]]);
    intros i; try destruct (i =? 5); cbn; repeat split; try discriminate; octs. }
  split; [|split; vm_compute; reflexivity].
  Ltac fds l := exists l; split; [repeat constructor|split; [intros i; cbn; lia|repeat constructor; intros; try lia; reflexivity]].
  Ltac ok K := split; [intros x H; cbn in H |- *; tauto|split; [|apply K; cbn; tauto]].
  change es with ([DAccept 5] ++ [DAccept 6] ++ [DAccept 7] ++ [DClient 6 [] ex_around] ++ [DAccept 6; DBus [0x13; 0x01];
             DClient 5 [48; 65; 10] ex_around; DClient 7 [48; 66; 10] ex_around] ++ []).
  constructor; [ok K|fds [3]|].
  { intros _. unfold lowest_free. cbn. split; [lia|split; [lia|intros; lia]]. }
  constructor; [ok K|fds [3]|].
  { intros _. unfold lowest_free. cbn. split; [lia|split; [lia|intros; lia]]. }
  constructor; [ok K|fds [3]|].
  { intros _. unfold lowest_free. cbn. split; [lia|split; [lia|intros; lia]]. }
  constructor; [ok K|fds [6]|].
  { cbn. lia. }
  constructor; [ok K|fds [3; 4; 5; 7]|constructor].
  intros _. unfold lowest_free. cbn. split; [lia|split; [lia|intros; lia]].
Qed.
