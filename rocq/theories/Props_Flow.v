(** C98: a daemon whose connections hold only so many bytes. *)
From Coq Require Import String ZArith List Bool Lia Permutation.
From Verif Require Import Base Py Daemon DaemonFlow SpecMsg SpecDaemon SpecFlow DaemonProofs FlowProofs Props_Daemon.
Import ListNotations.
Open Scope Z_scope.

(** However the clients read, whatever the kernel takes at a time: the daemon
    does on the events that it comes to handle what C55-C58 say of it. *)
Theorem C98_same : forall cap scan packet evs f o, c_scanner scan -> octets packet -> zlen packet = 56 ->
  flow_run cap scan (flow_new packet) evs = (f, o) -> possible [] (handled_in o) ->
  fl_daemon f = dafter scan packet (handled_in o) /\
  on_bus o = bus_writes (snd (daemon_run scan (daemon_new packet) (handled_in o))).
Proof.
  intros cap scan packet evs f o CS O L E P.
  pose proof (flows_run cap scan packet CS O L evs _ [] (flows_new cap scan packet)) as W. rewrite E in W. cbn [fst snd app] in W.
  specialize (W P). split; [exact (w_daemon _ _ _ _ _ W)|exact (w_bus _ _ _ _ _ W)].
Qed.
Print Assumptions C98_same.

(** No byte is lost, doubled or out of order: what a client has read, what the
    kernel holds for it, and the end of one line make up the lines that it is to
    be told; nothing is missing when the daemon waits in select(). *)
Theorem C98_stream : forall cap scan packet evs f o fd, c_scanner scan -> octets packet -> zlen packet = 56 ->
  flow_run cap scan (flow_new packet) evs = (f, o) -> possible [] (handled_in o) ->
  exists rest, due_lines fd (handled_in o) = got fd o ++ fl_stored f fd ++ rest /\
    zlen (fl_stored f fd) <= Z.max 0 (cap fd) /\ (idle f -> rest = []) /\
    (rest = [] \/ exists h data, handled_in o = h ++ [DBus data] /\ In fd (registered h) /\ tail_of rest (lower_line data)).
Proof.
  intros cap scan packet evs f o fd CS O L E P.
  pose proof (flows_run cap scan packet CS O L evs _ [] (flows_new cap scan packet)) as W. rewrite E in W. cbn [fst snd app] in W.
  specialize (W P). exists (left_for fd (fl_work f)). split; [symmetry; exact (w_sum _ _ _ _ _ W fd)|].
  split; [exact (w_room _ _ _ _ _ W fd)|]. split; [intros I; unfold idle in I; rewrite I; reflexivity|].
  destruct (in_dec Z.eq_dec fd (map fst (fl_work f))) as [J|J]; [|left; apply left_none; exact J].
  right. assert (N : fl_work f <> []) by (intros N; rewrite N in J; exact J).
  destruct (w_text _ _ _ _ _ W N) as (h & data & Eh & _ & _ & Inc & F). exists h, data. split; [exact Eh|]. split; [apply Inc; exact J|].
  pose proof (w_nodup _ _ _ _ _ W) as ND. clear -J F ND. induction (fl_work f) as [|[x t] w IH]; [destruct J|].
  rewrite left_cons. cbn [map fst] in *. inversion F as [|y l F1 F2]. inversion ND as [|y' l' N1 N2]. subst. destruct (x =? fd) eqn:X.
  - rewrite left_none by (replace fd with x by lia; exact N1). rewrite app_nil_r. apply F1.
  - apply IH; try assumption. destruct J as [J|J]; [lia|exact J].
Qed.
Print Assumptions C98_stream.

Lemma due_app fd : forall h2 h1, possible [] (h1 ++ h2) -> In fd (registered h1) ->
  incl (registered h1) (connected h1) ->
  Forall (fun e => leaves e <> Some fd) h2 ->
  due_lines fd (h1 ++ h2) = due_lines fd h1 ++ flat_map lower_line (bus_packets h2) /\ In fd (registered (h1 ++ h2)) /\
  Forall (fun e => e <> DAccept fd) h2.
Proof.
  induction h2 as [|e h2 IH] using rev_ind; intros h1 P R Inc F.
  - rewrite (app_nil_r h1). split; [symmetry; apply app_nil_r|]. split; [exact R|constructor].
  - rewrite app_assoc in *. pose proof P as P0. apply possible_snoc in P. destruct P as [P1 P2].
    apply Forall_app in F. destruct F as [F1 F2]. inversion F2 as [|y l F3 _]. subst.
    destruct (IH h1 P1 R Inc F1) as (A & B & C).
    pose proof (inv_history ex_scan ex_packet ex_scanner (proj1 ex_packet_ok) (proj2 ex_packet_ok) _ P1) as I.
    rewrite due_snoc, registered_snoc, A. unfold bus_packets. rewrite flat_map_app, flat_map_app. cbn [flat_map].
    destruct e as [x|data|x chunk u]; cbn [register1 leaves flat_map app] in *.
    + rewrite !app_nil_r. assert (X : x <> fd) by (intros ->; apply (proj2 P2); apply (i_incl _ _ _ I); exact B).
      replace (x =? fd) with false by lia. split; [reflexivity|]. split; [destruct (_ <? 64); [apply in_or_app; left; exact B|exact B]|].
      apply Forall_app. split; [exact C|]. constructor; [|constructor]. intros H. injection H as H. contradiction.
    + replace (existsb (Z.eqb fd) (registered (h1 ++ h2))) with true
        by (symmetry; apply existsb_exists; exists fd; split; [exact B|apply Z.eqb_refl]).
      split; [rewrite app_nil_r, app_assoc; reflexivity|]. split; [exact B|]. apply Forall_app. split; [exact C|]. constructor; [discriminate|constructor].
    + rewrite !app_nil_r. split; [reflexivity|]. split.
      * destruct chunk; [|exact B]. unfold without. apply filter_In. split; [exact B|]. assert (x <> fd) by congruence. lia.
      * apply Forall_app. split; [exact C|]. constructor; [discriminate|constructor].
Qed.

Lemma got_kept cap scan fd : forall evs f o, never_reads fd evs ->
  Forall (fun e => e <> DAccept fd) (handled_in (snd (flow_run cap scan f evs))) ->
  got fd (o ++ snd (flow_run cap scan f evs)) = got fd o.
Proof.
  induction evs as [|ev evs IH]; intros f o N A; [cbn [flow_run snd]; rewrite app_nil_r; reflexivity|].
  inversion N as [|y l N1 N2]. subst. cbn [flow_run] in *. destruct (flow_step cap scan f ev) as [f1 o1] eqn:E.
  specialize (IH f1 (o ++ o1) N2). destruct (flow_run cap scan f1 evs) as [f2 o2]. cbn [snd] in *. rewrite handled_app in A. apply Forall_app in A.
  rewrite app_assoc, IH by apply A. rewrite got_app. destruct A as [A _].
  assert (S : o1 = [] \/ (exists e out, o1 = Handled e :: to_device out) \/ exists x b, o1 = [ClientGot x b] /\ x <> fd).
  { unfold flow_step in E. destruct ev as [e|n|x n].
    - destruct (fl_work f); [|injection E as _ <-; left; reflexivity]. destruct (daemon_step scan (fl_daemon f) e) as [d out].
      injection E as _ <-. right. left. exists e, out. reflexivity.
    - destruct (fl_work f) as [|[y t] w]; [injection E as _ <-; left; reflexivity|].
      destruct (_ && _ && _); injection E as _ <-; left; reflexivity.
    - replace (match fl_work f with [] => _ | _ => _ end) with
        (if (0 <? n) && (n <=? zlen (fl_stored f x)) then
          (mkflow (fl_daemon f) (fl_work f) (put_bytes x (zdrop n (fl_stored f x)) (fl_stored f)),
           [ClientGot x (ztake n (fl_stored f x))]) else (f, [])) in E by (destruct (fl_work f); reflexivity).
      destruct (_ && _); injection E as _ <-; [|left; reflexivity]. right. right. exists x, (ztake n (fl_stored f x)). split; [reflexivity|].
      intros ->. exact (N1 n eq_refl). }
  destruct S as [->|[(e & out & ->)|(x & b & -> & X)]]; [reflexivity| |].
  - cbn [fold_left]. rewrite device_got. rewrite device_events in A. apply Forall_inv in A. destruct e as [x| |]; try reflexivity.
    cbn [got1]. destruct (x =? fd) eqn:X; [|reflexivity]. exfalso. apply A. f_equal. lia.
  - cbn [fold_left got1]. replace (x =? fd) with false by lia. reflexivity.
Qed.

(** A client that holds a place and does not read lets the daemon take from the
    bus no more than the kernel will hold for that client, and one packet: after
    that the daemon does nothing for anybody. *)
Theorem C98_bound : forall cap scan packet evs1 f1 o1 evs2 f2 o2 fd earlier final, c_scanner scan -> octets packet -> zlen packet = 56 ->
  flow_run cap scan (flow_new packet) evs1 = (f1, o1) -> flow_run cap scan f1 evs2 = (f2, o2) ->
  possible [] (handled_in (o1 ++ o2)) -> In fd (registered (handled_in o1)) ->
  never_reads fd evs2 -> Forall (fun e => leaves e <> Some fd) (handled_in o2) ->
  bus_packets (handled_in o2) = earlier ++ [final] ->
  zlen (fl_stored f1 fd) + zlen (flat_map lower_line earlier) <= Z.max 0 (cap fd).
Proof.
  intros cap scan packet evs1 f1 o1 evs2 f2 o2 fd earlier final CS O L E1 E2 P R N F B.
  assert (P1 : possible [] (handled_in o1)) by (rewrite handled_app in P; exact (possible_prefix _ _ _ P)).
  pose proof (flows_run cap scan packet CS O L evs1 _ [] (flows_new cap scan packet)) as W1. rewrite E1 in W1. cbn [fst snd app] in W1. specialize (W1 P1).
  pose proof (flows_run cap scan packet CS O L evs2 f1 o1 W1) as W2. rewrite E2 in W2. cbn [fst snd] in W2. specialize (W2 P).
  pose proof (inv_history scan packet CS O L _ P1) as I1.
  rewrite handled_app in P. destruct (due_app fd _ _ P R (i_incl _ _ _ I1) F) as (D & R2 & A).
  pose proof (w_sum _ _ _ _ _ W2 fd) as S2. rewrite handled_app, D, <- (w_sum _ _ _ _ _ W1 fd) in S2.
  assert (G : got fd (o1 ++ o2) = got fd o1).
  { pose proof (got_kept cap scan fd evs2 f1 o1 N) as G. rewrite E2 in G. exact (G A). }
  rewrite G, B in S2. rewrite <- !app_assoc in S2. apply app_inv_head in S2.
  apply (f_equal (@zlen Z)) in S2. rewrite flat_map_app in S2. cbn [flat_map] in S2. rewrite app_nil_r in S2. rewrite !zlen_app in S2.
  pose proof (w_room _ _ _ _ _ W2 fd) as Room.
  enough (Lf : zlen (left_for fd (fl_work f2)) <= zlen (lower_line final)) by (pose proof (zlen_nonneg (left_for fd (fl_work f1))); lia).
  assert (E3 : flow_run cap scan (flow_new packet) (evs1 ++ evs2) = (f2, o1 ++ o2)).
  { rewrite flow_app, E1. cbn [fst snd]. rewrite E2. reflexivity. }
  destruct (in_dec Z.eq_dec fd (map fst (fl_work f2))) as [J|J];
    [|rewrite left_none by exact J; rewrite zlen_nil; pose proof (line_ends_long final); lia].
  assert (Nw : fl_work f2 <> []) by (intros Nw; rewrite Nw in J; exact J).
  destruct (w_text _ _ _ _ _ W2 Nw) as (h & data & Eh & _ & _ & _ & Ft). rewrite handled_app in Eh.
  assert (X : final = data).
  { destruct (handled_in o2) as [|e0 es0] using rev_ind; [destruct earlier; discriminate B|]. clear IHes0.
    rewrite app_assoc in Eh. apply app_inj_tail in Eh. destruct Eh as [_ ->]. unfold bus_packets in B. rewrite flat_map_app in B.
    cbn [flat_map app] in B. apply app_inj_tail in B. symmetry. apply B. }
  subst data. pose proof (w_nodup _ _ _ _ _ W2) as ND. clear -J Ft ND. induction (fl_work f2) as [|[x t] w IH]; [destruct J|].
  rewrite left_cons. cbn [map fst] in *. inversion Ft as [|y l F1 F2]. inversion ND as [|y' l' N1 N2]. subst. destruct (x =? fd) eqn:X.
  - rewrite left_none by (replace fd with x by lia; exact N1). rewrite app_nil_r. destruct F1 as [_ [c F1]]. cbn [snd] in F1.
    rewrite F1, zlen_app. pose proof (zlen_nonneg c). lia.
  - apply IH; try assumption. destruct J as [J|J]; [lia|exact J].
Qed.
Print Assumptions C98_bound.
(** Counted in packets. *)
Theorem C98_count : forall cap scan packet evs1 f1 o1 evs2 f2 o2 fd, c_scanner scan -> octets packet -> zlen packet = 56 ->
  flow_run cap scan (flow_new packet) evs1 = (f1, o1) -> flow_run cap scan f1 evs2 = (f2, o2) ->
  possible [] (handled_in (o1 ++ o2)) -> In fd (registered (handled_in o1)) ->
  never_reads fd evs2 -> Forall (fun e => leaves e <> Some fd) (handled_in o2) ->
  zlen (bus_packets (handled_in o2)) <= Z.max 0 (cap fd) + 1.
Proof.
  intros cap scan packet evs1 f1 o1 evs2 f2 o2 fd CS O L E1 E2 P R N F.
  assert (K : forall l : list (list Z), l = [] \/ exists earlier final, l = earlier ++ [final]).
  { intros l. destruct l as [|x l]; [left; reflexivity|]. right. destruct (@exists_last _ (x :: l) ltac:(discriminate)) as (a & b & K). exists a, b. exact K. }
  destruct (K (bus_packets (handled_in o2))) as [B|(earlier & final & B)]; [rewrite B, zlen_nil; lia|].
  pose proof (C98_bound cap scan packet evs1 f1 o1 evs2 f2 o2 fd _ _ CS O L E1 E2 P R N F B) as X.
  rewrite B, zlen_app. change (zlen [final]) with 1. pose proof (zlen_nonneg (fl_stored f1 fd)).
  enough (zlen earlier <= zlen (flat_map lower_line earlier)) by lia. clear.
  induction earlier as [|x l IH]; [reflexivity|]. cbn [flat_map]. rewrite zlen_cons, zlen_app. pose proof (line_ends_long x). lia.
Qed.
Print Assumptions C98_count.

(** Once it waits for a client without room, nothing is handled and nothing is
    written, to the bus or to anybody, until that client reads. *)
Theorem C98_still : forall cap scan f fd evs f' o, waits_for cap f fd -> never_reads fd evs ->
  flow_run cap scan f evs = (f', o) ->
  waits_for cap f' fd /\ fl_daemon f' = fl_daemon f /\ fl_work f' = fl_work f /\ handled_in o = [] /\ on_bus o = [] /\
  forall x, got x o ++ fl_stored f' x = fl_stored f x.
Proof.
  intros cap scan f fd evs. revert f. induction evs as [|ev evs IH]; intros f f' o W N E.
  - injection E as <- <-. repeat split; try reflexivity; apply W.
  - inversion N as [|y l N1 N2]. subst. cbn [flow_run] in E. destruct (flow_step cap scan f ev) as [f1 o1] eqn:E1.
    destruct (flow_run cap scan f1 evs) as [f2 o2] eqn:E2. injection E as <- <-.
    assert (S : waits_for cap f1 fd /\ fl_daemon f1 = fl_daemon f /\ fl_work f1 = fl_work f /\ handled_in o1 = [] /\ on_bus o1 = [] /\
                (forall x, got x o1 ++ fl_stored f1 x = fl_stored f x)).
    { pose proof W as W0. destruct W as [(t & r & Ew) C]. unfold flow_step in E1. destruct ev as [e|n|x n]; rewrite Ew in E1.
      - injection E1 as <- <-. repeat split; try reflexivity; apply W0.
      - replace ((0 <? n) && (n <=? zlen t) && (zlen (fl_stored f fd) + n <=? cap fd)) with false in E1 by lia.
        injection E1 as <- <-. repeat split; try reflexivity; apply W0.
      - destruct ((0 <? n) && (n <=? zlen (fl_stored f x))); injection E1 as <- <-; cbn [fl_daemon fl_work fl_stored];
          [|repeat split; try reflexivity; apply W0].
        split; [|split; [reflexivity|split; [exact (eq_sym Ew)|split; [reflexivity|split; [reflexivity|]]]]].
        + split; [exists t, r; reflexivity|]. cbn [fl_stored]. unfold put_bytes.
          destruct (fd =? x) eqn:X; [exfalso; apply (N1 n); f_equal; lia|exact C].
        + intros z. unfold got, put_bytes. cbn [fold_left got1]. destruct (x =? z) eqn:Z.
          * replace (z =? x) with true by lia. cbn [app]. rewrite ztake_zdrop. f_equal. lia.
          * replace (z =? x) with false by lia. reflexivity. }
    destruct S as (W1 & D1 & K1 & H1 & B1 & G1). destruct (IH _ _ _ W1 N2 E2) as (W2 & D2 & K2 & H2 & B2 & G2).
    split; [exact W2|]. split; [congruence|]. split; [congruence|]. split; [rewrite handled_app, H1, H2; reflexivity|].
    split; [rewrite on_bus_app, B1, B2; reflexivity|]. intros x. rewrite <- (G1 x), <- (G2 x), app_assoc. f_equal.
    rewrite got_app. clear -H2. unfold got. generalize (fold_left (got1 x) o1 []). intros a.
    assert (Q : forall o acc, handled_in o = [] -> fold_left (got1 x) o acc = acc ++ fold_left (got1 x) o []).
    { induction o as [|s o IH]; intros acc H; [rewrite app_nil_r; reflexivity|]. destruct s as [e|p|y b]; [discriminate H| |]; cbn [fold_left got1].
      - apply IH. exact H.
      - rewrite (IH (if y =? x then _ else _)) by exact H. symmetry. rewrite (IH (if y =? x then _ else _)) by exact H.
        rewrite app_assoc. f_equal. destruct (y =? x); [reflexivity|apply app_nil_r]. }
    apply Q. exact H2.
Qed.
Print Assumptions C98_still.

(** Nothing but clients that do not read holds the daemon up: if those it has
    something to write to read, it comes back to select(). *)
Theorem C98_progress : forall cap scan packet evs f o, c_scanner scan -> octets packet -> zlen packet = 56 ->
  flow_run cap scan (flow_new packet) evs = (f, o) -> possible [] (handled_in o) ->
  (forall fd, In fd (map fst (fl_work f)) -> 1 <= cap fd) ->
  exists more, Forall (fun ev => (exists n, ev = FStore n) \/ exists fd n, ev = FRead fd n /\ In fd (map fst (fl_work f))) more /\
    idle (fst (flow_run cap scan f more)).
Proof.
  intros cap scan packet evs f o CS O L E P C.
  pose proof (flows_run cap scan packet CS O L evs _ [] (flows_new cap scan packet)) as W. rewrite E in W. cbn [fst snd app] in W. specialize (W P).
  assert (T : Forall (fun x => snd x <> []) (fl_work f)).
  { destruct (fl_work f) as [|x w] eqn:Ew; [constructor|]. pose proof (w_text _ _ _ _ _ W) as T. rewrite Ew in T.
    destruct (T ltac:(discriminate)) as (h & data & _ & _ & _ & _ & F). exact (Forall_impl _ (fun a H => proj1 H) F). }
  clear -C T. remember (fold_right (fun x n => (length (snd x) + n)%nat) O (fl_work f)) as m eqn:M.
  revert f C T M. induction m as [m IH] using lt_wf_ind. intros f C T M.
  destruct (fl_work f) as [|[fd t] w] eqn:Ew; [exists []; split; [constructor|exact Ew]|].
  assert (C1 : 1 <= cap fd) by (apply C; left; reflexivity).
  inversion T as [|y l T1 T2]. subst. cbn [snd] in T1.
  assert (L1 : 1 <= zlen t) by (destruct t; [contradiction|rewrite zlen_cons; pose proof (zlen_nonneg t); lia]).
  (* room for one byte, after reading if need be *)
  assert (Pre : exists pre f1, Forall (fun ev => (exists n, ev = FStore n) \/ exists x n, ev = FRead x n /\ In x (map fst ((fd, t) :: w))) pre /\
            fst (flow_run cap scan f pre) = f1 /\ fl_work f1 = (fd, t) :: w /\ zlen (fl_stored f1 fd) + 1 <= cap fd).
  { destruct (Z_le_gt_dec (zlen (fl_stored f fd) + 1) (cap fd)) as [Rm|Rm].
    - exists [], f. split; [constructor|]. split; [reflexivity|]. split; [exact Ew|exact Rm].
    - exists [FRead fd (zlen (fl_stored f fd) - cap fd + 1)],
        (mkflow (fl_daemon f) (fl_work f) (put_bytes fd (zdrop (zlen (fl_stored f fd) - cap fd + 1) (fl_stored f fd)) (fl_stored f))).
      split; [constructor; [|constructor]; right; exists fd, (zlen (fl_stored f fd) - cap fd + 1); split; [reflexivity|left; reflexivity]|].
      split.
      + cbn [flow_run flow_step]. rewrite Ew.
        replace ((0 <? zlen (fl_stored f fd) - cap fd + 1) && (zlen (fl_stored f fd) - cap fd + 1 <=? zlen (fl_stored f fd))) with true by lia. reflexivity.
      + cbn [fl_work fl_stored]. split; [exact Ew|]. unfold put_bytes. rewrite Z.eqb_refl, zlen_zdrop by lia. lia. }
  destruct Pre as (pre & f1 & Fp & Er & Ew1 & Rm).
  set (f2 := fst (flow_step cap scan f1 (FStore 1))).
  assert (Ew2 : fl_work f2 = if 1 =? zlen t then w else (fd, zdrop 1 t) :: w).
  { unfold f2, flow_step. rewrite Ew1. replace ((0 <? 1) && (1 <=? zlen t) && (zlen (fl_stored f1 fd) + 1 <=? cap fd)) with true by lia. reflexivity. }
  assert (Len : length (zdrop 1 t) = (length t - 1)%nat) by (rewrite zdrop_skipn, skipn_length; reflexivity).
  assert (Inc : incl (map fst (fl_work f2)) (map fst ((fd, t) :: w))).
  { rewrite Ew2. destruct (1 =? zlen t); intros z Zi; [right; exact Zi|exact Zi]. }
  destruct (IH (fold_right (fun x n => (length (snd x) + n)%nat) O (fl_work f2))) with (f := f2) as (more & Fm & Id).
  - rewrite Ew2. cbn [fold_right snd]. unfold zlen in L1. destruct (1 =? zlen t); cbn [fold_right snd]; [lia|]. rewrite Len. lia.
  - intros x X. apply C. apply Inc. exact X.
  - rewrite Ew2. destruct (1 =? zlen t) eqn:E1; [exact T2|]. constructor; [|exact T2]. cbn [snd]. intros H. apply (f_equal (@length Z)) in H.
    rewrite Len in H. unfold zlen in *. cbn [length] in H. lia.
  - reflexivity.
  - exists (pre ++ FStore 1 :: more). split.
    + apply Forall_app. split; [exact Fp|]. constructor; [left; exists 1; reflexivity|].
      eapply Forall_impl; [|exact Fm]. intros ev [H|(x & n & H & X)]; [left; exact H|right; exists x, n; split; [exact H|apply Inc; exact X]].
    + rewrite flow_app. cbn [fst]. rewrite Er. cbn [flow_run]. fold f2 in Id. destruct (flow_step cap scan f1 (FStore 1)) as [f3 o3]. subst f2. cbn [fst] in Id.
      destruct (flow_run cap scan f3 more) as [f4 o4]. exact Id.
Qed.
Print Assumptions C98_progress.

(** A packet for whose line every client has room goes out without waiting for
    anybody. *)
Theorem C98_nowait : forall cap scan packet evs f o data, c_scanner scan -> octets packet -> zlen packet = 56 ->
  flow_run cap scan (flow_new packet) evs = (f, o) -> possible [] (handled_in o ++ [DBus data]) -> idle f ->
  (forall fd, In fd (registered (handled_in o)) -> zlen (fl_stored f fd) + zlen (lower_line data) <= cap fd) ->
  exists more, only_stores more /\
    let f' := fst (flow_run cap scan f (FHandle (DBus data) :: more)) in
    idle f' /\ forall fd, fl_stored f' fd = fl_stored f fd ++ (if existsb (Z.eqb fd) (registered (handled_in o)) then lower_line data else []).
Proof.
  intros cap scan packet evs f o data CS O L E P I C. pose proof P as P0. apply possible_snoc in P. destruct P as [P1 [Od Ld]].
  pose proof (flows_run cap scan packet CS O L evs _ [] (flows_new cap scan packet)) as W. rewrite E in W. cbn [fst snd app] in W. specialize (W P1).
  pose proof (inv_history scan packet CS O L _ P1) as Iv. pose proof (w_daemon _ _ _ _ _ W) as WD.
  set (fds := live (dm_slots (fl_daemon f))).
  assert (Pm : Permutation fds (registered (handled_in o))) by (unfold fds; rewrite WD; exact (i_reg _ _ _ Iv)).
  assert (ND : NoDup fds) by exact (Permutation_NoDup (Permutation_sym Pm) (i_nodup _ _ _ Iv)).
  exists (map (fun _ => FStore (zlen (lower_line data))) fds). split.
  { apply Forall_forall. intros ev H. apply in_map_iff in H. destruct H as (x & <- & _). exists (zlen (lower_line data)). reflexivity. }
  cbv zeta. cbn [flow_run flow_step]. rewrite I. pose proof (bus_step scan (fl_daemon f) data Od) as BS.
  destruct (daemon_step scan (fl_daemon f) (DBus data)) as [d out]. cbn [snd] in BS. subst out. fold fds. rewrite writes_map.
  assert (C' : forall fd, In fd fds -> zlen (fl_stored f fd) + zlen (lower_line data) <= cap fd)
    by (intros fd H; apply C; exact (Permutation_in _ Pm H)).
  assert (K : forall fds s, NoDup fds -> (forall fd, In fd fds -> zlen (s fd) + zlen (lower_line data) <= cap fd) ->
    let f' := fst (flow_run cap scan (mkflow d (map (fun fd => (fd, lower_line data)) fds) s) (map (fun _ => FStore (zlen (lower_line data))) fds)) in
    fl_work f' = [] /\ forall fd, fl_stored f' fd = s fd ++ (if existsb (Z.eqb fd) fds then lower_line data else [])).
  { clear. induction fds as [|x fds IH]; intros s N C; [split; [reflexivity|intros fd; symmetry; apply app_nil_r]|].
    inversion N as [|y l N1 N2]. subst. cbv zeta. cbn [map flow_run flow_step fl_work fl_stored].
    pose proof (line_ends_long data) as L1. pose proof (C x (or_introl eq_refl)) as Cx.
    replace ((0 <? zlen (lower_line data)) && (zlen (lower_line data) <=? zlen (lower_line data)) &&
             (zlen (s x) + zlen (lower_line data) <=? cap x)) with true by lia.
    rewrite Z.eqb_refl, ztake_ge by lia. cbn [fl_daemon].
    destruct (IH (put_bytes x (s x ++ lower_line data) s) N2) as [A B].
    { intros fd H. unfold put_bytes. destruct (fd =? x) eqn:X; [exfalso; apply N1; replace x with fd by lia; exact H|]. apply C. right. exact H. }
    cbv zeta in A, B. destruct (flow_run _ _ _ _) as [f2 o2]. cbn [fst] in *. split; [exact A|]. intros fd. rewrite B. unfold put_bytes. cbn [existsb].
    destruct (fd =? x) eqn:X; [|reflexivity]. cbn [orb]. assert (fd = x) by lia. subst fd.
    replace (existsb (Z.eqb x) fds) with false; [rewrite app_nil_r; reflexivity|]. symmetry.
    destruct (existsb (Z.eqb x) fds) eqn:Q; [|reflexivity]. apply existsb_exists in Q. destruct Q as (z & Zi & Zx). exfalso. apply N1. replace x with z by lia. exact Zi. }
  specialize (K fds (fl_stored f) ND C'). cbv zeta in K.
  destruct (flow_run cap scan {| fl_daemon := d; fl_work := _; fl_stored := _ |} _) as [f2 o2]. cbn [fst] in *.
  destruct K as [A B]. split; [exact A|]. intros fd. rewrite B. rewrite (existsb_perm _ _ Pm). reflexivity.
Qed.
Print Assumptions C98_nowait.

(** Three clients; the second, which has room for 20 bytes, does not read.  The
    other two read all they get and see three packets of eight octets; the third client of
    the row never gets the second line; no command of the first client reaches
    the bus any more. *)
Definition fl_cap (fd : Z) : Z := if fd =? 8 then 20 else 1000.
Definition fl_p (n : Z) : list Z := [1; 19; 3; n; 0; 8; 0; 2].
Definition fl_start : list fevent := [FHandle (DAccept 7); FHandle (DAccept 8); FHandle (DAccept 9)].
Definition fl_more : list fevent :=
  [FHandle (DBus (fl_p 1)); FStore 17; FStore 10; FRead 7 17; FStore 7; FStore 17; FRead 9 17;
   FHandle (DClient 7 (bytes_of "0113" ++ [10]) ex_around);
   FHandle (DBus (fl_p 2)); FStore 17; FStore 3; FRead 7 17; FStore 1;
   FHandle (DBus (fl_p 3)); FHandle (DClient 7 (bytes_of "0114" ++ [10]) ex_around)].
Example C98_ex :
  let '(f1, o1) := flow_run fl_cap ex_scan (flow_new ex_packet) fl_start in
  let '(f2, o2) := flow_run fl_cap ex_scan f1 fl_more in
  possible [] (handled_in (o1 ++ o2)) /\ In 8 (registered (handled_in o1)) /\ idle f1 /\
  (forall fd, In fd (registered (handled_in o1)) -> zlen (fl_stored f1 fd) + zlen (lower_line (fl_p 1)) <= fl_cap fd) /\
  never_reads 8 fl_more /\ Forall (fun e => leaves e <> Some 8) (handled_in o2) /\
  bus_packets (handled_in o2) = [fl_p 1; fl_p 2] /\ length (on_bus o2) = 1%nat /\
  waits_for fl_cap f2 8 /\ (forall fd, In fd (map fst (fl_work f2)) -> 1 <= fl_cap fd) /\
  got 7 o2 = lower_line (fl_p 1) ++ lower_line (fl_p 2) /\ got 9 o2 = lower_line (fl_p 1) /\
  due_lines 9 (handled_in (o1 ++ o2)) = lower_line (fl_p 1) ++ lower_line (fl_p 2).
Proof.
  vm_compute. split.
  { repeat split; try (octs; fail); try lia; try discriminate; try tauto; try (intros H; decompose [or] H; lia). }
  split; [tauto|]. split; [reflexivity|]. split; [intros fd [<-|[<-|[<-|[]]]]; discriminate|]. split; [repeat constructor; intros n H; discriminate H|].
  split; [repeat constructor; discriminate|]. split; [reflexivity|]. split; [reflexivity|].
  split. { split; [eexists; eexists; reflexivity|discriminate]. }
  split; [intros fd [<-|[<-|[]]]; discriminate|]. repeat split; reflexivity.
Qed.
