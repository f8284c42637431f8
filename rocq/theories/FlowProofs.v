(** Proofs about a daemon whose clients read at their own pace (for
    Props_Flow.v). *)
From Coq Require Import ZArith List Bool Lia Permutation.
From Verif Require Import Base Py Daemon DaemonFlow SpecMsg SpecDaemon SpecFlow DaemonProofs.
Import ListNotations.
Open Scope Z_scope.

Lemma flow_app cap scan : forall l1 l2 f,
  flow_run cap scan f (l1 ++ l2) =
  (fst (flow_run cap scan (fst (flow_run cap scan f l1)) l2),
   snd (flow_run cap scan f l1) ++ snd (flow_run cap scan (fst (flow_run cap scan f l1)) l2)).
Proof.
  induction l1 as [|a l1 IH]; intros l2 f; cbn [app flow_run].
  - cbn [fst snd app]. apply surjective_pairing.
  - destruct (flow_step cap scan f a) as [f1 o1]. specialize (IH l2 f1).
    destruct (flow_run cap scan f1 (l1 ++ l2)) as [f2 o2]. destruct (flow_run cap scan f1 l1) as [f3 o3]. cbn [fst snd] in *.
    injection IH as -> ->. rewrite app_assoc. reflexivity.
Qed.
Lemma handled_app a b : handled_in (a ++ b) = handled_in a ++ handled_in b.
Proof. apply flat_map_app. Qed.
Lemma got_app fd a b : got fd (a ++ b) = fold_left (got1 fd) b (got fd a).
Proof. apply fold_left_app. Qed.
Lemma due_snoc fd es e : due_lines fd (es ++ [e]) =
  match e with
  | DAccept x => if x =? fd then [] else due_lines fd es
  | DBus data => if existsb (Z.eqb fd) (registered es) then due_lines fd es ++ lower_line data else due_lines fd es
  | _ => due_lines fd es
  end.
Proof.
  assert (R : forall es s, fst (fold_left (due1 fd) es s) = fold_left register1 es (fst s)).
  { induction es0 as [|a es0 IH]; intros s; [reflexivity|]. cbn [fold_left]. rewrite IH. reflexivity. }
  unfold due_lines. rewrite fold_left_app. cbn [fold_left]. unfold due1 at 1. cbn [snd]. rewrite R. reflexivity.
Qed.

Lemma device_events e o : handled_in (Handled e :: to_device o) = [e].
Proof.
  unfold handled_in. cbn [flat_map app]. f_equal. unfold to_device. induction o as [|[p|fd t] o IH]; [reflexivity| |]; cbn [flat_map app]; exact IH.
Qed.
Lemma device_got fd o : forall acc, fold_left (got1 fd) (to_device o) acc = acc.
Proof.
  unfold to_device. induction o as [|[p|x t] o IH]; intros acc; [reflexivity| |]; cbn [flat_map app fold_left got1]; apply IH.
Qed.
Lemma device_bus e o : on_bus (Handled e :: to_device o) = flat_map (fun x => match x with ToBus p => [p] | _ => [] end) o.
Proof.
  unfold on_bus. cbn [flat_map app]. unfold to_device. induction o as [|[p|x t] o IH]; [reflexivity| |]; cbn [flat_map app]; rewrite IH; reflexivity.
Qed.
Lemma daemon_run_app scan : forall es d e,
  snd (daemon_run scan d (es ++ [e])) = snd (daemon_run scan d es) ++ [snd (daemon_step scan (fst (daemon_run scan d es)) e)].
Proof.
  induction es as [|a es IH]; intros d e; cbn [app daemon_run].
  - cbn [fst snd app]. destruct (daemon_step scan d e) as [d1 o]. reflexivity.
  - destruct (daemon_step scan d a) as [d1 o]. specialize (IH d1 e).
    destruct (daemon_run scan d1 (es ++ [e])) as [d2 os]. destruct (daemon_run scan d1 es) as [d3 os']. cbn [fst snd] in *.
    rewrite IH. reflexivity.
Qed.
Lemma line_ends_long data : 1 <= zlen (lower_line data).
Proof. unfold lower_line, zlen. rewrite app_length. cbn [length]. lia. Qed.

(** What is left to write to a client. *)
Definition left_for (fd : Z) (w : list (Z * list Z)) : list Z :=
  flat_map snd (filter (fun x => fst x =? fd) w).
Lemma left_cons fd x t w : left_for fd ((x, t) :: w) = if x =? fd then t ++ left_for fd w else left_for fd w.
Proof. unfold left_for. cbn [filter fst]. destruct (x =? fd); reflexivity. Qed.
Lemma left_none fd w : ~ In fd (map fst w) -> left_for fd w = [].
Proof.
  induction w as [|[x t] w IH]; intros H; [reflexivity|]. rewrite left_cons. cbn [map fst In] in H.
  destruct (x =? fd) eqn:E; [exfalso; apply H; left; lia|]. apply IH. tauto.
Qed.
Lemma left_all t : forall fds fd, NoDup fds ->
  left_for fd (map (fun x => (x, t)) fds) = if existsb (Z.eqb fd) fds then t else [].
Proof.
  induction fds as [|x fds IH]; intros fd N; [reflexivity|]. inversion N as [|y l N1 N2]. subst. cbn [map existsb]. rewrite left_cons.
  destruct (x =? fd) eqn:E.
  - replace (fd =? x) with true by lia. cbn [orb]. rewrite left_none; [apply app_nil_r|].
    rewrite map_map. cbn [fst]. rewrite map_id. replace fd with x by lia. exact N1.
  - replace (fd =? x) with false by lia. apply IH. exact N2.
Qed.
Lemma existsb_perm a b : Permutation a b -> forall fd, existsb (Z.eqb fd) a = existsb (Z.eqb fd) b.
Proof.
  intros P fd. destruct (existsb (Z.eqb fd) b) eqn:E.
  - apply existsb_exists in E. destruct E as (x & I & X). apply existsb_exists. exists x. split; [|exact X].
    exact (Permutation_in _ (Permutation_sym P) I).
  - destruct (existsb (Z.eqb fd) a) eqn:E'; [|reflexivity]. exfalso.
    apply existsb_exists in E'. destruct E' as (x & I & X).
    assert (T : existsb (Z.eqb fd) b = true) by (apply existsb_exists; exists x; split; [exact (Permutation_in _ P I)|exact X]).
    congruence.
Qed.
Lemma writes_map t fds : writes (map (fun fd => ToClient fd t) fds) = map (fun fd => (fd, t)) fds.
Proof. unfold writes. induction fds as [|x fds IH]; [reflexivity|]. cbn [map flat_map app]. rewrite IH. reflexivity. Qed.

(** The state of affairs at any time. *)
Record flows (cap : Z -> Z) (scan : scanner) (packet : list Z) (f : flow) (o : list fseen) : Prop := {
  w_daemon : fl_daemon f = dafter scan packet (handled_in o);
  w_bus : on_bus o = bus_writes (snd (daemon_run scan (daemon_new packet) (handled_in o)));
  w_sum : forall fd, got fd o ++ fl_stored f fd ++ left_for fd (fl_work f) = due_lines fd (handled_in o);
  w_nodup : NoDup (map fst (fl_work f));
  w_room : forall fd, zlen (fl_stored f fd) <= Z.max 0 (cap fd);
  w_text : fl_work f <> [] -> exists h data, handled_in o = h ++ [DBus data] /\ octets data /\ zlen data <= 56 /\
    incl (map fst (fl_work f)) (registered h) /\
    Forall (fun x => snd x <> [] /\ tail_of (snd x) (lower_line data)) (fl_work f)
}.

Lemma flows_new cap scan packet : flows cap scan packet (flow_new packet) [].
Proof.
  constructor; cbn; try reflexivity; try constructor.
  - intros fd. unfold zlen. cbn [length]. lia.
  - intros H. contradiction.
Qed.

Lemma same_left fd w fd' n t : 0 < n <= zlen t ->
  ztake n t ++ left_for fd' (if n =? zlen t then w else (fd, zdrop n t) :: w) =
  if fd =? fd' then left_for fd' ((fd, t) :: w) else ztake n t ++ left_for fd' w.
Proof.
  intros R. rewrite left_cons. destruct (n =? zlen t) eqn:E.
  - destruct (fd =? fd'); [|reflexivity]. f_equal. apply ztake_ge. lia.
  - rewrite left_cons. destruct (fd =? fd'); [|reflexivity]. rewrite app_assoc. f_equal.
    apply ztake_zdrop.
Qed.

Lemma on_bus_app a b : on_bus (a ++ b) = on_bus a ++ on_bus b.
Proof. apply flat_map_app. Qed.
Lemma bus_writes_app a b : bus_writes (a ++ b) = bus_writes a ++ bus_writes b.
Proof. apply flat_map_app. Qed.

Lemma flows_step cap scan packet f o ev : c_scanner scan -> octets packet -> zlen packet = 56 ->
  flows cap scan packet f o ->
  possible [] (handled_in (o ++ snd (flow_step cap scan f ev))) ->
  flows cap scan packet (fst (flow_step cap scan f ev)) (o ++ snd (flow_step cap scan f ev)).
Proof.
  intros CS O L W. destruct ev as [e|n|fd n]; unfold flow_step.
  - destruct (fl_work f) as [|w0 w] eqn:E0; [|intros _; cbn [fst snd]; rewrite app_nil_r; exact W].
    destruct (daemon_step scan (fl_daemon f) e) as [d out] eqn:ED. cbn [fst snd]. rewrite handled_app, device_events. intros P.
    pose proof P as P0. apply possible_snoc in P. destruct P as [P1 P2].
    pose proof (inv_history scan packet CS O L (handled_in o) P1) as I.
    pose proof (w_daemon _ _ _ _ _ W) as WD.
    assert (S : forall fd, got fd o ++ fl_stored f fd = due_lines fd (handled_in o)).
    { intros fd. rewrite <- (w_sum _ _ _ _ _ W), E0. rewrite app_nil_r. reflexivity. }
    assert (D : fl_daemon (mkflow d (writes out) match e with DAccept fd => put_bytes fd [] (fl_stored f) | _ => fl_stored f end)
                = dafter scan packet (handled_in o ++ [e])).
    { cbn [fl_daemon]. unfold dafter. rewrite run_snoc. fold (dafter scan packet (handled_in o)). rewrite <- WD, ED. reflexivity. }
    assert (B : on_bus (o ++ Handled e :: to_device out) = bus_writes (snd (daemon_run scan (daemon_new packet) (handled_in o ++ [e])))).
    { rewrite on_bus_app, device_bus, daemon_run_app, bus_writes_app, <- (w_bus _ _ _ _ _ W). f_equal.
      unfold bus_writes. cbn [flat_map]. fold (dafter scan packet (handled_in o)). rewrite <- WD, ED. cbn [snd]. rewrite app_nil_r. reflexivity. }
    destruct e as [x|data|x chunk u].
    + assert (EO : out = []) by (injection ED as _ E; symmetry; exact E). subst out.
      constructor; rewrite ?handled_app, ?device_events; [exact D|exact B| | | |]; cbn [fl_work fl_stored writes flat_map map].
      * intros fd. rewrite got_app, due_snoc. cbn [fold_left to_device flat_map got1]. unfold put_bytes.
        destruct (x =? fd) eqn:X.
        -- replace (fd =? x) with true by lia. reflexivity.
        -- replace (fd =? x) with false by lia. cbn [left_for filter flat_map]. rewrite app_nil_r. apply S.
      * constructor.
      * intros fd. unfold put_bytes. destruct (fd =? x); [unfold zlen; cbn [length]; lia|apply (w_room _ _ _ _ _ W)].
      * intros H. contradiction.
    + assert (EO : out = map (fun fd => ToClient fd (lower_line data)) (live (dm_slots (fl_daemon f)))).
      { rewrite <- (bus_step scan (fl_daemon f) data (proj1 P2)), ED. reflexivity. }
      assert (ND : NoDup (live (dm_slots (fl_daemon f)))).
      { rewrite WD. apply (Permutation_NoDup (Permutation_sym (i_reg _ _ _ I))). exact (i_nodup _ _ _ I). }
      constructor; rewrite ?handled_app, ?device_events; [exact D|exact B| | | |]; cbn [fl_work fl_stored]; rewrite ?EO, ?writes_map.
      * intros fd. rewrite got_app, due_snoc. cbn [fold_left got1]. rewrite device_got, left_all by exact ND.
        rewrite (existsb_perm _ (registered (handled_in o))) by (rewrite WD; exact (i_reg _ _ _ I)).
        destruct (existsb _ _); [rewrite app_assoc, S; reflexivity|rewrite app_nil_r; apply S].
      * rewrite map_map. cbn [fst]. rewrite map_id. exact ND.
      * apply (w_room _ _ _ _ _ W).
      * intros _. exists (handled_in o), data. split; [reflexivity|]. split; [apply P2|]. split; [apply P2|]. split.
        -- rewrite map_map. cbn [fst]. rewrite map_id. intros y Y. rewrite WD in Y. exact (Permutation_in _ (i_reg _ _ _ I) Y).
        -- apply Forall_forall. intros y Y. apply in_map_iff in Y. destruct Y as (z & <- & _). cbn [snd].
           split; [unfold lower_line; intros H; apply app_eq_nil in H; destruct H; discriminate|exists []; reflexivity].
    + assert (EO : writes out = []).
      { destruct chunk as [|c chunk].
        - change (daemon_step scan (fl_daemon f) (DClient x [] u)) with
            (mkdaemon (dm_packet (fl_daemon f)) (free_slot x (dm_slots (fl_daemon f)))
               (filter (fun y => negb (y =? x)) (dm_active (fl_daemon f))), @nil dout) in ED.
          injection ED as _ E. subst out. reflexivity.
        - rewrite client_step in ED by discriminate. injection ED as _ E. subst out. reflexivity. }
      constructor; rewrite ?handled_app, ?device_events; [exact D|exact B| | | |]; cbn [fl_work fl_stored]; rewrite ?EO.
      * intros fd. rewrite got_app, due_snoc. cbn [fold_left got1]. rewrite device_got. cbn [left_for filter flat_map].
        rewrite app_nil_r. apply S.
      * constructor.
      * apply (w_room _ _ _ _ _ W).
      * intros H. contradiction.
  - destruct (fl_work f) as [|[x t] w] eqn:E0; [intros _; cbn [fst snd]; rewrite app_nil_r; exact W|].
    destruct ((0 <? n) && (n <=? zlen t) && (zlen (fl_stored f x) + n <=? cap x)) eqn:C;
      [|intros _; cbn [fst snd]; rewrite app_nil_r; exact W].
    intros _. cbn [fst snd]. rewrite app_nil_r.
    assert (R : 0 < n <= zlen t) by lia.
    pose proof (w_text _ _ _ _ _ W) as T. rewrite E0 in T. specialize (T ltac:(discriminate)).
    destruct T as (h & data & Eh & Od & Ld & In' & F).
    pose proof (w_nodup _ _ _ _ _ W) as ND. rewrite E0 in ND.
    constructor; cbn [fl_daemon fl_work fl_stored].
    + exact (w_daemon _ _ _ _ _ W).
    + exact (w_bus _ _ _ _ _ W).
    + intros fd. rewrite <- (w_sum _ _ _ _ _ W), E0. f_equal. unfold put_bytes.
      destruct (fd =? x) eqn:X.
      * assert (fd = x) by lia. subst fd. rewrite <- app_assoc. f_equal.
        rewrite same_left by lia. rewrite Z.eqb_refl. reflexivity.
      * f_equal. rewrite left_cons. replace (x =? fd) with false by lia.
        destruct (n =? zlen t); [reflexivity|]. rewrite left_cons. replace (x =? fd) with false by lia. reflexivity.
    + destruct (n =? zlen t); [inversion ND; assumption|exact ND].
    + intros fd. unfold put_bytes. destruct (fd =? x) eqn:X; [|apply (w_room _ _ _ _ _ W)].
      assert (fd = x) by lia. subst fd. rewrite zlen_app, zlen_ztake by lia. lia.
    + intros N. exists h, data. split; [exact Eh|]. split; [exact Od|]. split; [exact Ld|].
      inversion F as [|y l [F1 F2] F3]. subst. cbn [snd] in F1, F2.
      destruct (n =? zlen t) eqn:E.
      * split; [intros y Y; apply In'; right; exact Y|exact F3].
      * split; [exact In'|]. constructor; [|exact F3]. cbn [snd]. split.
        -- intros H. apply (f_equal (@zlen Z)) in H. rewrite zlen_zdrop in H by lia. pose proof (@zlen_nil Z). lia.
        -- destruct F2 as [c F2]. exists (c ++ ztake n t). rewrite F2, <- app_assoc. f_equal. symmetry. apply ztake_zdrop.
  - replace (match fl_work f with [] => _ | _ => _ end) with
      (if (0 <? n) && (n <=? zlen (fl_stored f fd)) then
        (mkflow (fl_daemon f) (fl_work f) (put_bytes fd (zdrop n (fl_stored f fd)) (fl_stored f)),
         [ClientGot fd (ztake n (fl_stored f fd))]) else (f, [])) by (destruct (fl_work f); reflexivity).
    destruct ((0 <? n) && (n <=? zlen (fl_stored f fd))) eqn:C; [|intros _; cbn [fst snd]; rewrite app_nil_r; exact W].
    intros _. cbn [fst snd].
    assert (H : handled_in (o ++ [ClientGot fd (ztake n (fl_stored f fd))]) = handled_in o) by (rewrite handled_app; apply app_nil_r).
    constructor; rewrite ?H; cbn [fl_daemon fl_work fl_stored].
    + exact (w_daemon _ _ _ _ _ W).
    + rewrite on_bus_app. cbn [on_bus flat_map app]. rewrite app_nil_r. exact (w_bus _ _ _ _ _ W).
    + intros x. rewrite <- (w_sum _ _ _ _ _ W), got_app. cbn [fold_left got1]. unfold put_bytes.
      destruct (fd =? x) eqn:X.
      * assert (x = fd) by lia. subst x. rewrite Z.eqb_refl, <- app_assoc. f_equal. rewrite app_assoc. f_equal.
        apply ztake_zdrop.
      * replace (x =? fd) with false by lia. reflexivity.
    + exact (w_nodup _ _ _ _ _ W).
    + intros x. unfold put_bytes. destruct (x =? fd) eqn:X; [|apply (w_room _ _ _ _ _ W)].
      assert (x = fd) by lia. subst x. pose proof (w_room _ _ _ _ _ W fd). rewrite zlen_zdrop by lia. pose proof (zlen_nonneg (fl_stored f fd)). lia.
    + exact (w_text _ _ _ _ _ W).
Qed.

Lemma possible_prefix a : forall conn b, possible conn (a ++ b) -> possible conn a.
Proof. induction a as [|x a IH]; intros conn b P; [exact Logic.I|]. destruct P as [P1 P2]. split; [exact P1|exact (IH _ _ P2)]. Qed.

Lemma flows_run cap scan packet : c_scanner scan -> octets packet -> zlen packet = 56 ->
  forall evs f o, flows cap scan packet f o ->
  possible [] (handled_in (o ++ snd (flow_run cap scan f evs))) ->
  flows cap scan packet (fst (flow_run cap scan f evs)) (o ++ snd (flow_run cap scan f evs)).
Proof.
  intros CS O L. induction evs as [|ev evs IH]; intros f o W P.
  - cbn [flow_run fst snd]. rewrite app_nil_r. exact W.
  - cbn [flow_run] in *. pose proof (flows_step cap scan packet f o ev CS O L W) as S.
    destruct (flow_step cap scan f ev) as [f1 o1]. cbn [fst snd] in S.
    specialize (IH f1 (o ++ o1)). destruct (flow_run cap scan f1 evs) as [f2 o2]. cbn [fst snd] in *.
    rewrite app_assoc in *. apply IH; [|exact P]. apply S. rewrite handled_app in P. exact (possible_prefix _ _ _ P).
Qed.
