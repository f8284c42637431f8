(** Proofs about the rounds of the daemon's loop (C86). *)
From Coq Require Import ZArith List Bool Lia ZifyBool Sorted.
From Verif Require Import Py Base Daemon DaemonSelect SpecMsg SpecDaemon SpecSelect DaemonProofs.
Import ListNotations.
Open Scope Z_scope.

Fixpoint range (i : Z) (n : nat) : list Z := match n with O => [] | S n' => i :: range (i + 1) n' end.
Lemma range_in n : forall i x, In x (range i n) <-> i <= x < i + Z.of_nat n.
Proof. induction n as [|n IH]; intros i x; cbn [range In]; [lia|]. rewrite IH. lia. Qed.
Lemma range_sorted n : forall i, StronglySorted Z.lt (range i n).
Proof. induction n as [|n IH]; intros i; cbn [range]; constructor; [apply IH|]. apply Forall_forall. intros x H. apply range_in in H. lia. Qed.
Lemma filter_sorted f l : StronglySorted Z.lt l -> StronglySorted Z.lt (filter f l).
Proof.
  induction 1 as [|x l S IH F]; [constructor|]. cbn. destruct (f x); [|exact IH]. constructor; [exact IH|].
  rewrite Forall_forall in *. intros y H. apply filter_In in H. apply F, H.
Qed.
Lemma sorted_unique : forall a b, StronglySorted Z.lt a -> StronglySorted Z.lt b -> (forall x : Z, In x a <-> In x b) -> a = b.
Proof.
  induction a as [|x a IH]; intros b Sa Sb E.
  - destruct b as [|y b]; [reflexivity|]. exfalso. apply (E y). left. reflexivity.
  - destruct b as [|y b]; [exfalso; apply (E x); left; reflexivity|].
    inversion Sa as [|? ? Sa' Fa]; inversion Sb as [|? ? Sb' Fb]; subst. rewrite Forall_forall in Fa, Fb.
    assert (x = y) as <-.
    { destruct (proj1 (E x) (or_introl eq_refl)) as [H|H]; [auto|]. destruct (proj2 (E y) (or_introl eq_refl)) as [K|K]; [auto|].
      apply Fb in H. apply Fa in K. lia. }
    f_equal. apply IH; try assumption. intros z. split; intros H.
    + destruct (proj1 (E z) (or_intror H)) as [<-|K]; [|exact K]. apply Fa in H. lia.
    + destruct (proj2 (E z) (or_intror H)) as [<-|K]; [|exact K]. apply Fb in H. lia.
Qed.

Definition visited (r : round) : list Z := filter (fun i => is_set i (rd_ready r)) (range 0 (Z.to_nat FD_SETSIZE)).
Lemma is_set_spec i l : is_set i l = true <-> In i l.
Proof. unfold is_set. rewrite existsb_exists. split; [intros (x & H & E)|intros H; exists i]; [apply Z.eqb_eq in E; subst; exact H|split; [exact H|lia]]. Qed.
Lemma visited_in r i : In i (visited r) <-> In i (rd_ready r) /\ 0 <= i < 1024.
Proof. unfold visited. rewrite filter_In, range_in, is_set_spec. unfold FD_SETSIZE. rewrite Z2Nat.id by lia. tauto. Qed.

Lemma visit_run scan r : forall n i d,
  visit scan r n i d = daemon_run scan d (map (case_of r) (filter (fun i => is_set i (rd_ready r)) (range i n))).
Proof.
  induction n as [|n IH]; intros i d; [reflexivity|]. cbn [visit range filter]. destruct (is_set i (rd_ready r)); [|apply IH].
  cbn [map daemon_run]. destruct (daemon_step scan d (case_of r i)) as [d1 o]. rewrite IH. reflexivity.
Qed.
Lemma run_app scan : forall es1 es2 d, daemon_run scan d (es1 ++ es2) =
  (fst (daemon_run scan (fst (daemon_run scan d es1)) es2),
   snd (daemon_run scan d es1) ++ snd (daemon_run scan (fst (daemon_run scan d es1)) es2)).
Proof.
  induction es1 as [|e es1 IH]; intros es2 d; [cbn; apply surjective_pairing|]. cbn [app daemon_run].
  destruct (daemon_step scan d e) as [d1 o]. rewrite IH. destruct (daemon_run scan d1 es1) as [d2 os]. reflexivity.
Qed.
Lemma rounds_cons scan d r rs : rounds scan d (r :: rs) =
  (fst (rounds scan (fst (daemon_run scan d (map (case_of r) (visited r)))) rs),
   snd (daemon_run scan d (map (case_of r) (visited r))) ++ snd (rounds scan (fst (daemon_run scan d (map (case_of r) (visited r)))) rs)).
Proof.
  cbn [rounds]. rewrite visit_run. unfold visited. set (l := filter _ _). destruct (daemon_run scan d (map (case_of r) l)) as [d1 os]. cbn [fst snd].
  destruct (rounds scan d1 rs). reflexivity.
Qed.

Lemma case_spec r i e :
  ((i = 3 -> e = DAccept (rd_accept r)) /\ (i = 4 -> e = DBus (rd_bus r)) /\
   (i <> 3 -> i <> 4 -> e = DClient i (rd_text r i) (rd_around r i))) <-> e = case_of r i.
Proof.
  unfold case_of, sock, fd_cemi. destruct (Z.eqb_spec i 3); [|destruct (Z.eqb_spec i 4)]; split; intros H; try tauto;
  repeat split; intros; try exact H; lia.
Qed.
Lemma cases_spec r fds es : Forall2 (fun i e =>
    (i = 3 -> e = DAccept (rd_accept r)) /\ (i = 4 -> e = DBus (rd_bus r)) /\
    (i <> 3 -> i <> 4 -> e = DClient i (rd_text r i) (rd_around r i))) fds es <-> es = map (case_of r) fds.
Proof.
  split.
  - induction 1 as [|i e fds es H _ IH]; [reflexivity|]. cbn. apply case_spec in H. congruence.
  - intros ->. induction fds as [|i fds IH]; [constructor|]. cbn. constructor; [apply case_spec; reflexivity|exact IH].
Qed.
Lemma handled_visited r conn es : round_ok conn r -> Forall (fun fd => 0 < fd) conn -> (handled r es <-> es = map (case_of r) (visited r)).
Proof.
  intros (I & _) P.
  assert (Q : forall i, In i (rd_ready r) -> 0 <= i).
  { intros i H. apply I in H. destruct H as [<-|[<-|H]]; try lia. rewrite Forall_forall in P. apply P in H. lia. }
  split.
  - intros (fds & S & E & F). apply cases_spec in F. rewrite F. f_equal. apply sorted_unique; [exact S|apply filter_sorted, range_sorted|].
    intros i. rewrite E, visited_in. split; intros [H1 H2]; (split; [exact H1|]); specialize (Q i H1); lia.
  - intros ->. exists (visited r). split; [apply filter_sorted, range_sorted|]. split; [|apply cases_spec; reflexivity].
    intros i. rewrite visited_in. split; intros [H1 H2]; (split; [exact H1|]); specialize (Q i H1); lia.
Qed.

Lemma possible_app es1 : forall conn es2, possible conn (es1 ++ es2) <-> possible conn es1 /\ possible (fold_left connect1 es1 conn) es2.
Proof. induction es1 as [|e es1 IH]; intros conn es2; cbn [app possible fold_left]; [tauto|]. rewrite IH. tauto. Qed.
(** The events of one round are possible. *)
Lemma clients_possible r conn0 : round_ok conn0 r -> forall fds conn, StronglySorted Z.lt fds -> Forall (fun i => 4 < i) fds ->
  incl fds conn -> possible conn (map (case_of r) fds).
Proof.
  intros (_ & _ & _ & _ & T). induction fds as [|i fds IH]; intros conn S P N; [exact I|]. cbn [map possible].
  inversion S as [|? ? S' F]; inversion P as [|? ? P1 P2]; subst.
  assert (case_of r i = DClient i (rd_text r i) (rd_around r i)) as Ec.
  { symmetry. apply (proj1 (case_spec r i _)). repeat split; intros; lia || reflexivity. }
  rewrite Ec. split.
  - cbn. split; [apply N; left; reflexivity|]. apply T.
  - apply IH; try assumption. intros x Hx. assert (In x conn) as Hc by (apply N; right; exact Hx).
    cbn. destruct (rd_text r i); cbn; [|exact Hc]. apply without_in. split; [exact Hc|].
    rewrite Forall_forall in F. apply F in Hx. lia.
Qed.
Lemma round_possible r conn : round_ok conn r -> Forall (fun fd => 4 < fd) conn ->
  possible conn (map (case_of r) (visited r)).
Proof.
  intros R P. pose proof R as (N & A & O & L & T).
  assert (S : StronglySorted Z.lt (visited r)) by apply filter_sorted, range_sorted.
  assert (Q : forall i, In i (visited r) -> i = 3 \/ i = 4 \/ In i conn).
  { intros i H. apply visited_in in H. destruct H as [H _]. apply N in H. destruct H as [H|[H|H]]; auto. }
  assert (B : forall i, In i (visited r) -> In i (rd_ready r)) by (intros i H; apply visited_in in H; tauto).
  rewrite Forall_forall in P.
  assert (X : forall fds c, StronglySorted Z.lt fds -> (forall i, In i fds -> i = 4 \/ In i conn) -> incl conn c ->
    possible c (map (case_of r) fds)).
  { intros fds c S1 Q1 C. destruct fds as [|i fds]; [exact I|]. inversion S1 as [|? ? S2 F]; subst. rewrite Forall_forall in F.
    assert (K : possible c (map (case_of r) fds)).
    { apply (clients_possible r conn R); [exact S2| |].
      - apply Forall_forall. intros x Hx. specialize (F x Hx). destruct (Q1 i (or_introl eq_refl)) as [->|H]; [lia|]. apply P in H. lia.
      - intros x Hx. destruct (Q1 x (or_intror Hx)) as [->|H]; [|apply C; exact H].
        specialize (F 4 Hx). destruct (Q1 i (or_introl eq_refl)) as [->|H]; [lia|]. apply P in H. lia. }
    destruct (Q1 i (or_introl eq_refl)) as [->|H].
    - cbn [map possible]. change (case_of r 4) with (DBus (rd_bus r)). split; [cbn; auto|]. cbn. exact K.
    - apply (clients_possible r conn R); [exact S1| |].
      + constructor; [apply P; exact H|]. apply Forall_forall. intros x Hx. specialize (F x Hx). apply P in H. lia.
      + intros x [<-|Hx]; [apply C; exact H|]. destruct (Q1 x (or_intror Hx)) as [->|Hc]; [|apply C; exact Hc].
        specialize (F 4 Hx). apply P in H. lia. }
  destruct (visited r) as [|i fds] eqn:E; [exact I|]. destruct (Q i (or_introl eq_refl)) as [->|Hi].
  - cbn [map possible]. change (case_of r 3) with (DAccept (rd_accept r)).
    destruct (A (B 3 (or_introl eq_refl))) as (G & Nf & _).
    split; [cbn; split; [lia|exact Nf]|]. cbn [connect1]. inversion S as [|? ? S2 F]; subst. rewrite Forall_forall in F.
    apply X; [exact S2| |intros x Hx; right; exact Hx].
    intros x Hx. destruct (Q x (or_intror Hx)) as [->|H]; [specialize (F 3 Hx); lia|exact H].
  - apply X; [exact S| |apply incl_refl]. intros x Hx. destruct Hx as [<-|Hx]; [exact Hi|].
    destruct (Q x (or_intror Hx)) as [->|H]; [|exact H]. inversion S as [|? ? S2 F]; subst. rewrite Forall_forall in F.
    specialize (F 3 Hx). destruct Hi as [->|H]; [lia|]. apply P in H. lia.
Qed.

(** Descriptors of a round. *)
Lemma connect_in conn e x : In x (connect1 conn e) -> In x conn \/ e = DAccept x.
Proof.
  destruct e as [fd|data|fd chunk u]; cbn; [intros [->|H]; auto|auto|].
  destruct chunk; cbn; [|auto]. intros H. apply without_in in H. tauto.
Qed.
Lemma connect_all es : forall conn x, In x (fold_left connect1 es conn) -> In x conn \/ In (DAccept x) es.
Proof.
  induction es as [|e es IH]; intros conn x H; [auto|]. cbn [fold_left] in H. apply IH in H. destruct H as [H|H]; [|right; right; exact H].
  apply connect_in in H. destruct H as [H| ->]; [auto|right; left; reflexivity].
Qed.
Lemma visited_accept r conn x : round_ok conn r -> In (DAccept x) (map (case_of r) (visited r)) -> lowest_free conn x.
Proof.
  intros (N & A & _) H. apply in_map_iff in H. destruct H as (i & E & Hi). unfold case_of, sock, fd_cemi in E.
  destruct (i =? 3) eqn:E3; [|destruct (i =? 4); discriminate E]. apply Z.eqb_eq in E3. rewrite E3 in Hi. injection E as <-. apply A.
  apply visited_in in Hi. tauto.
Qed.
Lemma round_above r conn : round_ok conn r -> Forall (fun fd => 4 < fd) conn ->
  Forall (fun fd => 4 < fd) (fold_left connect1 (map (case_of r) (visited r)) conn).
Proof.
  intros R P. apply Forall_forall. intros x H. apply connect_all in H. rewrite Forall_forall in P.
  destruct H as [H|H]; [apply P; exact H|]. destruct (visited_accept r conn x R H) as [G _]. lia.
Qed.
Lemma positive conn : Forall (fun fd => 4 < fd) conn -> Forall (fun fd => 0 < fd) conn.
Proof. apply Forall_impl. intros; lia. Qed.
Lemma history_run scan conn rs es : history conn rs es -> Forall (fun fd => 4 < fd) conn -> forall d,
  rounds scan d rs = daemon_run scan d es /\ possible conn es /\ Forall (fun fd => 4 < fd) (fold_left connect1 es conn).
Proof.
  induction 1 as [conn|conn r es rs es' R Hd _ IH]; intros P d; [repeat split; assumption|].
  apply (handled_visited r conn es R (positive conn P)) in Hd. subst es.
  specialize (IH (round_above r conn R P)).
  split; [|split].
  - rewrite rounds_cons, run_app, (proj1 (IH _)). reflexivity.
  - apply possible_app. split; [apply round_possible; assumption|]. exact (proj1 (proj2 (IH d))).
  - rewrite fold_left_app. exact (proj2 (proj2 (IH d))).
Qed.

(** The bound. *)
Lemma lowest_bound conn fd : lowest_free conn fd -> fd <= 5 + zlen conn.
Proof.
  intros (G & _ & A).
  assert (I : incl (range 5 (Z.to_nat (fd - 5))) conn) by (intros x H; apply range_in in H; apply A; lia).
  assert (ND : forall n i, NoDup (range i n)).
  { induction n as [|n IH]; intros i; cbn [range]; constructor; [|apply IH]. rewrite range_in. lia. }
  assert (Len : forall n i, length (range i n) = n) by (induction n as [|n IH]; intros i; cbn; [|rewrite IH]; reflexivity).
  pose proof (NoDup_incl_length (ND (Z.to_nat (fd - 5)) 5) I) as H. rewrite Len in H. unfold zlen. lia.
Qed.
Lemma accept_first r conn x : round_ok conn r -> Forall (fun fd => 4 < fd) conn ->
  In (DAccept x) (map (case_of r) (visited r)) -> exists rest, map (case_of r) (visited r) = DAccept x :: rest.
Proof.
  intros R P H. pose proof R as (N & _). apply in_map_iff in H. destruct H as (i & E & Hi). unfold case_of, sock, fd_cemi in E.
  destruct (i =? 3) eqn:E3; [|destruct (i =? 4); discriminate E]. apply Z.eqb_eq in E3. rewrite E3 in Hi. injection E as <-.
  assert (S : StronglySorted Z.lt (visited r)) by apply filter_sorted, range_sorted.
  assert (Q : forall i, In i (visited r) -> 3 <= i).
  { intros j H. apply visited_in in H. destruct H as [H _]. apply N in H. destruct H as [<-|[<-|H]]; try lia.
    rewrite Forall_forall in P. apply P in H. lia. }
  destruct (visited r) as [|j fds]; [destruct Hi|]. inversion S as [|? ? _ F]; subst. rewrite Forall_forall in F.
  assert (j = 3) as ->.
  { destruct Hi as [->|Hi]; [reflexivity|]. specialize (F 3 Hi). specialize (Q j (or_introl eq_refl)). lia. }
  exists (map (case_of r) fds). reflexivity.
Qed.
Lemma history_bound n conn rs es : history conn rs es -> Forall (fun fd => 4 < fd <= 4 + n) conn ->
  (forall es1 es2, es = es1 ++ es2 -> zlen (fold_left connect1 es1 conn) <= n) ->
  Forall (fun fd => 4 < fd <= 4 + n) (fold_left connect1 es conn).
Proof.
  induction 1 as [conn|conn r es rs es' R Hd _ IH]; intros P M; [exact P|].
  assert (P4 : Forall (fun fd => 4 < fd) conn) by (revert P; apply Forall_impl; intros; lia).
  apply (handled_visited r conn es R (positive conn P4)) in Hd. subst es. rewrite fold_left_app. apply IH.
  - apply Forall_forall. intros x H. apply connect_all in H. destruct H as [H|H]; [rewrite Forall_forall in P; apply P; exact H|].
    destruct (accept_first r conn x R P4 H) as [rest E]. pose proof (visited_accept r conn x R H) as L.
    pose proof (lowest_bound conn x L) as B. specialize (M [DAccept x] (rest ++ es')). rewrite E in M. specialize (M eq_refl).
    cbn [fold_left connect1] in M. rewrite zlen_cons in M. destruct L as [G _]. lia.
  - intros es1 es2 ->. specialize (M (map (case_of r) (visited r) ++ es1) es2). rewrite <- app_assoc in M. specialize (M eq_refl).
    rewrite fold_left_app in M. exact M.
Qed.

(** A crowd: [n] clients one after the other. *)
Definition arrival (k : Z) : round := mkround [3] k [] (fun _ => []) (fun _ => mkaround 0 []).
Lemma crowd n : forall k conn, 5 <= k -> (forall x, In x conn <-> 5 <= x < k) ->
  history conn (map arrival (range k n)) (map DAccept (range k n)) /\
  forall x, In x (fold_left connect1 (map DAccept (range k n)) conn) <-> 5 <= x < k + Z.of_nat n.
Proof.
  induction n as [|n IH]; intros k conn K C.
  - cbn [range map fold_left]. split; [constructor|]. intros x. rewrite C. lia.
  - cbn [range map fold_left connect1].
    assert (C' : forall x, In x (k :: conn) <-> 5 <= x < k + 1) by (intros x; cbn [In]; rewrite C; lia).
    destruct (IH (k + 1) (k :: conn) ltac:(lia) C') as [H1 H2]. split.
    + apply (history_cons conn (arrival k) [DAccept k]).
      * split; [intros x [<-|[]]; left; reflexivity|]. split.
        { intros _. split; [exact K|]. cbn [rd_accept arrival]. rewrite C. split; [lia|]. intros x Hx. apply C. lia. }
        split; [constructor|]. split; [cbn; lia|]. intros i. cbn. unfold is_octet. repeat split; try lia; constructor.
      * exists [3]. split; [repeat constructor|]. split; [intros i; cbn; lia|]. constructor; [|constructor].
        repeat split; intros; try lia.
      * exact H1.
    + intros x. rewrite H2. lia.
Qed.
