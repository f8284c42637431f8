(** Proofs about calls that are given the table's own list (C75). *)
From Coq Require Import String ZArith NArith List Bool Lia Permutation.
From Verif Require Import Py Address Dpt Tables Mutate Base SpecTables TablesProofs AssocProofs SpecShared SharedProofs SpecMutate.
Import ListNotations.
Open Scope Z_scope.

Lemma nth_error_middle {A} (l : list A) x r : nth_error (l ++ x :: r) (length l) = Some x.
Proof. rewrite nth_error_app2 by lia. rewrite Nat.sub_diag. reflexivity. Qed.

Lemma remove_present x l : In (a_val x) (vals l) -> exists l', remove_first x l = Some l' /\
  forall g, occ g (vals l') = occ g (vals l) - (if g =? a_val x then 1 else 0).
Proof.
  intros H. apply remove_first_In in H. destruct (remove_first x l) as [l'|] eqn:E; [|congruence].
  exists l'. split; [reflexivity|]. apply remove_first_Some in E. destruct E as (b & Eb & P). intros g.
  apply (Permutation_map a_val) in P. apply (occ_perm g) in P. cbn [map] in P. rewrite occ_cons, Eb in P.
  unfold vals. lia.
Qed.
Lemma strict_drop l x r : strictly_ascending (vals (l ++ x :: r)) -> strictly_ascending (vals (l ++ r)).
Proof.
  unfold vals. rewrite !map_app. cbn [map]. rewrite !strict_app, strict_cons.
  intros (H1 & [H2 H3] & H4). split; [exact H1|]. split; [exact H3|].
  intros a b Ha Hb. apply H4; [exact Ha|right; exact Hb].
Qed.
Lemma remove_middle t l x r : at_addrs t = l ++ x :: r -> strictly_ascending (vals (at_addrs t)) ->
  at_remove x t = (Ok tt, mkat (at_max t) (at_ia t) (l ++ r)).
Proof.
  intros E S. unfold at_remove. rewrite E in *.
  rewrite (remove_first_middle x x l r eq_refl).
  - rewrite sort_sorted; [reflexivity|]. eapply strict_drop, S.
  - intros b Hb. unfold vals in S. rewrite map_app in S. apply strict_app in S. destruct S as (_ & _ & S).
    specialize (S (a_val b) (a_val x) (in_map _ _ _ Hb) (or_introl eq_refl)). lia.
Qed.

Lemma two_step (P : list address -> Prop) : P [] -> (forall x, P [x]) -> (forall x y r, P r -> P (x :: y :: r)) ->
  forall l, P l.
Proof.
  intros H0 H1 H2. assert (H : forall l, P l /\ forall x, P (x :: l)).
  { induction l as [|x l [IH1 IH2]]; split; auto. }
  intros l. apply H.
Qed.

Lemma live_loop a r : forall fuel skipped t d,
  (length r <= fuel)%nat -> at_addrs t = skipped ++ r -> strictly_ascending (vals (at_addrs t)) ->
  ~ In (a_val (at_ia t)) (vals (at_addrs t)) -> NoDup (keys d) ->
  (forall x, In x r -> In (a_val x) (vals (entry d (asap_value a)))) ->
  exists d', disassoc_live_loop fuel a (length skipped) t d = (Ok tt, (mkat (at_max t) (at_ia t) (skipped ++ seconds r), d')) /\
    NoDup (keys d') /\
    (forall v, v <> asap_value a -> entry d' v = entry d v) /\
    forall g, occ g (vals (entry d' (asap_value a))) = occ g (vals (entry d (asap_value a))) - occ g (vals (firsts r)).
Proof.
  assert (STEP : forall x r fuel skipped t d,
    at_addrs t = skipped ++ x :: r -> strictly_ascending (vals (at_addrs t)) ->
    ~ In (a_val (at_ia t)) (vals (at_addrs t)) -> NoDup (keys d) ->
    In (a_val x) (vals (entry d (asap_value a))) ->
    exists d', disassoc_live_loop (S fuel) a (length skipped) t d =
      disassoc_live_loop fuel a (S (length skipped)) (mkat (at_max t) (at_ia t) (skipped ++ r)) d' /\
      NoDup (keys d') /\ (forall v, v <> asap_value a -> entry d' v = entry d v) /\
      forall g, occ g (vals (entry d' (asap_value a))) = occ g (vals (entry d (asap_value a))) - (if g =? a_val x then 1 else 0)).
  { intros x q fuel skipped t d E S NI K P.
    assert (Hx : addr_eqb x (at_ia t) = false).
    { apply addr_eqb_nval. intros F. apply NI. rewrite <- F, E. unfold vals. rewrite map_app.
      apply in_or_app. right. left. reflexivity. }
    pose proof (remove_present x _ P) as (l' & R & C). unfold entry in R.
    rewrite (dget_value d _ a) in R by reflexivity.
    assert (D : exists l0, dget asap_eqb a d = Some l0 /\ remove_first x l0 = Some l').
    { destruct (dget asap_eqb a d) as [l0|]; [eauto|]. discriminate R. }
    destruct D as (l0 & D & R0).
    exists (dset asap_eqb a l' d). split.
    - cbn [disassoc_live_loop]. rewrite E at 1. rewrite nth_error_middle, Hx. cbn [negb].
      rewrite (remove_middle t skipped x q E S), D, R0. reflexivity.
    - split; [rewrite keys_dset by congruence; exact K|]. split.
      + intros v Hv. rewrite entry_dset. destruct (Z.eqb_spec (asap_value a) v); [congruence|reflexivity].
      + intros g. rewrite entry_dset, Z.eqb_refl. apply C. }
  induction r as [|x|x y r IH] using two_step; intros fuel skipped t d F E S NI K P.
  - exists d. split.
    + destruct t as [m i l]. cbn [at_addrs at_max at_ia] in *. subst l. cbn [seconds].
      destruct fuel as [|n]; [reflexivity|]. cbn [disassoc_live_loop at_addrs].
      rewrite (proj2 (nth_error_None _ _)); [reflexivity|]. rewrite app_nil_r. lia.
    + split; [exact K|]. split; [reflexivity|]. intros g. cbn. lia.
  - cbn [length] in F. destruct fuel as [|n]; [lia|].
    destruct (STEP x [] n skipped t d E S NI K (P x (or_introl eq_refl))) as (d' & D1 & D2 & D3 & D4).
    exists d'. split.
    + rewrite D1. destruct n as [|n]; [reflexivity|]. cbn [disassoc_live_loop at_addrs].
      rewrite (proj2 (nth_error_None _ _)); [reflexivity|]. rewrite app_nil_r. lia.
    + split; [exact D2|]. split; [exact D3|]. intros g. rewrite D4. cbn [firsts vals map].
      rewrite occ_cons. cbn. lia.
  - cbn [length] in F. destruct fuel as [|n]; [lia|].
    destruct (STEP x (y :: r) n skipped t d E S NI K (P x (or_introl eq_refl))) as (d1 & D1 & D2 & D3 & D4).
    set (t1 := mkat (at_max t) (at_ia t) (skipped ++ y :: r)) in *.
    assert (E1 : at_addrs t1 = (skipped ++ [y]) ++ r) by (cbn; rewrite <- app_assoc; reflexivity).
    assert (S1 : strictly_ascending (vals (at_addrs t1))) by (cbn; rewrite E in S; eapply strict_drop, S).
    assert (IN1 : forall v, In v (vals (at_addrs t1)) -> In v (vals (at_addrs t))).
    { intros v Hv. rewrite E. cbn in Hv. unfold vals in *. rewrite map_app in *. rewrite in_app_iff in *.
      cbn [map In] in *. tauto. }
    assert (NI1 : ~ In (a_val (at_ia t1)) (vals (at_addrs t1))) by (intros H; apply NI, IN1, H).
    assert (P1 : forall z, In z r -> In (a_val z) (vals (entry d1 (asap_value a)))).
    { intros z Hz. apply occ_In. rewrite D4.
      assert (N0 : (a_val z =? a_val x) = false).
      { apply Z.eqb_neq. rewrite E in S. unfold vals in S. rewrite map_app in S. apply strict_app in S.
        destruct S as (_ & S & _). cbn [map] in S. apply strict_cons in S. destruct S as [S _].
        specialize (S (a_val z) (or_intror (in_map _ _ _ Hz))). lia. }
      rewrite N0, Z.sub_0_r. apply occ_In, P. right. right. exact Hz. }
    destruct (IH n (skipped ++ [y]) t1 d1 ltac:(lia) E1 S1 NI1 D2 P1) as (d' & R1 & R2 & R3 & R4).
    rewrite app_length in R1. cbn [length] in R1. rewrite Nat.add_1_r in R1.
    exists d'. split.
    + rewrite D1, R1. cbn [t1 at_max at_ia seconds]. rewrite <- app_assoc. reflexivity.
    + split; [exact R2|]. split.
      * intros v Hv. rewrite R3, D3 by exact Hv. reflexivity.
      * intros g. rewrite R4, D4. cbn [firsts vals map]. unfold vals. cbn [map]. rewrite occ_cons. lia.
Qed.

Lemma seconds_In {A} (l : list A) : forall x, In x (seconds l) -> In x l.
Proof.
  assert (H : forall l : list A, (forall x, In x (seconds l) -> In x l) /\
    forall y x, In x (seconds (y :: l)) -> In x (y :: l)).
  { clear l. induction l as [|z l [IH1 IH2]]; split; try (intros; assumption).
    - intros y x. cbn. tauto.
    - exact (IH2 z).
    - intros y x. cbn [seconds]. intros [<-|Hx]; [right; left; reflexivity|]. right. right. apply IH1, Hx. }
  apply H.
Qed.
Lemma firsts_In {A} (l : list A) : forall x, In x (firsts l) -> In x l.
Proof.
  assert (H : forall l : list A, (forall x, In x (firsts l) -> In x l) /\
    forall y x, In x (firsts (y :: l)) -> In x (y :: l)).
  { clear l. induction l as [|z l [IH1 IH2]]; split; try (intros; assumption).
    - exact (IH2 z).
    - intros y x. cbn [firsts]. intros [<-|Hx]; [left; reflexivity|]. right. right. apply IH1, Hx. }
  apply H.
Qed.
Lemma seconds_firsts l : strictly_ascending (vals l) -> forall x y, In x (firsts l) -> In y (seconds l) -> a_val x <> a_val y.
Proof.
  induction l as [|z|z w r IH] using two_step; intros S x y Hx Hy; try (destruct Hy; fail).
  unfold vals in S. cbn [map] in S. apply strict_cons in S. destruct S as [S1 S]. pose proof S as S0.
  apply strict_cons in S. destruct S as [S2 S3]. cbn [firsts seconds] in *.
  destruct Hx as [<-|Hx], Hy as [<-|Hy].
  - specialize (S1 _ (or_introl eq_refl)). lia.
  - apply seconds_In in Hy. specialize (S1 _ (or_intror (in_map _ _ _ Hy))). lia.
  - apply firsts_In in Hx. specialize (S2 _ (in_map _ _ _ Hx)). lia.
  - exact (IH S3 x y Hx Hy).
Qed.

Lemma live_disassociate t l h s a : built t l h s -> strictly_ascending (vals (at_addrs (as_table s))) ->
  ~ In (a_val (at_ia (as_table s))) (vals (at_addrs (as_table s))) ->
  (forall x, In x (at_addrs (as_table s)) -> 0 < balance t l h (asap_value a) (a_val x)) ->
  exists s', disassociate_live a s = (Ok tt, s') /\
    at_addrs (as_table s') = seconds (at_addrs (as_table s)) /\
    forall x, In x (seconds (at_addrs (as_table s))) ->
      exists L, as_get_asaps_from_address s' x = Ok L /\
        forall v, occ v (map asap_value L) = balance t l h v (a_val x).
Proof.
  intros B S NI P. destruct (built_counts t l h s B) as [I C].
  assert (P1 : forall x, In x (at_addrs (as_table s)) -> In (a_val x) (vals (entry (as_addresses s) (asap_value a)))).
  { intros x Hx. apply occ_In. rewrite C. apply P, Hx. }
  destruct (live_loop a (at_addrs (as_table s)) (Datatypes.S (length (at_addrs (as_table s)))) [] (as_table s) (as_addresses s)
    ltac:(lia) eq_refl S NI (inv_keys _ I) P1) as (d' & R1 & R2 & R3 & R4).
  cbn [length app] in R1. unfold disassociate_live. rewrite R1.
  eexists. split; [reflexivity|]. split; [reflexivity|]. intros x Hx.
  set (s' := mkassoc _ _ _). assert (I' : inv s') by (split; [reflexivity|exact R2]).
  assert (K : known (as_table s') (a_val x)) by (left; apply in_map; exact Hx).
  assert (C' : forall v, occ (a_val x) (vals (entry (as_addresses s') v)) = balance t l h v (a_val x)).
  { intros v. cbn [s' as_addresses]. destruct (Z.eq_dec v (asap_value a)) as [->|E].
    - rewrite R4, C. destruct (Z.eq_dec (occ (a_val x) (vals (firsts (at_addrs (as_table s))))) 0) as [->|F]; [lia|].
      exfalso. pose proof (occ_nonneg (a_val x) (vals (firsts (at_addrs (as_table s))))) as G.
      assert (J : 0 < occ (a_val x) (vals (firsts (at_addrs (as_table s))))) by lia.
      apply occ_In in J. apply in_map_iff in J. destruct J as (z & J1 & J2).
      exact (seconds_firsts _ S z x J2 Hx J1).
    - rewrite R3 by exact E. apply C. }
  pose proof (inv_routing s' x I' K) as Q. destruct (as_get_asaps_from_address s' x) as [L|e].
  - destruct Q as [_ Q]. exists L. split; [reflexivity|]. intros v. rewrite Q. apply C'.
  - exfalso. destruct Q as [_ Q]. specialize (Q (asap_value a)). rewrite C' in Q.
    specialize (P x (seconds_In _ x Hx)). lia.
Qed.

(** ** A copy of the list *)

Lemma copy_loop a r : forall t d, at_addrs t = r -> strictly_ascending (vals r) ->
  ~ In (a_val (at_ia t)) (vals r) -> (forall x, In x r -> In (a_val x) (vals (entry d (asap_value a)))) ->
  exists d', disassoc_loop a r t d = (Ok tt, (mkat (at_max t) (at_ia t) [], d')).
Proof.
  induction r as [|x r IH]; intros t d E S NI P.
  - exists d. destruct t as [m i l]. cbn in *. subst l. reflexivity.
  - cbn [disassoc_loop].
    assert (Hx : addr_eqb x (at_ia t) = false) by (apply addr_eqb_nval; intros F; apply NI; rewrite <- F; left; reflexivity).
    rewrite Hx. cbn [negb]. rewrite (remove_middle t [] x r E) by (rewrite E; exact S).
    pose proof (remove_present x _ (P x (or_introl eq_refl))) as (l' & R & C). unfold entry in R.
    rewrite (dget_value d _ a) in R by reflexivity.
    destruct (dget asap_eqb a d) as [l0|] eqn:D; [|discriminate R]. rewrite R. cbn [app].
    apply strict_cons in S. destruct S as [S1 S2].
    destruct (IH (mkat (at_max t) (at_ia t) r) (dset asap_eqb a l' d) eq_refl S2) as (d' & R').
    { cbn. intros H. apply NI. right. exact H. }
    { intros z Hz. rewrite entry_dset, Z.eqb_refl. apply occ_In. rewrite C.
      rewrite (proj2 (Z.eqb_neq _ _)) by (specialize (S1 _ (in_map a_val _ _ Hz)); lia).
      rewrite Z.sub_0_r. apply occ_In, P. right. exact Hz. }
    exists d'. exact R'.
Qed.
Lemma copy_disassociate t l h s a : built t l h s -> strictly_ascending (vals (at_addrs (as_table s))) ->
  ~ In (a_val (at_ia (as_table s))) (vals (at_addrs (as_table s))) ->
  (forall x, In x (at_addrs (as_table s)) -> 0 < balance t l h (asap_value a) (a_val x)) ->
  exists s', disassociate a (at_addrs (as_table s)) s = (Ok tt, s') /\ at_addrs (as_table s') = [].
Proof.
  intros B S NI P. destruct (built_counts t l h s B) as [I C].
  destruct (copy_loop a (at_addrs (as_table s)) (as_table s) (as_addresses s) eq_refl S NI) as (d' & R).
  { intros x Hx. apply occ_In. rewrite C. apply P, Hx. }
  unfold disassociate. rewrite R. eexists. split; reflexivity.
Qed.

(** ** Associating *)

Lemma insert_listed l t : incl l (at_addrs t) -> assoc_insert l t = (Ok tt, t).
Proof.
  induction l as [|x r IH]; intros H; [reflexivity|]. cbn [assoc_insert].
  rewrite (proj2 (mem_addr_In x (at_addrs t))) by (apply in_map, H; left; reflexivity). cbn [negb andb].
  apply IH. intros y Hy. apply H. right. exact Hy.
Qed.
Lemma insert_live fuel : forall i t, assoc_insert_live fuel i t = (Ok tt, t).
Proof.
  induction fuel as [|n IH]; intros i t; [reflexivity|]. cbn [assoc_insert_live].
  destruct (nth_error (at_addrs t) i) as [x|] eqn:E; [|reflexivity].
  rewrite (proj2 (mem_addr_In x (at_addrs t))) by (apply in_map; eapply nth_error_In, E). cbn [negb andb]. apply IH.
Qed.
Lemma associate_live_copy a s : associate_live a s = associate a (at_addrs (as_table s)) s /\
  as_table (snd (associate_live a s)) = as_table s.
Proof.
  unfold associate_live, associate. rewrite insert_live, insert_listed by (intros x Hx; exact Hx). split; reflexivity.
Qed.

(** ** The bound on the iterations is never reached *)

Lemma remove_length x t t' o : at_remove x t = (o, t') -> (length (at_addrs t') <= length (at_addrs t))%nat.
Proof.
  unfold at_remove. destruct (remove_first x (at_addrs t)) as [l|] eqn:E; intros [= _ <-]; [|lia].
  cbn. rewrite (Permutation_length (sort_perm l)). apply remove_first_Some in E. destruct E as (b & _ & P).
  rewrite (Permutation_length P). cbn. lia.
Qed.
Lemma live_fuel a n : forall m i t d, (length (at_addrs t) - i <= n)%nat -> (n <= m)%nat ->
  disassoc_live_loop m a i t d = disassoc_live_loop n a i t d.
Proof.
  induction n as [|n IH]; intros m i t d H1 H2.
  - destruct m as [|m]; [reflexivity|]. cbn [disassoc_live_loop].
    rewrite (proj2 (nth_error_None _ _)) by lia. reflexivity.
  - destruct m as [|m]; [lia|]. cbn [disassoc_live_loop].
    destruct (nth_error (at_addrs t) i) as [x|] eqn:E; [|reflexivity].
    destruct (if negb (addr_eqb x (at_ia t)) then at_remove x t else (Ok tt, t)) as [rm t'] eqn:R.
    assert (L : (length (at_addrs t') <= length (at_addrs t))%nat).
    { destruct (negb (addr_eqb x (at_ia t))); [eapply remove_length, R|injection R as _ <-; lia]. }
    destruct rm; [|reflexivity]. destruct (dget asap_eqb a d) as [l|]; [|reflexivity].
    destruct (remove_first x l); [|reflexivity]. apply IH; lia.
Qed.
Lemma insert_live_fuel m n : forall i t, assoc_insert_live m i t = assoc_insert_live n i t.
Proof. intros. rewrite !insert_live. reflexivity. Qed.
