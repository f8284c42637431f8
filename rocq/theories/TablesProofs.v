(** Proofs about the tables (C04-C12). *)
From Coq Require Import String ZArith List Bool Lia Permutation Sorted.
From Verif Require Import Py Address Dpt Tables Base SpecTables.
Import ListNotations.
Open Scope Z_scope.

(** ** Sorting *)

Lemma insert_sorted_perm a l : Permutation (insert_sorted a l) (a :: l).
Proof.
  induction l as [|b r IH]; cbn; [reflexivity|].
  destruct (a_val a <? a_val b); [reflexivity|].
  rewrite IH. apply perm_swap.
Qed.
Lemma sort_from_perm l : forall acc, Permutation (sort_from acc l) (acc ++ l).
Proof.
  induction l as [|a r IH]; intros acc; cbn; [rewrite app_nil_r; reflexivity|].
  rewrite IH. rewrite insert_sorted_perm. cbn. apply Permutation_middle.
Qed.
Lemma sort_perm l : Permutation (sort_addrs l) l.
Proof. apply sort_from_perm. Qed.

Lemma ascending_cons x l : ascending (x :: l) <-> (forall y, In y l -> x <= y) /\ ascending l.
Proof.
  revert x. induction l as [|z r IH]; intros x.
  - cbn. intuition.
  - split.
    + intros [H1 H2]. split; [|exact H2]. intros y [->|Hy]; [exact H1|].
      apply IH in H2. specialize (proj1 H2 y Hy). lia.
    + intros [H1 H2]. split; [apply H1; left; reflexivity|exact H2].
Qed.

Lemma insert_sorted_asc a l : ascending (vals l) -> ascending (vals (insert_sorted a l)).
Proof.
  induction l as [|b r IH]; intros H; [cbn; auto|].
  cbn [insert_sorted]. destruct (a_val a <? a_val b) eqn:E.
  - apply Z.ltb_lt in E. cbn [vals map] in *. apply ascending_cons. split; [|exact H].
    apply ascending_cons in H. intros y [<-|Hy]; [lia|]. specialize (proj1 H y Hy). lia.
  - apply Z.ltb_ge in E. cbn [vals map] in *. apply ascending_cons in H. apply ascending_cons.
    split; [|apply IH; tauto]. intros y Hy.
    apply in_map_iff in Hy. destruct Hy as (c & <- & Hc).
    apply (Permutation_in _ (insert_sorted_perm a r)) in Hc. destruct Hc as [<-|Hc]; [exact E|].
    apply H. apply in_map. exact Hc.
Qed.
Lemma sort_from_asc l : forall acc, ascending (vals acc) -> ascending (vals (sort_from acc l)).
Proof. induction l as [|a r IH]; intros acc H; cbn; [exact H|]. apply IH, insert_sorted_asc, H. Qed.
Lemma sort_asc l : ascending (vals (sort_addrs l)).
Proof. apply sort_from_asc. exact I. Qed.

(** ** The address table *)

Lemma at_do_addrs t c : at_max (snd (at_do t c)) = at_max t /\
  (at_addrs (snd (at_do t c)) = at_addrs t \/ exists l, at_addrs (snd (at_do t c)) = sort_addrs l).
Proof.
  destruct c as [a|a|a]; cbn.
  - unfold at_add. destruct (_ || _); [|cbn; auto]. destruct (_ >=? _); cbn; eauto.
  - unfold at_remove. destruct (remove_first _ _); cbn; eauto.
  - auto.
Qed.
Lemma at_after_asc h : forall t, ascending (vals (at_addrs t)) -> ascending (vals (at_addrs (at_after t h))).
Proof.
  induction h as [|c r IH]; intros t H; cbn; [exact H|].
  apply IH. destruct (at_do_addrs t c) as (_ & [->|(l & ->)]); [exact H|apply sort_asc].
Qed.

Lemma addr_eqb_val a b : addr_eqb a b = true <-> a_val a = a_val b.
Proof. unfold addr_eqb. apply Z.eqb_eq. Qed.
Lemma addr_eqb_nval a b : addr_eqb a b = false <-> a_val a <> a_val b.
Proof. unfold addr_eqb. apply Z.eqb_neq. Qed.
Lemma addr_eqb_refl a : addr_eqb a a = true.
Proof. apply addr_eqb_val. reflexivity. Qed.

Lemma zrange_In n : forall from k, In k (zrange from n) <-> from <= k < from + Z.of_nat n.
Proof.
  induction n as [|n IH]; intros from k; cbn [zrange In]; [lia|]. rewrite IH. lia.
Qed.
Lemma zrange_znth n : forall from k, znth k (zrange from n) =
  if (0 <=? k) && (k <? Z.of_nat n) then Some (from + k) else None.
Proof.
  induction n as [|n IH]; intros from k; cbn [zrange znth].
  - destruct (0 <=? k) eqn:E; cbn; [|reflexivity]. destruct (k <? 0) eqn:E2; [lia|reflexivity].
  - destruct (k =? 0) eqn:E.
    + apply Z.eqb_eq in E. subst. rewrite (proj2 (Z.ltb_lt _ _)) by lia. cbn. f_equal. lia.
    + rewrite IH. destruct (0 <=? k) eqn:E1, (0 <=? k - 1) eqn:E2; cbn [andb]; try lia; try reflexivity.
      destruct (k - 1 <? Z.of_nat n) eqn:E3, (k <? Z.of_nat (S n)) eqn:E4; try lia; [|reflexivity].
      f_equal. lia.
Qed.
Lemma tsaps_znth t k : znth k (at_tsaps t) =
  if (0 <=? k) && (k <=? zlen (at_addrs t)) then Some k else None.
Proof.
  unfold at_tsaps. rewrite zrange_znth. unfold zlen.
  destruct (0 <=? k) eqn:E1; cbn [andb]; [|reflexivity].
  destruct (k <? _) eqn:E2, (k <=? _) eqn:E3; try lia; reflexivity.
Qed.

Lemma index_of_Some a l i : index_of a l = Some i ->
  0 <= i < zlen l /\ (exists b, znth i l = Some b /\ a_val b = a_val a) /\
  (forall j b, 0 <= j < i -> znth j l = Some b -> a_val b <> a_val a).
Proof.
  revert i. induction l as [|b r IH]; intros i; [discriminate|]. cbn [index_of].
  destruct (addr_eqb b a) eqn:E.
  - intros [= <-]. apply addr_eqb_val in E. rewrite zlen_cons. pose proof (zlen_nonneg r).
    split; [lia|]. split; [exists b; cbn; auto|]. intros; lia.
  - apply addr_eqb_nval in E. destruct (index_of a r) as [k|]; [|discriminate].
    intros [= <-]. destruct (IH k eq_refl) as (H1 & (c & H2 & H2') & H3). rewrite zlen_cons.
    split; [lia|]. split.
    + exists c. cbn. destruct (k + 1 =? 0) eqn:E2; [lia|]. replace (k + 1 - 1) with k by lia. auto.
    + intros j x Hj. cbn. destruct (j =? 0) eqn:E2; [intros [= <-]; exact E|].
      intros Hx. apply (H3 (j - 1)); [lia|exact Hx].
Qed.
Lemma index_of_None a l : index_of a l = None <-> ~ In (a_val a) (vals l).
Proof.
  induction l as [|b r IH]; cbn; [tauto|]. destruct (addr_eqb b a) eqn:E.
  - apply addr_eqb_val in E. split; [discriminate|]. intuition.
  - apply addr_eqb_nval in E. destruct (index_of a r).
    + split; [discriminate|]. intros H. exfalso.
      assert (~ In (a_val a) (vals r)) as N by (unfold vals; intuition). apply IH in N. discriminate.
    + unfold vals in *. intuition.
Qed.
Lemma mem_addr_In a l : mem_addr a l = true <-> In (a_val a) (vals l).
Proof.
  unfold mem_addr. rewrite existsb_exists. unfold vals. rewrite in_map_iff.
  split; intros (b & H1 & H2); exists b.
  - apply addr_eqb_val in H2. auto.
  - split; [assumption|]. apply addr_eqb_val. auto.
Qed.
Lemma mem_addr_nIn a l : mem_addr a l = false <-> ~ In (a_val a) (vals l).
Proof. rewrite <- mem_addr_In. destruct (mem_addr a l); split; congruence. Qed.

Lemma get_tsap_listed t g : In (a_val g) (vals (at_addrs t)) ->
  exists k, at_get_tsap t g = Some k /\ 1 <= k <= zlen (at_addrs t) /\
    (exists b, at_get_address t (Some k) = Ok b /\ a_val b = a_val g) /\
    (forall j b, 1 <= j < k -> at_get_address t (Some j) = Ok b -> a_val b <> a_val g).
Proof.
  intros H. unfold at_get_tsap. destruct (index_of g (at_addrs t)) as [i|] eqn:E.
  - destruct (index_of_Some _ _ _ E) as (H1 & (b & H2 & H2') & H3).
    exists (i + 1). split; [reflexivity|]. split; [lia|]. split.
    + exists b. cbn. rewrite (proj2 (Z.leb_le _ _)) by lia.
      replace (i + 1 - 1) with i by lia. rewrite H2. auto.
    + intros j c Hj. cbn. rewrite (proj2 (Z.leb_le _ _)) by lia.
      destruct (znth (j - 1) (at_addrs t)) eqn:E2; [|discriminate]. intros [= <-].
      apply (H3 (j - 1)); [lia|exact E2].
  - apply index_of_None in E. contradiction.
Qed.
Lemma get_tsap_ia t g : ~ In (a_val g) (vals (at_addrs t)) -> a_val g = a_val (at_ia t) ->
  at_get_tsap t g = Some 0.
Proof.
  intros H E. unfold at_get_tsap. apply index_of_None in H. rewrite H.
  apply addr_eqb_val in E. rewrite E. reflexivity.
Qed.
Lemma get_tsap_unknown t g : ~ In (a_val g) (vals (at_addrs t)) -> a_val g <> a_val (at_ia t) ->
  at_get_tsap t g = None.
Proof.
  intros H E. unfold at_get_tsap. apply index_of_None in H. rewrite H.
  apply addr_eqb_nval in E. rewrite E. reflexivity.
Qed.
Lemma get_address_range t k : 1 <= k -> at_get_address t (Some k) =
  match nth_error (at_addrs t) (Z.to_nat (k - 1)) with Some a => Ok a | None => Err IndexError end.
Proof.
  intros H. cbn. rewrite (proj2 (Z.leb_le _ _)) by lia. rewrite znth_nth by lia. reflexivity.
Qed.
Lemma get_address_above t k : zlen (at_addrs t) < k -> at_get_address t (Some k) = Err IndexError.
Proof.
  intros H. pose proof (zlen_nonneg (at_addrs t)). rewrite get_address_range by lia.
  unfold zlen in *.
  rewrite (proj2 (nth_error_None _ _)) by lia. reflexivity.
Qed.

(** Known addresses and injectivity of their TSAPs. *)
Lemma get_tsap_known t g : at_get_tsap t g <> None <-> known t (a_val g).
Proof.
  unfold known. destruct (in_dec Z.eq_dec (a_val g) (vals (at_addrs t))) as [H|H].
  - destruct (get_tsap_listed t g H) as (k & -> & _). split; [auto|congruence].
  - destruct (Z.eq_dec (a_val g) (a_val (at_ia t))).
    + rewrite get_tsap_ia by assumption. split; [auto|congruence].
    + rewrite get_tsap_unknown by assumption. split; [congruence|intros [?|?]; contradiction].
Qed.
Lemma get_tsap_val t x y : a_val x = a_val y -> at_get_tsap t x = at_get_tsap t y.
Proof.
  intros E. unfold at_get_tsap.
  assert (index_of x (at_addrs t) = index_of y (at_addrs t)) as ->.
  { induction (at_addrs t) as [|b r IH]; cbn; [reflexivity|].
    unfold addr_eqb in *. rewrite E, IH. reflexivity. }
  unfold addr_eqb. rewrite E. reflexivity.
Qed.
Lemma get_tsap_get_address t g k : at_get_tsap t g = Some k ->
  exists b, at_get_address t (Some k) = Ok b /\ a_val b = a_val g.
Proof.
  intros H. destruct (in_dec Z.eq_dec (a_val g) (vals (at_addrs t))) as [Hi|Hi].
  - destruct (get_tsap_listed t g Hi) as (k' & E & _ & Hb & _). rewrite E in H. injection H as <-. exact Hb.
  - destruct (Z.eq_dec (a_val g) (a_val (at_ia t))) as [He|He].
    + rewrite get_tsap_ia in H by assumption. injection H as <-. exists (at_ia t). cbn. auto.
    + rewrite get_tsap_unknown in H by assumption. discriminate.
Qed.
Lemma get_tsap_inj t x y k : at_get_tsap t x = Some k -> at_get_tsap t y = Some k -> a_val x = a_val y.
Proof.
  intros Hx Hy. apply get_tsap_get_address in Hx, Hy.
  destruct Hx as (b & Hb & <-), Hy as (c & Hc & <-). congruence.
Qed.

(** Where an address is sent to: the address object found under its TSAP. *)
Definition at_target (t : address_table) (g : address) : res address :=
  match find (fun b => addr_eqb b g) (at_addrs t) with
  | Some b => Ok b
  | None => if addr_eqb g (at_ia t) then Ok (at_ia t) else Err TypeError
  end.
Lemma index_find g l : match index_of g l with
  | Some i => exists b, znth i l = Some b /\ find (fun b => addr_eqb b g) l = Some b
  | None => find (fun b => addr_eqb b g) l = None
  end.
Proof.
  induction l as [|b r IH]; cbn; [reflexivity|]. destruct (addr_eqb b g) eqn:E; [exists b; auto|].
  destruct (index_of g r) as [i|] eqn:Ei; [|exact IH]. destruct IH as (c & H1 & H2).
  apply index_of_Some in Ei. exists c. destruct (i + 1 =? 0) eqn:E2; [lia|].
  replace (i + 1 - 1) with i by lia. auto.
Qed.
Lemma target_spec t g : at_get_address t (at_get_tsap t g) = at_target t g.
Proof.
  unfold at_target, at_get_tsap. pose proof (index_find g (at_addrs t)) as H.
  destruct (index_of g (at_addrs t)) as [i|] eqn:E.
  - destruct H as (b & H1 & ->). apply index_of_Some in E. cbn.
    rewrite (proj2 (Z.leb_le _ _)) by lia. replace (i + 1 - 1) with i by lia. rewrite H1. reflexivity.
  - rewrite H. destruct (addr_eqb g (at_ia t)); reflexivity.
Qed.

(** ** add and remove *)

Lemma at_add_full a t : zlen (at_addrs t) >= at_max t ->
  at_add a t = (if mem_addr a (at_addrs t) && addr_eqb a (at_ia t) then Ok tt
                else Err AddressTableException, t).
Proof.
  intros H. unfold at_add. rewrite <- negb_andb.
  destruct (mem_addr a (at_addrs t) && addr_eqb a (at_ia t)); cbn; [reflexivity|].
  destruct (zlen (at_addrs t) >=? at_max t) eqn:E; [reflexivity|lia].
Qed.
Lemma at_add_ok a t t' : at_add a t = (Ok tt, t') ->
  at_max t' = at_max t /\ at_ia t' = at_ia t /\
  (if mem_addr a (at_addrs t) && addr_eqb a (at_ia t) then t' = t
   else zlen (at_addrs t) < at_max t /\ Permutation (at_addrs t') (a :: at_addrs t)).
Proof.
  unfold at_add. rewrite <- negb_andb.
  destruct (mem_addr a (at_addrs t) && addr_eqb a (at_ia t)); cbn.
  - intros [= <-]. auto.
  - destruct (zlen (at_addrs t) >=? at_max t) eqn:E; [discriminate|]. intros [= <-]. cbn.
    split; [reflexivity|]. split; [reflexivity|]. split; [lia|].
    rewrite sort_perm. symmetry. apply Permutation_cons_append.
Qed.
Lemma at_add_err a t e t' : at_add a t = (Err e, t') -> e = AddressTableException /\ t' = t.
Proof.
  unfold at_add. destruct (_ || _); [|discriminate].
  destruct (_ >=? _); [|discriminate]. intros [= <- <-]. auto.
Qed.
Lemma at_add_frame a t : at_max (snd (at_add a t)) = at_max t /\ at_ia (snd (at_add a t)) = at_ia t.
Proof. unfold at_add. destruct (_ || _); [destruct (_ >=? _)|]; cbn; auto. Qed.

Lemma remove_first_Some a l l' : remove_first a l = Some l' ->
  exists b, a_val b = a_val a /\ Permutation l (b :: l').
Proof.
  revert l'. induction l as [|b r IH]; intros l'; [discriminate|]. cbn.
  destruct (addr_eqb b a) eqn:E.
  - intros [= <-]. exists b. apply addr_eqb_val in E. split; [assumption|reflexivity].
  - destruct (remove_first a r) as [r'|]; [|discriminate]. intros [= <-].
    destruct (IH r' eq_refl) as (c & H1 & H2). exists c. split; [assumption|].
    rewrite H2. apply perm_swap.
Qed.
Lemma remove_first_In a l : remove_first a l <> None <-> In (a_val a) (vals l).
Proof.
  induction l as [|b r IH]; cbn; [tauto|]. destruct (addr_eqb b a) eqn:E.
  - apply addr_eqb_val in E. split; [auto|discriminate].
  - apply addr_eqb_nval in E. destruct (remove_first a r).
    + split; [|discriminate]. intros _. right. apply IH. discriminate.
    + split; [congruence|]. intros [?|H]; [contradiction|]. apply IH in H. congruence.
Qed.
Lemma remove_first_find a l l' x : remove_first a l = Some l' -> a_val x <> a_val a ->
  find (fun b => addr_eqb b x) l' = find (fun b => addr_eqb b x) l.
Proof.
  revert l'. induction l as [|b r IH]; intros l' H N; [discriminate|]. cbn in H |- *.
  destruct (addr_eqb b a) eqn:E.
  - injection H as <-. apply addr_eqb_val in E.
    destruct (addr_eqb b x) eqn:E2; [|reflexivity]. apply addr_eqb_val in E2. congruence.
  - destruct (remove_first a r) as [r'|]; [|discriminate]. injection H as <-. cbn.
    rewrite (IH r') by auto. reflexivity.
Qed.

Lemma NoDup_find_perm l l' x : NoDup (vals l) -> Permutation l l' ->
  find (fun b => addr_eqb b x) l = find (fun b => addr_eqb b x) l'.
Proof.
  intros ND P. induction P as [|b l l' P IH|b c l|l l' l'' P1 IH1 P2 IH2]; cbn.
  - reflexivity.
  - destruct (addr_eqb b x); [reflexivity|]. apply IH. inversion ND; assumption.
  - destruct (addr_eqb b x) eqn:E1, (addr_eqb c x) eqn:E2; try reflexivity.
    apply addr_eqb_val in E1, E2. inversion ND as [|? ? H]. exfalso. apply H. left. congruence.
  - rewrite IH1 by assumption. apply IH2.
    apply (Permutation_NoDup (l := vals l)); [apply Permutation_map; assumption|assumption].
Qed.

(** ** Capacity and duplicates *)

Lemma perm_zlen {A} (l l' : list A) : Permutation l l' -> zlen l = zlen l'.
Proof. intros P. unfold zlen. rewrite (Permutation_length P). reflexivity. Qed.

Lemma at_do_capacity t c : zlen (at_addrs t) <= at_max t ->
  zlen (at_addrs (snd (at_do t c))) <= at_max (snd (at_do t c)).
Proof.
  intros H. rewrite (proj1 (at_do_addrs t c)). destruct c as [a|a|a]; cbn.
  - destruct (at_add a t) as [[[]|e] t'] eqn:E; cbn.
    + apply at_add_ok in E. destruct E as (_ & _ & E). destruct (_ && _); [subst; assumption|].
      destruct E as [E P]. apply perm_zlen in P. rewrite zlen_cons in P. lia.
    + apply at_add_err in E. destruct E as [_ ->]. assumption.
  - unfold at_remove. destruct (remove_first a (at_addrs t)) as [l'|] eqn:E; cbn; [|assumption].
    apply remove_first_Some in E. destruct E as (b & _ & P).
    rewrite (perm_zlen _ _ (sort_perm l')). apply perm_zlen in P. rewrite zlen_cons in P. lia.
  - assumption.
Qed.
Lemma at_after_capacity h : forall t, zlen (at_addrs t) <= at_max t ->
  zlen (at_addrs (at_after t h)) <= at_max (at_after t h) /\ at_max (at_after t h) = at_max t.
Proof.
  induction h as [|c r IH]; intros t H; cbn; [auto|].
  destruct (IH _ (at_do_capacity t c H)) as [H1 H2]. split; [exact H1|].
  rewrite H2. apply at_do_addrs.
Qed.

Lemma occ_perm g l l' : Permutation l l' -> occ g l = occ g l'.
Proof.
  intros P. unfold occ. induction P; cbn [filter].
  - reflexivity.
  - destruct (g =? x); rewrite ?zlen_cons; lia.
  - destruct (g =? x), (g =? y); rewrite ?zlen_cons; lia.
  - lia.
Qed.
Lemma occ_cons g x l : occ g (x :: l) = (if g =? x then 1 else 0) + occ g l.
Proof. unfold occ. cbn [filter]. destruct (g =? x); rewrite ?zlen_cons; lia. Qed.
Lemma occ_app g l r : occ g (l ++ r) = occ g l + occ g r.
Proof. unfold occ. rewrite filter_app, zlen_app. reflexivity. Qed.
Lemma occ_nonneg g l : 0 <= occ g l.
Proof. apply zlen_nonneg. Qed.
Lemma occ_In g l : In g l <-> 0 < occ g l.
Proof.
  induction l as [|x l IH]; [cbn; lia|]. rewrite occ_cons. cbn [In]. pose proof (occ_nonneg g l).
  destruct (g =? x) eqn:E; [|rewrite IH; lia]. apply Z.eqb_eq in E. subst. split; [lia|auto].
Qed.
