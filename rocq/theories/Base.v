(** Facts about the primitives of Py.v: bit fields as arithmetic, slices,
    dictionaries, and the tactic set-up for integer reasoning. *)
From Coq Require Import ZArith List Bool Lia Zify ZifyBool.
From Verif Require Import Py.
Import ListNotations.
Open Scope Z_scope.

Ltac Zify.zify_post_hook ::= Z.div_mod_to_equations.

Global Arguments set : simpl never.
Global Arguments get : simpl never.
Global Arguments cuint : simpl never.
Global Arguments Z.mul : simpl never.
Global Arguments Z.add : simpl never.
Global Arguments Z.sub : simpl never.
Global Arguments Z.div : simpl never.
Global Arguments Z.modulo : simpl never.
Global Arguments Z.shiftl : simpl never.
Global Arguments Z.shiftr : simpl never.
Global Arguments Z.pow : simpl never.
Global Arguments Z.land : simpl never.

(** ** Bit fields *)

Lemma get_arith v o w : 0 <= o -> 0 <= w -> get v o w = (v / 2 ^ o) mod 2 ^ w.
Proof.
  intros. unfold get. rewrite Z.land_ones, Z.shiftr_div_pow2 by lia. reflexivity.
Qed.

Lemma get_range v o w : 0 <= o -> 0 <= w -> 0 <= get v o w < 2 ^ w.
Proof.
  intros. rewrite get_arith by lia. apply Z.mod_pos_bound. apply Z.pow_pos_nonneg; lia.
Qed.

Lemma testbit_get v o w i : 0 <= o -> 0 <= w -> 0 <= i ->
  Z.testbit (get v o w) i = (i <? w) && Z.testbit v (i + o).
Proof.
  intros. unfold get. rewrite Z.land_spec, Z.shiftr_spec, Z.testbit_ones_nonneg by lia.
  apply andb_comm.
Qed.

Lemma testbit_set v o w x i : 0 <= o -> 0 <= w -> 0 <= i ->
  Z.testbit (set v o w x) i =
    if (o <=? i) && (i <? o + w) then Z.testbit x (i - o) else Z.testbit v i.
Proof.
  intros Ho Hw Hi. unfold set.
  rewrite Z.lor_spec, Z.ldiff_spec, !Z.shiftl_spec by lia.
  destruct (Z.leb_spec o i); cbn [andb].
  - rewrite Z.land_spec, Z.testbit_ones_nonneg by lia.
    replace (i - o <? w) with (i <? o + w) by lia.
    destruct (i <? o + w).
    + rewrite andb_true_r. cbn. rewrite andb_false_r. reflexivity.
    + rewrite andb_false_r, orb_false_r, andb_true_r. reflexivity.
  - rewrite (Z.testbit_neg_r (Z.ones w)), (Z.testbit_neg_r (Z.land _ _)) by lia.
    rewrite orb_false_r, andb_true_r. reflexivity.
Qed.

Lemma get_set_same v o w x : 0 <= o -> 0 <= w -> get (set v o w x) o w = x mod 2 ^ w.
Proof.
  intros. rewrite <- Z.land_ones by lia. apply Z.bits_inj'. intros i Hi.
  rewrite testbit_get, testbit_set, Z.land_spec, Z.testbit_ones_nonneg by lia.
  destruct (Z.ltb_spec i w); [|rewrite andb_false_r; reflexivity].
  replace ((o <=? i + o) && (i + o <? o + w)) with true by lia.
  replace (i + o - o) with i by lia. rewrite andb_true_r. reflexivity.
Qed.

Lemma get_set_other v o w x o' w' : 0 <= o -> 0 <= w -> 0 <= o' -> 0 <= w' ->
  o' + w' <= o \/ o + w <= o' -> get (set v o w x) o' w' = get v o' w'.
Proof.
  intros. apply Z.bits_inj'. intros i Hi.
  rewrite !testbit_get, testbit_set by lia.
  destruct (Z.ltb_spec i w'); [|reflexivity].
  replace ((o <=? i + o') && (i + o' <? o + w)) with false by lia. reflexivity.
Qed.

Lemma nocarry_lor a b : Z.land a b = 0 -> a + b = Z.lor a b.
Proof.
  intros H. rewrite Z.add_nocarry_lxor by exact H.
  apply Z.bits_inj'. intros i Hi. rewrite Z.lxor_spec, Z.lor_spec.
  assert (Hb : Z.testbit (Z.land a b) i = false) by (rewrite H; apply Z.bits_0).
  rewrite Z.land_spec in Hb. destruct (Z.testbit a i), (Z.testbit b i); try reflexivity; discriminate.
Qed.

Lemma set_arith v o w x : 0 <= o -> 0 <= w ->
  set v o w x = v - get v o w * 2 ^ o + (x mod 2 ^ w) * 2 ^ o.
Proof.
  intros Ho Hw.
  assert (H1 : set v o w x = Z.ldiff v (Z.shiftl (Z.ones w) o) + (x mod 2 ^ w) * 2 ^ o).
  { unfold set. rewrite <- Z.land_ones, <- Z.shiftl_mul_pow2 by lia.
    symmetry. apply nocarry_lor. apply Z.bits_inj'. intros i Hi.
    rewrite Z.land_spec, Z.ldiff_spec, !Z.shiftl_spec, Z.bits_0, Z.land_spec by lia.
    destruct (Z.testbit (Z.ones w) (i - o)); cbn;
      rewrite ?andb_false_r, ?andb_false_l; reflexivity. }
  assert (H2 : v = Z.ldiff v (Z.shiftl (Z.ones w) o) + get v o w * 2 ^ o).
  { unfold get. rewrite <- Z.shiftl_mul_pow2 by lia.
    replace (Z.shiftl (Z.land (Z.shiftr v o) (Z.ones w)) o)
      with (Z.land v (Z.shiftl (Z.ones w) o)).
    2:{ apply Z.bits_inj'. intros i Hi.
        rewrite Z.land_spec, !Z.shiftl_spec by lia.
        destruct (Z.leb_spec o i).
        - rewrite Z.land_spec, Z.shiftr_spec by lia. replace (i - o + o) with i by lia. reflexivity.
        - rewrite (Z.testbit_neg_r (Z.ones w)), (Z.testbit_neg_r (Z.land _ _)) by lia.
          apply andb_false_r. }
    rewrite Z.add_comm. symmetry.
    assert (Hd : Z.land (Z.land v (Z.shiftl (Z.ones w) o)) (Z.ldiff v (Z.shiftl (Z.ones w) o)) = 0).
    { apply Z.bits_inj'. intros i Hi. rewrite !Z.land_spec, Z.ldiff_spec, Z.bits_0.
      destruct (Z.testbit v i), (Z.testbit (Z.shiftl (Z.ones w) o) i); reflexivity. }
    rewrite Z.add_nocarry_lxor by exact Hd.
    apply Z.bits_inj'. intros i Hi. rewrite Z.lxor_spec, Z.land_spec, Z.ldiff_spec.
    destruct (Z.testbit v i), (Z.testbit (Z.shiftl (Z.ones w) o) i); reflexivity. }
  lia.
Qed.

Lemma set_range v o w x n : 0 <= o -> 0 <= w -> o + w <= n ->
  0 <= v < 2 ^ n -> 0 <= set v o w x < 2 ^ n.
Proof.
  intros Ho Hw Hn Hv.
  assert (Hx : 0 <= set v o w x).
  { unfold set. apply Z.lor_nonneg. split.
    - apply Z.ldiff_nonneg. left. lia.
    - apply Z.shiftl_nonneg, Z.land_nonneg. right. rewrite Z.ones_equiv.
      pose proof (Z.pow_pos_nonneg 2 w). lia. }
  split; [exact Hx|].
  assert (Hb : set v o w x = Z.land (set v o w x) (Z.ones n)).
  { apply Z.bits_inj'. intros i Hi.
    rewrite Z.land_spec, testbit_set, Z.testbit_ones_nonneg by lia.
    destruct (Z.ltb_spec i n); [rewrite andb_true_r; reflexivity|].
    replace ((o <=? i) && (i <? o + w)) with false by lia.
    rewrite andb_false_r.
    rewrite <- (Z.mod_small v (2 ^ n)) by lia. apply Z.mod_pow2_bits_high. lia. }
  rewrite Hb, Z.land_ones by lia. apply Z.mod_pos_bound. lia.
Qed.

Lemma get_0 v o w : v = 0 -> get v o w = 0.
Proof. intros ->. unfold get. rewrite Z.shiftr_0_l. apply Z.land_0_l. Qed.

(** Splitting a 16-bit and a 32-bit number in octets. *)
Lemma get_small v w : 0 <= v < 2 ^ w -> get v 0 w = v.
Proof.
  intros. assert (0 <= w) by (destruct (Z.leb_spec 0 w); [lia|rewrite Z.pow_neg_r in H by lia; lia]).
  rewrite get_arith by lia. rewrite Z.pow_0_r, Z.div_1_r. apply Z.mod_small. lia.
Qed.

Lemma cuint_range w x : 0 <= w -> 0 <= cuint w x < 2 ^ w.
Proof. intros. unfold cuint. apply Z.mod_pos_bound, Z.pow_pos_nonneg; lia. Qed.
Lemma cuint_small w x : 0 <= x < 2 ^ w -> cuint w x = x.
Proof. intros. unfold cuint. apply Z.mod_small. lia. Qed.

(** ** Slices *)

Lemma zlen_nonneg {A} (l : list A) : 0 <= zlen l.
Proof. unfold zlen. lia. Qed.
Lemma zlen_nil {A} : zlen (@nil A) = 0.
Proof. reflexivity. Qed.
Lemma zlen_cons {A} (x : A) l : zlen (x :: l) = zlen l + 1.
Proof. unfold zlen. cbn [length]. lia. Qed.
Lemma zlen_app {A} (l r : list A) : zlen (l ++ r) = zlen l + zlen r.
Proof. unfold zlen. rewrite app_length. lia. Qed.
Lemma zlen_map {A B} (f : A -> B) l : zlen (map f l) = zlen l.
Proof. unfold zlen. rewrite map_length. reflexivity. Qed.
Lemma zlen_0 {A} (l : list A) : zlen l = 0 -> l = [].
Proof. destruct l; [reflexivity|]. rewrite zlen_cons. pose proof (zlen_nonneg l). lia. Qed.

Lemma ztake_firstn {A} n (l : list A) : ztake n l = firstn (Z.to_nat n) l.
Proof.
  revert n. induction l as [|x l IH]; intros n; [rewrite firstn_nil; reflexivity|].
  cbn [ztake]. destruct (Z.leb_spec n 0).
  - replace (Z.to_nat n) with O by lia. reflexivity.
  - rewrite IH. replace (Z.to_nat n) with (S (Z.to_nat (n - 1))) by lia. reflexivity.
Qed.
Lemma zdrop_skipn {A} n (l : list A) : zdrop n l = skipn (Z.to_nat n) l.
Proof.
  revert n. induction l as [|x l IH]; intros n; [rewrite skipn_nil; reflexivity|].
  cbn [zdrop]. destruct (Z.leb_spec n 0).
  - replace (Z.to_nat n) with O by lia. reflexivity.
  - rewrite IH. replace (Z.to_nat n) with (S (Z.to_nat (n - 1))) by lia. reflexivity.
Qed.
Lemma znth_nth {A} n (l : list A) : 0 <= n -> znth n l = nth_error l (Z.to_nat n).
Proof.
  revert n. induction l as [|x l IH]; intros n H; cbn [znth].
  - destruct (Z.to_nat n); reflexivity.
  - destruct (Z.eqb_spec n 0) as [->|]; [reflexivity|].
    rewrite IH by lia. replace (Z.to_nat n) with (S (Z.to_nat (n - 1))) by lia. reflexivity.
Qed.
Lemma ztake_app_exact {A} (l r : list A) n : n = zlen l -> ztake n (l ++ r) = l.
Proof.
  intros ->. rewrite ztake_firstn. unfold zlen. rewrite Nat2Z.id, firstn_app, firstn_all, Nat.sub_diag.
  cbn. apply app_nil_r.
Qed.
Lemma ztake_app_le {A} (l r : list A) n : n <= zlen l -> ztake n (l ++ r) = ztake n l.
Proof.
  intros. rewrite !ztake_firstn, firstn_app. unfold zlen in *.
  replace (Z.to_nat n - length l)%nat with O by lia. cbn. apply app_nil_r.
Qed.
Lemma ztake_ge {A} (l : list A) n : zlen l <= n -> ztake n l = l.
Proof. intros. rewrite ztake_firstn. apply firstn_all2. unfold zlen in *. lia. Qed.
Lemma zdrop_0 {A} (l : list A) : zdrop 0 l = l.
Proof. rewrite zdrop_skipn. reflexivity. Qed.
Lemma ztake_zdrop {A} n (l : list A) : ztake n l ++ zdrop n l = l.
Proof. rewrite ztake_firstn, zdrop_skipn. apply firstn_skipn. Qed.
Lemma zlen_ztake {A} n (l : list A) : 0 <= n -> zlen (ztake n l) = Z.min n (zlen l).
Proof. intros. rewrite ztake_firstn. unfold zlen. rewrite firstn_length. lia. Qed.
Lemma zlen_zdrop {A} n (l : list A) : 0 <= n -> zlen (zdrop n l) = Z.max 0 (zlen l - n).
Proof. intros. rewrite zdrop_skipn. unfold zlen. rewrite skipn_length. lia. Qed.

(** ** Dictionaries *)

Section DictFacts.
  Context {K V : Type} (eqb : K -> K -> bool).
  (** Key equality seen through a projection to a type with Leibniz equality. *)
  Context {P : Type} (proj : K -> P).
  Hypothesis eqb_spec : forall a b, eqb a b = true <-> proj a = proj b.
  Implicit Types d : list (K * V).

  Lemma dk_refl a : eqb a a = true.
  Proof. apply eqb_spec. reflexivity. Qed.
  Lemma dk_false a b : eqb a b = false <-> proj a <> proj b.
  Proof. rewrite <- eqb_spec. destruct (eqb a b); split; congruence. Qed.

  Lemma dget_dset k v d k' :
    dget eqb k' (dset eqb k v d) = if eqb k k' then Some v else dget eqb k' d.
  Proof.
    induction d as [|[k0 v0] d IH]; cbn.
    - destruct (eqb k k'); reflexivity.
    - destruct (eqb k0 k) eqn:E0; cbn.
      + destruct (eqb k k') eqn:E1.
        * assert (eqb k0 k' = true) as -> by (apply eqb_spec; apply eqb_spec in E0, E1; congruence).
          reflexivity.
        * assert (eqb k0 k' = false) as -> by
            (apply dk_false; apply dk_false in E1; apply eqb_spec in E0; congruence).
          reflexivity.
      + rewrite IH. destruct (eqb k0 k') eqn:E2; [|reflexivity].
        assert (eqb k k' = false) as ->; [|reflexivity].
        apply dk_false. apply dk_false in E0. apply eqb_spec in E2. congruence.
  Qed.

  Lemma dget_In k d v : dget eqb k d = Some v -> exists k', eqb k' k = true /\ In (k', v) d.
  Proof.
    induction d as [|[k0 v0] d IH]; cbn; [discriminate|].
    destruct (eqb k0 k) eqn:E.
    - intros [= ->]. eauto.
    - intros H. destruct (IH H) as (k' & ? & ?). eauto.
  Qed.

  Lemma dget_None k d : dget eqb k d = None <-> ~ In (proj k) (map (fun p => proj (fst p)) d).
  Proof.
    induction d as [|[k0 v0] d IH]; cbn; [split; [tauto|reflexivity]|].
    destruct (eqb k0 k) eqn:E.
    - apply eqb_spec in E. split; [discriminate|]. intros H. exfalso. apply H. auto.
    - apply dk_false in E. rewrite IH. intuition.
  Qed.

  Lemma dget_ddel k d k' :
    NoDup (map (fun p => proj (fst p)) d) ->
    dget eqb k' (ddel eqb k d) = if eqb k k' then None else dget eqb k' d.
  Proof.
    induction d as [|[k0 v0] d IH]; cbn; intros ND.
    - destruct (eqb k k'); reflexivity.
    - inversion_clear ND as [|? ? Hni ND'].
      destruct (eqb k0 k) eqn:E0.
      + apply eqb_spec in E0. destruct (eqb k k') eqn:E1.
        * apply eqb_spec in E1. apply dget_None. rewrite <- E1, <- E0. exact Hni.
        * assert (eqb k0 k' = false) as -> by (apply dk_false; apply dk_false in E1; congruence).
          reflexivity.
      + cbn. rewrite IH by assumption. destruct (eqb k0 k') eqn:E2; [|reflexivity].
        assert (eqb k k' = false) as ->; [|reflexivity].
        apply dk_false. apply dk_false in E0. apply eqb_spec in E2. congruence.
  Qed.

  Lemma dset_keys_present k v d : dget eqb k d <> None ->
    map fst (dset eqb k v d) = map fst d.
  Proof.
    induction d as [|[k0 v0] d IH]; cbn; [congruence|].
    destruct (eqb k0 k) eqn:E; intros H; cbn; [reflexivity|]. rewrite IH by assumption. reflexivity.
  Qed.
  Lemma dset_absent k v d : dget eqb k d = None -> dset eqb k v d = d ++ [(k, v)].
  Proof.
    induction d as [|[k0 v0] d IH]; cbn; [reflexivity|].
    destruct (eqb k0 k) eqn:E; intros H; [discriminate|]. rewrite IH by assumption. reflexivity.
  Qed.
  Lemma dset_NoDup k v d : NoDup (map (fun p => proj (fst p)) d) ->
    NoDup (map (fun p => proj (fst p)) (dset eqb k v d)).
  Proof.
    intros ND. destruct (dget eqb k d) eqn:E.
    - assert (H : map fst (dset eqb k v d) = map fst d) by (apply dset_keys_present; congruence).
      rewrite <- (map_map fst proj) in ND |- *. rewrite H. exact ND.
    - rewrite dset_absent by assumption. rewrite map_app. cbn.
      apply dget_None in E.
      rewrite <- (rev_involutive (_ ++ _)), rev_app_distr. cbn.
      apply (NoDup_rev (l := proj k :: rev _)).
      constructor; [rewrite <- in_rev; exact E|]. apply NoDup_rev. exact ND.
  Qed.
  Lemma ddel_NoDup k d : NoDup (map (fun p => proj (fst p)) d) ->
    NoDup (map (fun p => proj (fst p)) (ddel eqb k d)).
  Proof.
    induction d as [|[k0 v0] d IH]; cbn; intros ND; [constructor|].
    inversion_clear ND as [|? ? Hni ND'].
    destruct (eqb k0 k); [assumption|]. cbn. constructor; [|auto].
    intros H. apply Hni. clear - H. induction d as [|[k1 v1] d IH]; cbn in *; [tauto|].
    destruct (eqb k1 k); cbn in *; tauto.
  Qed.
End DictFacts.

Lemma oz_eqb_spec a b : oz_eqb a b = true <-> a = b.
Proof.
  destruct a, b; cbn; try (split; congruence).
  rewrite Z.eqb_eq. split; congruence.
Qed.
