(** The float operations of the standard library's SpecFloat round the exact
    result to the nearest representable number, ties to even. *)
From Coq Require Import ZArith QArith Qabs Qpower Bool Lia Lqa ZifyBool SpecFloat.
From Verif Require Import Py Base Float Dpt SpecDpt.
Open Scope Z_scope.

(** ** Positions between two integers *)

(** p/q lies at [m] or between [m] and [m+1], on the side [l] of the middle. *)
Definition at_loc (p q m : Z) (l : location) : Prop :=
  match l with
  | loc_Exact => p = m * q
  | loc_Inexact c => m * q < p < (m + 1) * q /\ (2 * (p - m * q) ?= q) = c
  end.

Lemma shr_1_loc p q mrs : 0 < q -> 0 <= shr_m mrs -> at_loc p q (shr_m mrs) (loc_of_shr_record mrs) ->
  at_loc p (2 * q) (shr_m (shr_1 mrs)) (loc_of_shr_record (shr_1 mrs)) /\ shr_m (shr_1 mrs) = shr_m mrs / 2.
Proof.
  intros Hq Hm H. destruct mrs as [m r s]. cbn [shr_m] in *.
  assert (C0 : match (2 * (p - m * q) ?= q) with Lt => 2 * (p - m * q) < q | Eq => 2 * (p - m * q) = q | Gt => q < 2 * (p - m * q) end)
    by (destruct (Z.compare_spec (2 * (p - m * q)) q); lia).
  assert (H' : match loc_of_shr_record (Build_shr_record m r s) with
    | loc_Exact => p = m * q
    | loc_Inexact Lt => m * q < p /\ 2 * (p - m * q) < q
    | loc_Inexact Eq => 2 * (p - m * q) = q
    | loc_Inexact Gt => q < 2 * (p - m * q) /\ p < (m + 1) * q end).
  { destruct r, s; cbn [loc_of_shr_record at_loc] in *; try exact H; destruct H as [H E]; rewrite E in C0; lia. }
  clear H C0.
  assert (G : forall k b, m = 2 * k + b -> (b = 0 \/ b = 1) -> 0 <= k ->
    at_loc p (2 * q) k (loc_of_shr_record (Build_shr_record k (b =? 1) (r || s))) /\ k = m / 2).
  { intros k b -> Hb Hk. split; [|lia]. assert (Ek : (2 * k + b) * q = 2 * (k * q) + b * q) by ring.
    assert (Ek' : (2 * k + b + 1) * q = 2 * (k * q) + b * q + q) by ring. rewrite Ek, Ek' in H'.
    assert (Ea : k * (2 * q) = 2 * (k * q)) by ring. assert (Eb : (k + 1) * (2 * q) = 2 * (k * q) + 2 * q) by ring.
    destruct Hb as [-> | ->]; destruct r, s; cbn [loc_of_shr_record orb Z.eqb Pos.eqb at_loc] in *; rewrite ?Ea, ?Eb;
      generalize dependent (k * q); intros kq; intros;
      try (split; [lia|]);
      lazymatch goal with
      | |- (_ ?= _) = Lt => apply Z.compare_lt_iff; lia
      | |- (_ ?= _) = Eq => apply Z.compare_eq_iff; lia
      | |- (_ ?= _) = Gt => apply Z.compare_gt_iff; lia
      | |- _ => lia
      end. }
  destruct m as [|[m|m|]|m]; try (exfalso; lia).
  - apply (G 0 0); lia.
  - apply (G (Z.pos m) 1); lia.
  - apply (G (Z.pos m) 0); lia.
  - apply (G 0 1); lia.
Qed.
Lemma iter_shr_1_loc n : forall p q mrs, 0 < q -> 0 <= shr_m mrs -> at_loc p q (shr_m mrs) (loc_of_shr_record mrs) ->
  let mrs' := iter_pos shr_1 n mrs in
  at_loc p (q * 2 ^ Z.pos n) (shr_m mrs') (loc_of_shr_record mrs') /\ shr_m mrs' = shr_m mrs / 2 ^ Z.pos n.
Proof.
  induction n as [n IH|n IH|]; intros p q mrs Hq Hm H; cbn [iter_pos]; cbv zeta.
  - destruct (shr_1_loc p q mrs Hq Hm H) as [H1 E1].
    assert (Hm1 : 0 <= shr_m (shr_1 mrs)) by (rewrite E1; apply Z.div_pos; lia).
    destruct (IH p (2 * q) (shr_1 mrs)) as [H2 E2]; [lia|exact Hm1|exact H1|]. cbv zeta in H2, E2.
    assert (P2 : 0 < 2 ^ Z.pos n) by (apply Z.pow_pos_nonneg; lia).
    destruct (IH p (2 * q * 2 ^ Z.pos n) (iter_pos shr_1 n (shr_1 mrs))) as [H3 E3]; [nia|rewrite E2; apply Z.div_pos; lia|exact H2|].
    cbv zeta in H3, E3. change (Z.pos n~1) with (2 * Z.pos n + 1). replace (2 ^ (2 * Z.pos n + 1)) with (2 * 2 ^ Z.pos n * 2 ^ Z.pos n).
    + split; [replace (q * (2 * 2 ^ Z.pos n * 2 ^ Z.pos n)) with (2 * q * 2 ^ Z.pos n * 2 ^ Z.pos n) by ring; exact H3|].
      rewrite E3, E2, E1, !Z.div_div by lia. f_equal. ring.
    + rewrite Z.pow_add_r, Z.mul_comm, Z.pow_1_r by lia. replace (2 * Z.pos n) with (Z.pos n + Z.pos n) by lia. rewrite Z.pow_add_r by lia. ring.
  - destruct (IH p q mrs Hq Hm H) as [H2 E2]. cbv zeta in H2, E2.
    assert (P2 : 0 < 2 ^ Z.pos n) by (apply Z.pow_pos_nonneg; lia).
    destruct (IH p (q * 2 ^ Z.pos n) (iter_pos shr_1 n mrs)) as [H3 E3]; [nia|rewrite E2; apply Z.div_pos; lia|exact H2|].
    cbv zeta in H3, E3. change (Z.pos n~0) with (2 * Z.pos n). replace (2 ^ (2 * Z.pos n)) with (2 ^ Z.pos n * 2 ^ Z.pos n).
    + split; [rewrite Z.mul_assoc; exact H3|]. rewrite E3, E2, !Z.div_div by lia. reflexivity.
    + replace (2 * Z.pos n) with (Z.pos n + Z.pos n) by lia. rewrite Z.pow_add_r by lia. ring.
  - change (2 ^ 1) with 2. rewrite (Z.mul_comm q 2). apply shr_1_loc; assumption.
Qed.
Lemma loc_record m l : loc_of_shr_record (shr_record_of_loc m l) = l /\ shr_m (shr_record_of_loc m l) = m.
Proof. destruct l as [|[]]; split; reflexivity. Qed.

(** ** Digits *)
Lemma digits2_bounds m : 2 ^ (Z.pos (digits2_pos m) - 1) <= Z.pos m < 2 ^ Z.pos (digits2_pos m).
Proof.
  induction m as [m IH|m IH|]; cbn [digits2_pos]; [| |split; [discriminate|reflexivity]].
  - rewrite Pos2Z.inj_succ, Z.pow_succ_r by lia. change (Z.pos m~1) with (2 * Z.pos m + 1). replace (Z.succ (Z.pos (digits2_pos m)) - 1) with (Z.succ (Z.pos (digits2_pos m) - 1)) by lia.
    rewrite Z.pow_succ_r by lia. lia.
  - rewrite Pos2Z.inj_succ, Z.pow_succ_r by lia. change (Z.pos m~0) with (2 * Z.pos m). replace (Z.succ (Z.pos (digits2_pos m)) - 1) with (Z.succ (Z.pos (digits2_pos m) - 1)) by lia.
    rewrite Z.pow_succ_r by lia. lia.
Qed.
Lemma Zdigits2_unique m d : 0 < d -> 2 ^ (d - 1) <= m < 2 ^ d -> Zdigits2 m = d.
Proof.
  intros Hd H. assert (0 < 2 ^ (d - 1)) by (apply Z.pow_pos_nonneg; lia). destruct m as [|m|m]; [lia| |lia]. cbn [Zdigits2].
  pose proof (digits2_bounds m) as B. set (k := Z.pos (digits2_pos m)) in *.
  destruct (Z.lt_trichotomy k d) as [L|[E|L]]; [|exact E|].
  - assert (2 ^ k <= 2 ^ (d - 1)) by (apply Z.pow_le_mono_r; lia). lia.
  - assert (2 ^ d <= 2 ^ (k - 1)) by (apply Z.pow_le_mono_r; lia). lia.
Qed.
Lemma Zdigits2_bounds m : 0 < m -> 0 < Zdigits2 m /\ 2 ^ (Zdigits2 m - 1) <= m < 2 ^ Zdigits2 m.
Proof. destruct m as [|m|m]; try lia. intros _. cbn [Zdigits2]. split; [lia|apply digits2_bounds]. Qed.

(** ** Rounding to an integer *)
Lemma round_loc p q m l : 0 < q -> 0 <= m -> at_loc p q m l -> round_nearest_even m l = div_half_even p q.
Proof.
  intros Hq Hm H. unfold div_half_even. destruct l as [|c]; cbn [at_loc round_nearest_even] in *.
  - subst p. rewrite Z.div_mul, Z.mod_mul by lia. assert (2 * 0 <? q = true) as -> by lia. reflexivity.
  - destruct H as [H E]. assert (Ed : p / q = m) by (symmetry; apply Z.div_unique with (p - m * q); lia).
    assert (Er : p mod q = p - m * q) by (rewrite Z.mod_eq, Ed by lia; ring). rewrite Ed, Er.
    pose proof (Z.compare_spec (2 * (p - m * q)) q) as C. rewrite E in C. destruct c; inversion C.
    + assert (2 * (p - m * q) <? q = false) as -> by lia. assert (q <? 2 * (p - m * q) = false) as -> by lia. reflexivity.
    + assert (2 * (p - m * q) <? q = true) as -> by lia. reflexivity.
    + assert (2 * (p - m * q) <? q = false) as -> by lia. assert (q <? 2 * (p - m * q) = true) as -> by lia. reflexivity.
Qed.
(** The result is nearest, and even when there are two nearest. *)
Lemma half_even_nearest p q : 0 < q -> let n := div_half_even p q in
  -q <= 2 * (n * q - p) <= q /\
  forall k, Z.abs (n * q - p) <= Z.abs (k * q - p) /\ (Z.abs (n * q - p) = Z.abs (k * q - p) -> k = n \/ Z.even n = true).
Proof.
  intros Hq. unfold div_half_even. pose proof (Z.div_mod p q ltac:(lia)) as D. pose proof (Z.mod_pos_bound p q Hq) as R.
  set (d := p / q) in *. set (r := p mod q) in *. clearbody d r. subst p.
  assert (K : forall k, k = d \/ k = d + 1 \/ (k <= d - 1 /\ k * q <= d * q - q) \/ (d + 2 <= k /\ d * q + 2 * q <= k * q)) by (intros; nia).
  assert (Ee : Z.even (d + 1) = negb (Z.even d)) by (rewrite Z.even_add; destruct (Z.even d); reflexivity).
  destruct (2 * r <? q) eqn:E1; [|destruct (q <? 2 * r) eqn:E2; [|destruct (Z.even d) eqn:E3]]; cbv zeta;
    (split; [lia|]); intros k; destruct (K k) as [->|[->|[[K1 K2]|[K1 K2]]]]; rewrite ?Ee, ?E3; cbn [negb];
    (split; [lia|intros; try (right; reflexivity); try (left; lia)]).
Qed.

Section Format.
  Variables prec emax : Z.
  Hypothesis Hprec : 1 < prec.
  Hypothesis Hemax : prec < emax.
  Notation fexp := (fexp prec emax).
  Notation emin := (emin prec emax).

  (** What becomes of the integer the mantissa was rounded to. *)
  Definition finish (s : bool) (N E : Z) : float :=
    let '(m, e) := if N =? 2 ^ prec then (2 ^ (prec - 1), E + 1) else (N, E) in
    match m with
    | Zpos m => if e <=? emax - prec then S754_finite s m e else S754_infinity s
    | _ => S754_zero s
    end.

  Lemma fexp_low e : emin <= fexp e /\ e - prec <= fexp e.
  Proof. unfold fexp. lia. Qed.
  Lemma shr_fexp_loc p q m e l : 0 < q -> 0 <= m -> at_loc p q m l -> e <= fexp (Zdigits2 m + e) ->
    let E := fexp (Zdigits2 m + e) in
    exists mrs, shr_fexp prec emax m e l = (mrs, E) /\
      at_loc p (q * 2 ^ (E - e)) (shr_m mrs) (loc_of_shr_record mrs) /\ shr_m mrs = m / 2 ^ (E - e).
  Proof.
    intros Hq Hm H He E. unfold shr_fexp. fold E. unfold shr. destruct (loc_record m l) as [L1 L2].
    destruct (E - e) as [|n|n] eqn:X.
    - exists (shr_record_of_loc m l). rewrite L1, L2. change (2 ^ 0) with 1. rewrite Z.mul_1_r, Z.div_1_r.
      split; [f_equal; lia|]. split; [exact H|reflexivity].
    - destruct (iter_shr_1_loc n p q (shr_record_of_loc m l)) as [A B]; [exact Hq|rewrite L2; exact Hm|rewrite L1, L2; exact H|].
      cbv zeta in A, B. rewrite L2 in B. eexists. split; [f_equal; lia|]. split; [exact A|exact B].
    - subst E. lia.
  Qed.
  Lemma aux_finish s p q m e l : 0 < q -> 0 <= m -> at_loc p q m l -> e <= fexp (Zdigits2 m + e) ->
    let E := fexp (Zdigits2 m + e) in
    let N := div_half_even p (q * 2 ^ (E - e)) in
    binary_round_aux prec emax s m e l = finish s N E /\ 0 <= N <= 2 ^ prec /\
    p < q * 2 ^ (E - e) * 2 ^ prec /\ (emin < E -> q * 2 ^ (E - e) * 2 ^ (prec - 1) <= p).
  Proof.
    intros Hq Hm H He E N. destruct (shr_fexp_loc p q m e l Hq Hm H He) as (mrs & X1 & X2 & X3). fold E in X1, X2, X3.
    assert (P0 : 0 < 2 ^ (E - e)) by (apply Z.pow_pos_nonneg; lia).
    assert (Pp : 0 < 2 ^ prec /\ 0 < 2 ^ (prec - 1)) by (split; apply Z.pow_pos_nonneg; lia).
    assert (Pd : 2 ^ prec = 2 * 2 ^ (prec - 1)) by (rewrite <- Z.pow_succ_r by lia; f_equal; lia).
    assert (Hp : m * q <= p < (m + 1) * q) by (destruct l as [|c]; cbn [at_loc] in H; lia).
    assert (B : p < q * 2 ^ (E - e) * 2 ^ prec /\ (emin < E -> q * 2 ^ (E - e) * 2 ^ (prec - 1) <= p)).
    { destruct (Z.eq_dec m 0) as [->|Nz].
      - split. { rewrite <- Z.mul_assoc. assert (1 <= 2 ^ (E - e) * 2 ^ prec) as X by nia. set (y := 2 ^ (E - e) * 2 ^ prec) in *. clearbody y. nia. } intros HE. exfalso. unfold E, fexp in HE, He. cbn [Zdigits2] in *. unfold SpecFloat.fexp in *. lia.
      - destruct (Zdigits2_bounds m) as (D0 & D1 & D2); [lia|]. fold E in He.
        assert (m + 1 <= 2 ^ Zdigits2 m) as D2' by lia. split.
        + assert (2 ^ Zdigits2 m <= 2 ^ (E - e) * 2 ^ prec).
          { rewrite <- Z.pow_add_r by lia. apply Z.pow_le_mono_r; [lia|]. pose proof (proj2 (fexp_low (Zdigits2 m + e))). fold E in H0. lia. }
          assert ((m + 1) * q <= 2 ^ Zdigits2 m * q) by nia. nia.
        + intros HE. assert (2 ^ (E - e) * 2 ^ (prec - 1) <= 2 ^ (Zdigits2 m - 1)).
          { assert (E = Zdigits2 m + e - prec) by (unfold E, SpecFloat.fexp in *; lia).
            rewrite <- Z.pow_add_r by lia. apply Z.pow_le_mono_r; lia. }
          assert (2 ^ (Zdigits2 m - 1) * q <= m * q) by nia. nia. }
    split; [|split; [|exact B]].
    2:{ assert (Q0 : 0 < q * 2 ^ (E - e)) by nia. pose proof (half_even_nearest p _ Q0) as [Hn _]. cbv zeta in Hn. fold N in Hn.
        assert (0 <= p) by nia. set (b := q * 2 ^ (E - e)) in *. clearbody b N. clear - Q0 Hn H0 B Pp. destruct B as [B _]. nia. }
    assert (RN : 0 <= N <= 2 ^ prec).
    { assert (Q0 : 0 < q * 2 ^ (E - e)) by nia. pose proof (half_even_nearest p _ Q0) as [Hn _]. cbv zeta in Hn. fold N in Hn.
        assert (0 <= p) by nia. set (b := q * 2 ^ (E - e)) in *. clearbody b N. clear - Q0 Hn H0 B Pp. destruct B as [B _]. nia. }
    unfold binary_round_aux. rewrite X1. rewrite (round_loc p (q * 2 ^ (E - e))); [|nia|rewrite X3; apply Z.div_pos; lia|exact X2].
    fold N. pose proof (fexp_low (Zdigits2 m + e)) as [L _]. fold E in L. unfold finish.
    destruct (N =? 2 ^ prec) eqn:EN.
    - apply Z.eqb_eq in EN. rewrite EN. unfold shr_fexp. rewrite (Zdigits2_unique (2 ^ prec) (prec + 1)); [|lia|replace (prec + 1 - 1) with prec by lia; split; [lia|apply Z.pow_lt_mono_r; lia]].
      assert (F : fexp (prec + 1 + E) - E = 1) by (unfold SpecFloat.fexp; lia). rewrite F. cbn [shr iter_pos shr_record_of_loc].
      destruct (shr_1_loc (2 ^ prec) 1 (Build_shr_record (2 ^ prec) false false)) as [_ E1]; [lia|cbn; lia|cbn; lia|].
      cbn [shr_m] in E1. rewrite E1. replace (2 ^ prec / 2) with (2 ^ (prec - 1)) by lia.
      destruct (2 ^ (prec - 1)) eqn:Ep; reflexivity || (exfalso; lia).
    - apply Z.eqb_neq in EN. assert (F : fexp (Zdigits2 N + E) - E <= 0).
      { destruct (Z.eq_dec N 0) as [->|Nz]; [cbn [Zdigits2]; unfold SpecFloat.fexp; lia|].
        destruct (Zdigits2_bounds N) as (D0 & D1 & D2); [lia|].
        assert (Zdigits2 N <= prec). { destruct (Z.le_gt_cases (Zdigits2 N) prec) as [|G]; [assumption|].
          assert (2 ^ prec <= 2 ^ (Zdigits2 N - 1)) by (apply Z.pow_le_mono_r; lia). lia. }
        unfold SpecFloat.fexp. lia. }
      unfold shr_fexp, shr. destruct (fexp (Zdigits2 N + E) - E); [|lia|]; cbn [shr_record_of_loc shr_m]; destruct N; reflexivity || (exfalso; lia).
  Qed.

  (** *** Powers of two as rationals *)
  Notation pow2 e := ((2 # 1) ^ e)%Q.
  Lemma pow2_pos e : (0 < pow2 e)%Q.
  Proof. apply Qpower_0_lt. reflexivity. Qed.
  Lemma pow2_add a b : (pow2 (a + b) == pow2 a * pow2 b)%Q.
  Proof. apply Qpower_plus. discriminate. Qed.
  Lemma pow2_Z n : 0 <= n -> (inject_Z (2 ^ n) == pow2 n)%Q.
  Proof. intros. apply Zpower_Qpower. assumption. Qed.
  Lemma pow2_le a b : a <= b -> (pow2 a <= pow2 b)%Q.
  Proof. intros. apply Qpower_le_compat_l; [assumption|discriminate]. Qed.

  (** *** The nearest representable number *)
  Lemma inject_abs a : (inject_Z (Z.abs a) == Qabs (inject_Z a))%Q.
  Proof. destruct a; reflexivity. Qed.
  Lemma abs_scaled u v : (0 <= v)%Q -> (Qabs (u * v) == Qabs u * v)%Q.
  Proof. intros H. rewrite Qabs_Qmult, (Qabs_pos v H). reflexivity. Qed.

  (** p/q0 units of 2^E *)
  Definition amount (p q0 E : Z) : Q := (inject_Z p / inject_Z q0 * pow2 E)%Q.
  Lemma amount_diff p q0 E a : 0 < q0 ->
    (Qabs (amount p q0 E - inject_Z a * pow2 E) * inject_Z q0 == inject_Z (Z.abs (a * q0 - p)) * pow2 E)%Q.
  Proof.
    intros Hq. assert (Q0 : (0 < inject_Z q0)%Q) by (change 0%Q with (inject_Z 0); rewrite <- Zlt_Qlt; exact Hq).
    pose proof (pow2_pos E) as PE. rewrite <- abs_scaled by lra. rewrite inject_abs.
    replace (a * q0 - p) with (a * q0 + - p) by lia. rewrite inject_Z_plus, inject_Z_opp, inject_Z_mult.
    rewrite <- (Qabs_opp (inject_Z a * inject_Z q0 + - inject_Z p)), <- abs_scaled by lra.
    apply Qabs_wd. unfold amount. field. lra.
  Qed.
  Lemma amount_nearest p q0 E : 0 < q0 -> 0 <= p -> emin <= E ->
    (emin < E -> q0 * 2 ^ (prec - 1) <= p) ->
    let N := div_half_even p q0 in
    forall z, representable prec emax z ->
      (Qabs (amount p q0 E - inject_Z N * pow2 E) <= Qabs (amount p q0 E - z))%Q /\
      ((Qabs (amount p q0 E - inject_Z N * pow2 E) == Qabs (amount p q0 E - z))%Q ->
       (z == inject_Z N * pow2 E)%Q \/ Z.even N = true).
  Proof.
    intros Hq Hp He Hlow N z (m & e & Hm & Hr & Hz).
    assert (Q0 : (0 < inject_Z q0)%Q) by (change 0%Q with (inject_Z 0); rewrite <- Zlt_Qlt; exact Hq).
    pose proof (pow2_pos E) as PE. pose proof (half_even_nearest p q0 Hq) as [_ HN]. cbv zeta in HN. fold N in HN.
    assert (K : forall k, (Qabs (amount p q0 E - inject_Z N * pow2 E) <= Qabs (amount p q0 E - inject_Z k * pow2 E))%Q /\
      ((Qabs (amount p q0 E - inject_Z N * pow2 E) == Qabs (amount p q0 E - inject_Z k * pow2 E))%Q -> k = N \/ Z.even N = true)).
    { intros k. destruct (HN k) as [H1 H2]. pose proof (amount_diff p q0 E N Hq) as D1. pose proof (amount_diff p q0 E k Hq) as D2.
      rewrite Zle_Qle in H1. split.
      - apply (Qmult_lt_0_le_reg_r _ _ _ Q0). rewrite D1, D2. apply Qmult_le_compat_r; lra.
      - intros Eq. apply H2. rewrite Eq, D2 in D1. apply Qmult_inj_r in D1; [|lra]. apply inject_Z_injective. symmetry. exact D1. }
    destruct (Z.le_gt_cases E e) as [L|L].
    - assert (Ez : (z == inject_Z (m * 2 ^ (e - E)) * pow2 E)%Q).
      { rewrite Hz, inject_Z_mult, pow2_Z by lia. rewrite <- Qmult_assoc, <- pow2_add. replace (e - E + E) with e by lia. reflexivity. }
      destruct (K (m * 2 ^ (e - E))) as [K1 K2]. rewrite Ez. split; [exact K1|]. intros Eq. destruct (K2 Eq) as [->|]; [left; reflexivity|right; assumption].
    - assert (HE : emin < E) by (unfold SpecFloat.emin; lia). specialize (Hlow HE).
      destruct (K (2 ^ (prec - 1))) as [K1 _]. set (B := (inject_Z (2 ^ (prec - 1)) * pow2 E)%Q) in *.
      assert (HB : (B <= amount p q0 E)%Q).
      { unfold B, amount. apply Qmult_le_compat_r; [|lra]. apply Qle_shift_div_l; [exact Q0|]. rewrite <- inject_Z_mult, <- Zle_Qle. lia. }
      assert (HzB : (z < B)%Q).
      { assert (Pe : (0 < pow2 e)%Q) by apply pow2_pos. assert (Hm' : (inject_Z m < inject_Z (2 ^ prec))%Q) by (rewrite <- Zlt_Qlt; lia).
        assert (EB : (inject_Z (2 ^ prec) * pow2 e <= B)%Q).
        { unfold B. rewrite !pow2_Z by lia. rewrite <- !pow2_add. apply pow2_le. lia. }
        rewrite Hz. apply Qlt_le_trans with (inject_Z (2 ^ prec) * pow2 e)%Q; [|exact EB]. apply Qmult_lt_compat_r; assumption. }
      assert (X : (Qabs (amount p q0 E - B) < Qabs (amount p q0 E - z))%Q) by (rewrite !Qabs_pos by lra; lra).
      split; [lra|]. intros Eq. lra.
  Qed.
  Lemma overflow_amount p q0 E : 0 < q0 -> 0 <= p -> emin <= E ->
    p < q0 * 2 ^ prec -> (emin < E -> q0 * 2 ^ (prec - 1) <= p) ->
    let N := div_half_even p q0 in
    overflows prec emax (amount p q0 E) <-> (emax - prec < E \/ E = emax - prec /\ N = 2 ^ prec).
  Proof.
    intros Hq Hp He Hup Hlow N. assert (Q0 : (0 < inject_Z q0)%Q) by (change 0%Q with (inject_Z 0); rewrite <- Zlt_Qlt; exact Hq).
    pose proof (pow2_pos E) as PE. pose proof (half_even_nearest p q0 Hq) as [HN1 HN]. cbv zeta in HN, HN1. fold N in HN, HN1.
    assert (Pd : 2 ^ prec = 2 * 2 ^ (prec - 1)) by (rewrite <- Z.pow_succ_r by lia; f_equal; lia).
    assert (Pp : 0 < 2 ^ (prec - 1)) by (apply Z.pow_pos_nonneg; lia).
    assert (A0 : (0 <= amount p q0 E)%Q).
    { unfold amount. apply Qmult_le_0_compat; [|lra]. apply Qle_shift_div_l; [exact Q0|]. rewrite Qmult_0_l. change 0%Q with (inject_Z 0). rewrite <- Zle_Qle. exact Hp. }
    unfold overflows. rewrite (Qabs_pos _ A0).
    assert (T : (pow2 emax - pow2 (emax - prec - 1) == inject_Z (2 * 2 ^ prec - 1) * pow2 (emax - prec - 1))%Q).
    { replace (2 * 2 ^ prec - 1) with (2 ^ (prec + 1) + - 1) by (rewrite Z.pow_add_r by lia; lia).
      rewrite inject_Z_plus, pow2_Z by lia. rewrite Qmult_plus_distr_l, <- pow2_add. replace (prec + 1 + (emax - prec - 1)) with emax by lia.
      change (inject_Z (- 1)) with (-1 # 1). ring. }
    rewrite T. destruct (Z.lt_trichotomy E (emax - prec)) as [L|[L|L]].
    - split; [|lia]. intros H. exfalso.
      assert (U : (amount p q0 E < inject_Z (2 ^ prec) * pow2 E)%Q).
      { unfold amount. apply Qmult_lt_compat_r; [exact PE|]. apply Qlt_shift_div_r; [exact Q0|]. rewrite <- inject_Z_mult, <- Zlt_Qlt. lia. }
      assert (V : (inject_Z (2 ^ prec) * pow2 E <= inject_Z (2 ^ prec) * pow2 (emax - prec - 1))%Q).
      { apply Qmult_le_l; [change 0%Q with (inject_Z 0); rewrite <- Zlt_Qlt; lia|]. apply pow2_le. lia. }
      assert (W : (inject_Z (2 ^ prec) * pow2 (emax - prec - 1) <= inject_Z (2 * 2 ^ prec - 1) * pow2 (emax - prec - 1))%Q).
      { apply Qmult_le_compat_r; [rewrite <- Zle_Qle; lia|]. apply Qlt_le_weak, pow2_pos. }
      lra.
    - assert (X : (inject_Z (2 * 2 ^ prec - 1) * pow2 (emax - prec - 1) <= amount p q0 E)%Q <-> (2 * 2 ^ prec - 1) * q0 <= 2 * p).
      { unfold amount. assert (E2 : (pow2 E == inject_Z 2 * pow2 (emax - prec - 1))%Q) by (change (inject_Z 2) with (pow2 1); rewrite <- pow2_add, L; replace (1 + (emax - prec - 1)) with (emax - prec) by lia; reflexivity).
        rewrite E2, Qmult_assoc. pose proof (pow2_pos (emax - prec - 1)) as PP. rewrite Qmult_le_r by exact PP.
        rewrite Zle_Qle, !inject_Z_mult. split; intros H.
        - setoid_replace (inject_Z 2 * inject_Z p)%Q with (inject_Z p / inject_Z q0 * inject_Z 2 * inject_Z q0)%Q by (field; lra).
          apply Qmult_le_compat_r; [exact H|lra].
        - apply (Qmult_lt_0_le_reg_r _ _ _ Q0). setoid_replace (inject_Z p / inject_Z q0 * inject_Z 2 * inject_Z q0)%Q with (inject_Z 2 * inject_Z p)%Q by (field; lra).
          exact H. }
      rewrite X. split.
      + intros H. right. split; [exact L|]. destruct (HN (2 ^ prec)) as [H1 H2]. destruct (HN (2 ^ prec - 1)) as [H3 H4].
        assert (Z.even (2 ^ prec - 1) = false) as Ev by (rewrite Pd; rewrite Z.even_sub, Z.even_mul; reflexivity).
        assert (N <= 2 ^ prec) by nia. assert (2 ^ prec - 1 <= N) by nia.
        destruct (Z.eq_dec N (2 ^ prec)) as [|Ne]; [assumption|]. exfalso. assert (EN : N = 2 ^ prec - 1) by lia.
        rewrite EN in *. destruct H2 as [H2|H2]; [|lia|congruence]. lia.
      + intros [H|[_ H]]; [lia|]. rewrite H in HN1. lia.
    - split; [lia|]. intros _.
      assert (HE : emin < E) by (unfold SpecFloat.emin; lia). specialize (Hlow HE).
      assert (U : (inject_Z (2 ^ (prec - 1)) * pow2 E <= amount p q0 E)%Q).
      { unfold amount. apply Qmult_le_compat_r; [|lra]. apply Qle_shift_div_l; [exact Q0|]. rewrite <- inject_Z_mult, <- Zle_Qle. lia. }
      assert (V : (pow2 emax <= inject_Z (2 ^ (prec - 1)) * pow2 E)%Q) by (rewrite pow2_Z, <- pow2_add by lia; apply pow2_le; lia).
      pose proof (pow2_pos (emax - prec - 1)). rewrite <- T. lra.
  Qed.
  Definition signed (s : bool) (x : Q) : Q := if s then - x else x.
  Lemma representable_opp z : representable prec emax z -> representable prec emax (- z)%Q.
  Proof. intros (m & e & H1 & H2 & H3). exists (- m), e. split; [lia|]. split; [exact H2|]. rewrite H3, inject_Z_opp. ring. Qed.
  Lemma overflows_signed s x : overflows prec emax (signed s x) <-> overflows prec emax x.
  Proof. unfold overflows. destruct s; cbn [signed]; [rewrite Qabs_opp|]; reflexivity. Qed.
  Lemma finish_rounded s p q0 E : 0 < q0 -> 0 <= p -> emin <= E ->
    p < q0 * 2 ^ prec -> (emin < E -> q0 * 2 ^ (prec - 1) <= p) ->
    rounded prec emax (signed s (amount p q0 E)) s (finish s (div_half_even p q0) E).
  Proof.
    intros Hq Hp He Hup Hlow. pose proof (overflow_amount p q0 E Hq Hp He Hup Hlow) as O. cbv zeta in O.
    pose proof (amount_nearest p q0 E Hq Hp He Hlow) as NN. cbv zeta in NN. set (N := div_half_even p q0) in *.
    assert (Pd : 2 ^ prec = 2 * 2 ^ (prec - 1)) by (rewrite <- Z.pow_succ_r by lia; f_equal; lia).
    assert (Pd2 : 2 ^ (prec - 1) = 2 * 2 ^ (prec - 2)) by (rewrite <- Z.pow_succ_r by lia; f_equal; lia).
    assert (Pp : 0 < 2 ^ (prec - 2)) by (apply Z.pow_pos_nonneg; lia).
    pose proof (half_even_nearest p q0 Hq) as [HN1 _]. cbv zeta in HN1. fold N in HN1.
    assert (RN : 0 <= N <= 2 ^ prec) by (clearbody N; nia).
    assert (LN : emin < E -> 2 ^ (prec - 1) <= N) by (intros HE; specialize (Hlow HE); clearbody N; nia).
    (* the finite results *)
    assert (V : forall r, f_finite r = true -> in_format prec emax r -> f_signbit r = s ->
        (f_value r == signed s (inject_Z N * pow2 E))%Q -> (even_mantissa r = Z.even N) ->
        ~ overflows prec emax (amount p q0 E) -> rounded prec emax (signed s (amount p q0 E)) s r).
    { intros r F1 F2 F3 F4 F5 F6. right. rewrite overflows_signed. repeat (split; [assumption|]). intros z Hz.
      assert (Ez : forall t, (Qabs (signed s (amount p q0 E) - signed s t) == Qabs (amount p q0 E - t))%Q).
      { intros t. destruct s; cbn [signed]; [|reflexivity]. rewrite <- (Qabs_opp (amount p q0 E - t)). apply Qabs_wd. ring. }
      destruct (NN (signed s z)) as [A B]; [destruct s; cbn [signed]; [apply representable_opp|]; exact Hz|].
      assert (Ess : (z == signed s (signed s z))%Q) by (destruct s; cbn [signed]; ring).
      assert (Ezz : (Qabs (signed s (amount p q0 E) - z) == Qabs (amount p q0 E - signed s z))%Q).
      { destruct s; cbn [signed]; [|reflexivity]. rewrite <- (Qabs_opp (amount p q0 E - - z)). apply Qabs_wd. ring. }
      rewrite F4, Ez, Ezz. split; [exact A|].
      intros Eq. rewrite F5. destruct (B Eq) as [B1|B1]; [left|right; exact B1]. rewrite Ess. destruct s; cbn [signed] in *; rewrite B1; reflexivity. }
    unfold finish. destruct (N =? 2 ^ prec) eqn:EN.
    - apply Z.eqb_eq in EN. destruct (2 ^ (prec - 1)) as [|m|m] eqn:Em; [lia| |lia]. destruct (E + 1 <=? emax - prec) eqn:EE.
      + apply V.
        * reflexivity.
        * cbn [in_format]. rewrite Em, Pd. unfold SpecFloat.emin in He. lia.
        * reflexivity.
        * cbn [f_value]. rewrite EN, Pd. rewrite inject_Z_mult, pow2_add. destruct s; cbn [signed]; change (inject_Z 2) with (2 # 1)%Q; change (pow2 1) with (2 # 1)%Q; ring.
        * cbn [even_mantissa]. rewrite EN, Pd, Pd2, !Z.even_mul. reflexivity.
        * rewrite O. lia.
      + left. rewrite overflows_signed, O. split; [lia|reflexivity].
    - apply Z.eqb_neq in EN. destruct N as [|m|m] eqn:Em; [| |lia].
      + apply V; try reflexivity.
        * cbn [f_value]. change (inject_Z 0) with 0%Q. destruct s; cbn [signed]; ring.
        * rewrite O. destruct (Z.eq_dec E emin) as [->|]; [unfold SpecFloat.emin; lia|]. lia.
      + destruct (E <=? emax - prec) eqn:EE.
        * apply V; try reflexivity.
          -- cbn [in_format]. unfold SpecFloat.emin in *. destruct (Z.eq_dec E (3 - emax - prec)); lia.
          -- cbn [f_value]. destruct s; cbn [signed]; ring.
          -- rewrite O. lia.
        * left. rewrite overflows_signed, O. split; [lia|reflexivity].
  Qed.
  Lemma aux_rounded s p q m e l : 0 < q -> 0 <= m -> at_loc p q m l -> e <= fexp (Zdigits2 m + e) ->
    rounded prec emax (signed s (amount p q e)) s (binary_round_aux prec emax s m e l).
  Proof.
    intros Hq Hm H He. destruct (aux_finish s p q m e l Hq Hm H He) as (-> & _ & B1 & B2).
    set (E := fexp (Zdigits2 m + e)) in *. assert (P0 : 0 < 2 ^ (E - e)) by (apply Z.pow_pos_nonneg; lia).
    assert (Hp : 0 <= p) by (destruct l as [|c]; cbn [at_loc] in H; nia).
    assert (Ea : (amount p q e == amount p (q * 2 ^ (E - e)) E)%Q).
    { unfold amount. rewrite inject_Z_mult, pow2_Z by lia. replace e with (E - (E - e)) at 1 by lia.
      assert (Qq : ~ (inject_Z q == 0)%Q) by (change 0%Q with (inject_Z 0); rewrite inject_Z_injective; lia).
      pose proof (pow2_pos (E - e)). replace (E - (E - e)) with (E + - (E - e)) by lia. rewrite pow2_add, Qpower_opp. field. split; [lra|exact Qq]. }
    assert (Hq0 : 0 < q * 2 ^ (E - e)) by nia.
    pose proof (finish_rounded s p (q * 2 ^ (E - e)) E Hq0 Hp (proj1 (fexp_low _)) B1 B2) as R.
    assert (Es : (signed s (amount p q e) == signed s (amount p (q * 2 ^ (E - e)) E))%Q) by (destruct s; cbn [signed]; rewrite Ea; reflexivity).
    unfold rounded, overflows in *. rewrite Es. destruct R as [R|(R1 & R2 & R3 & R4 & R5)]; [left; exact R|right].
    repeat (split; [assumption|]). intros z Hz. destruct (R5 z Hz) as [A B]. rewrite Es. split; assumption.
  Qed.

  (** *** Arithmetic *)
  Lemma rounded_wd x y s r : (x == y)%Q -> rounded prec emax x s r -> rounded prec emax y s r.
  Proof.
    intros E R. unfold rounded, overflows in *. rewrite <- E. destruct R as [R|(R1 & R2 & R3 & R4 & R5)]; [left; exact R|right].
    repeat (split; [assumption|]). intros z Hz. destruct (R5 z Hz) as [A B]. rewrite <- E. split; assumption.
  Qed.
  Lemma not_overflows_0 : ~ overflows prec emax 0.
  Proof.
    unfold overflows. change (Qabs 0) with 0%Q. intros H.
    assert (H2 : (pow2 (emax - prec - 1) < pow2 emax)%Q) by (apply Qpower_lt_compat_l; [lia|reflexivity]). lra.
  Qed.
  Lemma rounded_zero x s : (x == 0)%Q -> rounded prec emax x s (S754_zero s).
  Proof.
    intros E. apply (rounded_wd 0%Q); [symmetry; exact E|]. right. split; [apply not_overflows_0|]. repeat (split; [reflexivity|]).
    intros z _. cbn [f_value even_mantissa]. split; [change (Qabs (0 - 0)) with 0%Q; apply Qabs_nonneg|right; reflexivity].
  Qed.
  Lemma amount_1 m e : (amount m 1 e == inject_Z m * pow2 e)%Q.
  Proof. unfold amount. change (inject_Z 1) with 1%Q. field. Qed.
  Lemma value_signed s m e : (f_value (S754_finite s m e) == signed s (inject_Z (Z.pos m) * pow2 e))%Q.
  Proof. cbn [f_value]. destruct s; cbn [signed]; ring. Qed.
  Lemma digits_low m k : 0 <= k -> 2 ^ k <= m -> k + 1 <= Zdigits2 m.
  Proof.
    intros Hk H. assert (0 < 2 ^ k) by (apply Z.pow_pos_nonneg; lia). destruct (Zdigits2_bounds m) as (D0 & _ & D2); [lia|].
    destruct (Z.le_gt_cases (k + 1) (Zdigits2 m)) as [|G]; [assumption|]. assert (2 ^ Zdigits2 m <= 2 ^ k) by (apply Z.pow_le_mono_r; lia). lia.
  Qed.
  Lemma mul_rounded x y : f_finite x = true -> f_finite y = true -> in_format prec emax x -> in_format prec emax y ->
    rounded prec emax (f_value x * f_value y) (xorb (f_signbit x) (f_signbit y)) (SFmul prec emax x y).
  Proof.
    intros Fx Fy Ix Iy. destruct x as [sx|sx| |sx mx ex]; try discriminate Fx; destruct y as [sy|sy| |sy my ey]; try discriminate Fy;
      cbn [SFmul f_signbit]; try (apply rounded_zero; cbn [f_value]; ring).
    apply rounded_wd with (signed (xorb sx sy) (amount (Z.pos (mx * my)) 1 (ex + ey))).
    - rewrite !value_signed, (Pos2Z.inj_mul mx my). unfold signed. destruct sx, sy; cbn [xorb]; rewrite amount_1, inject_Z_mult, pow2_add; ring.
    - apply aux_rounded; [lia|lia|cbn [at_loc]; lia|]. cbn [in_format] in Ix, Iy. unfold SpecFloat.fexp, SpecFloat.emin.
      assert (P1 : 0 < 2 ^ (prec - 1)) by (apply Z.pow_pos_nonneg; lia).
      destruct Ix as (_ & Rx & [Nx|Nx]).
      + assert (prec - 1 + 1 <= Zdigits2 (Z.pos (mx * my))) by (apply digits_low; [lia|rewrite Pos2Z.inj_mul; nia]). lia.
      + destruct Iy as (_ & Ry & [Ny|Ny]); [|lia].
        assert (prec - 1 + 1 <= Zdigits2 (Z.pos (mx * my))) by (apply digits_low; [lia|rewrite Pos2Z.inj_mul; nia]). lia.
  Qed.
  Lemma new_location_loc a b : 0 < b -> 0 <= a -> at_loc a b (a / b) (new_location b (a mod b)).
  Proof.
    intros Hb Ha. pose proof (Z.div_mod a b ltac:(lia)) as D. pose proof (Z.mod_pos_bound a b Hb) as R.
    set (q := a / b) in *. set (r := a mod b) in *. clearbody q r. subst a.
    assert (E1 : b * q + r - q * b = r) by ring. assert (E2 : (q + 1) * b = b * q + b) by ring. assert (E3 : q * b = b * q) by ring.
    unfold new_location. destruct (Z.even b) eqn:Ev.
    - unfold new_location_even. destruct (Zeq_bool r 0) eqn:Er.
      + apply Zeq_bool_eq in Er. cbn [at_loc]. lia.
      + apply Zeq_bool_neq in Er. cbn [at_loc]. rewrite E1. split; [rewrite E2, E3; lia|reflexivity].
    - unfold new_location_odd. destruct (Zeq_bool r 0) eqn:Er.
      + apply Zeq_bool_eq in Er. cbn [at_loc]. lia.
      + apply Zeq_bool_neq in Er. cbn [at_loc]. rewrite E1. split; [rewrite E2, E3; lia|].
        assert (b mod 2 = 1) by (rewrite Zmod_even, Ev; reflexivity).
        destruct (Z.compare_spec (2 * r + 1) b); [apply Z.compare_lt_iff|apply Z.compare_lt_iff|apply Z.compare_gt_iff]; lia.
  Qed.
  Lemma div_rounded x y : f_finite x = true -> f_finite y = true -> (forall s, y <> S754_zero s) ->
    rounded prec emax (f_value x / f_value y) (xorb (f_signbit x) (f_signbit y)) (SFdiv prec emax x y).
  Proof.
    intros Fx Fy Ny. destruct x as [sx|sx| |sx mx ex]; try discriminate Fx; destruct y as [sy|sy| |sy my ey]; try discriminate Fy;
      try (contradiction (Ny sy); reflexivity); cbn [SFdiv f_signbit].
    - apply rounded_zero. cbn [f_value]. unfold Qdiv. ring.
    - unfold SFdiv_core_binary. cbn [Zdigits2]. set (d1 := Z.pos (digits2_pos mx)). set (d2 := Z.pos (digits2_pos my)).
      set (e' := Z.min (fexp (d1 + ex - (d2 + ey))) (ex - ey)). set (sh := ex - ey - e').
      assert (Hs : 0 <= sh) by lia.
      assert (M : match sh with Z0 => Z.pos mx | Zpos _ => Z.shiftl (Z.pos mx) sh | Zneg _ => 0 end = Z.pos mx * 2 ^ sh).
      { destruct sh eqn:Es; [change (2 ^ 0) with 1; lia|rewrite Z.shiftl_mul_pow2 by lia; reflexivity|lia]. }
      rewrite M. set (a := Z.pos mx * 2 ^ sh). assert (Psh : 0 < 2 ^ sh) by (apply Z.pow_pos_nonneg; lia).
      assert (Ha : 0 < a) by (unfold a; nia).
      pose proof (new_location_loc a (Z.pos my) ltac:(lia) ltac:(lia)) as L. unfold Z.div, Z.modulo in L.
      assert (Hq0 : 0 <= a / Z.pos my) by (apply Z.div_pos; lia). unfold Z.div in Hq0.
      assert (Hqd : fst (Z.div_eucl a (Z.pos my)) = a / Z.pos my) by (unfold Z.div; destruct (Z.div_eucl a (Z.pos my)); reflexivity).
      destruct (Z.div_eucl a (Z.pos my)) as [q r] eqn:Eq. cbn [fst] in Hqd.
      apply rounded_wd with (signed (xorb sx sy) (amount a (Z.pos my) e')).
      + rewrite !value_signed.
        assert (Ee : (pow2 sh * pow2 e' == pow2 ex / pow2 ey)%Q).
        { rewrite <- pow2_add. replace (sh + e') with (ex + - ey) by lia. rewrite pow2_add, Qpower_opp. reflexivity. }
        assert (Ny2 : ~ (inject_Z (Z.pos my) == 0)%Q) by (change 0%Q with (inject_Z 0); rewrite inject_Z_injective; lia).
        pose proof (pow2_pos ey) as Pey.
        assert (G : (amount a (Z.pos my) e' == inject_Z (Z.pos mx) * pow2 ex / (inject_Z (Z.pos my) * pow2 ey))%Q).
        { unfold a, amount. rewrite inject_Z_mult, pow2_Z by lia. transitivity (inject_Z (Z.pos mx) / inject_Z (Z.pos my) * (pow2 sh * pow2 e'))%Q; [field; exact Ny2|]. rewrite Ee. field. split; [lra|exact Ny2]. }
        unfold signed. destruct sx, sy; cbn [xorb]; rewrite G; field; split; (lra || exact Ny2).
      + apply aux_rounded; [lia|exact Hq0|exact L|]. clear L.
        (* the quotient has enough digits *)
        pose proof (digits2_bounds mx) as B1. pose proof (digits2_bounds my) as B2. fold d1 in B1. fold d2 in B2.
        assert (G : 0 <= d1 - 1 + sh - d2 -> d1 + sh - d2 <= Zdigits2 q).
        { intros Hk. replace (d1 + sh - d2) with (d1 - 1 + sh - d2 + 1) by lia. apply digits_low; [exact Hk|].
          rewrite Hqd. apply Z.div_le_lower_bound; [lia|]. unfold a.
          apply Z.le_trans with (2 ^ d2 * 2 ^ (d1 - 1 + sh - d2)).
          - apply Z.mul_le_mono_nonneg_r; [apply Z.pow_nonneg; lia|lia].
          - rewrite <- Z.pow_add_r by lia. replace (d2 + (d1 - 1 + sh - d2)) with (d1 - 1 + sh) by lia. rewrite Z.pow_add_r by lia.
            apply Z.mul_le_mono_nonneg_r; lia. }
        assert (Zd : 0 <= Zdigits2 q) by (destruct q; cbn [Zdigits2]; lia).
        assert (e' <= fexp (d1 + ex - (d2 + ey))) by lia. unfold SpecFloat.fexp in *. lia.
  Qed.
  Lemma shift_pos_Z d m : Z.pos (shift_pos d m) = Z.pos m * 2 ^ Z.pos d.
  Proof. rewrite shift_pos_correct, Zpower_pos_nat, Zpower_nat_Z, positive_nat_Z. ring. Qed.
  Lemma round_rounded s m e : rounded prec emax (signed s (inject_Z (Z.pos m) * pow2 e)) s (binary_round prec emax s m e).
  Proof.
    unfold binary_round, shl_align. set (E := fexp (Z.pos (digits2_pos m) + e)). destruct (E - e) as [|d|d] eqn:X.
    - eapply rounded_wd; [|apply aux_rounded with (p := Z.pos m) (q := 1); [lia|lia|cbn [at_loc]; lia|cbn [Zdigits2]; fold E; lia]].
      unfold signed. destruct s; rewrite amount_1; reflexivity.
    - eapply rounded_wd; [|apply aux_rounded with (p := Z.pos m) (q := 1); [lia|lia|cbn [at_loc]; lia|cbn [Zdigits2]; fold E; lia]].
      unfold signed. destruct s; rewrite amount_1; reflexivity.
    - assert (Dg : Zdigits2 (Z.pos (shift_pos d m)) = Z.pos (digits2_pos m) + Z.pos d).
      { pose proof (digits2_bounds m) as B. assert (0 < 2 ^ Z.pos d) by (apply Z.pow_pos_nonneg; lia).
        apply Zdigits2_unique; [lia|]. rewrite shift_pos_Z. replace (Z.pos (digits2_pos m) + Z.pos d - 1) with (Z.pos (digits2_pos m) - 1 + Z.pos d) by lia.
        rewrite !Z.pow_add_r by lia. split; [apply Z.mul_le_mono_nonneg_r; lia|apply Z.mul_lt_mono_pos_r; lia]. }
      eapply rounded_wd; [|apply aux_rounded with (p := Z.pos (shift_pos d m)) (q := 1); [lia|lia|cbn [at_loc]; lia|]].
      + unfold signed. assert (G : (amount (Z.pos (shift_pos d m)) 1 E == inject_Z (Z.pos m) * pow2 e)%Q).
        { rewrite amount_1, shift_pos_Z, inject_Z_mult, pow2_Z by lia. rewrite <- Qmult_assoc, <- pow2_add. replace (Z.pos d + E) with e by lia. reflexivity. }
        destruct s; rewrite G; reflexivity.
      + rewrite Dg. replace (Z.pos (digits2_pos m) + Z.pos d + E) with (Z.pos (digits2_pos m) + e) by lia. fold E. lia.
  Qed.
  (** The sign of zero is given. *)
  Lemma normalize_rounded z e s : rounded prec emax (inject_Z z * pow2 e) (if z =? 0 then s else z <? 0) (binary_normalize prec emax z e s).
  Proof.
    destruct z as [|m|m]; cbn [binary_normalize Z.eqb Z.ltb Z.compare].
    - apply rounded_zero. change (inject_Z 0) with 0%Q. ring.
    - exact (round_rounded false m e).
    - eapply rounded_wd; [|apply (round_rounded true m e)]. cbn [signed]. change (Z.neg m) with (- Z.pos m). rewrite inject_Z_opp. ring.
  Qed.

  (** *** Numbers of the format stay *)
  Lemma in_format_representable x : f_finite x = true -> in_format prec emax x -> representable prec emax (f_value x).
  Proof.
    intros F I. destruct x as [s|s| |s m e]; try discriminate F.
    - exists 0, (3 - emax - prec). split; [apply Z.pow_pos_nonneg; lia|]. split; [lia|]. cbn [f_value]. change (inject_Z 0) with 0%Q. ring.
    - cbn [in_format] in I. exists (if s then Z.neg m else Z.pos m), e. split; [destruct s; cbn [Z.abs]; lia|]. split; [lia|].
      cbn [f_value]. destruct s; [change (Z.neg m) with (- Z.pos m); rewrite inject_Z_opp|]; reflexivity.
  Qed.
  Lemma same_value x y : f_finite x = true -> f_finite y = true -> in_format prec emax x -> in_format prec emax y ->
    f_signbit x = f_signbit y -> (f_value x == f_value y)%Q -> x = y.
  Proof.
    intros Fx Fy Ix Iy S V.
    assert (Z0 : forall s m e, ~ (f_value (S754_finite s m e) == 0)%Q).
    { intros s m e H. rewrite value_signed in H. pose proof (pow2_pos e). assert (0 < inject_Z (Z.pos m))%Q by reflexivity.
      assert (0 < inject_Z (Z.pos m) * pow2 e)%Q by (apply Qmult_lt_0_compat; assumption). destruct s; cbn [signed] in H; lra. }
    destruct x as [sx|sx| |sx mx ex]; try discriminate Fx; destruct y as [sy|sy| |sy my ey]; try discriminate Fy; cbn [f_signbit] in S; subst.
    - reflexivity.
    - exfalso. apply (Z0 sy my ey). rewrite <- V. reflexivity.
    - exfalso. apply (Z0 sy mx ex). rewrite V. reflexivity.
    - rewrite !value_signed in V. assert (W : (inject_Z (Z.pos mx) * pow2 ex == inject_Z (Z.pos my) * pow2 ey)%Q) by (destruct sy; cbn [signed] in V; lra).
      assert (G : forall m1 e1 m2 e2, (inject_Z (Z.pos m1) * pow2 e1 == inject_Z (Z.pos m2) * pow2 e2)%Q -> e1 <= e2 -> Z.pos m1 = Z.pos m2 * 2 ^ (e2 - e1)).
      { intros m1 e1 m2 e2 H L. apply inject_Z_injective. rewrite inject_Z_mult, pow2_Z by lia. pose proof (pow2_pos e1).
        apply (Qmult_inj_r _ _ (pow2 e1)); [lra|]. rewrite H, <- Qmult_assoc, <- pow2_add. replace (e2 - e1 + e1) with e2 by lia. reflexivity. }
      cbn [in_format] in Ix, Iy. assert (Pd : 2 ^ prec = 2 * 2 ^ (prec - 1)) by (rewrite <- Z.pow_succ_r by lia; f_equal; lia).
      assert (T : ex = ey).
      { destruct (Z.lt_trichotomy ex ey) as [L|[L|L]]; [exfalso| exact L|exfalso].
        - specialize (G _ _ _ _ W ltac:(lia)). replace (ey - ex) with (ey - ex - 1 + 1) in G by lia. rewrite Z.pow_add_r, Z.pow_1_r in G by lia.
          assert (0 < 2 ^ (ey - ex - 1)) by (apply Z.pow_pos_nonneg; lia). destruct Iy as (_ & _ & [Iy|Iy]); [nia|lia].
        - symmetry in W. specialize (G _ _ _ _ W ltac:(lia)). replace (ex - ey) with (ex - ey - 1 + 1) in G by lia. rewrite Z.pow_add_r, Z.pow_1_r in G by lia.
          assert (0 < 2 ^ (ex - ey - 1)) by (apply Z.pow_pos_nonneg; lia). destruct Ix as (_ & _ & [Ix|Ix]); [nia|lia]. }
      subst. specialize (G _ _ _ _ W ltac:(lia)). rewrite Z.sub_diag, Z.mul_1_r in G. injection G as ->. reflexivity.
  Qed.
  Lemma representable_small x : representable prec emax x -> ~ overflows prec emax x.
  Proof.
    intros (m & e & Hm & He & E). unfold overflows. rewrite E. intros H.
    rewrite Qabs_Qmult in H. rewrite (Qabs_pos (pow2 e)) in H by (apply Qlt_le_weak, pow2_pos). rewrite <- inject_abs in H.
    assert (P2 : 2 ^ 1 < 2 ^ prec) by (apply Z.pow_lt_mono_r; lia).
    assert (A : (inject_Z (Z.abs m) * pow2 e <= inject_Z (2 ^ prec + - 1) * pow2 (emax - prec))%Q).
    { apply Qle_trans with (inject_Z (2 ^ prec + - 1) * pow2 e)%Q.
      - apply Qmult_le_compat_r; [rewrite <- Zle_Qle; lia|apply Qlt_le_weak, pow2_pos].
      - apply Qmult_le_l; [change 0%Q with (inject_Z 0); rewrite <- Zlt_Qlt; lia|]. apply pow2_le. lia. }
    rewrite inject_Z_plus, pow2_Z, Qmult_plus_distr_l, <- pow2_add in A by lia. replace (prec + (emax - prec)) with emax in A by lia.
    change (inject_Z (- 1)) with (- (1))%Q in A.
    assert (B : (pow2 (emax - prec - 1) < pow2 (emax - prec))%Q) by (apply Qpower_lt_compat_l; [lia|reflexivity]). lra.
  Qed.
  Lemma Qabs_0 a : (Qabs a <= 0)%Q -> (a == 0)%Q.
  Proof.
    intros A. pose proof (Qabs_nonneg a). assert (C : (Qabs a == 0)%Q) by lra.
    destruct (Qlt_le_dec a 0) as [L|L]; [rewrite Qabs_neg in C by lra|rewrite Qabs_pos in C by lra]; lra.
  Qed.
  (** Representable numbers stay. *)
  Lemma rounded_exact x s r : representable prec emax x -> rounded prec emax x s r ->
    f_finite r = true /\ in_format prec emax r /\ f_signbit r = s /\ (f_value r == x)%Q.
  Proof.
    intros Hx [[R _]|(R1 & R2 & R3 & R4 & R5)]; [contradiction (representable_small x Hx R)|].
    repeat (split; [assumption|]). destruct (R5 x Hx) as [A _].
    setoid_replace (x - x)%Q with 0%Q in A by ring. change (Qabs 0) with 0%Q in A. apply Qabs_0 in A. lra.
  Qed.
  Lemma rounded_same x r : f_finite x = true -> in_format prec emax x -> rounded prec emax (f_value x) (f_signbit x) r -> r = x.
  Proof.
    intros F I R. destruct (rounded_exact _ _ _ (in_format_representable x F I) R) as (A & B & C & D). apply same_value; assumption.
  Qed.
  (** *** The rounded number is unique *)
  Lemma split_even r : f_finite r = true -> in_format prec emax r -> even_mantissa r = true ->
    exists m e, 0 <= m < 2 ^ prec /\ Z.even m = true /\ 3 - emax - prec <= e <= emax - prec /\ (2 ^ (prec - 1) <= m \/ e = 3 - emax - prec) /\
      (f_value r == signed (f_signbit r) (inject_Z m * pow2 e))%Q.
  Proof.
    intros F I E. destruct r as [s|s| |s m e]; try discriminate F.
    - exists 0, (3 - emax - prec). split; [split; [lia|apply Z.pow_pos_nonneg; lia]|]. split; [reflexivity|]. split; [lia|]. split; [right; reflexivity|]. cbn [f_value f_signbit].
      destruct s; cbn [signed]; change (inject_Z 0) with 0%Q; ring.
    - exists (Z.pos m), e. cbn [in_format] in I. cbn [even_mantissa] in E. split; [lia|]. split; [exact E|]. split; [lia|]. split; [tauto|]. apply value_signed.
  Qed.
  Lemma between_even r r' : f_finite r = true -> f_finite r' = true -> in_format prec emax r -> in_format prec emax r' ->
    even_mantissa r = true -> even_mantissa r' = true -> f_signbit r = f_signbit r' -> (Qabs (f_value r) < Qabs (f_value r'))%Q ->
    exists z, representable prec emax z /\ ((f_value r < z /\ z < f_value r') \/ (f_value r' < z /\ z < f_value r))%Q.
  Proof.
    intros F F' I I' E E' S L.
    destruct (split_even r F I E) as (m & e & Hm & Em & He & Cm & V). destruct (split_even r' F' I' E') as (m' & e' & Hm' & Em' & He' & Cm' & V').
    rewrite <- S in V'. set (s := f_signbit r) in *. clearbody s.
    assert (A : forall k i, 0 <= k -> (Qabs (signed s (inject_Z k * pow2 i)) == inject_Z k * pow2 i)%Q).
    { intros k i Hk. pose proof (pow2_pos i). assert (0 <= inject_Z k)%Q by (change 0%Q with (inject_Z 0); rewrite <- Zle_Qle; lia).
      assert (0 <= inject_Z k * pow2 i)%Q by (apply Qmult_le_0_compat; lra). destruct s; cbn [signed]; rewrite ?Qabs_opp; apply Qabs_pos; assumption. }
    rewrite V, V' in L. rewrite !A in L by lia.
    assert (Pd : 2 ^ prec = 2 * 2 ^ (prec - 1)) by (rewrite <- Z.pow_succ_r by lia; f_equal; lia).
    assert (Le : e <= e').
    { destruct (Z.le_gt_cases e e') as [|G]; [assumption|exfalso]. destruct Cm as [Cm|Cm]; [|lia].
      assert (X : (inject_Z m' * pow2 e' <= inject_Z m * pow2 e)%Q).
      { assert (Y : (pow2 e == inject_Z (2 ^ (e - e')) * pow2 e')%Q) by (rewrite pow2_Z by lia; rewrite <- pow2_add; replace (e - e' + e') with e by lia; reflexivity).
        rewrite Y, Qmult_assoc, <- inject_Z_mult.
        apply Qmult_le_compat_r; [|apply Qlt_le_weak, pow2_pos]. rewrite <- Zle_Qle. replace (e - e') with (e - e' - 1 + 1) by lia.
        rewrite Z.pow_add_r, Z.pow_1_r by lia. assert (0 < 2 ^ (e - e' - 1)) by (apply Z.pow_pos_nonneg; lia). nia. }
      lra. }
    set (M := m' * 2 ^ (e' - e)).
    assert (VM : (inject_Z m' * pow2 e' == inject_Z M * pow2 e)%Q).
    { unfold M. rewrite inject_Z_mult, pow2_Z by lia. rewrite <- Qmult_assoc, <- pow2_add. replace (e' - e + e) with e' by lia. reflexivity. }
    assert (EM : Z.even M = true) by (unfold M; rewrite Z.even_mul, Em'; reflexivity).
    pose proof (pow2_pos e) as Pe.
    assert (LM : m < M). { rewrite VM in L. rewrite Zlt_Qlt. apply (Qmult_lt_r _ _ (pow2 e)); assumption. }
    assert (LM2 : m + 1 < M). { assert (m + 1 <> M); [|lia]. intros X. rewrite <- X, Z.even_add, Em in EM. discriminate EM. }
    assert (Hk : m + 1 < 2 ^ prec).
    { assert (m + 1 <> 2 ^ prec); [|lia]. intros X. assert (Y : Z.even (m + 1) = true) by (rewrite X, Pd, Z.even_mul; reflexivity).
      rewrite Z.even_add, Em in Y. discriminate Y. }
    assert (B1 : (inject_Z m * pow2 e < inject_Z (m + 1) * pow2 e)%Q) by (apply Qmult_lt_compat_r; [exact Pe|rewrite <- Zlt_Qlt; lia]).
    assert (B2 : (inject_Z (m + 1) * pow2 e < inject_Z M * pow2 e)%Q) by (apply Qmult_lt_compat_r; [exact Pe|rewrite <- Zlt_Qlt; lia]).
    exists (signed s (inject_Z (m + 1) * pow2 e)). split.
    - exists (if s then - (m + 1) else m + 1), e. split; [destruct s; lia|]. split; [lia|]. destruct s; cbn [signed]; [rewrite inject_Z_opp; ring|reflexivity].
    - rewrite V, V'. destruct s; cbn [signed]; [right|left]; rewrite VM; lra.
  Qed.
  Lemma rounded_unique x s r r' : rounded prec emax x s r -> rounded prec emax x s r' -> r = r'.
  Proof.
    intros [[O ->]|(N & F & I & S & R)] [[O' ->]|(N' & F' & I' & S' & R')]; try reflexivity; try contradiction.
    destruct (R _ (in_format_representable r' F' I')) as [A T]. destruct (R' _ (in_format_representable r F I)) as [A' T'].
    assert (D : (Qabs (x - f_value r) == Qabs (x - f_value r'))%Q) by lra.
    destruct (Qeq_dec (f_value r) (f_value r')) as [Ev|Nv]; [apply same_value; congruence|exfalso].
    destruct (T D) as [X|Er]; [apply Nv; symmetry; exact X|]. destruct (T' (Qeq_sym _ _ D)) as [X|Er']; [apply Nv; exact X|].
    assert (Nabs : ~ (Qabs (f_value r) == Qabs (f_value r'))%Q).
    { intros X. destruct (split_even r F I Er) as (m & e & Hm & _ & _ & _ & V). destruct (split_even r' F' I' Er') as (m' & e' & Hm' & _ & _ & _ & V').
      assert (P : forall k i, 0 <= k -> (0 <= inject_Z k * pow2 i)%Q).
      { intros k i Hk. apply Qmult_le_0_compat; [change 0%Q with (inject_Z 0); rewrite <- Zle_Qle; lia|apply Qlt_le_weak, pow2_pos]. }
      pose proof (P m e ltac:(lia)). pose proof (P m' e' ltac:(lia)). rewrite V, V', S, S' in X. apply Nv. rewrite V, V', S, S'.
      destruct s; cbn [signed] in X |- *; rewrite ?Qabs_opp in X; rewrite !Qabs_pos in X by assumption; lra. }
    assert (G : exists z, representable prec emax z /\ ((f_value r < z /\ z < f_value r') \/ (f_value r' < z /\ z < f_value r))%Q).
    { destruct (Q_dec (Qabs (f_value r)) (Qabs (f_value r'))) as [[L|L]|L]; [| |contradiction].
      - apply between_even; congruence.
      - destruct (between_even r' r) as (z & Z1 & Z2); [congruence..|exact L|]. exists z. tauto. }
    destruct G as (z & Hz & B). destruct (R z Hz) as [C _]. destruct (R' z Hz) as [C' _].
    revert A A' C C'. apply (Qabs_case (x - f_value r)); apply (Qabs_case (x - f_value r')); apply (Qabs_case (x - z)); intros; lra.
  Qed.
End Format.
