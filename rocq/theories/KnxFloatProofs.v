(** The 2-octet and 4-octet floats of the datapoint types. *)
From Coq Require Import String ZArith QArith Qabs Qpower Qround List Bool Lia Lqa ZifyBool SpecFloat.
From Verif Require Import Py Base Float Dpt SpecDpt DptProofs FloatProofs.
Import ListNotations.
Open Scope Z_scope.

Notation pow2 e := ((2 # 1) ^ e)%Q.

(** ** The constants *)
Lemma cent_rounded : rounded 53 1024 (1 # 100) false f_001.
Proof.
  pose proof (div_rounded 53 1024 eq_refl eq_refl (f_of_Z 1) (f_of_Z 100) eq_refl eq_refl ltac:(intros s; discriminate)) as R.
  change (SFdiv 53 1024 (f_of_Z 1) (f_of_Z 100)) with (fdiv (f_of_Z 1) (f_of_Z 100)) in R.
  replace (fdiv (f_of_Z 1) (f_of_Z 100)) with f_001 in R by (vm_compute; reflexivity).
  eapply rounded_wd; [|exact R]. vm_compute. reflexivity.
Qed.
Lemma cents_unique x q : f_finite x = true -> cents x q -> q = fdiv x f_001.
Proof.
  intros F (cent & C & R). rewrite (rounded_unique 53 1024 eq_refl eq_refl _ _ _ _ C cent_rounded) in R.
  apply (rounded_unique 53 1024 eq_refl eq_refl _ _ _ _ R).
  pose proof (div_rounded 53 1024 eq_refl eq_refl x f_001 F eq_refl ltac:(intros s; discriminate)) as D.
  replace (xorb (f_signbit x) (f_signbit f_001)) with (f_signbit x) in D by (destruct (f_signbit x); reflexivity). exact D.
Qed.
Lemma cents_div x : f_finite x = true -> cents x (fdiv x f_001).
Proof.
  intros F. exists f_001. split; [exact cent_rounded|].
  pose proof (div_rounded 53 1024 eq_refl eq_refl x f_001 F eq_refl ltac:(intros s; discriminate)) as D.
  replace (xorb (f_signbit x) (f_signbit f_001)) with (f_signbit x) in D by (destruct (f_signbit x); reflexivity). exact D.
Qed.

(** ** Rounding to hundredths *)
Lemma nearest_int_unique x k k' : nearest_int x k -> nearest_int x k' -> k = k'.
Proof.
  intros [A T] [A' T']. assert (D : (Qabs (inject_Z k - inject_Z k') <= 1)%Q).
  { setoid_replace (inject_Z k - inject_Z k')%Q with ((x - inject_Z k') + - (x - inject_Z k))%Q by ring.
    eapply Qle_trans; [apply Qabs_triangle|]. rewrite Qabs_opp. lra. }
  assert (E : Z.abs (k - k') <= 1).
  { rewrite Zle_Qle, inject_abs. change (inject_Z 1) with 1%Q. replace (k - k') with (k + - k') by lia. rewrite inject_Z_plus, inject_Z_opp. exact D. }
  destruct (Z.eq_dec k k') as [|N]; [assumption|exfalso].
  assert (C : k = k' + 1 \/ k' = k + 1) by lia.
  assert (H : (Qabs (x - inject_Z k) == 1 # 2)%Q /\ (Qabs (x - inject_Z k') == 1 # 2)%Q).
  { destruct C as [-> | ->]; rewrite inject_Z_plus in *; change (inject_Z 1) with 1%Q in *.
    - revert A A'. apply (Qabs_case (x - (inject_Z k' + 1))); apply (Qabs_case (x - inject_Z k')); intros; split; lra.
    - revert A A'. apply (Qabs_case (x - inject_Z k)); apply (Qabs_case (x - (inject_Z k + 1))); intros; split; lra. }
  destruct H as [H H']. apply T in H. apply T' in H'. destruct C as [-> | ->]; rewrite Z.even_add in *; rewrite ?H, ?H' in *; discriminate.
Qed.
Lemma half_even_int p q : 0 < q -> nearest_int (inject_Z p / inject_Z q) (div_half_even p q).
Proof.
  intros Hq. destruct (half_even_nearest p q Hq) as [B N]. cbv zeta in *. set (n := div_half_even p q) in *. clearbody n.
  assert (Q0 : (0 < inject_Z q)%Q) by (change 0%Q with (inject_Z 0); rewrite <- Zlt_Qlt; exact Hq).
  assert (E : (Qabs (inject_Z p / inject_Z q - inject_Z n) * inject_Z (2 * q) == inject_Z (2 * Z.abs (n * q - p)))%Q).
  { rewrite (inject_Z_mult 2 q). rewrite Qmult_assoc, (Qmult_comm _ (inject_Z 2)), <- Qmult_assoc, <- abs_scaled by lra.
    rewrite inject_Z_mult, inject_abs. apply Qmult_comp; [reflexivity|]. replace (n * q - p) with (n * q + - p) by lia.
    rewrite inject_Z_plus, inject_Z_opp, inject_Z_mult. rewrite <- Qabs_opp. apply Qabs_wd. field. lra. }
  assert (Q2 : (inject_Z (2 * q) * (1 # 2) == inject_Z q)%Q) by (rewrite inject_Z_mult; change (inject_Z 2) with (2 # 1)%Q; field).
  assert (Q3 : (0 < inject_Z (2 * q))%Q) by (change 0%Q with (inject_Z 0); rewrite <- Zlt_Qlt; lia).
  split.
  - apply (Qmult_lt_0_le_reg_r _ _ _ Q3). rewrite E, (Qmult_comm (1 # 2)), Q2, <- Zle_Qle. lia.
  - intros T. rewrite T, Qmult_comm, Q2, inject_Z_injective in E.
    destruct (Z.le_gt_cases 0 (n * q - p)).
    + destruct (N (n - 1)) as [_ T2]. destruct T2 as [T2|T2]; [lia|lia|exact T2].
    + destruct (N (n + 1)) as [_ T2]. destruct T2 as [T2|T2]; [lia|lia|exact T2].
Qed.
Lemma nearest_int_Z x k : (x == inject_Z k)%Q -> nearest_int x k.
Proof.
  intros E. split; rewrite E; (setoid_replace (inject_Z k - inject_Z k)%Q with 0%Q by ring); change (Qabs 0) with 0%Q; [lra|intros H; exfalso; lra].
Qed.
Lemma nearest_int_wd x y k : (x == y)%Q -> nearest_int x k -> nearest_int y k.
Proof. intros E [A B]. split; rewrite <- E; assumption. Qed.
Lemma value_abs s m e : (Qabs (f_value (S754_finite s m e)) == inject_Z (Z.pos m) * pow2 e)%Q.
Proof.
  rewrite value_signed. pose proof (pow2_pos e). assert (0 < inject_Z (Z.pos m))%Q by reflexivity.
  assert (0 < inject_Z (Z.pos m) * pow2 e)%Q by (apply Qmult_lt_0_compat; assumption).
  destruct s; cbn [signed]; rewrite ?Qabs_opp; apply Qabs_pos; lra.
Qed.
Lemma round2_spec q : f_finite q = true -> exists k, nearest_int (100 * Qabs (f_value q)) k /\ 0 <= k /\
  round2 q = if k >=? 10 ^ 28 then Err InvalidOperation else Ok k.
Proof.
  intros F. destruct q as [s|s| |s m e]; try discriminate F.
  - exists 0. split; [apply nearest_int_Z; reflexivity|]. split; [lia|reflexivity].
  - unfold round2. destruct (0 <=? e) eqn:Ee.
    + eexists. split; [|split; [|reflexivity]].
      * apply nearest_int_Z. rewrite value_abs, !inject_Z_mult, pow2_Z by lia. reflexivity.
      * assert (0 < 2 ^ e) by (apply Z.pow_pos_nonneg; lia). nia.
    + assert (0 < 2 ^ (- e)) by (apply Z.pow_pos_nonneg; lia). eexists. split; [|split; [|reflexivity]].
      * eapply nearest_int_wd; [|apply half_even_int; assumption]. rewrite value_abs, inject_Z_mult, pow2_Z by lia. rewrite Qpower_opp.
        change (inject_Z 100) with 100%Q. pose proof (pow2_pos e). field. lra.
      * pose proof (half_even_nearest (100 * Z.pos m) _ H) as [B _]. cbv zeta in B. nia.
Qed.

(** ** The exponent loop *)
Lemma f16_scale_spec fuel : forall m e0, 0 <= m < 2 ^ Z.of_nat fuel -> exists e, 0 <= e /\ m < 2 ^ (11 + e) /\ (e = 0 \/ 2 ^ (10 + e) <= m) /\
  f16_scale fuel m e0 = (m / 2 ^ e, e0 + e).
Proof.
  induction fuel as [|fuel IH]; intros m e0 H.
  - change (2 ^ Z.of_nat 0) with 1 in H. exists 0. replace m with 0 by lia. split; [lia|]. split; [reflexivity|]. split; [left; reflexivity|]. rewrite Z.add_0_r. reflexivity.
  - cbn [f16_scale]. destruct (m >? 2047) eqn:E.
    + rewrite Nat2Z.inj_succ, Z.pow_succ_r in H by lia. rewrite Z.shiftr_div_pow2 by lia. change (2 ^ 1) with 2.
      destruct (IH (m / 2) (e0 + 1)) as (e & He & L & M & ->); [lia|]. exists (e + 1). split; [lia|].
      replace (11 + (e + 1)) with (11 + e + 1) by lia. replace (10 + (e + 1)) with (10 + e + 1) by lia.
      rewrite !Z.pow_add_r, Z.pow_1_r in * by lia. change (2 ^ 10) with 1024 in *. change (2 ^ 11) with 2048 in *.
      assert (0 < 2 ^ e) by (apply Z.pow_pos_nonneg; lia). split; [lia|]. split; [right; destruct M as [->|M]; [change (2 ^ 0) with 1; lia|lia]|].
      rewrite (Z.mul_comm (2 ^ e) 2), <- Z.div_div by lia. f_equal. lia.
    + exists 0. change (2 ^ 0) with 1. change (2 ^ (11 + 0)) with 2048. rewrite Z.div_1_r, (Z.add_0_r e0). split; [lia|]. split; [lia|]. split; [left; reflexivity|reflexivity].
Qed.
Lemma scale_unique m e e' : 0 <= e -> 0 <= e' -> m < 2 ^ (11 + e) -> (e = 0 \/ 2 ^ (10 + e) <= m) ->
  m < 2 ^ (11 + e') -> (e' = 0 \/ 2 ^ (10 + e') <= m) -> e = e'.
Proof.
  intros H H' L M L' M'. destruct (Z.lt_trichotomy e e') as [X|[X|X]]; [exfalso|exact X|exfalso].
  - destruct M' as [->|M']; [lia|]. assert (2 ^ (11 + e) <= 2 ^ (10 + e')) by (apply Z.pow_le_mono_r; lia). lia.
  - destruct M as [->|M]; [lia|]. assert (2 ^ (11 + e') <= 2 ^ (10 + e)) by (apply Z.pow_le_mono_r; lia). lia.
Qed.
(** The fuel suffices: more of it changes nothing, and the loop has ended. *)
Theorem f16_scale_stops m more e0 : 0 <= m ->
  f16_scale (Z.to_nat (Z.log2 m + 1) + more) m e0 = f16_scale (Z.to_nat (Z.log2 m + 1)) m e0 /\
  fst (f16_scale (Z.to_nat (Z.log2 m + 1)) m e0) <= 2047.
Proof.
  intros Hm. pose proof (Z.log2_nonneg m).
  assert (B : m < 2 ^ (Z.log2 m + 1)) by (destruct (Z.eq_dec m 0) as [->|]; [reflexivity|apply Z.log2_spec; lia]).
  assert (B2 : 2 ^ (Z.log2 m + 1) <= 2 ^ (Z.log2 m + 1 + Z.of_nat more)) by (apply Z.pow_le_mono_r; lia).
  destruct (f16_scale_spec (Z.to_nat (Z.log2 m + 1) + more) m e0) as (e & He & L & M & ->); [rewrite Nat2Z.inj_add, Z2Nat.id by lia; lia|].
  destruct (f16_scale_spec (Z.to_nat (Z.log2 m + 1)) m e0) as (e' & He' & L' & M' & ->); [rewrite Z2Nat.id by lia; lia|].
  rewrite (scale_unique m e e') by assumption. split; [reflexivity|]. cbn [fst]. rewrite Z.pow_add_r in L' by lia. change (2 ^ 11) with 2048 in L'.
  assert (0 < 2 ^ e') by (apply Z.pow_pos_nonneg; lia). assert (m / 2 ^ e' < 2048) by (apply Z.div_lt_upper_bound; lia). lia.
Qed.

(** ** Encoding *)
Lemma stored_fields v e m b : 0 <= v < 2 ^ 16 -> 0 <= e <= 15 -> 0 <= b <= 1 ->
  set (set (set (set v 11 4 e) 8 3 (Z.shiftr m 8)) 0 8 m) 15 1 b = m mod 2048 + 2048 * e + 32768 * b.
Proof.
  intros Hv He Hb. rewrite !field_set by lia. rewrite Z.shiftr_div_pow2 by lia. unfold with_field, field.
  change (2 ^ 0) with 1. change (2 ^ 1) with 2. change (2 ^ 3) with 8. change (2 ^ 4) with 16. change (2 ^ 8) with 256.
  change (2 ^ 11) with 2048. change (2 ^ 15) with 32768. change (2 ^ 16) with 65536 in Hv.
  rewrite !Z.div_1_r. set (v1 := v + (e mod 16 - v / 2048 mod 16) * 2048).
  assert (H1 : v1 / 2048 mod 16 = e /\ v1 mod 2048 = v mod 2048 /\ v1 / 32768 = v / 32768 /\ 0 <= v1 < 65536) by lia.
  clearbody v1. set (v2 := v1 + (m / 256 mod 8 - v1 / 256 mod 8) * 256).
  assert (H2 : v2 / 2048 = v1 / 2048 /\ v2 / 256 mod 8 = m / 256 mod 8 /\ v2 mod 256 = v1 mod 256) by lia.
  clearbody v2. set (v3 := v2 + (m mod 256 - v2 mod 256) * 1).
  assert (H3 : v3 / 256 = v2 / 256 /\ v3 mod 256 = m mod 256) by lia. clearbody v3.
  assert (M : m mod 2048 = 256 * (m / 256 mod 8) + m mod 256) by lia.
  assert (B : b mod 2 = b) by lia. rewrite B, M. lia.
Qed.
Lemma f16_encode_steps v x n : 0 <= v < 2 ^ 16 -> f_finite x = true -> whole_cents x n ->
  0 <= n /\
  if n <? 2 ^ 26 then
    exists e, 0 <= e <= 15 /\ n < 2 ^ (11 + e) /\ (e = 0 \/ 2 ^ (10 + e) <= n) /\
      f16_encode v x = Ok ((if f_signbit x then 2048 - n / 2 ^ e else n / 2 ^ e) mod 2048 + 2048 * e + 32768 * (if f_signbit x then 1 else 0))
  else f16_encode v x = Err (if n <? 10 ^ 26 then PyException else InvalidOperation).
Proof.
  intros Hv F (q & k & C & Fq & N & ->). apply cents_unique in C; [|exact F]. subst q.
  destruct (round2_spec _ Fq) as (k' & N' & Hk & E). rewrite (nearest_int_unique _ _ _ N' N) in *. clear k' N'.
  split; [lia|]. unfold f16_encode. rewrite E.
  destruct (k >=? 10 ^ 28) eqn:K.
  - assert (10 ^ 26 <= k / 100) by (apply Z.div_le_lower_bound; lia). assert (2 ^ 26 < 10 ^ 26) by reflexivity.
    replace (k / 100 <? 2 ^ 26) with false by lia. replace (k / 100 <? 10 ^ 26) with false by lia. reflexivity.
  - cbn [rbind]. assert (Hn : k / 100 < 10 ^ 26) by (apply Z.div_lt_upper_bound; lia). set (n := k / 100) in *.
    assert (Hn0 : 0 <= n) by (unfold n; lia). clearbody n.
    pose proof (Z.log2_nonneg n).
    assert (B : n < 2 ^ (Z.log2 n + 1)) by (destruct (Z.eq_dec n 0) as [->|]; [reflexivity|apply Z.log2_spec; lia]).
    destruct (f16_scale_spec (Z.to_nat (Z.log2 n + 1)) n 0) as (e & He & L & M & ->); [rewrite Z2Nat.id by lia; lia|].
    rewrite Z.add_0_l. destruct (n <? 2 ^ 26) eqn:X.
    + assert (e <= 15). { destruct M as [->|M]; [lia|]. destruct (Z.le_gt_cases e 15); [assumption|]. assert (2 ^ 26 <= 2 ^ (10 + e)) by (apply Z.pow_le_mono_r; lia). lia. }
      exists e. split; [lia|]. split; [exact L|]. split; [exact M|]. replace (e >? 15) with false by lia. cbv zeta.
      rewrite stored_fields by (destruct (f_signbit x); lia). destruct (f_signbit x); reflexivity.
    + assert (15 < e). { destruct (Z.le_gt_cases e 15); [|lia]. assert (2 ^ (11 + e) <= 2 ^ 26) by (apply Z.pow_le_mono_r; lia). lia. }
      replace (e >? 15) with true by lia. replace (n <? 10 ^ 26) with true by lia. reflexivity.
Qed.
(** Every finite double has a number of cents, unless the quotient overflows. *)
Lemma whole_cents_total v x : f_finite x = true ->
  (exists n, whole_cents x n) \/ (cents x (S754_infinity (f_signbit x)) /\ f16_encode v x = Err InvalidOperation).
Proof.
  intros F. pose proof (cents_div x F) as C. destruct (f_finite (fdiv x f_001)) eqn:Fq.
  - left. destruct (round2_spec _ Fq) as (k & N & _). exists (k / 100), (fdiv x f_001), k. auto.
  - right. assert (E : fdiv x f_001 = S754_infinity (f_signbit x)).
    { destruct C as (cent & _ & [[_ R]|(_ & R & _)]); [exact R|congruence]. }
    unfold f16_encode. rewrite E in *. split; [exact C|reflexivity].
Qed.
Lemma whole_cents_unique x n n' : f_finite x = true -> whole_cents x n -> whole_cents x n' -> n = n'.
Proof.
  intros F (q & k & C & _ & N & ->) (q' & k' & C' & _ & N' & ->). apply cents_unique in C; [|exact F]. apply cents_unique in C'; [|exact F].
  subst. rewrite (nearest_int_unique _ _ _ N N'). reflexivity.
Qed.

(** ** Accuracy *)
Lemma nearest_exists x : exists k, (Qabs (x - inject_Z k) <= 1 # 2)%Q.
Proof.
  exists (Qfloor (x + (1 # 2))). pose proof (Qfloor_le (x + (1 # 2))) as A. pose proof (Qlt_floor (x + (1 # 2))) as B.
  rewrite inject_Z_plus in B. change (inject_Z 1) with 1%Q in B. apply Qabs_Qle_condition. lra.
Qed.
Lemma Qabs_inject_le k b : (Qabs (inject_Z k) <= inject_Z b)%Q -> Z.abs k <= b.
Proof. rewrite <- inject_abs, <- Zle_Qle. trivial. Qed.
Lemma rounded_close y s r : (Qabs y <= inject_Z (2 ^ 27))%Q -> rounded 53 1024 y s r ->
  f_finite r = true /\ (Qabs (y - f_value r) <= pow2 (-27))%Q.
Proof.
  intros Hy R. destruct R as [[O _]|(_ & F & _ & _ & R)].
  { exfalso. unfold overflows in O. assert ((2 # 1) ^ 1024 - (2 # 1) ^ (1024 - 53 - 1) <= inject_Z (2 ^ 27))%Q by (eapply Qle_trans; eassumption). vm_compute in H. apply H. reflexivity. }
  split; [exact F|].
  destruct (nearest_exists (y * inject_Z (2 ^ 26))) as (k & Hk).
  assert (Bk : Z.abs k <= 2 ^ 53).
  { apply Z.lt_succ_r. apply Z.le_lt_trans with (2 ^ 53); [|lia]. apply Z.lt_succ_r. rewrite Zlt_Qlt. unfold Z.succ. rewrite inject_Z_plus.
    rewrite inject_abs. change (inject_Z 1) with 1%Q.
    assert (T : (Qabs (inject_Z k) <= Qabs (y * inject_Z (2 ^ 26)) + Qabs (y * inject_Z (2 ^ 26) - inject_Z k))%Q).
    { setoid_replace (inject_Z k) with (y * inject_Z (2 ^ 26) + - (y * inject_Z (2 ^ 26) - inject_Z k))%Q at 1 by ring.
      eapply Qle_trans; [apply Qabs_triangle|]. rewrite Qabs_opp. apply Qle_refl. }
    rewrite abs_scaled in T by (vm_compute; discriminate).
    assert (U : (Qabs y * inject_Z (2 ^ 26) <= inject_Z (2 ^ 27) * inject_Z (2 ^ 26))%Q) by (apply Qmult_le_compat_r; [exact Hy|vm_compute; discriminate]).
    rewrite <- inject_Z_mult in U. change (2 ^ 27 * 2 ^ 26) with (2 ^ 53) in U. lra. }
  assert (Rk : representable 53 1024 (inject_Z k * pow2 (-26))).
  { destruct (Z.eq_dec (Z.abs k) (2 ^ 53)) as [E|E].
    - exists (k / 2), (-25). assert (H2 : k = k / 2 * 2) by (destruct (Z.abs_eq_or_opp k) as [A|A]; rewrite A in E; [subst k; reflexivity|replace k with (- 2 ^ 53) by lia; reflexivity]).
      split; [lia|]. split; [lia|]. rewrite H2 at 1. rewrite inject_Z_mult, <- Qmult_assoc. apply Qmult_comp; [reflexivity|]. vm_compute. reflexivity.
    - exists k, (-26). split; [lia|]. split; [lia|reflexivity]. }
  destruct (R _ Rk) as [A _]. eapply Qle_trans; [exact A|].
  assert (E : (Qabs (y - inject_Z k * pow2 (-26)) * inject_Z (2 ^ 26) == Qabs (y * inject_Z (2 ^ 26) - inject_Z k))%Q).
  { rewrite <- abs_scaled by (vm_compute; discriminate). apply Qabs_wd. setoid_replace ((y - inject_Z k * pow2 (-26)) * inject_Z (2 ^ 26))%Q with (y * inject_Z (2 ^ 26) - inject_Z k * (pow2 (-26) * inject_Z (2 ^ 26)))%Q by ring.
    setoid_replace (pow2 (-26) * inject_Z (2 ^ 26))%Q with 1%Q by (vm_compute; reflexivity). ring. }
  assert (P : (0 < inject_Z (2 ^ 26))%Q) by reflexivity. apply (Qmult_lt_0_le_reg_r _ _ _ P). rewrite E.
  eapply Qle_trans; [exact Hk|]. vm_compute. discriminate.
Qed.
Lemma rounded_below y s r : rounded 53 1024 y s r -> f_finite r = true -> (Qabs (f_value r) < inject_Z (2 ^ 27))%Q -> (Qabs y <= inject_Z (2 ^ 27))%Q.
Proof.
  intros [[_ ->]|(_ & _ & _ & _ & R)] F L; [discriminate F|]. destruct (Qlt_le_dec (inject_Z (2 ^ 27)) (Qabs y)) as [G|]; [exfalso|assumption].
  assert (P : (0 < inject_Z (2 ^ 27))%Q) by reflexivity.
  destruct (Qlt_le_dec y 0) as [N|N].
  - destruct (R (inject_Z (- 2 ^ 27))) as [A _].
    { exists (- 2 ^ 27), 0. split; [reflexivity|]. split; [lia|]. vm_compute. reflexivity. }
    rewrite inject_Z_opp in A. rewrite Qabs_neg in G by lra. apply Qabs_Qlt_condition in L. revert A.
    apply (Qabs_case (y - f_value r)); apply (Qabs_case (y - - inject_Z (2 ^ 27))); intros; lra.
  - destruct (R (inject_Z (2 ^ 27))) as [A _].
    { exists (2 ^ 27), 0. split; [reflexivity|]. split; [lia|]. vm_compute. reflexivity. }
    rewrite Qabs_pos in G by lra. apply Qabs_Qlt_condition in L. revert A.
    apply (Qabs_case (y - f_value r)); apply (Qabs_case (y - inject_Z (2 ^ 27))); intros; lra.
Qed.
(** The quotient by 0.01 in exact arithmetic against 100 times. *)
Lemma cent_error x : (Qabs (100 * x - x / f_value f_001) <= Qabs (x / f_value f_001) * pow2 (-52))%Q.
Proof.
  set (y := (x / f_value f_001)%Q). assert (E : (x == y * f_value f_001)%Q) by (unfold y; field; vm_compute; discriminate).
  rewrite E. setoid_replace (100 * (y * f_value f_001) - y)%Q with (y * (100 * f_value f_001 - 1))%Q by ring.
  rewrite Qabs_Qmult. rewrite (Qmult_comm (Qabs y) (pow2 (-52))), (Qmult_comm (Qabs y)). apply Qmult_le_compat_r; [vm_compute; discriminate|apply Qabs_nonneg].
Qed.
Lemma Qabs_apart a b d : (Qabs (a - b) <= d)%Q -> (Qabs a - d <= Qabs b /\ Qabs b <= Qabs a + d)%Q.
Proof.
  intros H. apply Qabs_Qle_condition in H. apply (Qabs_case a); apply (Qabs_case b); intros; lra.
Qed.
Lemma close_bounds x n : f_finite x = true -> whole_cents x n -> (Qabs (f_value x / f_value f_001) <= inject_Z (2 ^ 27))%Q ->
  (inject_Z n - (51 # 10000) <= 100 * Qabs (f_value x) /\ 100 * Qabs (f_value x) <= inject_Z n + (9951 # 10000))%Q.
Proof.
  intros F (q & k & C & Fq & [N _] & ->) Hy. destruct C as (cent & Cc & R). rewrite (rounded_unique 53 1024 eq_refl eq_refl _ _ _ _ Cc cent_rounded) in R.
  destruct (rounded_close _ _ _ Hy R) as [_ D]. pose proof (cent_error (f_value x)) as Ce.
  set (y := (f_value x / f_value f_001)%Q) in *. clearbody y. set (X := f_value x) in *. clearbody X. set (Q0 := f_value q) in *. clearbody Q0.
  assert (Ce2 : (Qabs (100 * X - y) <= 1 # 10000000)%Q).
  { eapply Qle_trans; [exact Ce|]. apply Qle_trans with (inject_Z (2 ^ 27) * pow2 (-52))%Q; [apply Qmult_le_compat_r; [exact Hy|vm_compute; discriminate]|vm_compute; discriminate]. }
  assert (D2 : (Qabs (y - Q0) <= 1 # 10000000)%Q) by (eapply Qle_trans; [exact D|vm_compute; discriminate]).
  apply Qabs_apart in Ce2. apply Qabs_apart in D2. apply Qabs_Qle_condition in N.
  rewrite Qabs_Qmult in Ce2. change (Qabs 100) with 100%Q in Ce2.
  assert (K : 100 * (k / 100) <= k <= 100 * (k / 100) + 99) by lia. destruct K as [K1 K2].
  rewrite Zle_Qle, inject_Z_mult in K1. rewrite Zle_Qle, inject_Z_plus, inject_Z_mult in K2.
  change (inject_Z 100) with 100%Q in *. change (inject_Z 99) with 99%Q in *. lra.
Qed.
Lemma whole_cents_small x n : f_finite x = true -> whole_cents x n -> n < 2 ^ 26 -> (Qabs (f_value x / f_value f_001) <= inject_Z (2 ^ 27))%Q.
Proof.
  intros F (q & k & C & Fq & [N _] & ->) Hn. destruct C as (cent & Cc & R). rewrite (rounded_unique 53 1024 eq_refl eq_refl _ _ _ _ Cc cent_rounded) in R.
  apply (rounded_below _ _ _ R Fq). apply Qabs_Qle_condition in N.
  assert (K : k <= 100 * 2 ^ 26 - 1) by lia. rewrite Zle_Qle in K. change (inject_Z (100 * 2 ^ 26 - 1)) with 6710886399%Q in K.
  change (inject_Z (2 ^ 27)) with 134217728%Q. lra.
Qed.
Lemma small_cents x : f_finite x = true -> (100 * Qabs (f_value x) <= 134217000)%Q ->
  (exists n, whole_cents x n) /\ (Qabs (f_value x / f_value f_001) <= inject_Z (2 ^ 27))%Q.
Proof.
  intros F L. assert (Y : (Qabs (f_value x / f_value f_001) <= inject_Z (2 ^ 27))%Q).
  { pose proof (cent_error (f_value x)) as Ce. apply Qabs_apart in Ce. rewrite Qabs_Qmult in Ce. change (Qabs 100) with 100%Q in Ce.
    assert (E52 : (pow2 (-52) <= 1 # 1000000000)%Q) by (vm_compute; discriminate).
    set (a := Qabs (f_value x / f_value f_001)) in *. assert (0 <= a)%Q by apply Qabs_nonneg. clearbody a.
    assert (a * pow2 (-52) <= a * (1 # 1000000000))%Q by (rewrite !(Qmult_comm a); apply Qmult_le_compat_r; assumption).
    change (inject_Z (2 ^ 27)) with 134217728%Q. lra. }
  split; [|exact Y]. destruct (whole_cents_total 0 x F) as [T|[C _]]; [exact T|exfalso].
  destruct C as (cent & Cc & R). rewrite (rounded_unique 53 1024 eq_refl eq_refl _ _ _ _ Cc cent_rounded) in R.
  destruct (rounded_close _ _ _ Y R) as [Fq _]. discriminate Fq.
Qed.
Lemma knx_fields m e b : 0 <= m < 2048 -> 0 <= e <= 15 -> 0 <= b <= 1 ->
  let r := m + 2048 * e + 32768 * b in
  0 <= r < 2 ^ 16 /\ knx_sign r = b /\ knx_exponent r = e /\ field r 0 11 = m.
Proof.
  intros Hm He Hb. unfold knx_sign, knx_exponent, field. change (2 ^ 0) with 1. change (2 ^ 1) with 2. change (2 ^ 4) with 16.
  change (2 ^ 11) with 2048. change (2 ^ 15) with 32768. change (2 ^ 16) with 65536. rewrite Z.div_1_r. cbv zeta. lia.
Qed.
Lemma mantissa_range n e : 0 <= n -> 0 <= e -> n < 2 ^ (11 + e) -> (e = 0 \/ 2 ^ (10 + e) <= n) ->
  0 <= n / 2 ^ e <= 2047 /\ (n / 2 ^ e = 0 -> n = 0 /\ e = 0) /\ n - 2 ^ e < n / 2 ^ e * 2 ^ e <= n.
Proof.
  intros Hn He L M. assert (P : 0 < 2 ^ e) by (apply Z.pow_pos_nonneg; lia). rewrite Z.pow_add_r in L, M by lia.
  change (2 ^ 11) with 2048 in L. change (2 ^ 10) with 1024 in M. pose proof (Z.div_mod n (2 ^ e) ltac:(lia)). pose proof (Z.mod_pos_bound n (2 ^ e) P).
  split; [split; [apply Z.div_pos; lia|assert (n / 2 ^ e < 2048) by (apply Z.div_lt_upper_bound; lia); lia]|]. split; [|nia].
  intros Z0. rewrite Z0 in *. destruct M as [-> | M]; [change (2 ^ 0) with 1 in *; lia|nia].
Qed.
(** What is stored, as a number. *)
Lemma encoded_value v x n : 0 <= v < 2 ^ 16 -> f_finite x = true -> whole_cents x n -> n < 2 ^ 26 ->
  exists r e, f16_encode v x = Ok r /\ 0 <= r < 2 ^ 16 /\ 0 <= e <= 15 /\ n < 2 ^ (11 + e) /\ (e = 0 \/ 2 ^ (10 + e) <= n) /\
    knx_exponent r = e /\ knx_sign r = (if f_signbit x then 1 else 0) /\
    knx_mantissa r = (if f_signbit x then if n =? 0 then -2048 else - (n / 2 ^ e) else n / 2 ^ e).
Proof.
  intros Hv F W Hn. destruct (f16_encode_steps v x n Hv F W) as [H0 S]. replace (n <? 2 ^ 26) with true in S by lia.
  destruct S as (e & He & L & M & E). destruct (mantissa_range n e H0 ltac:(lia) L M) as (R1 & R2 & R3).
  eexists; exists e; split; [exact E|]. set (m := _ mod 2048). assert (Hm : 0 <= m < 2048) by (apply Z.mod_pos_bound; lia).
  pose proof (knx_fields m e (if f_signbit x then 1 else 0) Hm He ltac:(destruct (f_signbit x); lia)) as K. cbv zeta in K.
  set (r := m + _ + _) in *. destruct K as (K1 & K2 & K3 & K4). split; [exact K1|]. split; [lia|]. split; [exact L|]. split; [exact M|].
  split; [exact K3|]. split; [exact K2|]. unfold knx_mantissa. rewrite K2, K4. unfold m. clearbody r.
  destruct (f_signbit x).
  - destruct (n =? 0) eqn:Z0.
    + assert (n = 0) by lia. subst n. replace (0 / 2 ^ e) with 0 by (rewrite Z.div_0_l; [reflexivity|apply Z.pow_nonzero; lia]). reflexivity.
    + rewrite Z.mod_small by lia. lia.
  - rewrite Z.mod_small by lia. lia.
Qed.

(** ** Decoding *)
Definition f_same (a b : float) : bool :=
  match a, b with
  | S754_zero s, S754_zero s' => Bool.eqb s s'
  | S754_infinity s, S754_infinity s' => Bool.eqb s s'
  | S754_nan, S754_nan => true
  | S754_finite s m e, S754_finite s' m' e' => Bool.eqb s s' && Pos.eqb m m' && Z.eqb e e'
  | _, _ => false
  end.
Lemma f_same_eq a b : f_same a b = true -> a = b.
Proof.
  destruct a, b; cbn; try discriminate; try reflexivity; intros H.
  - apply eqb_prop in H. congruence.
  - apply eqb_prop in H. congruence.
  - apply andb_prop in H. destruct H as [H H3]. apply andb_prop in H. destruct H as [H1 H2]. apply eqb_prop in H1. apply Pos.eqb_eq in H2. apply Z.eqb_eq in H3. congruence.
Qed.
(** 0.01 times a mantissa, with its sign. *)
Definition part (M : Z) : float := fmul (f_of_Z (if M <? 0 then -1 else 1)) (fmul f_001 (f_of_Z (Z.abs M))).
Lemma knx_ranges v : 0 <= v < 2 ^ 16 -> -2048 <= knx_mantissa v <= 2047 /\ 0 <= knx_exponent v <= 15 /\ 0 <= knx_sign v <= 1 /\
  (knx_mantissa v < 0 <-> knx_sign v = 1).
Proof.
  intros _. unfold knx_mantissa, knx_exponent, knx_sign. pose proof (field_range v 15 1 ltac:(lia)) as A. pose proof (field_range v 0 11 ltac:(lia)) as B.
  pose proof (field_range v 11 4 ltac:(lia)) as C. change (2 ^ 1) with 2 in A. change (2 ^ 11) with 2048 in B. change (2 ^ 4) with 16 in C. lia.
Qed.
Lemma decode_part v : 0 <= v < 2 ^ 16 -> f16_decode v = fmul (part (knx_mantissa v)) (f_of_Z (2 ^ knx_exponent v)).
Proof.
  intros Hv. pose proof (knx_ranges v Hv) as (A & B & C & D). unfold f16_decode, part.
  rewrite (field_get v 15 1), (field_get v 11 4) by lia. fold (knx_sign v). fold (knx_exponent v).
  assert (E : f16_mantissa v = field v 0 11).
  { unfold f16_mantissa. rewrite !field_get, Z.shiftl_mul_pow2 by lia. unfold field. change (2 ^ 0) with 1. rewrite !Z.div_1_r.
    change (2 ^ 8) with 256. change (2 ^ 3) with 8. change (2 ^ 11) with 2048. lia. }
  rewrite E. unfold twos_comp. rewrite Z.shiftl_mul_pow2 by lia. change (1 * 2 ^ 11) with 2048.
  pose proof (field_range v 0 11 ltac:(lia)) as R. change (2 ^ 11) with 2048 in R.
  assert (K : knx_sign v = 0 \/ knx_sign v = 1) by lia. destruct K as [K|K]; rewrite K.
  - replace (knx_mantissa v <? 0) with false by lia. cbn [Z.eqb Pos.eqb]. unfold knx_mantissa. rewrite K.
    replace (Z.abs (field v 0 11 - 2048 * 0)) with (field v 0 11) by lia. reflexivity.
  - replace (knx_mantissa v <? 0) with true by lia. cbn [Z.eqb Pos.eqb]. unfold knx_mantissa. rewrite K.
    replace (Z.abs (field v 0 11 - 2048 * 1)) with (Z.abs (2048 - 1 - field v 0 11) + 1) by lia. reflexivity.
Qed.
Definition f_shift (x : float) (k : Z) : float :=
  match x with S754_finite s m e => S754_finite s m (e + k) | _ => x end.
Lemma shift_value x k : (f_value (f_shift x k) == f_value x * pow2 k)%Q.
Proof. destruct x as [s|s| |s m e]; cbn [f_shift f_value]; try ring. rewrite pow2_add. ring. Qed.
(** Full-length mantissa, exponent far from the limits. *)
Definition ordinary (x : float) : bool :=
  match x with
  | S754_zero s => negb s
  | S754_finite s m e => (2 ^ 52 <=? Z.pos m) && (Z.pos m <? 2 ^ 53) && (-100 <=? e) && (e <=? 100)
  | _ => false
  end.
Lemma shift_power k : 0 <= k <= 15 -> is_double (f_of_Z (2 ^ k)) /\ f_finite (f_of_Z (2 ^ k)) = true /\ f_signbit (f_of_Z (2 ^ k)) = false /\ (f_value (f_of_Z (2 ^ k)) == pow2 k)%Q.
Proof.
  intros Hk. assert (C : k = 0 \/ k = 1 \/ k = 2 \/ k = 3 \/ k = 4 \/ k = 5 \/ k = 6 \/ k = 7 \/ k = 8 \/ k = 9 \/ k = 10 \/ k = 11 \/ k = 12 \/ k = 13 \/ k = 14 \/ k = 15) by lia.
  repeat (destruct C as [-> | C]; [vm_compute; intuition (discriminate || reflexivity)|]). subst k. vm_compute; intuition (discriminate || reflexivity).
Qed.
Lemma mul_shift x k : ordinary x = true -> 0 <= k <= 15 -> fmul x (f_of_Z (2 ^ k)) = f_shift x k.
Proof.
  intros O Hk. destruct (shift_power k Hk) as (D & F & S & V). destruct x as [s|s| |s m e]; try discriminate O.
  - destruct s; [discriminate O|]. assert (C : k = 0 \/ k = 1 \/ k = 2 \/ k = 3 \/ k = 4 \/ k = 5 \/ k = 6 \/ k = 7 \/ k = 8 \/ k = 9 \/ k = 10 \/ k = 11 \/ k = 12 \/ k = 13 \/ k = 14 \/ k = 15) by lia.
    repeat (destruct C as [-> | C]; [reflexivity|]). subst k. reflexivity.
  - cbn [ordinary] in O. assert (I : is_double (S754_finite s m e)) by (cbn [in_format]; lia).
    pose proof (mul_rounded 53 1024 eq_refl eq_refl (S754_finite s m e) (f_of_Z (2 ^ k)) eq_refl F I D) as R. rewrite S in R.
    replace (xorb (f_signbit (S754_finite s m e)) false) with s in R by (destruct s; reflexivity).
    apply (rounded_same 53 1024 eq_refl eq_refl (f_shift (S754_finite s m e) k)); [reflexivity|cbn [f_shift in_format]; lia|].
    cbn [f_shift f_signbit]. eapply rounded_wd; [|exact R]. rewrite V. symmetry. apply (shift_value (S754_finite s m e)).
Qed.
Definition part_ok (M : Z) : bool :=
  ordinary (part M) && Bool.eqb (f_signbit (part M)) (M <? 0) && f_same (part M) (fmul f_001 (f_of_Z M)) &&
  Qeq_bool (f_value (f_of_Z M)) (inject_Z M) && Bool.eqb (f_signbit (f_of_Z M)) (M <? 0) &&
  Qle_bool (Qabs (f_value (part M) - inject_Z M * (1 # 100))) (Qabs (inject_Z M * (1 # 100)) * pow2 (-52)).
Lemma part_all : all_bits 12 (fun u => part_ok (u - 2048)) = true.
Proof. vm_compute. reflexivity. Qed.
Lemma part_spec M : -2048 <= M <= 2047 -> part_ok M = true.
Proof. intros H. pose proof (all_bits_spec _ _ part_all (M + 2048)) as A. cbv beta in A. replace (M + 2048 - 2048) with M in A by lia. apply A. change (2 ^ Z.of_nat 12) with 4096. lia. Qed.
Lemma double_all : all_bits 11 (fun u => f_same (part (2 * (u - 1024))) (f_shift (part (u - 1024)) 1)) = true.
Proof. vm_compute. reflexivity. Qed.
Lemma part_double M : -1024 <= M <= 1023 -> part (2 * M) = f_shift (part M) 1.
Proof.
  intros H. pose proof (all_bits_spec _ _ double_all (M + 1024)) as A. cbv beta in A. replace (M + 1024 - 1024) with M in A by lia.
  apply f_same_eq, A. change (2 ^ Z.of_nat 11) with 2048. lia.
Qed.
Lemma shift_shift x a b : f_shift (f_shift x a) b = f_shift x (a + b).
Proof. destruct x; cbn [f_shift]; try reflexivity. f_equal. lia. Qed.
Lemma shift_0 x : f_shift x 0 = x.
Proof. destruct x; cbn [f_shift]; try reflexivity. f_equal. lia. Qed.
Lemma part_times M d : 0 <= d -> -2048 <= M * 2 ^ d <= 2047 -> part (M * 2 ^ d) = f_shift (part M) d.
Proof.
  intros Hd. revert d Hd. apply (natlike_ind (fun d => -2048 <= M * 2 ^ d <= 2047 -> part (M * 2 ^ d) = f_shift (part M) d)).
  - intros _. change (2 ^ 0) with 1. rewrite Z.mul_1_r, shift_0. reflexivity.
  - intros d Hd IH H. rewrite Z.pow_succ_r in * by lia. assert (0 < 2 ^ d) by (apply Z.pow_pos_nonneg; lia).
    replace (M * (2 * 2 ^ d)) with (2 * (M * 2 ^ d)) in * by ring. rewrite part_double by lia. rewrite IH by lia. rewrite shift_shift. reflexivity.
Qed.
Lemma decode_shift v : 0 <= v < 2 ^ 16 -> f16_decode v = f_shift (part (knx_mantissa v)) (knx_exponent v).
Proof.
  intros Hv. pose proof (knx_ranges v Hv) as (A & B & _). rewrite decode_part by exact Hv. apply mul_shift; [|exact B].
  pose proof (part_spec _ A) as P. unfold part_ok in P. rewrite !andb_true_iff in P. tauto.
Qed.
Lemma decode_value v : 0 <= v < 2 ^ 16 ->
  f_finite (f16_decode v) = true /\ f_signbit (f16_decode v) = (knx_mantissa v <? 0) /\
  (Qabs (f_value (f16_decode v) - knx_value v) <= Qabs (knx_value v) * pow2 (-52))%Q.
Proof.
  intros Hv. pose proof (knx_ranges v Hv) as (A & B & _). rewrite decode_shift by exact Hv. pose proof (part_spec _ A) as P.
  unfold part_ok in P. rewrite !andb_true_iff in P. destruct P as (((((O & S) & _) & _) & _) & L). apply eqb_prop in S. apply Qle_bool_iff in L.
  split; [destruct (part (knx_mantissa v)); try discriminate O; reflexivity|].
  split; [rewrite <- S; destruct (part (knx_mantissa v)); reflexivity|]. rewrite shift_value. unfold knx_value.
  set (M := inject_Z (knx_mantissa v)) in *. set (E := pow2 (knx_exponent v)). assert (PE : (0 < E)%Q) by apply pow2_pos. clearbody E M.
  setoid_replace (f_value (part (knx_mantissa v)) * E - M * E * (1 # 100))%Q with ((f_value (part (knx_mantissa v)) - M * (1 # 100)) * E)%Q by ring.
  setoid_replace (M * E * (1 # 100))%Q with (M * (1 # 100) * E)%Q by ring. rewrite (abs_scaled (f_value _ - _)), (abs_scaled (M * (1 # 100))) by lra.
  setoid_replace (Qabs (M * (1 # 100)) * E * pow2 (-52))%Q with (Qabs (M * (1 # 100)) * pow2 (-52) * E)%Q by ring. apply Qmult_le_compat_r; lra.
Qed.
(** As it is computed: 0.01 times the mantissa is rounded once, the power of
    two is exact. *)
Lemma decode_product v : 0 <= v < 2 ^ 16 -> exists cent p, rounded 53 1024 (1 # 100) false cent /\
  rounded 53 1024 (f_value cent * inject_Z (knx_mantissa v)) (knx_mantissa v <? 0) p /\
  (f_value (f16_decode v) == f_value p * pow2 (knx_exponent v))%Q.
Proof.
  intros Hv. pose proof (knx_ranges v Hv) as (A & B & _). exists f_001, (part (knx_mantissa v)). split; [exact cent_rounded|].
  split; [|rewrite decode_shift by exact Hv; apply shift_value]. pose proof (part_spec _ A) as P.
  unfold part_ok in P. rewrite !andb_true_iff in P. destruct P as (((((_ & _) & F) & V) & S) & _). apply f_same_eq in F. apply Qeq_bool_iff in V. apply eqb_prop in S.
  assert (G : f_finite (f_of_Z (knx_mantissa v)) = true /\ is_double (f_of_Z (knx_mantissa v))).
  { pose proof (normalize_rounded 53 1024 eq_refl eq_refl (knx_mantissa v) 0 false) as R. change (binary_normalize 53 1024 (knx_mantissa v) 0 false) with (f_of_Z (knx_mantissa v)) in R.
    assert (X : representable 53 1024 (inject_Z (knx_mantissa v) * pow2 0)).
    { exists (knx_mantissa v), 0. split; [change (2 ^ 53) with 9007199254740992; lia|]. split; [lia|reflexivity]. }
    destruct (rounded_exact 53 1024 eq_refl _ _ _ X R) as (G1 & G2 & _). auto. }
  destruct G as [G1 G2]. rewrite F. pose proof (mul_rounded 53 1024 eq_refl eq_refl f_001 (f_of_Z (knx_mantissa v)) eq_refl G1 ltac:(cbn; lia) G2) as R.
  rewrite S in R. change (xorb (f_signbit f_001) (knx_mantissa v <? 0)) with (if knx_mantissa v <? 0 then true else false) in R. replace (if knx_mantissa v <? 0 then true else false) with (knx_mantissa v <? 0) in R by (destruct (knx_mantissa v <? 0); reflexivity). eapply rounded_wd; [|exact R]. rewrite V. reflexivity.
Qed.

(** ** Encoding what was decoded *)
Lemma decoded_cents v : 0 <= v < 2 ^ 16 -> whole_cents (f16_decode v) (Z.abs (knx_mantissa v) * 2 ^ knx_exponent v).
Proof.
  intros Hv. pose proof (knx_ranges v Hv) as (A & B & _). destruct (decode_value v Hv) as (F & _ & V).
  set (N := Z.abs (knx_mantissa v) * 2 ^ knx_exponent v).
  assert (P : 0 < 2 ^ knx_exponent v <= 2 ^ 15) by (split; [apply Z.pow_pos_nonneg; lia|apply Z.pow_le_mono_r; lia]). change (2 ^ 15) with 32768 in P.
  assert (HN : 0 <= N <= 67108864) by (unfold N; nia).
  assert (EN : (Qabs (knx_value v) == inject_Z N * (1 # 100))%Q).
  { unfold knx_value, N. rewrite inject_Z_mult, inject_abs, pow2_Z by lia. rewrite !Qabs_Qmult. change (Qabs (1 # 100)) with (1 # 100)%Q.
    rewrite (Qabs_pos (pow2 (knx_exponent v))) by (apply Qlt_le_weak, pow2_pos). reflexivity. }
  clearbody N. apply Qabs_apart in V. rewrite EN in V.
  assert (QN : (0 <= inject_Z N /\ inject_Z N <= 67108864)%Q) by (change 0%Q with (inject_Z 0); change 67108864%Q with (inject_Z 67108864); rewrite <- !Zle_Qle; lia).
  assert (E52 : (inject_Z N * (1 # 100) * pow2 (-52) <= 1 # 1000000)%Q).
  { apply Qle_trans with (67108864 * (1 # 100) * pow2 (-52))%Q; [|vm_compute; discriminate]. apply Qmult_le_compat_r; [lra|vm_compute; discriminate]. }
  set (d := (inject_Z N * (1 # 100) * pow2 (-52))%Q) in *. clearbody d. set (X := f_value (f16_decode v)) in *.
  destruct (small_cents (f16_decode v) F) as [[n W] Y]; [fold X; lra|]. destruct (close_bounds _ _ F W Y) as [B1 B2]. fold X in B1, B2.
  replace N with n; [exact W|]. assert (L1 : n < N + 1).
  { rewrite Zlt_Qlt, inject_Z_plus. change (inject_Z 1) with 1%Q. lra. }
  assert (L2 : N < n + 1). { rewrite Zlt_Qlt, inject_Z_plus. change (inject_Z 1) with 1%Q. lra. }
  lia.
Qed.
Lemma reencode u v : 0 <= u < 2 ^ 16 -> 0 <= v < 2 ^ 16 ->
  if v =? 0xF800 then f16_encode u (f16_decode v) = Err PyException
  else exists r, f16_encode u (f16_decode v) = Ok r /\ 0 <= r < 2 ^ 16 /\ f16_decode r = f16_decode v /\
    (knx_value r == knx_value v)%Q /\ (Z.abs (knx_mantissa v) < 2048 -> knx_exponent v = 0 \/ 1024 <= Z.abs (knx_mantissa v) -> r = v).
Proof.
  intros Hu Hv. pose proof (knx_ranges v Hv) as (A & B & Sg & D). destruct (decode_value v Hv) as (F & S & _).
  pose proof (decoded_cents v Hv) as W. set (N := Z.abs (knx_mantissa v) * 2 ^ knx_exponent v) in *.
  assert (P : 0 < 2 ^ knx_exponent v <= 2 ^ 15) by (split; [apply Z.pow_pos_nonneg; lia|apply Z.pow_le_mono_r; lia]). change (2 ^ 15) with 32768 in P.
  assert (VE : v = field v 0 11 + 2048 * knx_exponent v + 32768 * knx_sign v).
  { unfold knx_exponent, knx_sign, field. change (2 ^ 0) with 1. change (2 ^ 1) with 2. change (2 ^ 4) with 16. change (2 ^ 11) with 2048. change (2 ^ 15) with 32768. change (2 ^ 16) with 65536 in Hv. rewrite Z.div_1_r. lia. }
  assert (FM : field v 0 11 = knx_mantissa v + 2048 * knx_sign v) by (unfold knx_mantissa; lia).
  destruct (v =? 0xF800) eqn:EF.
  - assert (v = 0xF800) by lia. clear W. destruct (f16_encode_steps u (f16_decode v) (2 ^ 26) Hu F) as [_ E].
    { pose proof (decoded_cents v Hv) as W. subst v. exact W. }
    exact E.
  - assert (HN : N < 2 ^ 26).
    { change (2 ^ 26) with 67108864. unfold N. destruct (Z.eq_dec (Z.abs (knx_mantissa v)) 2048) as [E|E]; [|nia]. rewrite E.
      assert (knx_exponent v <> 15) by lia. assert (2 ^ knx_exponent v <= 2 ^ 14) by (apply Z.pow_le_mono_r; lia). change (2 ^ 14) with 16384 in H0. lia. }
    destruct (encoded_value u _ N Hu F W HN) as (r & e & E & Hr & He & L & M & R1 & R2 & R3).
    exists r. split; [exact E|]. split; [exact Hr|]. rewrite S in *.
    assert (HN0 : 0 <= N) by (unfold N; nia).
    (* the stored mantissa is exact *)
    assert (X : N / 2 ^ e * 2 ^ e = N /\ (e <= knx_exponent v /\ N / 2 ^ e = Z.abs (knx_mantissa v) * 2 ^ (knx_exponent v - e) \/
                 knx_mantissa v = -2048 /\ e = knx_exponent v + 1 /\ N / 2 ^ e = 1024)).
    { assert (Pe : 0 < 2 ^ e) by (apply Z.pow_pos_nonneg; lia).
      destruct (Z.le_gt_cases e (knx_exponent v)) as [Le|Gt].
      - assert (EN : N = Z.abs (knx_mantissa v) * 2 ^ (knx_exponent v - e) * 2 ^ e).
        { unfold N. rewrite <- Z.mul_assoc, <- Z.pow_add_r by lia. replace (knx_exponent v - e + e) with (knx_exponent v) by lia. reflexivity. }
        rewrite EN. rewrite Z.div_mul by lia. split; [reflexivity|left; split; [exact Le|reflexivity]].
      - destruct M as [->|M]; [lia|]. assert (T : 2 ^ (11 + knx_exponent v) <= 2 ^ (10 + e)) by (apply Z.pow_le_mono_r; lia).
        rewrite Z.pow_add_r in T by lia. change (2 ^ 11) with 2048 in T. assert (Km : Z.abs (knx_mantissa v) = 2048) by (unfold N in M; nia).
        assert (Ee : e = knx_exponent v + 1).
        { assert (e <= knx_exponent v + 1); [|lia]. destruct (Z.le_gt_cases e (knx_exponent v + 1)) as [|G]; [assumption|].
          assert (U : 2 ^ (12 + knx_exponent v) <= 2 ^ (10 + e)) by (apply Z.pow_le_mono_r; lia). rewrite Z.pow_add_r in U by lia. change (2 ^ 12) with 4096 in U. unfold N in M; nia. }
        assert (EN : N = 1024 * 2 ^ e). { unfold N. rewrite Km, Ee, Z.pow_add_r by lia. change (2 ^ 1) with 2. ring. }
        rewrite EN, Z.div_mul by lia. split; [reflexivity|right]. split; [lia|]. split; [exact Ee|reflexivity]. }
    destruct X as [X1 X2].
    assert (Mr : knx_mantissa r = if knx_mantissa v <? 0 then - (N / 2 ^ e) else N / 2 ^ e).
    { rewrite R3. destruct (knx_mantissa v <? 0) eqn:Neg; [|reflexivity]. destruct (N =? 0) eqn:N0; [|reflexivity]. unfold N in N0. nia. }
    assert (Y : e <= knx_exponent v /\ knx_mantissa r = knx_mantissa v * 2 ^ (knx_exponent v - e) \/ knx_mantissa v = -2048 /\ e = knx_exponent v + 1 /\ knx_mantissa r = -1024).
    { destruct X2 as [[X2 X3]|(X2 & X3 & X4)]; [left|right].
      - split; [exact X2|]. rewrite Mr, X3. destruct (knx_mantissa v <? 0) eqn:Neg; [replace (Z.abs (knx_mantissa v)) with (- knx_mantissa v) by lia|replace (Z.abs (knx_mantissa v)) with (knx_mantissa v) by lia]; ring.
      - rewrite Mr, X4, X2. auto. }
    pose proof (knx_ranges r Hr) as (Ar & _).
    split; [|split].
    + rewrite !decode_shift by assumption. rewrite R1. destruct Y as [[Y1 Y2]|(Y1 & Y2 & Y3)].
      * rewrite Y2. rewrite Y2 in Ar. rewrite part_times by lia. rewrite shift_shift. f_equal. lia.
      * rewrite Y3, Y1, Y2. change (-2048) with (2 * (-1024)). rewrite (part_double (-1024)) by lia. rewrite shift_shift. f_equal. lia.
    + unfold knx_value. rewrite R1. apply Qmult_comp; [|reflexivity]. destruct Y as [[Y1 Y2]|(Y1 & Y2 & Y3)].
      * rewrite Y2, inject_Z_mult, pow2_Z by lia. rewrite <- Qmult_assoc, <- pow2_add. replace (knx_exponent v - e + e) with (knx_exponent v) by lia. reflexivity.
      * rewrite Y3, Y1, Y2, pow2_add. change (inject_Z (-1024)) with (-1024)%Q. change (inject_Z (-2048)) with (-2048)%Q. change (pow2 1) with 2%Q. ring.
    + intros H2048 Hc. assert (Em : e = knx_exponent v).
      { destruct Y as [[Y1 Y2]|(Y1 & Y2 & Y3)]; [|lia]. destruct Hc as [Hc|Hc]; [lia|]. destruct (Z.eq_dec e (knx_exponent v)) as [|G]; [assumption|exfalso].
        assert (2 ^ 1 <= 2 ^ (knx_exponent v - e)) by (apply Z.pow_le_mono_r; lia). change (2 ^ 1) with 2 in H.
        destruct (mantissa_range N e HN0 ltac:(lia) L M) as ([_ Up] & _). assert (Am : Z.abs (knx_mantissa r) <= 2047) by (rewrite Mr; destruct (knx_mantissa v <? 0); lia).
        rewrite Y2, Z.abs_mul in Am. set (t := 2 ^ (knx_exponent v - e)) in *. set (a := Z.abs (knx_mantissa v)) in *. clearbody t a. clear - H Hc Am. nia. }
      assert (Mm : knx_mantissa r = knx_mantissa v).
      { destruct Y as [[Y1 Y2]|(Y1 & Y2 & Y3)]; [|lia]. rewrite Y2, Em, Z.sub_diag. change (2 ^ 0) with 1. lia. }
      assert (RE : r = field r 0 11 + 2048 * knx_exponent r + 32768 * knx_sign r).
      { unfold knx_exponent, knx_sign, field. change (2 ^ 0) with 1. change (2 ^ 1) with 2. change (2 ^ 4) with 16. change (2 ^ 11) with 2048. change (2 ^ 15) with 32768. change (2 ^ 16) with 65536 in Hr. rewrite Z.div_1_r. lia. }
      assert (FR : field r 0 11 = knx_mantissa r + 2048 * knx_sign r) by (unfold knx_mantissa; lia).
      assert (Sr : knx_sign r = knx_sign v) by (rewrite R2; destruct (knx_mantissa v <? 0) eqn:Neg; lia).
      rewrite RE, VE, FR, FM, Sr, R1, Em, Mm. reflexivity.
Qed.
