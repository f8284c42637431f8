(** C43-C51 and C63: datapoint values. *)
From Coq Require Import String ZArith QArith Qabs Qpower List Bool Lia Lqa ZifyBool SpecFloat Permutation.
From Verif Require Import Py Base Float Dpt SpecDecode SpecDpt DptProofs FloatProofs KnxFloatProofs SingleProofs.
Import ListNotations.
Open Scope string_scope.
Open Scope list_scope.
Open Scope Z_scope.

(** ** C43 Fields *)

(** The fields of a class are inside its raw value and apart from each other. *)
Theorem C43_layout : forall c n o w, position c n = Some (o, w) ->
  0 <= o /\ 0 < w /\ o + w <= 8 * dpt_size c /\
  forall n' o' w', position c n' = Some (o', w') -> n <> n' -> o' + w' <= o \/ o + w <= o'.
Proof.
  intros c n o w P. destruct (position_sound _ _ _ _ P) as (A & B & C). repeat (split; [assumption|]).
  intros n' o' w' P' N. pose proof (position_apart _ _ _ _ _ _ _ P P' N). lia.
Qed.
Print Assumptions C43_layout.
Theorem C43_get : forall c v n,
  bits_get (mkdpt c v) n = match position c n with Some (o, w) => Ok (field v o w) | None => Err AttributeError end.
Proof. exact bits_get_spec. Qed.
Print Assumptions C43_get.
(** Assigning a field: it reads back reduced to its width, every other field
    stays, every bit outside stays, and the value keeps its size. *)
Theorem C43_set : forall c v n o w x, raw_value c v -> position c n = Some (o, w) ->
  let d := bits_set (mkdpt c v) n x in
  d_class d = c /\ raw_value c (d_value d) /\
  bits_get d n = Ok (x mod 2 ^ w) /\
  (forall n', n' <> n -> bits_get d n' = bits_get (mkdpt c v) n') /\
  forall i, 0 <= i -> i < o \/ o + w <= i -> Z.testbit (d_value d) i = Z.testbit v i.
Proof.
  intros c v n o w x R P d. destruct (position_sound _ _ _ _ P) as (A & B & C). unfold d. split; [rewrite bits_set_spec; reflexivity|].
  split; [rewrite bits_set_spec, P; apply (with_field_raw c v n o w x P R)|].
  split; [rewrite bits_set_spec, P, bits_get_spec, P, field_with_same by lia; reflexivity|].
  split; [intros n' N; apply bits_set_other; exact N|].
  intros i Hi O. unfold bits_set. cbn [d_class d_value]. rewrite find_position, P. cbn [d_value]. rewrite testbit_set by lia.
  replace ((o <=? i) && (i <? o + w)) with false by lia. reflexivity.
Qed.
Print Assumptions C43_set.
Example C43_set_ex :
  raw_value SetupClima 0x88A5C3F0 /\ position SetupClima "differenziale" = Some (16, 5) /\
  d_value (bits_set (mkdpt SetupClima 0x88A5C3F0) "differenziale" (-1)) = 0x88BFC3F0 /\
  bits_get (bits_set (mkdpt SetupClima 0x88A5C3F0) "differenziale" 100) "differenziale" = Ok 4.
Proof. repeat split; try reflexivity; vm_compute; intuition discriminate. Qed.
(** The integer properties. *)
Theorem C43_numbers : forall c v n z, raw_value c v -> In n (numbers c) ->
  exists o w d, position c n = Some (o, w) /\ prop_set (mkdpt c v) n (VInt z) = Ok d /\ d_class d = c /\
    raw_value c (d_value d) /\ prop_get d n = Ok (VInt (z mod 2 ^ w)) /\
    forall n', n' <> n -> prop_get d n' = prop_get (mkdpt c v) n'.
Proof.
  intros c v n z R I. pose proof (numbers_property c n I) as S. destruct (property_kind _ _ _ S) as ((_ & o & w & P) & _).
  destruct (C43_set c v n o w z R P) as (Hc & Hr & Hg & _).
  assert (E : prop_set (mkdpt c v) n (VInt z) = Ok (bits_set (mkdpt c v) n z)) by (unfold prop_set; cbn [d_class]; rewrite S; reflexivity).
  exists o, w, (bits_set (mkdpt c v) n z). repeat (split; [assumption|]). split.
  - unfold prop_get. rewrite Hc, S, Hg. reflexivity.
  - apply (prop_set_other c v n (VInt z) _ R E).
Qed.
Print Assumptions C43_numbers.
Example C43_numbers_ex : In "index" (numbers VimarScene) /\
  prop_set (mkdpt VimarScene 0xC1) "index" (VInt 65) = Ok (mkdpt VimarScene 0xC1) /\
  prop_set (mkdpt VimarScene 0xC1) "index" (VInt 33) = Ok (mkdpt VimarScene 0xE1).
Proof. repeat split. left. reflexivity. Qed.
(** Any assignment that succeeds, whatever the property and the value. *)
Theorem C43_others : forall c v n x d, raw_value c v -> prop_set (mkdpt c v) n x = Ok d ->
  d_class d = c /\ raw_value c (d_value d) /\ forall n', n' <> n -> prop_get d n' = prop_get (mkdpt c v) n'.
Proof. exact prop_set_other. Qed.
Print Assumptions C43_others.
Theorem C43_value : forall c v z,
  d_class (dpt_set_value (mkdpt c v) z) = c /\ d_value (dpt_set_value (mkdpt c v) z) = z mod 2 ^ (8 * dpt_size c) /\
  raw_value c (d_value (dpt_set_value (mkdpt c v) z)).
Proof.
  intros c v z. split; [reflexivity|]. split; [reflexivity|]. unfold raw_value. cbn. apply Z.mod_pos_bound. destruct c; reflexivity.
Qed.
Print Assumptions C43_value.

(** ** C44 Names *)

(** A name is stored as its code and reads back, the alias as the other name of
    its code. *)
Theorem C44_names : forall c v n e s z, raw_value c v -> names c n = Some e -> In (s, z) e ->
  exists d, prop_set (mkdpt c v) n (VName s) = Ok d /\ bits_get d n = Ok z /\ prop_get d n = Ok (VName (canonical s)) /\
    forall n', n' <> n -> prop_get d n' = prop_get (mkdpt c v) n'.
Proof.
  intros c v n e s z R N I. pose proof (names_property _ _ _ N) as S. destruct (names_bits _ _ _ N) as (o & w & P & B).
  destruct (name_code _ _ _ _ _ N I) as [E1 E2]. destruct (C43_set c v n o w z R P) as (Hc & _ & Hg & _).
  rewrite Z.mod_small in Hg by (eapply B; exact I).
  assert (E : prop_set (mkdpt c v) n (VName s) = Ok (bits_set (mkdpt c v) n z)) by (unfold prop_set; cbn [d_class]; rewrite S, E1; reflexivity).
  exists (bits_set (mkdpt c v) n z). split; [exact E|]. split; [exact Hg|].
  split; [|apply (prop_set_other c v n (VName s) _ R E)]. unfold prop_get. rewrite Hc, S, Hg. cbn [rbind]. rewrite E2. reflexivity.
Qed.
Print Assumptions C44_names.
Example C44_names_ex :
  prop_set (mkdpt SetupClima 0x60051400) "funzionamento" (VName "automatico_invio_temperatura_disabilitato") = Ok (mkdpt SetupClima 0x6E051400) /\
  prop_set (mkdpt SetupClima 0x60051400) "funzionamento" (VName "automatico_invio_temperatura_abilitato") = Ok (mkdpt SetupClima 0x68051400) /\
  prop_get (mkdpt SetupClima 0x68051400) "funzionamento" = Ok (VName "automatico").
Proof. repeat split. Qed.
(** Two names of a field have the same code only when one is the alias. *)
Theorem C44_apart : forall c n e s s' z, names c n = Some e -> In (s, z) e -> In (s', z) e -> canonical s = canonical s'.
Proof.
  intros c n e s s' z N I I'. destruct (name_code _ _ _ _ _ N I) as [_ E]. destruct (name_code _ _ _ _ _ N I') as [_ E']. congruence.
Qed.
Print Assumptions C44_apart.
(** Reading gives the name of the code, or ValueError, which needs one of the
    operation codes 9-13 and 15 of the clima types. *)
Theorem C44_read : forall c v n e, names c n = Some e ->
  match prop_get (mkdpt c v) n with
  | Ok x => exists s z, x = VName s /\ bits_get (mkdpt c v) n = Ok z /\ In (s, z) e
  | Err x => x = ValueError /\ (c = SetupClima \/ c = InfoClimaReport) /\ n = "funzionamento" /\
      exists z, bits_get (mkdpt c v) n = Ok z /\ (9 <= z <= 13 \/ z = 15)
  end.
Proof.
  intros c v n e N. pose proof (names_property _ _ _ N) as S. destruct (names_bits _ _ _ N) as (o & w & P & B).
  pose proof (code_name _ _ _ _ _ v N P) as C. unfold prop_get. cbn [d_class]. rewrite S, bits_get_spec, P. cbn [rbind].
  destruct (enum_of_code e (field v o w)) as [s|x].
  - cbn [rbind]. exists s, (field v o w). tauto.
  - cbn [rbind]. destruct C as (C1 & C2 & C3 & C4). repeat (split; [assumption|]). exists (field v o w). split; [reflexivity|].
    subst n. assert (Pw : w = 4) by (destruct C2 as [-> | ->]; cbn in P; congruence). subst w.
    pose proof (field_range v o 4 ltac:(lia)) as F. change (2 ^ 4) with 16 in F. cbn [In] in C4. lia.
Qed.
Print Assumptions C44_read.
Theorem C44_read_fails : forall c v, c = SetupClima \/ c = InfoClimaReport ->
  (9 <= field v 24 4 <= 13 \/ field v 24 4 = 15) -> prop_get (mkdpt c v) "funzionamento" = Err ValueError.
Proof.
  intros c v C H. unfold prop_get. cbn [d_class].
  assert (S : sfind "funzionamento" (properties c) = Some (AEnum funzionamento_enum)) by (destruct C as [-> | ->]; reflexivity). rewrite S.
  rewrite bits_get_spec. assert (P : position c "funzionamento" = Some (24, 4)) by (destruct C as [-> | ->]; reflexivity). rewrite P. cbn [rbind].
  generalize dependent (field v 24 4). intros z H.
  assert (G : z = 9 \/ z = 10 \/ z = 11 \/ z = 12 \/ z = 13 \/ z = 15) by lia.
  repeat (destruct G as [-> | G]; [reflexivity|]). subst z. reflexivity.
Qed.
Print Assumptions C44_read_fails.
Example C44_read_fails_ex : prop_get (mkdpt InfoClimaReport 0x0B140000) "funzionamento" = Err ValueError /\ field 0x0B140000 24 4 = 11.
Proof. repeat split. Qed.
(** An unknown name raises before anything is stored (no new value). *)
Theorem C44_unknown : forall c v n e s, names c n = Some e -> ~ In s (map fst e) -> prop_set (mkdpt c v) n (VName s) = Err AttributeError.
Proof.
  intros c v n e s N I. unfold prop_set. cbn [d_class]. rewrite (names_property _ _ _ N), (unknown_name e s I). reflexivity.
Qed.
Print Assumptions C44_unknown.
Example C44_unknown_ex : prop_set (mkdpt Alarm 1) "action" (VName "on") = Err AttributeError.
Proof. reflexivity. Qed.

(** ** C45 Decoding 2-octet floats *)
Theorem C45_value : forall v, 0 <= v < 2 ^ 16 ->
  f_finite (f16_decode v) = true /\
  (Qabs (f_value (f16_decode v) - knx_value v) <= Qabs (knx_value v) * (2 # 1) ^ (-52))%Q /\
  f_signbit (f16_decode v) = (knx_mantissa v <? 0) /\
  ((f_value (f16_decode v) == 0)%Q <-> knx_mantissa v = 0).
Proof.
  intros v Hv. destruct (decode_value v Hv) as (F & S & V). repeat (split; [assumption|]). unfold knx_value in V.
  pose proof (pow2_pos (knx_exponent v)) as P. set (E := ((2 # 1) ^ knx_exponent v)%Q) in *. clearbody E. split.
  - intros Z0. rewrite Z0 in V. destruct (Z.eq_dec (knx_mantissa v) 0) as [|N]; [assumption|exfalso].
    setoid_replace (0 - inject_Z (knx_mantissa v) * E * (1 # 100))%Q with (- (inject_Z (knx_mantissa v) * E * (1 # 100)))%Q in V by ring. rewrite Qabs_opp in V.
    set (a := Qabs (inject_Z (knx_mantissa v) * E * (1 # 100))) in *. assert (A : (0 < a)%Q).
    { unfold a. rewrite !abs_scaled by lra. apply Qmult_lt_0_compat; [apply Qmult_lt_0_compat; [|exact P]|reflexivity].
      rewrite <- inject_abs. change 0%Q with (inject_Z 0). rewrite <- Zlt_Qlt. lia. }
    clearbody a. assert (B : ((2 # 1) ^ (-52) <= 1 # 2)%Q) by (vm_compute; discriminate).
    assert (C : (a * (2 # 1) ^ (-52) <= a * (1 # 2))%Q) by (rewrite !(Qmult_comm a); apply Qmult_le_compat_r; lra). lra.
  - intros Z0. rewrite Z0 in V. change (inject_Z 0) with 0%Q in V.
    setoid_replace (0 * E * (1 # 100))%Q with 0%Q in V by ring. change (Qabs 0) with 0%Q in V.
    rewrite Qmult_0_l in V. apply Qabs_0 in V. lra.
Qed.
Print Assumptions C45_value.
(** How the error comes about: one rounding of 0.01 times the mantissa, the
    power of two being exact. *)
Theorem C45_product : forall v, 0 <= v < 2 ^ 16 -> exists cent p,
  rounded 53 1024 (1 # 100) false cent /\
  rounded 53 1024 (f_value cent * inject_Z (knx_mantissa v)) (knx_mantissa v <? 0) p /\
  (f_value (f16_decode v) == f_value p * (2 # 1) ^ knx_exponent v)%Q.
Proof. exact decode_product. Qed.
Print Assumptions C45_product.
(** 1.6 degrees below zero, and the smallest number: -671088.64. *)
Example C45_ex :
  (knx_value 0x8760 == - (16 # 10))%Q /\ f16_decode 0x8760 = S754_finite true 7205759403792794 (-52) /\
  (knx_value 0xF800 == - (67108864 # 100))%Q /\
  dpt_decode (mkdpt Value_Temp 0x0C1A) = Ok (f16_decode 0x0C1A) /\ (knx_value 0x0C1A == 21)%Q.
Proof. repeat split. Qed.

(** ** C46 Re-encoding *)

(** Whatever the object held before ([u]). *)
Theorem C46_reencode : forall u v, 0 <= u < 2 ^ 16 -> 0 <= v < 2 ^ 16 -> v <> 0xF800 ->
  exists r, f16_encode u (f16_decode v) = Ok r /\ 0 <= r < 2 ^ 16 /\ f16_decode r = f16_decode v /\ (knx_value r == knx_value v)%Q.
Proof.
  intros u v Hu Hv N. pose proof (reencode u v Hu Hv) as R. replace (v =? 0xF800) with false in R by lia.
  destruct R as (r & R1 & R2 & R3 & R4 & _). exists r. auto.
Qed.
Print Assumptions C46_reencode.
(** The raw value itself comes back when its exponent is the least possible. *)
Theorem C46_same : forall u v, 0 <= u < 2 ^ 16 -> 0 <= v < 2 ^ 16 ->
  Z.abs (knx_mantissa v) < 2048 -> (knx_exponent v = 0 \/ 1024 <= Z.abs (knx_mantissa v)) ->
  f16_encode u (f16_decode v) = Ok v.
Proof.
  intros u v Hu Hv A B. pose proof (reencode u v Hu Hv) as R. destruct (v =? 0xF800) eqn:E.
  - assert (v = 0xF800) by lia. subst v. vm_compute in A. discriminate A.
  - destruct R as (r & R1 & _ & _ & _ & R2). rewrite R1, R2 by assumption. reflexivity.
Qed.
Print Assumptions C46_same.
Theorem C46_rejected : forall u, 0 <= u < 2 ^ 16 -> f16_encode u (f16_decode 0xF800) = Err PyException.
Proof. intros u Hu. exact (reencode u 0xF800 Hu ltac:(lia)). Qed.
Print Assumptions C46_rejected.
(** 10.24 with the exponent one too high comes back with the least. *)
Example C46_ex : (knx_value 0x0A00 == 1024 # 100)%Q /\ f16_encode 0xFFFF (f16_decode 0x0A00) = Ok 0x0400 /\ f16_decode 0x0400 = f16_decode 0x0A00 /\
  f16_encode 7 (f16_decode 0x8000) = Ok 0x8C00 /\ f16_encode 7 (f16_decode 0x0C1A) = Ok 0x0C1A.
Proof. repeat split; vm_compute; reflexivity. Qed.

(** ** C47 Encoding any finite double *)

(** Least exponent, truncated mantissa. *)
Theorem C47_encode : forall v x n, 0 <= v < 2 ^ 16 -> f_finite x = true -> whole_cents x n -> n < 2 ^ 26 ->
  exists r e, f16_encode v x = Ok r /\ 0 <= r < 2 ^ 16 /\ 0 <= e <= 15 /\
    n < 2 ^ (11 + e) /\ (e = 0 \/ 2 ^ (10 + e) <= n) /\
    knx_exponent r = e /\ knx_sign r = (if f_signbit x then 1 else 0) /\
    knx_mantissa r = (if f_signbit x then if n =? 0 then -2048 else - (n / 2 ^ e) else n / 2 ^ e).
Proof. exact encoded_value. Qed.
Print Assumptions C47_encode.
Theorem C47_fails : forall v x n, 0 <= v < 2 ^ 16 -> f_finite x = true -> whole_cents x n -> 2 ^ 26 <= n ->
  f16_encode v x = Err (if n <? 10 ^ 26 then PyException else InvalidOperation).
Proof.
  intros v x n Hv F W Hn. destruct (f16_encode_steps v x n Hv F W) as [_ S]. replace (n <? 2 ^ 26) with false in S by lia. exact S.
Qed.
Print Assumptions C47_fails.
(** The number of cents exists, once, or the quotient overflows. *)
Theorem C47_total : forall v x, f_finite x = true ->
  (exists n, whole_cents x n /\ 0 <= n /\ forall n', whole_cents x n' -> n' = n) \/
  (cents x (S754_infinity (f_signbit x)) /\ f16_encode v x = Err InvalidOperation).
Proof.
  intros v x F. destruct (whole_cents_total v x F) as [[n W]|H]; [left|right; exact H]. exists n. split; [exact W|].
  split; [apply (f16_encode_steps 0 x n ltac:(lia) F W)|]. intros n' W'. eapply whole_cents_unique; eassumption.
Qed.
Print Assumptions C47_total.
(** In exact numbers: everything up to 671088.6399 in magnitude can be stored,
    nothing from 671088.64 on. *)
Theorem C47_range : forall v x, 0 <= v < 2 ^ 16 -> f_finite x = true ->
  ((Qabs (f_value x) <= 6710886399 # 10000)%Q -> exists r, f16_encode v x = Ok r) /\
  ((67108864 # 100 <= Qabs (f_value x))%Q -> exists e, f16_encode v x = Err e).
Proof.
  intros v x Hv F. split.
  - intros L. destruct (small_cents x F) as [[n W] Y]; [lra|]. destruct (close_bounds x n F W Y) as [B1 B2].
    assert (n < 2 ^ 26). { rewrite Zlt_Qlt. change (inject_Z (2 ^ 26)) with 67108864%Q. lra. }
    destruct (encoded_value v x n Hv F W H) as (r & _ & E & _). exists r. exact E.
  - intros G. destruct (whole_cents_total v x F) as [[n W]|[_ E]]; [|exists InvalidOperation; exact E].
    destruct (Z.le_gt_cases (2 ^ 26) n) as [L|L]; [eexists; apply (C47_fails v x n Hv F W L)|exfalso].
    pose proof (whole_cents_small x n F W L) as Y. destruct (close_bounds x n F W Y) as [B1 B2].
    assert (K : n <= 2 ^ 26 - 1) by lia. rewrite Zle_Qle in K. change (inject_Z (2 ^ 26 - 1)) with 67108863%Q in K. lra.
Qed.
Print Assumptions C47_range.
(** And the stored number is less than one step below, and at most 0.000051
    above, what was given; negative numbers of at least a cent likewise. *)
Theorem C47_accuracy : forall v x r, 0 <= v < 2 ^ 16 -> f_finite x = true -> f16_encode v x = Ok r ->
  f_signbit x = false \/ (f_value x <= - (1 # 100))%Q ->
  (0 <= f_value x -> 0 <= knx_value r)%Q /\ (f_value x < 0 -> knx_value r < 0)%Q /\
  (Qabs (f_value x) - (1 # 100) * (2 # 1) ^ knx_exponent r < Qabs (knx_value r))%Q /\
  (Qabs (knx_value r) <= Qabs (f_value x) + (51 # 1000000))%Q.
Proof.
  intros v x r Hv F E Sg. destruct (whole_cents_total v x F) as [[n W]|[_ E']]; [|congruence].
  destruct (Z.le_gt_cases (2 ^ 26) n) as [L|L]; [rewrite (C47_fails v x n Hv F W L) in E; discriminate E|].
  destruct (encoded_value v x n Hv F W L) as (r' & e & E' & Hr & He & L1 & L2 & K1 & K2 & K3). rewrite E in E'. injection E' as <-.
  pose proof (whole_cents_small x n F W L) as Y. destruct (close_bounds x n F W Y) as [B1 B2].
  destruct (f16_encode_steps v x n Hv F W) as [N0 _]. destruct (mantissa_range n e N0 ltac:(lia) L1 L2) as (M1 & M2 & M3).
  assert (VS : (f_signbit x = true -> f_value x <= 0)%Q /\ (f_signbit x = false -> 0 <= f_value x)%Q).
  { destruct x as [s|s| |s m ee]; try discriminate F; cbn [f_signbit f_value]; [split; intros; apply Qle_refl|].
    pose proof (pow2_pos ee). assert (0 < inject_Z (Z.pos m))%Q by reflexivity. assert (0 < inject_Z (Z.pos m) * (2 # 1) ^ ee)%Q by (apply Qmult_lt_0_compat; assumption).
    destruct s; split; intros; try discriminate; lra. }
  assert (NZ : f_signbit x = true -> n <> 0).
  { intros S ->. destruct Sg as [Sg|Sg]; [congruence|]. destruct VS as [VS _]. specialize (VS S). rewrite Qabs_neg in B2 by exact VS. change (inject_Z 0) with 0%Q in B2. lra. }
  set (S := n / 2 ^ e * 2 ^ e) in *.
  assert (AV : (Qabs (knx_value r) == inject_Z S * (1 # 100))%Q /\ (f_signbit x = false -> 0 <= knx_value r)%Q /\ (f_signbit x = true -> knx_value r < 0)%Q).
  { unfold knx_value. rewrite K1, K3. pose proof (pow2_pos e) as Pe.
    assert (ES : (inject_Z (n / 2 ^ e) * (2 # 1) ^ e == inject_Z S)%Q) by (unfold S; rewrite inject_Z_mult, pow2_Z by lia; reflexivity).
    assert (S0 : (0 <= inject_Z S)%Q). { change 0%Q with (inject_Z 0). rewrite <- Zle_Qle. unfold S. apply Z.mul_nonneg_nonneg; [lia|apply Z.pow_nonneg; lia]. }
    destruct (f_signbit x).
    - replace (n =? 0) with false by (specialize (NZ eq_refl); lia). rewrite inject_Z_opp.
      setoid_replace (- inject_Z (n / 2 ^ e) * (2 # 1) ^ e * (1 # 100))%Q with (- (inject_Z S * (1 # 100)))%Q by (rewrite <- ES; ring).
      assert (S1 : (0 < inject_Z S)%Q). { change 0%Q with (inject_Z 0). rewrite <- Zlt_Qlt. unfold S. apply Z.mul_pos_pos; [specialize (NZ eq_refl); lia|apply Z.pow_pos_nonneg; lia]. }
      split; [rewrite Qabs_opp, Qabs_pos; [reflexivity|lra]|]. split; [discriminate|intros _; lra].
    - rewrite ES. split; [apply Qabs_pos; lra|]. split; [intros _; lra|discriminate]. }
  destruct AV as (A1 & A2 & A3). destruct VS as [VS1 VS2].
  split; [|split; [|split]].
  - intros P. destruct (f_signbit x) eqn:S0; [|auto]. destruct Sg as [Sg|Sg]; [discriminate Sg|lra].
  - intros P. destruct (f_signbit x) eqn:S0; [auto|]. specialize (VS2 eq_refl). lra.
  - rewrite A1, K1. destruct M3 as [M3 _]. assert (M4 : n + 1 <= S + 2 ^ e) by lia. rewrite Zle_Qle, !inject_Z_plus, pow2_Z in M4 by lia. change (inject_Z 1) with 1%Q in M4. lra.
  - rewrite A1. destruct M3 as [_ M3]. rewrite Zle_Qle in M3. lra.
Qed.
Print Assumptions C47_accuracy.
(** 30000 lux: 23992 is 5DB8h, 1464 * 2^11 / 100 = 29982.72; the step is 20.48. *)
Example C47_ex : f16_encode 0xFFFF (f_of_Z 30000) = Ok 23992 /\ (knx_value 23992 == 2998272 # 100)%Q /\ knx_exponent 23992 = 11 /\
  whole_cents (f_of_Z 30000) 3000000.
Proof.
  split; [vm_compute; reflexivity|]. split; [reflexivity|]. split; [reflexivity|]. exists (f_of_Z 3000000), 300000000.
  split; [|split; [reflexivity|split; [|reflexivity]]].
  - replace (f_of_Z 3000000) with (fdiv (f_of_Z 30000) f_001) by (vm_compute; reflexivity). apply cents_div. reflexivity.
  - split; [vm_compute; discriminate|]. intros H. vm_compute in H. discriminate H.
Qed.
Example C47_fails_ex : f16_encode 1 (f_of_Z 671089) = Err PyException /\ f16_encode 1 (f_of_Z (10 ^ 25)) = Err InvalidOperation /\
  f16_encode 1 (f_of_Z (10 ^ 307)) = Err InvalidOperation.
Proof. repeat split; vm_compute; reflexivity. Qed.

(** ** C48 Small negative numbers *)
Theorem C48_minus_2048 : forall v x, 0 <= v < 2 ^ 16 -> f_finite x = true -> f_signbit x = true -> whole_cents x 0 ->
  f16_encode v x = Ok 0x8000 /\ (knx_value 0x8000 == - (2048 # 100))%Q /\
  (Qabs (f_value (f16_decode 0x8000) + (2048 # 100)) <= (2 # 1) ^ (-47))%Q.
Proof.
  intros v x Hv F S W. split; [|split; [reflexivity|vm_compute; discriminate]].
  destruct (f16_encode_steps v x 0 Hv F W) as [_ T]. cbn in T. destruct T as (e & He & L & M & E). rewrite E, S.
  assert (e = 0). { destruct M as [|M]; [assumption|]. assert (0 < 2 ^ (10 + e)) by (apply Z.pow_pos_nonneg; lia). lia. }
  subst e. reflexivity.
Qed.
Print Assumptions C48_minus_2048.
(** Every negative number (or -0.0) of a magnitude up to 0.0099 is one. *)
Theorem C48_which : forall x, f_finite x = true -> (Qabs (f_value x) <= 99 # 10000)%Q -> whole_cents x 0.
Proof.
  intros x F L. destruct (small_cents x F) as [[n W] Y]; [lra|]. destruct (close_bounds x n F W Y) as [B1 B2].
  destruct (f16_encode_steps 0 x n ltac:(lia) F W) as [N0 _].
  assert (n < 1). { rewrite Zlt_Qlt. change (inject_Z 1) with 1%Q. lra. }
  replace n with 0 in W by lia. exact W.
Qed.
Print Assumptions C48_which.
(** -0.005 and -0.0. *)
Example C48_ex : f16_encode 0 (fdiv (f_of_Z (-1)) (f_of_Z 200)) = Ok 0x8000 /\ f16_encode 0 (S754_zero true) = Ok 0x8000 /\
  f16_encode 0x8000 (S754_zero false) = Ok 0.
Proof. repeat split; vm_compute; reflexivity. Qed.
(** All other encodable numbers keep their sign or become zero. *)
Theorem C48_others : forall v x r n, 0 <= v < 2 ^ 16 -> f_finite x = true -> f16_encode v x = Ok r ->
  whole_cents x n -> f_signbit x = false \/ n <> 0 ->
  (f_signbit (f16_decode r) = f_signbit x \/ knx_mantissa r = 0) /\ (knx_mantissa r = 0 -> n = 0).
Proof.
  intros v x r n Hv F E W H. destruct (Z.le_gt_cases (2 ^ 26) n) as [L|L]; [rewrite (C47_fails v x n Hv F W L) in E; discriminate E|].
  destruct (encoded_value v x n Hv F W L) as (r' & e & E' & Hr & He & L1 & L2 & K1 & K2 & K3). rewrite E in E'. injection E' as <-.
  destruct (f16_encode_steps v x n Hv F W) as [N0 _]. destruct (mantissa_range n e N0 ltac:(lia) L1 L2) as (M1 & M2 & M3).
  destruct (decode_value r Hr) as (_ & S & _). rewrite S, K3. destruct (f_signbit x).
  - destruct H as [H|H]; [discriminate H|]. replace (n =? 0) with false by lia. split; [left; assert (n / 2 ^ e <> 0) by tauto; lia|]. intros Z0. assert (n / 2 ^ e = 0) by lia. tauto.
  - split; [left; lia|]. intros Z0. tauto.
Qed.
Print Assumptions C48_others.
Example C48_others_ex : f16_encode 0 (f_of_Z (-30)) = Ok 0x8A24 /\ (knx_value 0x8A24 == - (30))%Q.
Proof. split; [vm_compute; reflexivity|]. vm_compute. reflexivity. Qed.

(** ** C49 4-octet floats *)
Theorem C49_roundtrip : forall v, raw_value Float_32 v -> ~ is_nan_pattern v -> f32_encode (f32_decode v) = v.
Proof. exact f32_roundtrip. Qed.
Print Assumptions C49_roundtrip.
(** The pattern stands for the decoded number, which is a double. *)
Theorem C49_decode : forall v, raw_value Float_32 v ->
  (is_nan_pattern v -> f32_decode v = S754_nan) /\
  (~ is_nan_pattern v -> pattern v (f32_decode v) /\ is_double (f32_decode v)).
Proof. intros v Hv. split; [apply f32_nan; exact Hv|apply f32_decode_spec; exact Hv]. Qed.
Print Assumptions C49_decode.
(** The stored pattern stands for the nearest single. *)
Theorem C49_encode : forall x, raw_value Float_32 (f32_encode x) /\
  (f_finite x = true -> exists s, rounded 24 128 (f_value x) (f_signbit x) s /\ pattern (f32_encode x) s) /\
  (forall s, x = S754_infinity s -> pattern (f32_encode x) x) /\
  (x = S754_nan -> is_nan_pattern (f32_encode x)).
Proof.
  intros x. split; [apply f32_encode_raw|]. split; [apply f32_encode_spec|]. split.
  - intros s ->. destruct s; repeat split.
  - intros ->. split; [reflexivity|]. vm_compute. discriminate.
Qed.
Print Assumptions C49_encode.
Theorem C49_idempotent : forall x, f32_encode (f32_decode (f32_encode x)) = f32_encode x.
Proof. exact f32_idempotent. Qed.
Print Assumptions C49_idempotent.
Example C49_ex : f32_decode 0x45C80000 = f_of_Z 6400 /\ f32_encode (f_of_Z 6400) = 0x45C80000 /\
  f32_encode f_001 = 0x3C23D70A /\ f32_encode (f_of_Z (10 ^ 39)) = 0x7F800000 /\ f32_encode (f_of_Z (-16777217)) = 0xCB800000 /\
  f32_decode 0x80000001 = S754_finite true (2 ^ 52) (-201).
Proof. repeat split; vm_compute; reflexivity. Qed.

(** ** C50 Descriptions *)

(** The dictionary may come in any order; the new value agrees with the old one
    on the part that is described. *)
Theorem C50_rebuild : forall c v name fs fs', is_f16 c = false -> is_f32 c = false -> raw_value c v ->
  describe (mkdpt c v) = Ok (name, fs) -> Permutation fs fs' ->
  factory_make name fs' = Ok (mkdpt c (described_part c v)) /\ describe (mkdpt c (described_part c v)) = Ok (name, fs).
Proof.
  intros c v name fs fs' N1 N2 R D P. apply (rebuild c v name fs fs' R); [|exact D|exact P]. unfold is_float. rewrite ?N1, ?N2. destruct c; try reflexivity; discriminate.
Qed.
Print Assumptions C50_rebuild.
Example C50_rebuild_ex :
  describe (mkdpt Control_Dimming 0xAB) = Ok ("DPT_Control_Dimming", [("direction", VName "up"); ("step", VInt 3)]) /\
  factory_make "DPT_Control_Dimming" [("step", VInt 3); ("direction", VName "up")] = Ok (mkdpt Control_Dimming 0x0B) /\
  described_part Control_Dimming 0xAB = 0x0B.
Proof. repeat split. Qed.
(** Types without undescribed bits. *)
Theorem C50_exact : forall c v, In c [VimarScene; Brightness] -> raw_value c v -> described_part c v = v.
Proof. intros c v I _. cbn in I. destruct I as [<-|[<-|[]]]; reflexivity. Qed.
Print Assumptions C50_exact.
Theorem C50_floats16 : forall c v, is_f16 c = true -> raw_value c v -> v <> 0xF800 ->
  exists fs r, describe (mkdpt c v) = Ok (class_name c, fs) /\ fs = [("decoded_value", VFloat (f16_decode v))] /\
    factory_make (class_name c) fs = Ok (mkdpt c r) /\ raw_value c r /\ describe (mkdpt c r) = Ok (class_name c, fs).
Proof.
  intros c v C R N. assert (Hv : 0 <= v < 2 ^ 16) by (destruct c; try discriminate C; exact R).
  destruct (C46_reencode 0 v ltac:(lia) Hv N) as (r & E & Hr & D & _).
  exists [("decoded_value", VFloat (f16_decode v))], r.
  assert (X : forall u, describe (mkdpt c u) = Ok (class_name c, [("decoded_value", VFloat (f16_decode u))])) by (intros u; destruct c; try discriminate C; reflexivity).
  split; [apply X|]. split; [reflexivity|]. split; [|split; [destruct c; try discriminate C; exact Hr|rewrite X, D; reflexivity]].
  unfold factory_make. rewrite find_class_name. cbn [factory_sets factory_set String.eqb Ascii.eqb Bool.eqb rbind].
  unfold dpt_encode. cbn [d_class dpt_new d_value]. rewrite C, E. reflexivity.
Qed.
Print Assumptions C50_floats16.
Theorem C50_floats32 : forall c v, is_f32 c = true -> raw_value c v ->
  exists fs r, describe (mkdpt c v) = Ok (class_name c, fs) /\
    factory_make (class_name c) fs = Ok (mkdpt c r) /\ describe (mkdpt c r) = Ok (class_name c, fs) /\ (~ is_nan_pattern v -> r = v).
Proof.
  intros c v C R. assert (R32 : raw_value Float_32 v) by (destruct c; try discriminate C; exact R).
  assert (X : forall u, describe (mkdpt c u) = Ok (class_name c, [("decoded_value", VFloat (f32_decode u))])) by (intros u; destruct c; try discriminate C; reflexivity).
  exists [("decoded_value", VFloat (f32_decode v))], (f32_encode (f32_decode v)). split; [apply X|]. split.
  - unfold factory_make. rewrite find_class_name. cbn [factory_sets factory_set String.eqb Ascii.eqb Bool.eqb rbind].
    unfold dpt_encode. cbn [d_class dpt_new d_value]. replace (is_f16 c) with false by (destruct c; try discriminate C; reflexivity). rewrite C. reflexivity.
  - split; [|intros N; apply f32_roundtrip; assumption]. rewrite X. f_equal. f_equal. f_equal. f_equal. f_equal.
    unfold f32_decode, f32_encode. destruct (single_of_bits_spec v R32) as (_ & I & _). rewrite (single_back _ I).
    destruct (bits_of_single_spec _ I) as [_ E]. rewrite E. reflexivity.
Qed.
Print Assumptions C50_floats32.
Example C50_floats_ex :
  factory_make "DPT_Value_Temp" [("decoded_value", VFloat (f16_decode 0x0C1A))] = Ok (mkdpt Value_Temp 0x0C1A) /\
  factory_make "DPT_Value_Power" [("decoded_value", VInt 6400)] = Ok (mkdpt Value_Power 0x45C80000) /\
  factory_make "DPT_Value_Temp" [("decoded_value", VFloat (f16_decode 0xF800))] = Err PyException.
Proof. repeat split; vm_compute; reflexivity. Qed.
(** There is no description exactly for the clima values with an unnamed
    operation code. *)
Theorem C50_described : forall c v, raw_value c v ->
  describe (mkdpt c v) = Err ValueError /\ undisplayable c v = true \/
  (exists d, describe (mkdpt c v) = Ok d) /\ undisplayable c v = false.
Proof.
  intros c v R. destruct (is_float c) eqn:Fl.
  - right. destruct c; try discriminate Fl; (split; [eexists; reflexivity|reflexivity]).
  - pose proof (describe_fails c v Fl R) as D. destruct (describe (mkdpt c v)) as [d|e].
    + right. split; [exists d; reflexivity|exact D].
    + left. destruct D as [-> D]. auto.
Qed.
Print Assumptions C50_described.
Theorem C50_unknown : forall name fs, ~ In name (map class_name all_classes) -> factory_make name fs = Err AttributeError.
Proof.
  intros name fs N. unfold factory_make. replace (find_class name all_classes) with (@None dpt_class); [reflexivity|].
  revert N. induction all_classes as [|c l IH]; cbn [map In find_class]; [reflexivity|]. intros N.
  destruct (String.eqb_spec (class_name c) name); [tauto|]. apply IH. tauto.
Qed.
Print Assumptions C50_unknown.
Example C50_unknown_ex : factory_make "DPT_Unknown" [] = Err AttributeError /\ describe (mkdpt SetupClima 0x09000000) = Err ValueError.
Proof. repeat split. Qed.

(** ** C51 The clima temperature *)
Theorem C51_get : forall v, exists x, prop_get (mkdpt InfoClimaReport v) "temperatura" = Ok (VFloat x) /\
  rounded 53 1024 (inject_Z (field v 0 9) / 10) false x /\
  (Qabs (f_value x - inject_Z (field v 0 9) * (1 # 10)) <= inject_Z (field v 0 9) * (1 # 10) * (2 # 1) ^ (-53))%Q.
Proof.
  intros v. exists (temperatura_get v). split; [reflexivity|]. rewrite temperatura_value. split.
  - pose proof (temperatura_range v) as R. change (2 ^ Z.of_nat 9) with 512 in R. set (t := field v 0 9) in *. clearbody t.
    pose proof (normalize_rounded 53 1024 eq_refl eq_refl t 0 false) as N. change (binary_normalize 53 1024 t 0 false) with (f_of_Z t) in N.
    destruct (rounded_exact 53 1024 eq_refl (inject_Z t * (2 # 1) ^ 0) _ _ ltac:(exists t, 0; split; [change (2 ^ 53) with 9007199254740992; lia|split; [lia|reflexivity]]) N) as (F & _ & S & V).
    pose proof (div_rounded 53 1024 eq_refl eq_refl (f_of_Z t) f_10 F eq_refl ltac:(intros s; discriminate)) as D.
    rewrite S in D. replace (xorb (if t =? 0 then false else t <? 0) (f_signbit f_10)) with false in D by (replace (t <? 0) with false by lia; destruct (t =? 0); reflexivity).
    eapply rounded_wd; [|exact D]. rewrite V. setoid_replace (f_value f_10) with 10%Q by (vm_compute; reflexivity). change ((2 # 1) ^ 0)%Q with 1%Q. field.
  - pose proof (all_bits_spec _ _ temperatura_all _ (temperatura_range v)) as H. cbv beta in H. apply andb_prop in H. destruct H as [_ H]. apply Qle_bool_iff in H. exact H.
Qed.
Print Assumptions C51_get.
(** Assigning what was read from any report [w] stores its nine bits and keeps
    all others. *)
Theorem C51_set : forall v w x, raw_value InfoClimaReport v -> prop_get (mkdpt InfoClimaReport w) "temperatura" = Ok x ->
  exists r, prop_set (mkdpt InfoClimaReport v) "temperatura" x = Ok (mkdpt InfoClimaReport r) /\ raw_value InfoClimaReport r /\
    field r 0 9 = field w 0 9 /\ field r 9 23 = field v 9 23 /\
    forall n, n <> "temperatura" -> prop_get (mkdpt InfoClimaReport r) n = prop_get (mkdpt InfoClimaReport v) n.
Proof.
  intros v w x R G. injection G as <-.
  assert (E : prop_set (mkdpt InfoClimaReport v) "temperatura" (VFloat (temperatura_get w)) = Ok (mkdpt InfoClimaReport (with_field v 0 9 (field w 0 9)))).
  { unfold prop_set. cbn [d_class]. change (sfind "temperatura" (properties InfoClimaReport)) with (Some ATemp). cbv iota.
    rewrite temperatura_back. cbn [rbind d_value]. rewrite temperatura_store_spec. reflexivity. }
  destruct (prop_set_other _ _ _ _ _ R E) as (_ & R2 & O). eexists. split; [exact E|]. split; [exact R2|].
  split; [rewrite field_with_same by lia; apply field_mod; lia|]. split; [apply field_with_other; lia|exact O].
Qed.
Print Assumptions C51_set.
Example C51_ex : prop_set (mkdpt InfoClimaReport 0x88140000) "temperatura" (VFloat (temperatura_get 0x77FFFED7)) = Ok (mkdpt InfoClimaReport 0x881400D7) /\
  prop_get (mkdpt InfoClimaReport 0x881400D7) "temperatura" = Ok (VFloat (fdiv (f_of_Z 215) f_10)).
Proof. split; vm_compute; reflexivity. Qed.

(** ** C63 The float operations of the model are those of IEEE 754 *)
Theorem C63_multiply : forall x y, f_finite x = true -> f_finite y = true -> is_double x -> is_double y ->
  rounded 53 1024 (f_value x * f_value y) (xorb (f_signbit x) (f_signbit y)) (fmul x y).
Proof. exact (mul_rounded 53 1024 eq_refl eq_refl). Qed.
Print Assumptions C63_multiply.
Theorem C63_divide : forall x y, f_finite x = true -> f_finite y = true -> (forall s, y <> S754_zero s) ->
  rounded 53 1024 (f_value x / f_value y) (xorb (f_signbit x) (f_signbit y)) (fdiv x y).
Proof. exact (div_rounded 53 1024 eq_refl eq_refl). Qed.
Print Assumptions C63_divide.
Theorem C63_of_int : forall z, rounded 53 1024 (inject_Z z) (z <? 0) (f_of_Z z).
Proof.
  intros z. pose proof (normalize_rounded 53 1024 eq_refl eq_refl z 0 false) as R.
  replace (if z =? 0 then false else z <? 0) with (z <? 0) in R by (destruct z; reflexivity). eapply rounded_wd; [|exact R]. change ((2 # 1) ^ 0)%Q with 1%Q. ring.
Qed.
Print Assumptions C63_of_int.
Theorem C63_convert : forall x, f_finite x = true ->
  rounded 24 128 (f_value x) (f_signbit x) (to_single x) /\ rounded 53 1024 (f_value x) (f_signbit x) (to_double x).
Proof. intros x F. split; apply fconv_rounded; (lia || exact F). Qed.
Print Assumptions C63_convert.
(** "Rounded" determines the result. *)
Theorem C63_unique : forall prec emax x s r r', 1 < prec < emax -> rounded prec emax x s r -> rounded prec emax x s r' -> r = r'.
Proof. intros prec emax x s r r' [H1 H2]. exact (rounded_unique prec emax H1 H2 x s r r'). Qed.
Print Assumptions C63_unique.
(** int(x) truncates toward zero. *)
Theorem C63_truncate : forall x z, f_trunc x = Ok z ->
  f_finite x = true /\ (Qabs (inject_Z z) <= Qabs (f_value x) /\ Qabs (f_value x) < Qabs (inject_Z z) + 1)%Q /\
  ((0 < z)%Z -> (0 < f_value x)%Q) /\ ((z < 0)%Z -> (f_value x < 0)%Q).
Proof.
  intros x z E. destruct x as [s|s| |s m e]; try discriminate E; injection E as <-.
  - split; [reflexivity|]. split; [split; [apply Qle_refl|reflexivity]|]. split; lia.
  - split; [reflexivity|]. pose proof (value_abs s m e) as A.
    set (a := if 0 <=? e then Z.pos m * 2 ^ e else Z.pos m / 2 ^ (- e)).
    assert (B : (inject_Z a <= inject_Z (Z.pos m) * (2 # 1) ^ e /\ inject_Z (Z.pos m) * (2 # 1) ^ e < inject_Z a + 1)%Q /\ 0 <= a).
    { unfold a. destruct (0 <=? e) eqn:Ee.
      - rewrite inject_Z_mult, pow2_Z by lia. split; [split; [apply Qle_refl|lra]|]. assert (0 < 2 ^ e) by (apply Z.pow_pos_nonneg; lia). nia.
      - assert (P : 0 < 2 ^ (- e)) by (apply Z.pow_pos_nonneg; lia).
        assert (Qp : (0 < inject_Z (2 ^ (- e)))%Q) by (change 0%Q with (inject_Z 0); rewrite <- Zlt_Qlt; exact P).
        assert (Em : ((inject_Z (Z.pos m) * (2 # 1) ^ e) * inject_Z (2 ^ (- e)) == inject_Z (Z.pos m))%Q).
        { rewrite pow2_Z by lia. rewrite <- Qmult_assoc, <- pow2_add. replace (e + - e) with 0 by lia. change ((2 # 1) ^ 0)%Q with 1%Q. ring. }
        pose proof (Z.div_mod (Z.pos m) (2 ^ (- e)) ltac:(lia)) as D. pose proof (Z.mod_pos_bound (Z.pos m) (2 ^ (- e)) P) as M.
        split; [|apply Z.div_pos; lia]. split.
        + apply (Qmult_lt_0_le_reg_r _ _ _ Qp). rewrite Em, <- inject_Z_mult, <- Zle_Qle. lia.
        + apply (Qmult_lt_r _ _ _ Qp). rewrite Em. change 1%Q with (inject_Z 1). rewrite <- inject_Z_plus, <- inject_Z_mult, <- Zlt_Qlt. nia. }
    destruct B as [[B1 B2] B3]. rewrite A.
    assert (AZ : (Qabs (inject_Z (if s then - a else a)) == inject_Z a)%Q) by (rewrite <- inject_abs; destruct s; (rewrite inject_Z_injective; lia)).
    rewrite AZ. split; [split; assumption|]. rewrite value_signed. pose proof (pow2_pos e) as Pe.
    assert (0 < inject_Z (Z.pos m) * (2 # 1) ^ e)%Q by (apply Qmult_lt_0_compat; [reflexivity|exact Pe]).
    destruct s; cbn [signed]; split; intros; try lra; lia.
Qed.
Print Assumptions C63_truncate.
Example C63_ex : fmul f_001 (f_of_Z 3) = S754_finite false 8646911284551352 (-58) /\ f_trunc (fmul (f_of_Z (-7)) (fdiv (f_of_Z 1) (f_of_Z 2))) = Ok (-3) /\
  fdiv (f_of_Z 1) (f_of_Z 3) = S754_finite false 6004799503160661 (-54) /\ is_double f_001.
Proof. split; [vm_compute; reflexivity|]. split; [vm_compute; reflexivity|]. split; [vm_compute; reflexivity|]. cbn. lia. Qed.
