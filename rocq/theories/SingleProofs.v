(** The 4-octet floats. *)
From Coq Require Import String ZArith QArith Qabs Qpower List Bool Lia Lqa ZifyBool SpecFloat.
From Verif Require Import Py Base Float Dpt SpecDpt DptProofs FloatProofs.
Import ListNotations.
Open Scope Z_scope.

Notation pow2 e := ((2 # 1) ^ e)%Q.
Ltac powers := change (2 ^ 0) with 1 in *; change (2 ^ 1) with 2 in *; change (2 ^ 8) with 256 in *; change (2 ^ 22) with 4194304 in *;
  change (2 ^ 23) with 8388608 in *; change (2 ^ 24) with 16777216 in *; change (2 ^ 31) with 2147483648 in *; change (2 ^ 32) with 4294967296 in *.

(** ** Conversions round *)
Lemma fconv_rounded prec emax x : 1 < prec -> prec < emax -> f_finite x = true ->
  rounded prec emax (f_value x) (f_signbit x) (fconv prec emax x).
Proof.
  intros H1 H2 F. destruct x as [s|s| |s m e]; try discriminate F.
  - cbn [fconv f_signbit]. apply rounded_zero; (lia || reflexivity).
  - cbn [fconv f_signbit]. pose proof (normalize_rounded prec emax H1 H2 (if s then Z.neg m else Z.pos m) e s) as R.
    replace (if (if s then Z.neg m else Z.pos m) =? 0 then s else (if s then Z.neg m else Z.pos m) <? 0) with s in R by (destruct s; reflexivity).
    eapply rounded_wd; [|exact R]. cbn [f_value]. destruct s; [change (Z.neg m) with (- Z.pos m); rewrite inject_Z_opp|]; reflexivity.
Qed.
Lemma single_double z : representable 24 128 z -> representable 53 1024 z.
Proof.
  intros (m & e & Hm & He & E). exists m, e. split; [|split; [lia|exact E]]. change (2 ^ 24) with 16777216 in Hm. change (2 ^ 53) with 9007199254740992. lia.
Qed.
(** A single survives the way to double and back. *)
Lemma double_of_single s : f_finite s = true -> is_single s ->
  f_finite (to_double s) = true /\ is_double (to_double s) /\ f_signbit (to_double s) = f_signbit s /\ (f_value (to_double s) == f_value s)%Q.
Proof.
  intros F I. pose proof (fconv_rounded 53 1024 s eq_refl eq_refl F) as R.
  apply (rounded_exact 53 1024 eq_refl (f_value s)); [|exact R]. apply single_double, in_format_representable; assumption || reflexivity.
Qed.
Lemma single_back s : is_single s -> to_single (to_double s) = s.
Proof.
  intros I. destruct (f_finite s) eqn:F; [|destruct s; try discriminate F; reflexivity].
  destruct (double_of_single s F I) as (F2 & _ & S2 & V2). pose proof (fconv_rounded 24 128 (to_double s) eq_refl eq_refl F2) as R.
  rewrite S2 in R. apply (rounded_same 24 128 eq_refl eq_refl s); [exact F|exact I|]. eapply rounded_wd; [exact V2|exact R].
Qed.

(** ** Patterns *)
Lemma pattern_split v : raw_value Float_32 v -> v = field v 0 23 + 8388608 * field v 23 8 + 2147483648 * field v 31 1 /\
  0 <= field v 0 23 < 8388608 /\ 0 <= field v 23 8 < 256 /\ 0 <= field v 31 1 < 2.
Proof.
  unfold raw_value, field. change (2 ^ (8 * dpt_size Float_32)) with 4294967296. powers. rewrite Z.div_1_r. lia.
Qed.
Lemma pattern_join F E S : 0 <= F < 8388608 -> 0 <= E < 256 -> 0 <= S < 2 -> let v := F + 8388608 * E + 2147483648 * S in
  raw_value Float_32 v /\ field v 0 23 = F /\ field v 23 8 = E /\ field v 31 1 = S.
Proof.
  unfold raw_value, field. change (2 ^ (8 * dpt_size Float_32)) with 4294967296. powers. rewrite Z.div_1_r. cbv zeta. lia.
Qed.
Lemma single_of_bits_spec v : raw_value Float_32 v -> pattern v (single_of_bits v) /\ is_single (single_of_bits v) /\
  (~ is_nan_pattern v -> bits_of_single (single_of_bits v) = v).
Proof.
  intros Hv. destruct (pattern_split v Hv) as (E & R1 & R2 & R3). unfold single_of_bits. rewrite !field_get by lia.
  unfold is_nan_pattern, pattern, single_value.
  set (F := field v 0 23) in *. set (X := field v 23 8) in *. set (S := field v 31 1) in *. clearbody F X S.
  assert (CS : S = 0 \/ S = 1) by lia.
  destruct (X =? 255) eqn:E255.
  - destruct (F =? 0) eqn:E0.
    + split; [|split; [exact I|]]. { destruct CS as [-> | ->]; cbn; lia. }
      intros _. cbn [bits_of_single]. destruct CS as [-> | ->]; cbn [Z.eqb negb]; powers; lia.
    + split; [lia|]. split; [exact I|]. intros N. exfalso. lia.
  - destruct (X =? 0) eqn:X0.
    + destruct F as [|m|m] eqn:EF; [| |lia].
      * split; [|split; [exact I|]].
        { split; [lia|]. split; [destruct CS as [-> | ->]; cbn [Z.eqb Pos.eqb]; change (inject_Z (0 + 0)) with 0%Q; cbn [f_value]; ring|]. destruct CS as [-> | ->]; reflexivity. }
        intros _. cbn [bits_of_single]. destruct CS as [-> | ->]; cbn [Z.eqb negb]; powers; lia.
      * split; [|split; [cbn [in_format]; powers; lia|]].
        { split; [lia|]. split; [|destruct CS as [-> | ->]; reflexivity]. assert (X = 0) by lia. subst X. cbn [f_value]. rewrite Z.add_0_r. change (Z.max 1 0 - 150) with (-149).
          destruct CS as [-> | ->]; cbn [Z.eqb Pos.eqb negb]; ring. }
        intros _. cbn [bits_of_single]. powers. replace (Z.pos m <? 8388608) with true by lia. destruct CS as [-> | ->]; cbn [Z.eqb negb]; lia.
    + powers. destruct (F + 8388608) as [|m|m] eqn:EF; [lia| |lia].
      split; [|split; [cbn [in_format]; powers; lia|]].
      { split; [lia|]. split; [|destruct CS as [-> | ->]; reflexivity]. cbn [f_value]. replace (Z.max 1 X - 150) with (X - 150) by lia.
        destruct CS as [-> | ->]; cbn [Z.eqb Pos.eqb negb]; ring. }
      intros _. cbn [bits_of_single]. powers. replace (Z.pos m <? 8388608) with false by lia. destruct CS as [-> | ->]; cbn [Z.eqb negb]; lia.
Qed.
Lemma bits_of_single_spec s : is_single s -> raw_value Float_32 (bits_of_single s) /\ single_of_bits (bits_of_single s) = s.
Proof.
  intros I. destruct s as [s|s| |s m e].
  - destruct s; split; try reflexivity; unfold raw_value; vm_compute; intuition discriminate.
  - destruct s; split; try reflexivity; unfold raw_value; vm_compute; intuition discriminate.
  - split; try reflexivity; unfold raw_value; vm_compute; intuition discriminate.
  - cbn [in_format] in I. change (3 - 128 - 24) with (-149) in I. change (128 - 24) with 104 in I. change (24 - 1) with 23 in I. powers. cbn [bits_of_single]. powers.
    assert (G : exists F E, 0 <= F < 8388608 /\ 0 <= E < 255 /\ (if Z.pos m <? 8388608 then Z.pos m else (e + 150) * 8388608 + (Z.pos m - 8388608)) = F + 8388608 * E /\
      Z.pos m = (if E =? 0 then F else F + 8388608) /\ e = (if E =? 0 then -149 else E - 150)).
    { destruct (Z.pos m <? 8388608) eqn:L.
      - exists (Z.pos m), 0. cbn [Z.eqb]. lia.
      - exists (Z.pos m - 8388608), (e + 150). replace (e + 150 =? 0) with false by lia. lia. }
    destruct G as (F & E & HF & HE & -> & Em & Ee).
    destruct (pattern_join F E (if s then 1 else 0) HF ltac:(lia) ltac:(destruct s; lia)) as (P1 & P2 & P3 & P4).
    replace ((if s then 2147483648 else 0) + (F + 8388608 * E)) with (F + 8388608 * E + 2147483648 * (if s then 1 else 0)) by (destruct s; lia).
    split; [exact P1|]. unfold single_of_bits. rewrite !field_get by lia. rewrite P2, P3, P4. replace (E =? 255) with false by lia.
    powers. rewrite <- Em, <- Ee. destruct s; reflexivity.
Qed.

(** ** The datapoint values *)
Lemma f32_decode_spec v : raw_value Float_32 v -> ~ is_nan_pattern v -> pattern v (f32_decode v) /\ is_double (f32_decode v).
Proof.
  intros Hv N. destruct (single_of_bits_spec v Hv) as (P & I & _). unfold f32_decode. destruct (f_finite (single_of_bits v)) eqn:F.
  - destruct (double_of_single _ F I) as (F2 & I2 & S2 & V2). split; [|exact I2].
    assert (P' : field v 23 8 <> 255 /\ (single_value v == f_value (single_of_bits v))%Q /\ field v 31 1 = (if f_signbit (single_of_bits v) then 1 else 0)) by (destruct (single_of_bits v); try discriminate F; exact P).
    destruct P' as (P1 & P2 & P3). rewrite <- S2 in P3. rewrite <- V2 in P2. clear - F2 P1 P2 P3.
    generalize dependent (to_double (single_of_bits v)). intros d F2 P2 P3. destruct d; try discriminate F2; cbn [pattern]; auto.
  - destruct (single_of_bits v); try discriminate F; split; try exact I; try exact P.
Qed.
Lemma f32_roundtrip v : raw_value Float_32 v -> ~ is_nan_pattern v -> f32_encode (f32_decode v) = v.
Proof.
  intros Hv N. destruct (single_of_bits_spec v Hv) as (_ & I & B). unfold f32_encode, f32_decode. rewrite single_back by exact I. apply B, N.
Qed.
Lemma f32_nan v : raw_value Float_32 v -> is_nan_pattern v -> f32_decode v = S754_nan.
Proof.
  intros Hv [N1 N2]. unfold f32_decode, single_of_bits. rewrite !field_get by lia. rewrite N1. cbn [Z.eqb Pos.eqb].
  replace (field v 0 23 =? 0) with false by lia. reflexivity.
Qed.
Lemma to_single_is x : is_single (to_single x).
Proof.
  destruct (f_finite x) eqn:F; [|destruct x; try discriminate F; exact I].
  destruct (fconv_rounded 24 128 x eq_refl eq_refl F) as [[_ R]|(_ & _ & R & _)]; [unfold to_single; rewrite R; exact I|exact R].
Qed.
Lemma f32_encode_raw x : raw_value Float_32 (f32_encode x).
Proof. apply bits_of_single_spec, to_single_is. Qed.
Lemma f32_idempotent x : f32_encode (f32_decode (f32_encode x)) = f32_encode x.
Proof.
  unfold f32_encode, f32_decode. destruct (bits_of_single_spec _ (to_single_is x)) as [_ E]. rewrite E. rewrite single_back by apply to_single_is. reflexivity.
Qed.
Lemma f32_encode_spec x : f_finite x = true -> exists s, rounded 24 128 (f_value x) (f_signbit x) s /\ pattern (f32_encode x) s.
Proof.
  intros F. exists (to_single x). split; [apply fconv_rounded; (lia || exact F)|]. destruct (bits_of_single_spec _ (to_single_is x)) as [R E].
  destruct (single_of_bits_spec _ R) as [P _]. rewrite E in P. exact P.
Qed.
