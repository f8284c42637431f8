(** C51, continued: any number given to the temperature of a clima report. *)
From Coq Require Import String ZArith QArith Qabs Qpower List Bool Lia Lqa ZifyBool SpecFloat.
From Verif Require Import Py Base Float Dpt SpecDecode SpecDpt SpecClima DptProofs ClimaProofs FloatProofs KnxFloatProofs Props_Dpt.
Import ListNotations.
Open Scope string_scope.
Open Scope list_scope.
Open Scope Z_scope.

(** Storing [t] tenths: nine bits are kept, all others stay. *)
Definition holds_tenths (v r t : Z) : Prop :=
  raw_value InfoClimaReport r /\ field r 0 9 = t mod 512 /\ field r 9 23 = field v 9 23 /\
  forall n, n <> "temperatura" -> prop_get (mkdpt InfoClimaReport r) n = prop_get (mkdpt InfoClimaReport v) n.
Lemma store_tenths v x t : raw_value InfoClimaReport v ->
  prop_set (mkdpt InfoClimaReport v) "temperatura" x = Ok (mkdpt InfoClimaReport (temperatura_store v t)) ->
  holds_tenths v (temperatura_store v t) t.
Proof.
  intros R E. destruct (prop_set_other _ _ _ _ _ R E) as (_ & R2 & O). split; [exact R2|].
  split; [|split; [|exact O]]; rewrite temperatura_store_spec.
  - rewrite field_with_same by lia. reflexivity.
  - apply field_with_other; lia.
Qed.

(** A whole number of degrees. *)
Theorem C51_integer : forall v z, raw_value InfoClimaReport v -> exists r,
  prop_set (mkdpt InfoClimaReport v) "temperatura" (VInt z) = Ok (mkdpt InfoClimaReport r) /\ holds_tenths v r (10 * z).
Proof.
  intros v z R. exists (temperatura_store v (10 * z)).
  assert (E : prop_set (mkdpt InfoClimaReport v) "temperatura" (VInt z) = Ok (mkdpt InfoClimaReport (temperatura_store v (10 * z)))).
  { rewrite Z.mul_comm. reflexivity. }
  split; [exact E|]. exact (store_tenths _ _ _ R E).
Qed.
Print Assumptions C51_integer.

(** Any double up to a million degrees of either sign: ten times the number, cut to
    whole tenths toward zero, but what is within 2^-27 of the next tenth may be
    taken for it. *)
Theorem C51_number : forall v x, raw_value InfoClimaReport v -> f_finite x = true -> is_double x ->
  (Qabs (f_value x) <= 1000000)%Q -> exists r t,
  prop_set (mkdpt InfoClimaReport v) "temperatura" (VFloat x) = Ok (mkdpt InfoClimaReport r) /\ holds_tenths v r t /\
  (Qabs (inject_Z t) <= 10 * Qabs (f_value x) + (2 # 1) ^ (-27))%Q /\
  (10 * Qabs (f_value x) < Qabs (inject_Z t) + 1 + (2 # 1) ^ (-27))%Q /\
  (t = 0 \/ (0 < t /\ (0 < f_value x)%Q) \/ (t < 0 /\ (f_value x < 0)%Q)).
Proof.
  intros v x R F D B.
  assert (V10 : (f_value f_10 == 10)%Q) by (vm_compute; reflexivity).
  pose proof (C63_multiply x f_10 F eq_refl D) as M.
  assert (D10 : is_double f_10) by (vm_compute; repeat split; try discriminate; left; discriminate). specialize (M D10).
  assert (A : (Qabs (f_value x * f_value f_10) == 10 * Qabs (f_value x))%Q).
  { rewrite V10, Qabs_Qmult. change (Qabs 10) with 10%Q. ring. }
  destruct (rounded_close _ _ _ ltac:(rewrite A; eapply Qle_trans with (10 * 1000000)%Q; [lra|vm_compute; discriminate]) M) as [Fp C].
  remember (fmul x f_10) as p eqn:Ep.
  assert (T : exists t, f_trunc p = Ok t) by (destruct p; try discriminate Fp; eexists; reflexivity).
  destruct T as [t T]. destruct (C63_truncate p t T) as (_ & [T1 T2] & T3 & T4).
  assert (E27 : ((2 # 1) ^ (-27) == 1 # 134217728)%Q) by reflexivity.
  assert (C' : (Qabs (f_value x * f_value f_10 - f_value p) <= 1 # 134217728)%Q) by (rewrite <- E27; exact C). clear C.
  assert (U1 : (Qabs (f_value p) <= 10 * Qabs (f_value x) + (1 # 134217728))%Q).
  { rewrite <- A. setoid_replace (f_value p) with (f_value x * f_value f_10 + - (f_value x * f_value f_10 - f_value p))%Q by ring.
    eapply Qle_trans; [apply Qabs_triangle|]. rewrite Qabs_opp. lra. }
  assert (U2 : (10 * Qabs (f_value x) <= Qabs (f_value p) + (1 # 134217728))%Q).
  { rewrite <- A. setoid_replace (f_value x * f_value f_10)%Q with (f_value p + (f_value x * f_value f_10 - f_value p))%Q at 1 by ring.
    eapply Qle_trans; [apply Qabs_triangle|]. lra. }
  exists (temperatura_store v t), t.
  assert (E : prop_set (mkdpt InfoClimaReport v) "temperatura" (VFloat x) = Ok (mkdpt InfoClimaReport (temperatura_store v t))).
  { unfold prop_set. cbn [d_class]. change (sfind "temperatura" (properties InfoClimaReport)) with (Some ATemp). cbv iota.
    rewrite <- Ep, T. reflexivity. }
  split; [exact E|]. split; [exact (store_tenths _ _ _ R E)|].
  split; [rewrite E27; lra|]. split; [rewrite E27; lra|].
  assert (K : forall z, z <> 0 -> (1 <= Qabs (inject_Z z))%Q).
  { intros z Hz. rewrite <- inject_abs. change 1%Q with (inject_Z 1). rewrite <- Zle_Qle. lia. }
  apply Qabs_Qle_condition in C'. rewrite V10 in C'.
  destruct (Z.lt_trichotomy t 0) as [L|[->|L]]; [right; right|left; reflexivity|right; left]; (split; [exact L|]).
  - pose proof (T4 L) as Np. pose proof (K t ltac:(lia)) as Kt. rewrite (Qabs_neg (f_value p)) in T1 by lra. lra.
  - pose proof (T3 L) as Np. pose proof (K t ltac:(lia)) as Kt. rewrite (Qabs_pos (f_value p)) in T1 by lra. lra.
Qed.
Print Assumptions C51_number.

(** From 0 to 51.19 degrees what is read is the number that was given, cut to a
    tenth of a degree. *)
Theorem C51_degrees : forall v x, raw_value InfoClimaReport v -> f_finite x = true -> is_double x ->
  (0 <= f_value x <= 5119 # 100)%Q -> exists r y,
  prop_set (mkdpt InfoClimaReport v) "temperatura" (VFloat x) = Ok (mkdpt InfoClimaReport r) /\
  prop_get (mkdpt InfoClimaReport r) "temperatura" = Ok (VFloat y) /\
  (f_value x - (1 # 10) - (2 # 1) ^ (-30) < f_value y /\ f_value y <= f_value x + (2 # 1) ^ (-30))%Q.
Proof.
  intros v x R F D [B1 B2].
  destruct (C51_number v x R F D) as (r & t & E & (Rr & H9 & _) & T1 & T2 & T3); [rewrite Qabs_pos by exact B1; lra|].
  destruct (C51_get r) as (y & G & _ & Y). exists r, y. split; [exact E|]. split; [exact G|].
  assert (E27 : ((2 # 1) ^ (-27) == 1 # 134217728)%Q) by reflexivity. rewrite E27 in T1, T2.
  rewrite (Qabs_pos (f_value x)) in T1, T2 by exact B1.
  assert (Tp : 0 <= t) by (destruct T3 as [-> |[[L _]|[_ L]]]; [lia|lia|lra]).
  assert (Tq : (0 <= inject_Z t)%Q) by (rewrite Zle_Qle in Tp; exact Tp).
  rewrite (Qabs_pos (inject_Z t)) in T1, T2 by exact Tq.
  assert (Tl : t < 512) by (rewrite Zlt_Qlt; change (inject_Z 512) with 512%Q; lra).
  assert (H : field r 0 9 = t) by (rewrite H9; apply Z.mod_small; lia). rewrite H in Y.
  apply Qabs_Qle_condition in Y.
  assert (E53 : (inject_Z t * (1 # 10) * (2 # 1) ^ (-53) <= 1 # 1099511627776)%Q).
  { assert (inject_Z t <= 512)%Q by lra. setoid_replace ((2 # 1) ^ (-53))%Q with (1 # 9007199254740992)%Q by reflexivity. lra. }
  setoid_replace ((2 # 1) ^ (-30))%Q with (1 # 1073741824)%Q by reflexivity. lra.
Qed.
Print Assumptions C51_degrees.

(** 21.55 degrees are read as 21.5; 51.2 degrees are read as 0, a degree below zero
    as 50.2. *)
Example C51_number_ex :
  let x := fdiv (f_of_Z 2155) (f_of_Z 100) in let y := fdiv (f_of_Z 512) f_10 in
  raw_value InfoClimaReport 0x88140000 /\ f_finite x = true /\ is_double x /\ (0 <= f_value x <= 5119 # 100)%Q /\
  prop_set (mkdpt InfoClimaReport 0x88140000) "temperatura" (VFloat x) = Ok (mkdpt InfoClimaReport 0x881400D7) /\
  is_double y /\ prop_set (mkdpt InfoClimaReport 0x88140000) "temperatura" (VFloat y) = Ok (mkdpt InfoClimaReport 0x88140000) /\
  prop_set (mkdpt InfoClimaReport 0x88140000) "temperatura" (VInt (-1)) = Ok (mkdpt InfoClimaReport 0x881401F6) /\
  prop_get (mkdpt InfoClimaReport 0x881401F6) "temperatura" = Ok (VFloat (fdiv (f_of_Z 502) f_10)).
Proof.
  intros x y. split; [vm_compute; split; [discriminate|reflexivity]|]. split; [vm_compute; reflexivity|].
  split; [vm_compute; repeat split; try discriminate; left; discriminate|]. split; [vm_compute; split; discriminate|].
  split; [vm_compute; reflexivity|]. split; [vm_compute; repeat split; try discriminate; left; discriminate|].
  split; [vm_compute; reflexivity|]. split; vm_compute; reflexivity.
Qed.

(** A text: what is stored is the number that its digits give when they are written
    ten times over, not ten times the number; texts that are no plain numbers raise
    ValueError. *)
Theorem C51_text : forall v s, raw_value InfoClimaReport v ->
  match tenths_of_text s with
  | Some t => exists r, prop_set (mkdpt InfoClimaReport v) "temperatura" (VName s) = Ok (mkdpt InfoClimaReport r) /\ holds_tenths v r t
  | None => prop_set (mkdpt InfoClimaReport v) "temperatura" (VName s) = Err ValueError
  end.
Proof.
  intros v s R.
  assert (E : prop_set (mkdpt InfoClimaReport v) "temperatura" (VName s) =
    match tenths_of_text s with Some t => Ok (mkdpt InfoClimaReport (temperatura_store v t)) | None => Err ValueError end).
  { rewrite <- repeated_text. reflexivity. }
  destruct (tenths_of_text s) as [t|]; [|exact E]. exists (temperatura_store v t). split; [exact E|]. exact (store_tenths _ _ _ R E).
Qed.
Print Assumptions C51_text.
(** The text 21 is read as 21.7 degrees, the text 5 as 22.7. *)
Example C51_text_ex :
  tenths_of_text "21" = Some 21212121212121212121 /\ tenths_of_text "2_1" = Some 21212121212121212121 /\
  prop_set (mkdpt InfoClimaReport 0x88140000) "temperatura" (VName "21") = Ok (mkdpt InfoClimaReport (0x88140000 + 217)) /\
  prop_set (mkdpt InfoClimaReport 0x88140000) "temperatura" (VName "5") = Ok (mkdpt InfoClimaReport (0x88140000 + 227)) /\
  map tenths_of_text ["21.5"; " 21"; "-1"; "_1"; "1_"; "1__1"; ""; "warm"] = repeat None 8.
Proof. repeat split; vm_compute; reflexivity. Qed.
