(** Lemmas for C110. *)
From Coq Require Import String Ascii ZArith QArith Qabs List Bool Lia Lqa ZifyBool SpecFloat.
From Verif Require Import Py Base Msg Address Float Dpt Tables LData Inet State Encode Decode.
From Verif Require Import SpecMsg SpecTables SpecWire SpecDecode SpecDpt SpecAcross SpecTold.
From Verif Require Import FloatProofs DptProofs KnxFloatProofs SingleProofs Props_Dpt Props_Roundtrip Props_Across.
Import ListNotations.
Open Scope Z_scope.

(** ** The value that arrives *)
Lemma same_value c v : raw_value c v -> wire_octets c <> 0%nat -> as_class c (sent c v) = mkdpt c v.
Proof. intros R W. apply C21_same_class; [exact W|]. destruct c; try (elim W; reflexivity); exact R. Qed.
Lemma same_props c v : raw_value c v -> forall n, prop_get (as_class c (sent c v)) n = prop_get (mkdpt c v) n.
Proof.
  intros R n. destruct (wire_octets c) as [|k] eqn:W; [|rewrite same_value; [reflexivity|exact R|rewrite W; discriminate]].
  destruct (C21_same_class c v) as [G _]. unfold prop_get. replace (d_class (as_class c (sent c v))) with c by reflexivity. cbn [d_class].
  destruct (sfind n (properties c)) as [[|e|]|] eqn:S; [rewrite G; reflexivity|rewrite G; reflexivity| |reflexivity].
  destruct c; try discriminate W; cbn [properties sfind] in S; destruct (String.eqb _ n) in S; discriminate S.
Qed.
Lemma same_list d e l : (forall n, prop_get d n = prop_get e n) -> describe_props d l = describe_props e l.
Proof. intros H. induction l as [|[n a] l IH]; cbn [describe_props]; [reflexivity|]. rewrite H, IH. reflexivity. Qed.
Lemma same_described c v : raw_value c v -> describe (as_class c (sent c v)) = describe (mkdpt c v).
Proof.
  intros R. destruct (wire_octets c) as [|k] eqn:W; [|rewrite same_value; [reflexivity|exact R|rewrite W; discriminate]].
  unfold describe. replace (d_class (as_class c (sent c v))) with c by reflexivity. cbn [d_class].
  rewrite (same_list _ (mkdpt c v) _ (same_props c v R)).
  destruct c; try discriminate W; reflexivity.
Qed.

(** ** Who hears it *)
Lemma is_passed_on st1 a c x v st2 b : sends_as st1 a c x -> shown_at st2 b c x (sent c v) -> forall P : dpt -> Prop,
  P (as_class c (sent c v)) -> passed_on st1 a (mkdpt c v) st2 b P.
Proof.
  intros (s1 & go1 & y & r & A1 & G1 & Sd & X & T) (tb & l & h & s2 & go2 & B & A2 & G2 & Au & I & R) P HP.
  destruct (C76_across st1 s1 go1 (MGroupValueWriteReq a (mkdpt c v)) (x, Some (sent c v)) st2 tb l h s2 go2) as (rq & E & D); try assumption.
  { cbn [said d_value]. rewrite Sd, T, X. reflexivity. }
  exists rq. split; [exact E|]. intros ind cl ch pad C Pc O Rm. eexists. exists (as_class c (sent c v)).
  split; [apply (D ind cl ch pad); assumption|]. split; [|exact HP]. unfold heard. cbn [fst snd].
  replace (existsb (Z.eqb x) (vals (at_addrs (as_table s2)))) with true.
  - apply in_map_iff. exists (b, c). split; [reflexivity|exact R].
  - symmetry. apply existsb_exists. exists x. split; [exact I|apply Z.eqb_refl].
Qed.

(** ** How far a 2-octet float is from the number given *)
Lemma float16_close x : f_finite x = true -> f_signbit x = false \/ (f_value x <= - (1 # 100))%Q ->
  (Qabs (f_value x) <= 6710886399 # 10000)%Q -> exists r, f16_encode 0 x = Ok r /\ 0 <= r < 2 ^ 16 /\ f_finite (f16_decode r) = true /\
  (Qabs (f_value (f16_decode r) - f_value x) <= (101 # 10000) + Qabs (f_value x) * (1 # 1000))%Q.
Proof.
  intros F Sg L. destruct (C47_range 0 x ltac:(lia) F) as [K _]. destruct (K L) as [r E]. exists r. split; [exact E|].
  destruct (C47_total 0 x F) as [(n & W & N0 & _)|[_ E']]; [|congruence].
  destruct (Z.le_gt_cases (2 ^ 26) n) as [Ln|Ln]; [rewrite (C47_fails 0 x n ltac:(lia) F W Ln) in E; discriminate E|].
  destruct (C47_encode 0 x n ltac:(lia) F W Ln) as (r' & e & E' & Hr & He & L1 & L2 & K1 & _). rewrite E in E'. injection E' as <-.
  split; [exact Hr|]. destruct (C45_value r Hr) as (Fr & D & _). split; [exact Fr|].
  destruct (C47_accuracy 0 x r ltac:(lia) F E Sg) as (P1 & P2 & A1 & A2).
  pose proof (whole_cents_small x n F W Ln) as Y. destruct (close_bounds x n F W Y) as [B1 _].
  rewrite K1 in A1.
  assert (S : ((1 # 100) * (2 # 1) ^ e <= (1 # 100) + Qabs (f_value x) * (1 # 1024) + (1 # 1000000))%Q).
  { destruct L2 as [-> | L2]; [change ((2 # 1) ^ 0)%Q with 1%Q; pose proof (Qabs_nonneg (f_value x)); lra|].
    rewrite Zpower_exp in L2 by lia. change (2 ^ 10) with 1024 in L2. rewrite Zle_Qle, inject_Z_mult, pow2_Z in L2 by lia. change (inject_Z 1024) with 1024%Q in L2. lra. }
  clear - P1 P2 A1 A2 D S L. set (X := f_value x) in *. clearbody X. set (V := knx_value r) in *. clearbody V. set (Y := f_value (f16_decode r)) in *. clearbody Y.
  set (T := ((1 # 100) * (2 # 1) ^ e)%Q) in *. clearbody T.
  assert (D2 : (Qabs (Y - V) <= Qabs V * (1 # 1000000000000))%Q).
  { eapply Qle_trans; [exact D|]. rewrite !(Qmult_comm (Qabs V)). apply Qmult_le_compat_r; [vm_compute; discriminate|apply Qabs_nonneg]. }
  clear D. revert P1 P2 A1 A2 D2 S L.
  destruct (Qlt_le_dec X 0) as [Hx|Hx].
  - intros _ P2 A1 A2 D2 S L. specialize (P2 Hx). rewrite (Qabs_neg X) in * by lra. rewrite (Qabs_neg V) in * by lra.
    apply Qabs_Qle_condition in D2. apply Qabs_Qle_condition. lra.
  - intros P1 _ A1 A2 D2 S L. specialize (P1 Hx). rewrite (Qabs_pos X) in * by lra. rewrite (Qabs_pos V) in * by lra.
    apply Qabs_Qle_condition in D2. apply Qabs_Qle_condition. lra.
Qed.

(** ** 4-octet floats: the nearest single *)
Lemma float32_nearest x : f_finite x = true -> exists s, rounded 24 128 (f_value x) (f_signbit x) s /\
  f_signbit (f32_decode (f32_encode x)) = f_signbit s /\ f_finite (f32_decode (f32_encode x)) = f_finite s /\
  (f_value (f32_decode (f32_encode x)) == f_value s)%Q.
Proof.
  intros F. exists (to_single x). split; [apply fconv_rounded; (lia || exact F)|].
  unfold f32_decode, f32_encode. pose proof (to_single_is x) as Is. destruct (bits_of_single_spec _ Is) as [_ E]. rewrite E.
  destruct (f_finite (to_single x)) eqn:Fs.
  - destruct (double_of_single _ Fs Is) as (F2 & _ & S2 & V2). auto.
  - destruct (to_single x) as [| | |]; try discriminate Fs; repeat split; reflexivity.
Qed.
