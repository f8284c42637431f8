(** Proofs for C107. *)
From Coq Require Import String ZArith List Bool Lia SpecFloat Permutation.
From Verif Require Import Py Base Float Dpt SpecDpt SpecClima SpecFactory DptProofs ClimaProofs SingleProofs.
Import ListNotations.
Open Scope string_scope.
Open Scope list_scope.
Open Scope Z_scope.

Lemma f16_rest v u x : 0 <= v < 2 ^ 16 -> 0 <= u < 2 ^ 16 -> f16_encode v x = f16_encode u x.
Proof.
  intros V U. unfold f16_encode. destruct (round2 (fdiv x f_001)) as [k|]; cbn [rbind]; [|reflexivity].
  destruct (f16_scale _ _ 0) as [m ex]. destruct (ex >? 15); [reflexivity|]. f_equal.
  set (m' := if f_signbit x then _ else _). set (sg := if f_signbit x then 1 else 0). clearbody m' sg.
  apply Z.bits_inj'. intros i Hi. rewrite !testbit_set by lia.
  destruct ((15 <=? i) && (i <? 15 + 1)) eqn:B1; [reflexivity|]. destruct ((0 <=? i) && (i <? 0 + 8)) eqn:B2; [reflexivity|].
  destruct ((8 <=? i) && (i <? 8 + 3)) eqn:B3; [reflexivity|]. destruct ((11 <=? i) && (i <? 11 + 4)) eqn:B4; [reflexivity|].
  rewrite (high_bits Float_16 v i V), (high_bits Float_16 u i U); [reflexivity| |]; cbn; lia.
Qed.

Lemma f16_raw v x r : 0 <= v < 2 ^ 16 -> f16_encode v x = Ok r -> 0 <= r < 2 ^ 16.
Proof.
  intros V H. unfold f16_encode in H. destruct (round2 (fdiv x f_001)) as [k|]; cbn [rbind] in H; [|discriminate H].
  destruct (f16_scale _ _ 0) as [m ex]. destruct (ex >? 15); [discriminate H|]. injection H as <-.
  repeat (apply set_range; [lia|lia|lia|]). exact V.
Qed.
Lemma whole v w z : 0 <= w -> 0 <= v < 2 ^ w -> with_field v 0 w z = z mod 2 ^ w.
Proof.
  intros W V. unfold with_field, field. change (2 ^ 0) with 1. rewrite Z.div_1_r, (Z.mod_small v) by exact V. lia.
Qed.
Lemma member_In k l : member k l = true <-> In k l.
Proof.
  unfold member. rewrite existsb_exists. split.
  - intros (x & I & E). apply String.eqb_eq in E. subst. exact I.
  - intros I. exists k. split; [exact I|apply String.eqb_refl].
Qed.
Lemma sfind_find {A} (n : string) (l : list (string * A)) :
  sfind n l = match find (fun p => (fst p =? n)%string) l with Some (_, a) => Some a | None => None end.
Proof. induction l as [|[m a] l IH]; cbn; [reflexivity|]. destruct (m =? n)%string; [reflexivity|exact IH]. Qed.
Lemma no_property c k : ~ In k (numbers c) -> names c k = None -> (c = InfoClimaReport -> k <> "temperatura") -> sfind k (properties c) = None.
Proof.
  intros N1 N2 N3. destruct (sfind k (properties c)) as [a|] eqn:E; [|reflexivity]. exfalso.
  destruct (property_kind c k a E) as (K & _). destruct a; [apply N1, K|destruct K as [K _]; congruence|destruct K as [-> ->]; apply N3; reflexivity].
Qed.

Lemma set_effect c v k x : raw_value c v ->
  factory_set (mkdpt c v) (k, x) = match entry_effect c k x with Ok e => Ok (mkdpt c (write v e)) | Err e => Err e end.
Proof.
  intros R. unfold factory_set, entry_effect. destruct (String.eqb_spec k "decoded_value") as [-> |Nd].
  - destruct (is_f16 c) eqn:F16.
    + assert (V : 0 <= v < 2 ^ 16) by (destruct c; try discriminate F16; exact R).
      assert (G : forall f, dpt_encode (mkdpt c v) f = match (do w <- f16_encode 0 f; Ok (Some (0, 16, w))) with Ok e => Ok (mkdpt c (write v e)) | Err e => Err e end).
      { intros f. unfold dpt_encode. cbn [d_class d_value]. rewrite F16, (f16_rest v 0 f V) by lia.
        destruct (f16_encode 0 f) as [r|] eqn:E; cbn [rbind]; [|reflexivity]. cbn [write]. rewrite whole by (lia || exact V).
        rewrite Z.mod_small; [reflexivity|]. exact (f16_raw 0 f r ltac:(lia) E). }
      cbn [d_class]. rewrite F16. cbn [orb]. destruct x as [z|s|f]; cbn [as_number rbind].
      * destruct (f_of_Z z) eqn:E; cbn [rbind]; try reflexivity; apply G.
      * reflexivity.
      * apply G.
    + destruct (is_f32 c) eqn:F32.
      * assert (V : 0 <= v < 2 ^ 32) by (destruct c; try discriminate F32; exact R).
        assert (G : forall f, dpt_encode (mkdpt c v) f = Ok (mkdpt c (write v (Some (0, 32, f32_encode f))))).
        { intros f. unfold dpt_encode. cbn [d_class d_value]. rewrite F16, F32. cbn [write]. rewrite whole by (lia || exact V).
          rewrite Z.mod_small; [reflexivity|]. exact (f32_encode_raw f). }
        cbn [d_class]. rewrite F16, F32. cbn [orb]. destruct x as [z|s|f]; cbn [as_number rbind].
        -- destruct (f_of_Z z) eqn:E; cbn [rbind]; try reflexivity; apply G.
        -- reflexivity.
        -- apply G.
      * assert (G : forall f, dpt_encode (mkdpt c v) f = Err AttributeError) by (intros f; unfold dpt_encode; cbn [d_class]; rewrite F16, F32; reflexivity).
        cbn [d_class]. rewrite F16, F32. cbn [orb]. destruct x as [z|s|f]; [destruct (f_of_Z z)| |]; rewrite ?G; reflexivity.
  - destruct (String.eqb_spec k "value") as [-> |Nv].
    { destruct x as [z|s|f]; try reflexivity. cbn [write]. rewrite whole; [reflexivity|destruct c; discriminate|exact R]. }
    cbn [d_class]. destruct (member k (numbers c)) eqn:Mb.
    { apply member_In in Mb. pose proof (numbers_property c k Mb) as P. destruct (property_kind c k _ P) as ((_ & o & w & Po) & _).
      rewrite P. unfold prop_set. cbn [d_class]. rewrite P, Po. destruct x as [z|s|f]; try reflexivity. rewrite bits_set_spec, Po. reflexivity. }
    assert (Mi : ~ In k (numbers c)) by (rewrite <- member_In; congruence).
    destruct (names c k) as [e|] eqn:Nm.
    { pose proof (names_property c k e Nm) as P. destruct (names_bits c k e Nm) as (o & w & Po & _).
      rewrite P. unfold prop_set. cbn [d_class]. rewrite P, Po. destruct x as [z|s|f]; try reflexivity.
      unfold enum_of_name. rewrite sfind_find. destruct (find _ e) as [[s' z]|]; cbn [rbind]; [|reflexivity].
      rewrite bits_set_spec, Po. reflexivity. }
    destruct c; try (rewrite no_property; [reflexivity|exact Mi|exact Nm|discriminate]).
    destruct (String.eqb_spec k "temperatura") as [-> |Nt].
    + change (sfind "temperatura" (properties InfoClimaReport)) with (Some ATemp). unfold prop_set. cbn [d_class d_value].
      change (sfind "temperatura" (properties InfoClimaReport)) with (Some ATemp). cbv iota. destruct x as [z|s|f].
      * rewrite temperatura_store_spec, (Z.mul_comm z 10). reflexivity.
      * rewrite repeated_text. destruct (tenths_of_text s) as [t|]; [|reflexivity]. rewrite temperatura_store_spec. reflexivity.
      * destruct (f_trunc (fmul f f_10)) as [t|]; cbn [rbind]; [|reflexivity]. rewrite temperatura_store_spec. reflexivity.
    + rewrite no_property; [reflexivity|exact Mi|exact Nm|intros _; exact Nt].
Qed.

Lemma effect_place c k x o w z : whole_key k = false -> entry_effect c k x = Ok (Some (o, w, z)) ->
  place c k = (o, w) /\ exists a, sfind k (properties c) = Some a.
Proof.
  unfold whole_key. intros W H. apply orb_false_elim in W. destruct W as [W1 W2]. unfold entry_effect in H. rewrite W1, W2 in H.
  destruct (member k (numbers c)) eqn:Mb.
  { apply member_In in Mb. pose proof (numbers_property c k Mb) as P. unfold place. destruct (position c k) as [[o' w']|]; [|destruct x; discriminate H].
    destruct x; try discriminate H. injection H as <- <- _. eauto. }
  destruct (names c k) as [e|] eqn:Nm.
  { pose proof (names_property c k e Nm) as P. unfold place. destruct (position c k) as [[o' w']|]; destruct x; try discriminate H; destruct (find _ e) as [[s' z']|]; try discriminate H.
    injection H as <- <- _. eauto. }
  destruct c; try discriminate H. destruct (String.eqb_spec k "temperatura") as [-> |]; [|discriminate H].
  destruct x as [y|s|f]; [injection H as <- <- _|destruct (tenths_of_text s); [injection H as <- <- _|discriminate H]|destruct (f_trunc _); cbn [rbind] in H; [injection H as <- <- _|discriminate H]];
    (split; [reflexivity|eexists; reflexivity]).
Qed.
Lemma place_apart c k k' a a' : sfind k (properties c) = Some a -> sfind k' (properties c) = Some a' -> k <> k' ->
  let '(o, w) := place c k in let '(o', w') := place c k' in o' + w' <= o \/ o + w <= o'.
Proof.
  intros S S' N. destruct (property_kind c k a S) as (K & L1 & L2). destruct (property_kind c k' a' S') as (K' & L1' & L2').
  unfold place. destruct (position c k) as [[o w]|] eqn:P; destruct (position c k') as [[o' w']|] eqn:P'.
  - pose proof (position_apart c k o w k' o' w' P P' N). lia.
  - destruct a'; [destruct K' as (_ & ? & ? & Q); congruence|destruct K' as (_ & ? & ? & Q); congruence|]. destruct K' as [-> ->].
    pose proof (position_apart InfoClimaReport k o w "temperatura_lsb" 0 8 P eq_refl L1).
    pose proof (position_apart InfoClimaReport k o w "temperatura_msb" 8 1 P eq_refl L2).
    pose proof (position_sound _ _ _ _ P). lia.
  - destruct a; [destruct K as (_ & ? & ? & Q); congruence|destruct K as (_ & ? & ? & Q); congruence|]. destruct K as [-> ->].
    pose proof (position_apart InfoClimaReport k' o' w' "temperatura_lsb" 0 8 P' eq_refl L1').
    pose proof (position_apart InfoClimaReport k' o' w' "temperatura_msb" 8 1 P' eq_refl L2').
    pose proof (position_sound _ _ _ _ P'). lia.
  - destruct a; [destruct K as (_ & ? & ? & Q); congruence|destruct K as (_ & ? & ? & Q); congruence|]. destruct K as [-> ->].
    destruct a'; [destruct K' as (_ & ? & ? & Q); congruence|destruct K' as (_ & ? & ? & Q); congruence|]. destruct K' as [_ ->]. congruence.
Qed.
Lemma effect_width c k x o w z : entry_effect c k x = Ok (Some (o, w, z)) -> 0 <= o /\ 0 <= w /\ o + w <= 8 * dpt_size c.
Proof.
  intros H. destruct (whole_key k) eqn:W.
  - unfold whole_key in W. unfold entry_effect in H. destruct (String.eqb_spec k "decoded_value") as [-> |Nd].
    + destruct (is_f16 c) eqn:F16.
      * destruct (as_number x); cbn [rbind] in H; [|discriminate H]. destruct (f16_encode 0 a); cbn [rbind] in H; [|discriminate H].
        injection H as <- <- _. destruct c; try discriminate F16; cbn; lia.
      * destruct (is_f32 c) eqn:F32; [|discriminate H]. destruct (as_number x); cbn [rbind] in H; [|discriminate H].
        injection H as <- <- _. destruct c; try discriminate F32; cbn; lia.
    + rewrite orb_false_r in W. rewrite W in H. destruct x; try discriminate H. injection H as <- <- _. destruct c; cbn; lia.
  - destruct (effect_place c k x o w z W H) as (P & a & S). destruct (property_kind c k a S) as (K & _).
    unfold place in P. destruct (position c k) as [[o' w']|] eqn:Q.
    + injection P as <- <-. pose proof (position_sound _ _ _ _ Q). lia.
    + injection P as <- <-. destruct a; [destruct K as (_ & ? & ? & E); congruence|destruct K as (_ & ? & ? & E); congruence|]. destruct K as [-> _]. cbn. lia.
Qed.
Lemma write_raw c v k x e : raw_value c v -> entry_effect c k x = Ok e -> raw_value c (write v e).
Proof.
  intros R H. destruct e as [[[o w] z]|]; [|exact R]. destruct (effect_width c k x o w z H) as (A & B & C). cbn [write].
  rewrite <- field_set by assumption. apply set_range; assumption.
Qed.
Lemma sets_built c : forall fs v, raw_value c v ->
  factory_sets (mkdpt c v) fs = match built_from c v fs with Ok r => Ok (mkdpt c r) | Err e => Err e end.
Proof.
  induction fs as [|[k x] fs IH]; intros v R; cbn [factory_sets built_from]; [reflexivity|]. rewrite set_effect by exact R.
  destruct (entry_effect c k x) as [e|] eqn:E; cbn [rbind]; [|reflexivity]. apply IH. exact (write_raw c v k x e R E).
Qed.
Lemma make_built c fs : factory_make (class_name c) fs = match built_from c 0 fs with Ok r => Ok (mkdpt c r) | Err e => Err e end.
Proof. unfold factory_make. rewrite find_class_name. apply sets_built. unfold raw_value. destruct c; cbn; lia. Qed.
Lemma built_raw c : forall fs v r, raw_value c v -> built_from c v fs = Ok r -> raw_value c r.
Proof.
  induction fs as [|[k x] fs IH]; intros v r R H; cbn [built_from] in H; [injection H as <-; exact R|].
  destruct (entry_effect c k x) as [e|] eqn:E; [|discriminate H]. exact (IH _ _ (write_raw c v k x e R E) H).
Qed.
Lemma built_fails c : forall fs v, match first_failure c fs with Some e => built_from c v fs = Err e | None => exists r, built_from c v fs = Ok r end.
Proof.
  induction fs as [|[k x] fs IH]; intros v; cbn [first_failure built_from]; [eauto|]. destruct (entry_effect c k x); [apply IH|reflexivity].
Qed.
Lemma write_swap c v k x k' x' e e' : k <> k' -> whole_key k = false -> whole_key k' = false ->
  entry_effect c k x = Ok e -> entry_effect c k' x' = Ok e' -> write (write v e) e' = write (write v e') e.
Proof.
  intros N W W' H H'. destruct e as [[[o w] z]|]; [|reflexivity]. destruct e' as [[[o' w'] z']|]; [|reflexivity].
  destruct (effect_place c k x o w z W H) as (P & a & S). destruct (effect_place c k' x' o' w' z' W' H') as (P' & a' & S').
  pose proof (place_apart c k k' a a' S S' N) as D. rewrite P, P' in D.
  destruct (effect_width c k x o w z H) as (A1 & A2 & _). destruct (effect_width c k' x' o' w' z' H') as (B1 & B2 & _).
  cbn [write]. rewrite <- !field_set by assumption. apply set_set_comm; try assumption; lia.
Qed.
Definition same_end (a b : res Z) : Prop :=
  match a, b with Ok x, Ok y => x = y | Err _, Err _ => True | _, _ => False end.
Lemma same_end_refl a : same_end a a.
Proof. destruct a; cbn; auto. Qed.
Lemma built_perm c fs fs' : Permutation fs fs' -> NoDup (map fst fs) -> Forall (fun e => whole_key (fst e) = false) fs ->
  forall v, same_end (built_from c v fs) (built_from c v fs').
Proof.
  induction 1 as [|[k x] l l' P IH|[k x] [k' x'] l|l l' l'' P1 IH1 P2 IH2]; intros ND F v.
  - reflexivity.
  - cbn [built_from]. destruct (entry_effect c k x); [|exact Logic.I]. apply IH; [inversion ND; assumption|exact (Forall_inv_tail F)].
  - cbn [built_from]. destruct (entry_effect c k' x') as [e'|er'] eqn:E'; destruct (entry_effect c k x) as [e|er] eqn:E; try exact Logic.I.
    + assert (N : k' <> k). { cbn [map fst] in ND. inversion ND as [|? ? I _]; subst. intros ->. apply I. left. reflexivity. }
      pose proof (Forall_inv F) as W'. pose proof (Forall_inv (Forall_inv_tail F)) as W. cbn [fst] in W, W'.
      rewrite (write_swap c v k' x' k x e' e N W' W E' E). apply same_end_refl.
  - specialize (IH1 ND F v). assert (ND' : NoDup (map fst l')) by exact (Permutation_NoDup (Permutation_map fst P1) ND).
    assert (F' : Forall (fun e => whole_key (fst e) = false) l') by exact (Permutation_Forall P1 F).
    specialize (IH2 ND' F' v). unfold same_end in *. destruct (built_from c v l), (built_from c v l'), (built_from c v l''); try tauto. congruence.
Qed.

(** ** What reads back *)
Lemma effect_keeps c v k x e n : raw_value c v -> entry_effect c k x = Ok e -> whole_key k = false -> n <> k ->
  prop_get (mkdpt c (write v e)) n = prop_get (mkdpt c v) n.
Proof.
  intros R H W N. pose proof (set_effect c v k x R) as G. rewrite H in G. unfold factory_set in G.
  apply orb_false_elim in W. destruct W as [W1 W2]. rewrite W1, W2 in G. cbn [d_class] in G.
  destruct (sfind k (properties c)) as [a|] eqn:S; [|congruence]. destruct (prop_set_other c v k x _ R G) as (_ & _ & K). exact (K n N).
Qed.
Lemma built_keeps c n : forall fs v r, raw_value c v -> built_from c v fs = Ok r ->
  Forall (fun e => whole_key (fst e) = false /\ fst e <> n) fs -> prop_get (mkdpt c r) n = prop_get (mkdpt c v) n.
Proof.
  induction fs as [|[k x] fs IH]; intros v r R H F; cbn [built_from] in H; [injection H as <-; reflexivity|].
  destruct (entry_effect c k x) as [e|] eqn:E; [|discriminate H]. pose proof (Forall_inv F) as [W N]. cbn [fst] in W, N.
  rewrite (IH _ _ (write_raw c v k x e R E) H (Forall_inv_tail F)). apply (effect_keeps c v k x e n R E W). congruence.
Qed.
Lemma built_app c : forall a b v, built_from c v (a ++ b) = match built_from c v a with Ok u => built_from c u b | Err e => Err e end.
Proof.
  induction a as [|[k x] a IH]; intros b v; cbn [app built_from]; [reflexivity|]. destruct (entry_effect c k x); [apply IH|reflexivity].
Qed.
