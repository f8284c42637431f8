(** Facts about datapoint fields, names and descriptions. *)
From Coq Require Import String ZArith QArith Qabs List Bool Lia ZifyBool Permutation SpecFloat.
From Verif Require Import Py Base Float Dpt SpecDecode SpecDpt.
Import ListNotations.
Open Scope string_scope.
Open Scope list_scope.
Open Scope Z_scope.

(** ** Exhaustive checks: all integers of a number of bits *)
Fixpoint all_bits (k : nat) (p : Z -> bool) : bool :=
  match k with
  | O => p 0
  | S k => all_bits k (fun v => p (2 * v)) && all_bits k (fun v => p (2 * v + 1))
  end.
Lemma all_bits_spec k : forall p, all_bits k p = true -> forall v, 0 <= v < 2 ^ Z.of_nat k -> p v = true.
Proof.
  induction k as [|k IH]; intros p H v Hv.
  - cbn [all_bits] in H. change (2 ^ Z.of_nat 0) with 1 in Hv. replace v with 0 by lia. exact H.
  - cbn [all_bits] in H. apply andb_prop in H. destruct H as [H0 H1].
    rewrite Nat2Z.inj_succ, Z.pow_succ_r in Hv by lia. pose proof (Z.div_mod v 2). assert (v mod 2 = 0 \/ v mod 2 = 1) as [E|E] by lia.
    + replace v with (2 * (v / 2)) by lia. apply (IH _ H0). lia.
    + replace v with (2 * (v / 2) + 1) by lia. apply (IH _ H1). lia.
Qed.

(** ** Fields *)
Lemma field_get v o w : 0 <= o -> 0 <= w -> get v o w = field v o w.
Proof. apply get_arith. Qed.
Lemma field_set v o w x : 0 <= o -> 0 <= w -> set v o w x = with_field v o w x.
Proof. intros Ho Hw. rewrite set_arith, field_get by assumption. unfold with_field. ring. Qed.
Lemma set_set_comm v o w x o' w' x' : 0 <= o -> 0 <= w -> 0 <= o' -> 0 <= w' -> o' + w' <= o \/ o + w <= o' ->
  set (set v o w x) o' w' x' = set (set v o' w' x') o w x.
Proof.
  intros. apply Z.bits_inj'. intros i Hi. rewrite !testbit_set by lia.
  destruct ((o <=? i) && (i <? o + w)) eqn:E1, ((o' <=? i) && (i <? o' + w')) eqn:E2; try reflexivity. lia.
Qed.

Lemma find_position c n : find_field n (layout c) = position c n.
Proof. destruct c; cbn [layout find_field position]; rewrite ?(String.eqb_sym _ n); reflexivity. Qed.

Definition apart (a b : string * Z * Z) : bool :=
  let '(n, o, w) := a in let '(n', o', w') := b in
  String.eqb n n' || (o' + w' <=? o) || (o + w <=? o').
Definition sound_layout (l : list (string * Z * Z)) (size : Z) : bool :=
  forallb (fun a => forallb (apart a) l && (let '(_, o, w) := a in (0 <=? o) && (0 <? w) && (o + w <=? size))) l.
Lemma layouts_sound c : sound_layout (layout c) (8 * dpt_size c) = true.
Proof. destruct c; reflexivity. Qed.
Lemma find_field_In n l o w : find_field n l = Some (o, w) -> In (n, o, w) l.
Proof.
  induction l as [|[[n' o'] w'] l IH]; cbn; [discriminate|]. destruct (String.eqb_spec n' n) as [->|].
  - intros [= <- <-]. left. reflexivity.
  - intros H. right. auto.
Qed.
Lemma position_sound c n o w : position c n = Some (o, w) -> 0 <= o /\ 0 < w /\ o + w <= 8 * dpt_size c.
Proof.
  rewrite <- find_position. intros H. apply find_field_In in H. pose proof (layouts_sound c) as S. unfold sound_layout in S.
  rewrite forallb_forall in S. specialize (S _ H). cbn in S. lia.
Qed.
Lemma position_apart c n o w n' o' w' : position c n = Some (o, w) -> position c n' = Some (o', w') -> n <> n' ->
  o' + w' <= o \/ o + w <= o'.
Proof.
  rewrite <- !find_position. intros H H' N. apply find_field_In in H, H'. pose proof (layouts_sound c) as S. unfold sound_layout in S.
  rewrite forallb_forall in S. specialize (S _ H). apply andb_prop in S. destruct S as [S _]. rewrite forallb_forall in S.
  specialize (S _ H'). cbn in S. destruct (String.eqb_spec n n'); [contradiction|]. lia.
Qed.

Lemma bits_get_spec c v n : bits_get (mkdpt c v) n = match position c n with Some (o, w) => Ok (field v o w) | None => Err AttributeError end.
Proof.
  unfold bits_get. cbn [d_class d_value]. rewrite find_position. destruct (position c n) as [[o w]|] eqn:E; [|reflexivity].
  apply position_sound in E. rewrite field_get by lia. reflexivity.
Qed.
Lemma bits_set_spec c v n x : bits_set (mkdpt c v) n x = mkdpt c match position c n with Some (o, w) => with_field v o w x | None => v end.
Proof.
  unfold bits_set. cbn [d_class d_value]. rewrite find_position. destruct (position c n) as [[o w]|] eqn:E; [|reflexivity].
  apply position_sound in E. rewrite field_set by lia. reflexivity.
Qed.
Lemma field_with_same v o w x : 0 <= o -> 0 <= w -> field (with_field v o w x) o w = x mod 2 ^ w.
Proof. intros. rewrite <- field_get, <- field_set by assumption. apply get_set_same; assumption. Qed.
Lemma field_with_other v o w x o' w' : 0 <= o -> 0 <= w -> 0 <= o' -> 0 <= w' -> o' + w' <= o \/ o + w <= o' ->
  field (with_field v o w x) o' w' = field v o' w'.
Proof. intros. rewrite <- !field_get, <- field_set by assumption. apply get_set_other; assumption. Qed.
Lemma with_field_raw c v n o w x : position c n = Some (o, w) -> raw_value c v -> raw_value c (with_field v o w x).
Proof. intros P R. apply position_sound in P. rewrite <- field_set by lia. apply set_range; try lia. exact R. Qed.
Lemma bits_set_other c v n x n' : n' <> n -> bits_get (bits_set (mkdpt c v) n x) n' = bits_get (mkdpt c v) n'.
Proof.
  intros N. rewrite bits_set_spec, !bits_get_spec. destruct (position c n) as [[o w]|] eqn:P; [|reflexivity].
  destruct (position c n') as [[o' w']|] eqn:P'; [|reflexivity]. pose proof (position_apart _ _ _ _ _ _ _ P P').
  apply position_sound in P, P'. rewrite field_with_other; auto with zarith.
Qed.

(** ** Properties *)
Ltac props_tac :=
  repeat match goal with
  | H : (if String.eqb ?a ?b then _ else _) = _ |- _ => destruct (String.eqb_spec a b); [subst|]
  end.
Lemma property_kind c n a : sfind n (properties c) = Some a ->
  match a with
  | ATemp => c = InfoClimaReport /\ n = "temperatura"
  | AInt => In n (numbers c) /\ exists o w, position c n = Some (o, w)
  | AEnum e => names c n = Some e /\ exists o w, position c n = Some (o, w)
  end /\ n <> "temperatura_lsb" /\ n <> "temperatura_msb".
Proof.
  destruct c; cbn [properties sfind]; intros H; props_tac; try discriminate H; injection H as <-;
    (split; [|split; discriminate]); try (split; reflexivity); (split; [cbn; tauto || reflexivity|eexists; eexists; reflexivity]).
Qed.
Lemma numbers_property c n : In n (numbers c) -> sfind n (properties c) = Some AInt.
Proof. destruct c; cbn; intuition (subst; reflexivity). Qed.
Lemma names_property c n e : names c n = Some e -> sfind n (properties c) = Some (AEnum e).
Proof.
  destruct c; cbn [names]; intros H; props_tac; try discriminate H; injection H as <-; reflexivity.
Qed.
Lemma names_bits c n e : names c n = Some e -> exists o w, position c n = Some (o, w) /\ (forall s z, In (s, z) e -> 0 <= z < 2 ^ w).
Proof.
  destruct c; cbn [names]; intros H; props_tac; try discriminate H; injection H as <-;
    (eexists; eexists; split; [reflexivity|]); cbn [In]; intros s z I;
    repeat (destruct I as [I|I]; [injection I as <- <-; split; [discriminate|reflexivity]|]); contradiction.
Qed.

(** *** The clima temperature *)
Lemma temperatura_bits v : temperatura_get v = temperatura_get (field v 0 9).
Proof.
  unfold temperatura_get. f_equal. f_equal. rewrite !field_get by lia. unfold field. rewrite !Z.shiftl_mul_pow2 by lia.
  change (2 ^ 0) with 1. rewrite !Z.div_1_r.
  change (2 ^ 8) with 256. change (2 ^ 9) with 512. change (2 ^ 1) with 2. lia.
Qed.
Lemma temperatura_store_spec v t : temperatura_store v t = with_field v 0 9 t.
Proof.
  unfold temperatura_store. rewrite <- field_set by lia. apply Z.bits_inj'. intros i Hi. rewrite !testbit_set by lia.
  destruct ((0 <=? i) && (i <? 0 + 8)) eqn:E1, ((8 <=? i) && (i <? 8 + 1)) eqn:E2, ((0 <=? i) && (i <? 0 + 9)) eqn:E3; try lia; try reflexivity.
  rewrite Z.shiftr_spec by lia. f_equal. lia.
Qed.

(** *** A property leaves the others alone *)
Lemma prop_set_shape c v n x d' : prop_set (mkdpt c v) n x = Ok d' ->
  (c = InfoClimaReport /\ n = "temperatura" /\ exists t, d' = mkdpt c (with_field v 0 9 t)) \/
  exists o w z, position c n = Some (o, w) /\ n <> "temperatura_lsb" /\ n <> "temperatura_msb" /\
    sfind n (properties c) <> Some ATemp /\ d' = mkdpt c (with_field v o w z).
Proof.
  unfold prop_set. cbn [d_class d_value]. destruct (sfind n (properties c)) as [a|] eqn:E; [|discriminate].
  destruct (property_kind c n a E) as (K & N1 & N2). destruct a as [|e|].
  - destruct K as (_ & o & w & P). destruct x; try discriminate. rewrite bits_set_spec, P. intros [= <-].
    right. exists o, w, z. repeat split; auto. discriminate.
  - destruct K as (_ & o & w & P). destruct x; try discriminate. unfold rbind. destruct (enum_of_name e s); [|discriminate].
    rewrite bits_set_spec, P. intros [= <-]. right. exists o, w, a. repeat split; auto. discriminate.
  - destruct K as [-> ->]. intros H. left. split; [reflexivity|]. split; [reflexivity|].
    destruct x; [|destruct (int_of_text _); [|discriminate H]|unfold rbind in H; destruct (f_trunc _); [|discriminate H]];
      injection H as <-; eexists; rewrite temperatura_store_spec; reflexivity.
Qed.
Lemma temp_keeps v n t o w : position InfoClimaReport n = Some (o, w) -> n <> "temperatura_lsb" -> n <> "temperatura_msb" ->
  field (with_field v 0 9 t) o w = field v o w.
Proof.
  intros P N1 N2. assert (9 <= o /\ 0 <= w).
  { cbn [position] in P. props_tac; try congruence; injection P as <- <-; lia. }
  apply field_with_other; lia.
Qed.
Lemma keeps_temp v n o w x : position InfoClimaReport n = Some (o, w) -> n <> "temperatura_lsb" -> n <> "temperatura_msb" ->
  field (with_field v o w x) 0 9 = field v 0 9.
Proof.
  intros P N1 N2. assert (9 <= o /\ 0 <= w).
  { cbn [position] in P. props_tac; try congruence; injection P as <- <-; lia. }
  apply field_with_other; lia.
Qed.
Lemma prop_get_fields c v v' n : (forall o w, position c n = Some (o, w) -> field v' o w = field v o w) ->
  (c = InfoClimaReport -> n = "temperatura" -> field v' 0 9 = field v 0 9) ->
  prop_get (mkdpt c v') n = prop_get (mkdpt c v) n.
Proof.
  intros H1 H2. unfold prop_get. cbn [d_class d_value]. destruct (sfind n (properties c)) as [a|] eqn:E; [|reflexivity].
  assert (B : bits_get (mkdpt c v') n = bits_get (mkdpt c v) n).
  { rewrite !bits_get_spec. destruct (position c n) as [[o w]|]; [|reflexivity]. rewrite (H1 _ _ eq_refl). reflexivity. }
  destruct (property_kind c n a E) as (K & _). destruct a; rewrite ?B; try reflexivity.
  destruct K as [-> ->]. rewrite temperatura_bits, (temperatura_bits v), H2 by reflexivity. reflexivity.
Qed.
Lemma prop_set_other c v n x d' : raw_value c v -> prop_set (mkdpt c v) n x = Ok d' ->
  d_class d' = c /\ raw_value c (d_value d') /\ forall n', n' <> n -> prop_get d' n' = prop_get (mkdpt c v) n'.
Proof.
  intros R H. destruct (prop_set_shape c v n x d' H) as [(-> & -> & t & ->)|(o & w & z & P & N1 & N2 & NT & ->)]; cbn [d_class d_value].
  - split; [reflexivity|]. split; [rewrite <- field_set by lia; apply set_range; [lia|lia|discriminate|exact R]|].
    intros n' N. destruct (sfind n' (properties InfoClimaReport)) as [a|] eqn:E.
    + destruct (property_kind _ _ _ E) as (_ & M1 & M2). apply prop_get_fields; [|congruence].
      intros o w P. apply (temp_keeps v n' t o w P M1 M2).
    + unfold prop_get. cbn [d_class]. rewrite E. reflexivity.
  - split; [reflexivity|]. split; [apply (with_field_raw c v n); assumption|].
    intros n' N. apply prop_get_fields.
    + intros o' w' P'. pose proof (position_apart c n o w n' o' w' P P'). apply position_sound in P, P'. apply field_with_other; auto with zarith.
    + intros -> ->. apply (keeps_temp v n); assumption.
Qed.

(** ** Names *)
Lemma enum_of_code_In e z s : enum_of_code e z = Ok s -> In (s, z) e.
Proof.
  induction e as [|[n c] e IH]; cbn; [discriminate|]. destruct (c =? z) eqn:E; [|auto]. intros [= <-]. left. f_equal. lia.
Qed.
Lemma name_code c n e s z : names c n = Some e -> In (s, z) e -> enum_of_name e s = Ok z /\ enum_of_code e z = Ok (canonical s).
Proof.
  destruct c; cbn [names]; intros H; props_tac; try discriminate H; injection H as <-; cbn [In]; intros I;
    repeat (destruct I as [I|I]; [injection I as <- <-; split; reflexivity|]); contradiction.
Qed.
Lemma unknown_name e s : ~ In s (map fst e) -> enum_of_name e s = Err AttributeError.
Proof.
  unfold enum_of_name. induction e as [|[n c] e IH]; cbn [map fst In sfind]; [reflexivity|]. intros N.
  destruct (String.eqb_spec n s); [tauto|]. apply IH. tauto.
Qed.
Lemma code_name c n e o w v : names c n = Some e -> position c n = Some (o, w) ->
  match enum_of_code e (field v o w) with
  | Ok s => In (s, field v o w) e /\ canonical s = s
  | Err x => x = ValueError /\ (c = SetupClima \/ c = InfoClimaReport) /\ n = "funzionamento" /\
             ~ In (field v o w) [0; 1; 2; 3; 4; 5; 6; 7; 8; 14]
  end.
Proof.
  intros H P. assert (R : 0 <= field v o w < 2 ^ w).
  { pose proof (position_sound _ _ _ _ P). apply Z.mod_pos_bound. apply Z.pow_pos_nonneg; lia. }
  revert H P R. generalize (field v o w). intros z H P R.
  assert (G : (w = 1 \/ w = 2) /\ (z = 0 \/ z = 1 \/ z = 2 \/ z = 3) \/
    w = 4 /\ (z = 0 \/ z = 1 \/ z = 2 \/ z = 3 \/ z = 4 \/ z = 5 \/ z = 6 \/ z = 7 \/ z = 8 \/ z = 9 \/ z = 10 \/ z = 11 \/ z = 12 \/ z = 13 \/ z = 14 \/ z = 15)).
  { destruct c; cbn [names] in H; props_tac; try discriminate H; cbn in P; injection P as <- <-;
      repeat match type of R with context [2 ^ ?k] => let r := eval vm_compute in (2 ^ k) in change (2 ^ k) with r in R end; lia. }
  destruct c; cbn [names] in H; props_tac; try discriminate H; injection H as <-; cbn in P; injection P as <- <-;
    destruct G as [[_ G]|[E G]]; try discriminate E;
    repeat (destruct G as [->|G]; [vm_compute in R; try (exfalso; destruct R as [_ R]; discriminate R); cbn; intuition (try discriminate; try congruence)|]);
    try subst z; vm_compute in R; try (exfalso; destruct R as [_ R]; discriminate R); cbn; intuition (try discriminate; try congruence).
Qed.

(** ** The clima temperature *)
Lemma temperatura_all : all_bits 9 (fun t =>
  match f_trunc (fmul (fdiv (f_of_Z t) f_10) f_10) with Ok z => z =? t | Err _ => false end &&
  Qle_bool (Qabs (f_value (fdiv (f_of_Z t) f_10) - inject_Z t * (1 # 10))) (inject_Z t * (1 # 10) * (2 # 1) ^ (-53))) = true.
Proof. vm_compute. reflexivity. Qed.
Lemma temperatura_value v : temperatura_get v = fdiv (f_of_Z (field v 0 9)) f_10.
Proof.
  unfold temperatura_get. f_equal. f_equal. rewrite !field_get by lia. unfold field. rewrite !Z.shiftl_mul_pow2 by lia.
  change (2 ^ 0) with 1. rewrite !Z.div_1_r. change (2 ^ 8) with 256. change (2 ^ 9) with 512. change (2 ^ 1) with 2. lia.
Qed.
Lemma temperatura_range v : 0 <= field v 0 9 < 2 ^ Z.of_nat 9.
Proof. apply Z.mod_pos_bound. reflexivity. Qed.
Lemma temperatura_back v : f_trunc (fmul (temperatura_get v) f_10) = Ok (field v 0 9).
Proof.
  rewrite temperatura_value. pose proof (all_bits_spec _ _ temperatura_all _ (temperatura_range v)) as H. cbv beta in H.
  apply andb_prop in H. destruct H as [H _]. destruct (f_trunc _); [|discriminate H]. f_equal. lia.
Qed.

(** ** Descriptions *)
Definition place (c : dpt_class) (n : string) : Z * Z :=
  match position c n with Some p => p | None => (0, 9) end.
Definition inside (c : dpt_class) (i : Z) (n : string) : bool :=
  let '(o, w) := place c n in (o <=? i) && (i <? o + w).
Lemma place_sound c n a : sfind n (properties c) = Some a -> 0 <= fst (place c n) /\ 0 <= snd (place c n).
Proof.
  intros H. destruct (property_kind c n a H) as (K & _). unfold place. destruct (position c n) as [[o w]|] eqn:P.
  - apply position_sound in P. cbn [fst snd]. lia.
  - cbn [fst snd]. lia.
Qed.
Lemma property_not_value c n a : sfind n (properties c) = Some a -> String.eqb n "decoded_value" = false /\ String.eqb n "value" = false.
Proof.
  intros H. split; apply String.eqb_neq; intros ->; destruct c; discriminate H.
Qed.
Lemma field_mod v o w : 0 <= w -> field v o w mod 2 ^ w = field v o w.
Proof. intros. unfold field. apply Z.mod_mod. pose proof (Z.pow_pos_nonneg 2 w). lia. Qed.
Lemma factory_set_shown c u v n a x : sfind n (properties c) = Some a -> prop_get (mkdpt c v) n = Ok x ->
  factory_set (mkdpt c u) (n, x) = Ok (mkdpt c (set u (fst (place c n)) (snd (place c n)) (field v (fst (place c n)) (snd (place c n))))).
Proof.
  intros S G. unfold factory_set. destruct (property_not_value c n a S) as [-> ->]. cbn [d_class]. rewrite S.
  destruct (property_kind c n a S) as (K & N1 & N2). pose proof (place_sound c n a S) as [P1 P2]. rewrite field_set by assumption.
  unfold prop_get in G. unfold prop_set. cbn [d_class d_value] in *. rewrite S in G |- *. unfold place in *. destruct a as [|e|].
  - destruct K as (_ & o & w & P). rewrite bits_get_spec in G. rewrite P in G |- *. cbn [rbind fst snd] in *. injection G as <-. rewrite bits_set_spec, P. reflexivity.
  - destruct K as (Kn & o & w & P). rewrite bits_get_spec in G. rewrite P in G |- *. cbn [rbind fst snd] in *.
    pose proof (code_name c n e o w v Kn P) as C. destruct (enum_of_code e (field v o w)) as [s|] eqn:E; [|discriminate G]. injection G as <-.
    destruct C as [C _]. rewrite (proj1 (name_code c n e s _ Kn C)). cbn [rbind]. rewrite bits_set_spec, P. reflexivity.
  - destruct K as [-> ->]. cbn [position fst snd] in *. injection G as <-. rewrite temperatura_back. cbn [rbind]. rewrite temperatura_store_spec. reflexivity.
Qed.
Lemma factory_sets_shown c v l : forall u,
  Forall (fun kv => (exists a, sfind (fst kv) (properties c) = Some a) /\ prop_get (mkdpt c v) (fst kv) = Ok (snd kv)) l ->
  exists r, factory_sets (mkdpt c u) l = Ok (mkdpt c r) /\
    forall i, 0 <= i -> Z.testbit r i = if existsb (inside c i) (map fst l) then Z.testbit v i else Z.testbit u i.
Proof.
  induction l as [|[n x] l IH]; intros u F; cbn [factory_sets map existsb fst].
  - exists u. split; [reflexivity|]. intros i Hi. reflexivity.
  - inversion F as [|? ? [[a S] G] F']; subst. cbn [fst snd] in *. rewrite (factory_set_shown c u v n a x S G). cbn [rbind].
    destruct (place_sound c n a S) as [P1 P2].
    destruct (IH (set u (fst (place c n)) (snd (place c n)) (field v (fst (place c n)) (snd (place c n)))) F') as (r & E & B).
    exists r. split; [exact E|]. intros i Hi. rewrite B by exact Hi. destruct (existsb (inside c i) (map fst l)) eqn:X; [rewrite orb_true_r; reflexivity|].
    rewrite orb_false_r, testbit_set by lia. unfold inside. destruct (place c n) as [o w] eqn:Ep. cbn [fst snd] in *.
    destruct ((o <=? i) && (i <? o + w)) eqn:Y; [|reflexivity]. rewrite <- field_get, testbit_get by lia.
    assert (i - o <? w = true) as -> by lia. cbn [andb]. f_equal. lia.
Qed.
Lemma existsb_perm {A} (p : A -> bool) l l' : Permutation l l' -> existsb p l = existsb p l'.
Proof. induction 1; cbn; try congruence. - destruct (p x), (p y); reflexivity. Qed.
Lemma describe_props_shown d l fs : describe_props d l = Ok fs ->
  map fst fs = map fst l /\ Forall (fun kv => In (fst kv) (map fst l) /\ prop_get d (fst kv) = Ok (snd kv)) fs.
Proof.
  revert fs. induction l as [|[n a] l IH]; intros fs H; cbn [describe_props] in H; [injection H as <-; split; [reflexivity|constructor]|].
  unfold rbind in H. destruct (prop_get d n) as [x|] eqn:E; [|discriminate H]. destruct (describe_props d l) as [vs|] eqn:D; [|discriminate H].
  injection H as <-. destruct (IH vs eq_refl) as [M F]. cbn [map fst]. split; [f_equal; exact M|]. constructor; [split; [left; reflexivity|exact E]|].
  apply (Forall_impl _ (fun kv H => conj (or_intror (proj1 H)) (proj2 H)) F).
Qed.
Lemma describe_props_agree d d' l : (forall n, In n (map fst l) -> prop_get d n = prop_get d' n) -> describe_props d l = describe_props d' l.
Proof.
  induction l as [|[n a] l IH]; intros H; cbn [describe_props]; [reflexivity|]. rewrite H by (left; reflexivity). rewrite IH; [reflexivity|].
  intros m I. apply H. right. exact I.
Qed.
Lemma property_found c n : In n (map fst (properties c)) -> exists a, sfind n (properties c) = Some a.
Proof. destruct c; cbn [properties map fst In sfind]; intuition (subst; eexists; reflexivity). Qed.
Lemma find_class_name c : find_class (class_name c) all_classes = Some c.
Proof. destruct c; reflexivity. Qed.
Definition is_float (c : dpt_class) : bool := is_f16 c || is_f32 c.
Lemma testbit_field v o w i : 0 <= o -> 0 <= w -> 0 <= i -> Z.testbit (field v o w) i = (i <? w) && Z.testbit v (i + o).
Proof. intros. rewrite <- field_get by assumption. apply testbit_get; assumption. Qed.

Lemma high_bits c v i : raw_value c v -> 8 * dpt_size c <= i -> Z.testbit v i = false.
Proof.
  intros R Hi. unfold raw_value in R. rewrite <- (Z.mod_small v (2 ^ (8 * dpt_size c))) by exact R. apply Z.mod_pow2_bits_high. destruct c; cbn in *; lia.
Qed.
Lemma testbit_join a b k i : 0 <= a < 2 ^ k -> 0 <= b -> 0 <= k -> 0 <= i ->
  Z.testbit (a + 2 ^ k * b) i = if i <? k then Z.testbit a i else Z.testbit b (i - k).
Proof.
  intros Ha Hb Hk Hi. rewrite nocarry_lor.
  - rewrite Z.lor_spec, Z.mul_comm, <- Z.shiftl_mul_pow2, Z.shiftl_spec by lia. destruct (i <? k) eqn:E.
    + rewrite (Z.testbit_neg_r b) by lia. apply orb_false_r.
    + replace (Z.testbit a i) with false; [reflexivity|]. symmetry. rewrite <- (Z.mod_small a (2 ^ k)) by exact Ha. apply Z.mod_pow2_bits_high. lia.
  - apply Z.bits_inj'. intros j Hj. rewrite Z.land_spec, Z.bits_0, Z.mul_comm, <- Z.shiftl_mul_pow2, Z.shiftl_spec by lia.
    destruct (j <? k) eqn:E.
    + rewrite (Z.testbit_neg_r b) by lia. apply andb_false_r.
    + replace (Z.testbit a j) with false; [reflexivity|]. symmetry. rewrite <- (Z.mod_small a (2 ^ k)) by exact Ha. apply Z.mod_pow2_bits_high. lia.
Qed.
Lemma field_range v o w : 0 <= w -> 0 <= field v o w < 2 ^ w.
Proof. intros. apply Z.mod_pos_bound. apply Z.pow_pos_nonneg; lia. Qed.
Lemma described_bits c v i : raw_value c v -> is_float c = false -> c <> Brightness -> 0 <= i ->
  Z.testbit (described_part c v) i = if existsb (inside c i) (map fst (properties c)) then Z.testbit v i else Z.testbit 0 i.
Proof.
  intros R Nf Nb Hi. rewrite Z.bits_0. pose proof (high_bits c v i R) as Hh.
  assert (L : forall w, 0 <= w -> field v 0 w < 2 ^ w /\ 0 <= field v 0 w) by (intros w Hw; pose proof (field_range v 0 w Hw); lia).
  destruct c; try discriminate Nf; try (contradiction Nb; reflexivity); cbn [described_part properties map fst existsb inside place position dpt_size] in *;
    cbn [String.eqb Ascii.eqb Bool.eqb] in *;
    try (rewrite testbit_field by lia; rewrite Z.add_0_r);
    repeat match goal with |- context [inside ?c i ?n] => unfold inside; cbn [place position String.eqb Ascii.eqb Bool.eqb] end;
    try match goal with |- _ && Z.testbit v i = _ => match goal with |- context [if ?b then _ else false] => destruct b eqn:E end; destruct (Z.testbit v i); lia end.
  - (* VimarScene *) match goal with |- context [if ?b then _ else false] => destruct b eqn:E end; [reflexivity|]. apply Hh. cbn in E. lia.
  - (* SceneControl *)
    pose proof (field_range v 0 6). pose proof (field_range v 7 1). assert (2 ^ 6 < 2 ^ 7) by reflexivity.
    rewrite testbit_join by lia.
    destruct (i <? 7) eqn:E2; rewrite testbit_field by lia.
    + rewrite Z.add_0_r. match goal with |- context [if ?b then Z.testbit v i else false] => destruct b eqn:E end; cbn in E; destruct (Z.testbit v i); lia.
    + replace (i - 7 + 7) with i by lia. match goal with |- context [if ?b then Z.testbit v i else false] => destruct b eqn:E end; cbn in E; destruct (Z.testbit v i); lia.
  - (* InfoClimaReport *)
    rewrite <- Z.add_assoc. replace (2 ^ 16 * field v 16 12 + 2 ^ 29 * field v 29 1) with (2 ^ 16 * (field v 16 12 + 2 ^ 13 * field v 29 1)) by (change (2 ^ 29) with (2 ^ 16 * 2 ^ 13); ring).
    pose proof (field_range v 16 12). pose proof (field_range v 29 1).
    assert (2 ^ 9 < 2 ^ 16 /\ 2 ^ 12 < 2 ^ 13) as [? ?] by (split; reflexivity). pose proof (field_range v 0 9).
    rewrite testbit_join by lia. destruct (i <? 16) eqn:E2.
    + rewrite testbit_field by lia. rewrite Z.add_0_r. match goal with |- context [if ?b then Z.testbit v i else false] => destruct b eqn:E end; cbn in E; destruct (Z.testbit v i); lia.
    + rewrite testbit_join by lia. destruct (i - 16 <? 13) eqn:E3; rewrite testbit_field by lia.
      * replace (i - 16 + 16) with i by lia. match goal with |- context [if ?b then Z.testbit v i else false] => destruct b eqn:E end; cbn in E; destruct (Z.testbit v i); lia.
      * replace (i - 16 - 13 + 29) with i by lia. match goal with |- context [if ?b then Z.testbit v i else false] => destruct b eqn:E end; cbn in E; destruct (Z.testbit v i); lia.
Qed.
Lemma describe_nonfloat c v : is_float c = false -> c <> Brightness ->
  describe (mkdpt c v) = do fs <- describe_props (mkdpt c v) (properties c); Ok (class_name c, fs).
Proof.
  intros Nf Nb. unfold describe. cbn [d_class]. fold (is_float c). rewrite Nf. destruct (describe_props _ _); cbn [rbind]; [|reflexivity].
  destruct c; try discriminate Nf; try reflexivity. contradiction Nb. reflexivity.
Qed.
Lemma described_fields c v n a : raw_value c v -> is_float c = false -> c <> Brightness -> sfind n (properties c) = Some a ->
  field (described_part c v) (fst (place c n)) (snd (place c n)) = field v (fst (place c n)) (snd (place c n)).
Proof.
  intros R Nf Nb S. destruct (place_sound c n a S) as [P1 P2]. apply Z.bits_inj'. intros i Hi. rewrite !testbit_field by lia.
  destruct (i <? snd (place c n)) eqn:E; [|reflexivity]. cbn [andb]. rewrite described_bits by (assumption || lia).
  replace (existsb (inside c (i + fst (place c n))) (map fst (properties c))) with true; [reflexivity|]. symmetry. apply existsb_exists.
  exists n. split.
  - clear - S. induction (properties c) as [|[m b] l IH]; [discriminate S|]. cbn [sfind] in S. cbn [map fst In].
    destruct (String.eqb_spec m n); [left; assumption|right; apply IH; exact S].
  - unfold inside. destruct (place c n) as [o w]. cbn [fst snd] in *. lia.
Qed.
Lemma rebuild c v name fs fs' : raw_value c v -> is_float c = false -> describe (mkdpt c v) = Ok (name, fs) -> Permutation fs fs' ->
  factory_make name fs' = Ok (mkdpt c (described_part c v)) /\ describe (mkdpt c (described_part c v)) = Ok (name, fs).
Proof.
  intros R Nf D P. assert (c = Brightness \/ c <> Brightness) as [->|Nb] by (destruct c; auto; right; discriminate).
  - cbn in D. injection D as <- <-. apply Permutation_length_1_inv in P. subst fs'. split; [|reflexivity].
    change (Ok (dpt_set_value (dpt_new Brightness) v) = Ok (mkdpt Brightness v)). unfold dpt_set_value, cuint. cbn [d_class dpt_new]. rewrite Z.mod_small by exact R. reflexivity.
  - rewrite describe_nonfloat in D |- * by assumption. unfold rbind in D |- *. destruct (describe_props (mkdpt c v) (properties c)) as [l|] eqn:E; [|discriminate D].
    injection D as <- <-. destruct (describe_props_shown _ _ _ E) as [M F].
    assert (X : describe_props (mkdpt c (described_part c v)) (properties c) = Ok l).
    { rewrite <- E. apply describe_props_agree. intros n I. destruct (property_found c n I) as [a S].
      pose proof (described_fields c v n a R Nf Nb S) as Hf. unfold place in Hf. apply prop_get_fields.
      - intros o w Po. rewrite Po in Hf. exact Hf.
      - intros -> ->. exact Hf. }
    rewrite X. split; [|reflexivity]. unfold factory_make. rewrite find_class_name. unfold dpt_new.
    destruct (factory_sets_shown c v fs' 0) as (r & Er & B).
    { eapply Permutation_Forall; [exact P|]. eapply Forall_impl; [|exact F]. intros [n x] [I G]. split; [apply property_found; exact I|exact G]. }
    rewrite Er. f_equal. f_equal. apply Z.bits_inj'. intros i Hi. rewrite B by exact Hi. rewrite (described_bits c v i) by assumption.
    rewrite <- M. rewrite (existsb_perm (inside c i) (map fst fs') (map fst l)); [reflexivity|]. apply Permutation_map. symmetry. exact P.
Qed.
(** When there is no description. *)
Lemma describe_fails c v : is_float c = false -> raw_value c v ->
  match describe (mkdpt c v) with Ok _ => undisplayable c v = false | Err e => e = ValueError /\ undisplayable c v = true end.
Proof.
  intros Nf R. assert (c = Brightness \/ c <> Brightness) as [->|Nb] by (destruct c; auto; right; discriminate); [reflexivity|].
  rewrite describe_nonfloat by assumption. unfold rbind.
  assert (G : forall l, (forall n, In n (map fst l) -> exists a, sfind n (properties c) = Some a) ->
    match describe_props (mkdpt c v) l with
    | Ok _ => In "funzionamento" (map fst l) -> undisplayable c v = false
    | Err e => e = ValueError /\ undisplayable c v = true
    end).
  { induction l as [|[n b] l IH]; intros H; cbn [describe_props map fst In]; [contradiction|].
    destruct (H n) as [a S]; [left; reflexivity|]. specialize (IH (fun m I => H m (or_intror I))).
    destruct (property_kind c n a S) as (K & _). unfold rbind. unfold prop_get. cbn [d_class]. rewrite S. destruct a as [|e|].
    - destruct K as (In1 & o & w & Po). rewrite bits_get_spec, Po. cbn [rbind].
      destruct (describe_props (mkdpt c v) l); [|exact IH]. intros [->|I]; [|auto]. destruct c; cbn in In1; intuition discriminate.
    - destruct K as (Kn & o & w & Po). rewrite bits_get_spec, Po. cbn [rbind]. pose proof (code_name c n e o w v Kn Po) as C.
      destruct (enum_of_code e (field v o w)) as [s|x] eqn:Ec.
      + cbn [rbind]. destruct (describe_props (mkdpt c v) l); [|exact IH]. intros [->|I]; [|auto].
        destruct C as [C _]. destruct c; try discriminate Kn; cbn in Kn, Po; injection Kn as <-; injection Po as <- <-; cbn [undisplayable];
          change (v / 16777216 mod 16) with (field v 24 4); cbn [In] in C;
          repeat (destruct C as [C|C]; [injection C as _ C; rewrite <- C; reflexivity|]); contradiction.
      + cbn [rbind]. destruct C as (-> & Cc & -> & N). split; [reflexivity|].
        pose proof (field_range v 24 4) as R4. change (2 ^ 4) with 16 in R4. cbn [In] in N.
        destruct Cc as [-> | ->]; cbn in Po; injection Po as <- <-; cbn [undisplayable]; change (v / 16777216 mod 16) with (field v 24 4); lia.
    - cbn [rbind]. destruct (describe_props (mkdpt c v) l); [|exact IH]. intros [->|I]; [|auto]. destruct K as [_ K]. discriminate K. }
  specialize (G (properties c) (property_found c)). destruct (describe_props _ _); [|exact G].
  destruct c; try reflexivity; apply G; cbn; tauto.
Qed.
