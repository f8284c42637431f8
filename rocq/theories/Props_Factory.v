(** C107: what DPT_Factory.make builds from any dictionary. *)
From Coq Require Import String ZArith List Bool Lia Permutation SpecFloat.
From Verif Require Import Py Base Float Dpt SpecDpt SpecFactory DptProofs FactoryProofs Props_Dpt.
Import ListNotations.
Open Scope string_scope.
Open Scope list_scope.
Open Scope Z_scope.

(** The value, for every class and every sequence of entries: each entry writes the
    field the specification names into a value of zeros. *)
Theorem C107_value : forall c fs,
  factory_make (class_name c) fs = match built_from c 0 fs with Ok r => Ok (mkdpt c r) | Err e => Err e end.
Proof. exact make_built. Qed.
Print Assumptions C107_value.

(** It fails exactly when an entry by itself fails, with the exception of the first
    such entry; otherwise the value has the size of its class. *)
Theorem C107_fails : forall c fs,
  match first_failure c fs with
  | Some e => factory_make (class_name c) fs = Err e
  | None => exists r, factory_make (class_name c) fs = Ok (mkdpt c r) /\ raw_value c r
  end.
Proof.
  intros c fs. pose proof (built_fails c fs 0) as F. rewrite make_built. destruct (first_failure c fs) as [e|]; [rewrite F; reflexivity|].
  destruct F as [r F]. rewrite F. exists r. split; [reflexivity|]. apply (built_raw c fs 0); [|exact F]. unfold raw_value. destruct c; cbn; lia.
Qed.
Print Assumptions C107_fails.

(** A number given for a numeric field reads back reduced to the width of the field,
    a name as the name of its code, if no later entry has the same key or writes
    the whole value. *)
Theorem C107_reads : forall c before k x after d, factory_make (class_name c) (before ++ (k, x) :: after) = Ok d ->
  Forall (fun e => whole_key (fst e) = false /\ fst e <> k) after ->
  (In k (numbers c) -> exists z o w, x = VInt z /\ position c k = Some (o, w) /\ prop_get d k = Ok (VInt (z mod 2 ^ w))) /\
  (forall e, names c k = Some e -> exists s z, x = VName s /\ In (s, z) e /\ prop_get d k = Ok (VName (canonical s))).
Proof.
  intros c before k x after d H F. rewrite make_built, built_app in H.
  destruct (built_from c 0 before) as [u|] eqn:B; [|discriminate H]. cbn [built_from] in H.
  assert (R0 : raw_value c 0) by (unfold raw_value; destruct c; cbn; lia). pose proof (built_raw c before 0 u R0 B) as Ru.
  destruct (entry_effect c k x) as [e|er] eqn:E; [|discriminate H].
  destruct (built_from c (write u e) after) as [r|er] eqn:A; [|discriminate H]. injection H as <-.
  rewrite (built_keeps c k after (write u e) r (write_raw c u k x e Ru E) A F). clear A F B r.
  pose proof (set_effect c u k x Ru) as G. rewrite E in G. unfold factory_set in G. split.
  - intros I. pose proof (numbers_property c k I) as P. destruct (property_not_value c k _ P) as [W1 W2]. rewrite W1, W2 in G. cbn [d_class] in G. rewrite P in G.
    destruct x as [z|s|f]; [|unfold prop_set in G; cbn [d_class] in G; rewrite P in G; discriminate G|unfold prop_set in G; cbn [d_class] in G; rewrite P in G; discriminate G].
    destruct (C43_numbers c u k z Ru I) as (o & w & d & Po & S & _ & _ & Gt & _). rewrite S in G. injection G as ->.
    exists z, o, w. auto.
  - intros l N. pose proof (names_property c k l N) as P. destruct (property_not_value c k _ P) as [W1 W2]. rewrite W1, W2 in G. cbn [d_class] in G. rewrite P in G.
    destruct x as [z|s|f]; [unfold prop_set in G; cbn [d_class] in G; rewrite P in G; discriminate G| |unfold prop_set in G; cbn [d_class] in G; rewrite P in G; discriminate G].
    assert (Q : exists z, In (s, z) l).
    { unfold prop_set in G. cbn [d_class] in G. rewrite P in G. unfold enum_of_name in G. rewrite sfind_find in G.
      destruct (find (fun p => (fst p =? s)%string) l) as [[s' z]|] eqn:Fd; [|discriminate G]. apply find_some in Fd. destruct Fd as [Fi Fe].
      apply String.eqb_eq in Fe. cbn [fst] in Fe. subst. eauto. }
    destruct Q as [z Q]. destruct (C44_names c u k l s z Ru N Q) as (d & S & _ & Gt & _). rewrite S in G. injection G as ->.
    exists s, z. auto.
Qed.
Print Assumptions C107_reads.

(** Properties that no entry mentions read as in a new object. *)
Theorem C107_others : forall c fs n d, factory_make (class_name c) fs = Ok d ->
  Forall (fun e => whole_key (fst e) = false /\ fst e <> n) fs -> prop_get d n = prop_get (dpt_new c) n.
Proof.
  intros c fs n d H F. rewrite make_built in H. destruct (built_from c 0 fs) as [r|] eqn:B; [|discriminate H]. injection H as <-.
  apply (built_keeps c n fs 0 r); [unfold raw_value; destruct c; cbn; lia|exact B|exact F].
Qed.
Print Assumptions C107_others.

(** With different keys, none for the whole value, the order of the entries does not
    matter: the same value, or an exception in every order. *)
Theorem C107_order : forall c fs fs', Permutation fs fs' -> NoDup (map fst fs) -> Forall (fun e => whole_key (fst e) = false) fs ->
  forall d, factory_make (class_name c) fs = Ok d <-> factory_make (class_name c) fs' = Ok d.
Proof.
  intros c fs fs' P N F d. pose proof (built_perm c fs fs' P N F 0) as S. rewrite !make_built. unfold same_end in S.
  destruct (built_from c 0 fs), (built_from c 0 fs'); try contradiction; [subst; tauto|]. split; discriminate.
Qed.
Print Assumptions C107_order.
(** With the whole value among the keys the order of the dictionary does matter. *)
Theorem C107_order_refuted : exists c fs fs' d d', Permutation fs fs' /\ NoDup (map fst fs) /\
  factory_make (class_name c) fs = Ok d /\ factory_make (class_name c) fs' = Ok d' /\ d <> d'.
Proof.
  exists Control_Dimming, [("value", VInt 3); ("direction", VName "up")], [("direction", VName "up"); ("value", VInt 3)],
    (mkdpt Control_Dimming 11), (mkdpt Control_Dimming 3).
  split; [apply perm_swap|]. split; [|split; [reflexivity|split; [reflexivity|discriminate]]].
  constructor; [cbn; intuition discriminate|]. constructor; [cbn; tauto|constructor].
Qed.
Print Assumptions C107_order_refuted.

Example C107_example :
  factory_make "DPTSetupClima" [("setpoint", VInt 456); ("colour", VInt 5); ("funzionamento", VName "automatico_invio_temperatura_abilitato"); ("terziario", VInt 3)]
    = Ok (mkdpt SetupClima (0x48 * 256 ^ 3 + 200 * 256)) /\
  entry_effect SetupClima "setpoint" (VInt 456) = Ok (Some (8, 8, 456)) /\
  prop_get (mkdpt SetupClima (0x48 * 256 ^ 3 + 200 * 256)) "setpoint" = Ok (VInt 200) /\
  first_failure SetupClima [("setpoint", VInt 1); ("stagione", VName "spring"); ("setpoint", VName "x")] = Some AttributeError /\
  factory_make "DPTSetupClima" [("setpoint", VInt 1); ("stagione", VName "spring"); ("setpoint", VName "x")] = Err AttributeError.
Proof. vm_compute. auto. Qed.
Example C107_example_floats :
  factory_make "DPT_Value_Temp" [("decoded_value", VInt 19); ("value", VInt 70000)] = Ok (mkdpt Value_Temp 4464) /\
  factory_make "DPT_Value_Temp" [("decoded_value", VInt 19)] = Ok (mkdpt Value_Temp 1900) /\
  factory_make "DPT_Value_Power" [("decoded_value", VInt (2 ^ 1024))] = Err OverflowError /\
  factory_make "DPT_Value_Power" [("decoded_value", VInt (2 ^ 128))] = Ok (mkdpt Value_Power 0x7F800000) /\
  factory_make "DPT_Switch" [("decoded_value", VInt 1)] = Err AttributeError.
Proof. vm_compute. auto. Qed.
