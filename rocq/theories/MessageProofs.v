(** Proofs about the texts of messages (C82). *)
From Coq Require Import String Ascii ZArith List Bool NArith Lia Permutation.
From Verif Require Import Py Base Msg Address Float Dpt LData Tables Inet State Decode Text MessageText.
From Verif Require Import SpecMsg SpecInet SpecText SpecMessage MsgProofs InetProofs TextProofs DptProofs DecodeProofs.
Import ListNotations.
Open Scope Z_scope.
Local Open Scope string_scope.

Lemma sep_s (c : ascii) (x y u w : string) : ~ In c (L x) -> ~ In c (L y) -> x ++ String c u = y ++ String c w -> x = y /\ u = w.
Proof.
  intros Hx Hy E. apply (f_equal L) in E. rewrite !L_app in E. cbn [list_ascii_of_string] in E. apply first_sep in E; [|exact Hx|exact Hy].
  split; apply L_inj; tauto.
Qed.
Lemma app_suffix (x y p : string) : x ++ p = y ++ p -> x = y.
Proof. intros E. apply (f_equal L) in E. rewrite !L_app in E. apply app_inv_tail in E. exact (L_inj _ _ E). Qed.
(** Two words of other characters, each followed by one of them. *)
Lemma word_inj (p : ascii -> bool) : forall x y u w,
  forallb p (L x) = true -> forallb p (L y) = true ->
  match u with String c _ => p c = false | _ => True end -> match w with String c _ => p c = false | _ => True end ->
  x ++ u = y ++ w -> x = y /\ u = w.
Proof.
  induction x as [|a x IH]; intros [|b y] u w Hx Hy Hu Hw E; cbn in *.
  - auto.
  - subst u. apply andb_prop in Hy. rewrite (proj1 Hy) in Hu. discriminate.
  - subst w. apply andb_prop in Hx. rewrite (proj1 Hx) in Hw. discriminate.
  - injection E as -> E. apply andb_prop in Hx, Hy. destruct (IH y u w (proj2 Hx) (proj2 Hy) Hu Hw E) as [-> ->]. auto.
Qed.

(** ** Dictionaries *)
Definition clean_value (ft : float -> string) (v : pyval) : Prop :=
  match v with VName s => Forall (fun c => ~ In c (L "',}")) (L s) | _ => True end.
Definition clean_entry ft (e : string * pyval) : Prop := Forall (fun c => ~ In c (L "',}")) (L (fst e)) /\ clean_value ft (snd e).
Definition same_entry (ft : float -> string) (e f : string * pyval) : Prop :=
  fst e = fst f /\ looks ft (Ok (snd e)) (Ok (snd f)).
Lemma not_in_sub (c : ascii) (t : list ascii) (l : list ascii) : Forall (fun x => In x l) t -> ~ In c l -> ~ In c t.
Proof. intros F N I. rewrite Forall_forall in F. exact (N (F c I)). Qed.
Lemma not_in_excl (c : ascii) (t l : list ascii) : Forall (fun x => ~ In x l) t -> In c l -> ~ In c t.
Proof. intros F N I. rewrite Forall_forall in F. exact (F c I N). Qed.
Ltac notin := vm_compute; intuition discriminate.
Lemma float_not ft x c : float_texts ft -> ~ In c (L "0123456789.+-einfa") -> ~ In c (L (ft x)).
Proof. intros F N. exact (not_in_sub _ _ _ (proj1 (F x)) N). Qed.
Lemma value_not ft v c : float_texts ft -> clean_value ft v -> In c (L ",}") -> ~ In c (L (value_text ft v)).
Proof.
  intros F C I. assert (c = ","%char \/ c = "}"%char) as Ec by (cbn in I; intuition).
  destruct v as [z|s|x]; cbn [value_text].
  - apply dec_not. destruct Ec as [->| ->]; notin.
  - rewrite !L_app. cbn [list_ascii_of_string app]. intros [E|J]; [destruct Ec; subst; discriminate|]. apply in_app_or in J. destruct J as [J|[E|[]]]; [|destruct Ec; subst; discriminate].
    revert J. apply (not_in_excl c _ _ C). destruct Ec as [->| ->]; vm_compute; tauto.
  - apply float_not; [exact F|]. destruct Ec as [->| ->]; notin.
Qed.
Lemma value_inj ft v w : float_texts ft -> value_text ft v = value_text ft w -> looks ft (Ok v) (Ok w).
Proof.
  intros F E. assert (D : forall z, Forall (fun c => In c (L "-0123456789")) (L (dec z))) by exact dec_chars_ok.
  assert (Q : forall s, ~ Forall (fun c => In c (L "-0123456789")) (L ("'" ++ s))) by (intros s H; inversion H as [|? ? H1]; revert H1; notin).
  assert (Q' : forall s, ~ Forall (fun c => In c (L "0123456789.+-einfa")) (L ("'" ++ s))) by (intros s H; inversion H as [|? ? H1]; revert H1; notin).
  destruct v as [z|s|x], w as [z'|s'|x']; cbn [value_text] in E; cbn [looks].
  - rewrite (dec_inj _ _ E). reflexivity.
  - elim (Q (s' ++ "'")). rewrite <- E. apply D.
  - elim (proj2 (F x')). rewrite <- E. apply D.
  - elim (Q (s ++ "'")). rewrite E. apply D.
  - apply app_prefix, app_suffix in E. congruence.
  - elim (Q' (s ++ "'")). rewrite E. apply (proj1 (F x')).
  - elim (proj2 (F x)). rewrite E. apply D.
  - elim (Q' (s' ++ "'")). rewrite <- E. apply (proj1 (F x)).
  - exact E.
Qed.
Lemma entry_not ft e c : float_texts ft -> clean_entry ft e -> In c (L ",}") -> ~ In c (L (entry_text ft e)).
Proof.
  intros F [Ck Cv] I. assert (c = ","%char \/ c = "}"%char) as Ec by (cbn in I; intuition).
  unfold entry_text. rewrite !L_app. intros J. apply in_app_or in J. destruct J as [J|J]; [revert J; destruct Ec as [->| ->]; notin|].
  apply in_app_or in J. destruct J as [J|J].
  - revert J. apply (not_in_excl c _ _ Ck). destruct Ec as [->| ->]; vm_compute; tauto.
  - apply in_app_or in J. destruct J as [J|J]; [revert J; destruct Ec as [->| ->]; notin|]. exact (value_not ft (snd e) c F Cv I J).
Qed.
Lemma entry_inj ft e f : float_texts ft -> clean_entry ft e -> clean_entry ft f -> entry_text ft e = entry_text ft f -> same_entry ft e f.
Proof.
  intros F [Ce _] [Cf _] E. unfold entry_text in E. apply app_prefix in E.
  apply (sep_s "'") in E; [|apply (not_in_excl _ _ _ Ce); vm_compute; tauto|apply (not_in_excl _ _ _ Cf); vm_compute; tauto].
  destruct E as [Ek E]. split; [exact Ek|]. apply (app_prefix ": ") in E. exact (value_inj ft _ _ F E).
Qed.
Lemma entry_nonempty ft e : entry_text ft e <> "".
Proof. discriminate. Qed.
Lemma entries_cons ft e r : entries_text ft (e :: r) = entry_text ft e ++ match r with [] => "" | _ => String "," (" " ++ entries_text ft r) end.
Proof. destruct r; cbn [entries_text]; [|reflexivity]. induction (entry_text ft e) as [|c s IH]; cbn; congruence. Qed.
Lemma entries_not ft l : float_texts ft -> Forall (clean_entry ft) l -> ~ In "}"%char (L (entries_text ft l)).
Proof.
  intros F. induction l as [|e r IH]; intros C; [intros []|]. inversion_clear C as [|? ? Ce Cr]. rewrite entries_cons, L_app. intros J. apply in_app_or in J.
  destruct J as [J|J]; [exact (entry_not ft e "}" F Ce ltac:(vm_compute; tauto) J)|]. destruct r as [|f r']; [exact J|].
  cbn in J. destruct J as [J|[J|J]]; [discriminate|discriminate|]. exact (IH Cr J).
Qed.
Lemma entries_inj ft : float_texts ft -> forall l m, Forall (clean_entry ft) l -> Forall (clean_entry ft) m ->
  entries_text ft l = entries_text ft m -> Forall2 (same_entry ft) l m.
Proof.
  intros F. induction l as [|e l IH]; intros [|f m] Cl Cm E.
  - constructor.
  - rewrite entries_cons in E. cbn [entries_text] in E. apply (f_equal L) in E. rewrite L_app in E. symmetry in E. apply app_eq_nil in E. destruct E as [E _]. apply (L_inj _ "") in E. destruct (entry_nonempty _ _ E).
  - rewrite entries_cons in E. cbn [entries_text] in E. apply (f_equal L) in E. rewrite L_app in E. apply app_eq_nil in E. destruct E as [E _]. apply (L_inj _ "") in E. destruct (entry_nonempty _ _ E).
  - inversion_clear Cl as [|? ? Ce Cl']. inversion_clear Cm as [|? ? Cf Cm']. rewrite !entries_cons in E.
    apply (word_inj (fun c => negb (Ascii.eqb c ","))) in E.
    + destruct E as [E1 E2]. constructor; [exact (entry_inj ft e f F Ce Cf E1)|].
      destruct l as [|e' l'], m as [|f' m']; try discriminate; [constructor|]. injection E2 as E2. apply IH; [exact Cl'|exact Cm'|exact E2].
    + apply forallb_forall. intros c I. destruct (Ascii.eqb_spec c ","); [|reflexivity]. subst. destruct (entry_not ft e "," F Ce ltac:(vm_compute; tauto) I).
    + apply forallb_forall. intros c I. destruct (Ascii.eqb_spec c ","); [|reflexivity]. subst. destruct (entry_not ft f "," F Cf ltac:(vm_compute; tauto) I).
    + destruct l; [exact I|reflexivity].
    + destruct m; [exact I|reflexivity].
Qed.

(** ** Datapoints *)
Definition names_clean (s : string) : bool := forallb (fun c => negb (existsb (Ascii.eqb c) (L "',}"))) (L s).
Lemma names_clean_ok s : names_clean s = true -> Forall (fun c => ~ In c (L "',}")) (L s).
Proof.
  intros H. apply Forall_forall. intros c I J. unfold names_clean in H. rewrite forallb_forall in H. specialize (H c I). apply negb_true_iff in H.
  rewrite <- not_true_iff_false in H. apply H. apply existsb_exists. exists c. split; [exact J|apply Ascii.eqb_refl].
Qed.
Lemma enum_in e : forall z s, enum_of_code e z = Ok s -> In s (map fst e).
Proof.
  induction e as [|[n c] r IH]; intros z s H; cbn [enum_of_code] in H; [discriminate|]. destruct (c =? z)%Z; [injection H as <-; left; reflexivity|]. right. exact (IH z s H).
Qed.
Definition accessor_clean (a : accessor) : bool := match a with AEnum e => forallb names_clean (map fst e) | _ => true end.
Lemma properties_clean c : forallb (fun p => names_clean (fst p) && accessor_clean (snd p)) (properties c) = true.
Proof. destruct c; vm_compute; reflexivity. Qed.
Lemma sfind_in {A} n (l : list (string * A)) a : sfind n l = Some a -> In (n, a) l.
Proof.
  induction l as [|[k b] r IH]; cbn [sfind]; [discriminate|]. destruct (String.eqb_spec k n); [intros E; injection E as <-; subst; left; reflexivity|]. intros E. right. exact (IH E).
Qed.
Lemma prop_clean ft d n v : prop_get d n = Ok v -> clean_entry ft (n, v).
Proof.
  unfold prop_get. destruct (sfind n (properties (d_class d))) as [a|] eqn:E; [|discriminate]. apply sfind_in in E.
  pose proof (properties_clean (d_class d)) as P. rewrite forallb_forall in P. apply P in E. cbn [fst snd] in E. apply andb_prop in E. destruct E as [En Ea].
  intros H. split; [exact (names_clean_ok _ En)|]. cbn [snd]. destruct a as [|e|]; unfold rbind in H.
  - destruct (bits_get d n); [injection H as <-|discriminate]; exact I.
  - destruct (bits_get d n) as [z|]; [|discriminate]. destruct (enum_of_code e z) as [s|] eqn:Es; [injection H as <-|discriminate].
    apply enum_in in Es. cbn [accessor_clean] in Ea. rewrite forallb_forall in Ea. exact (names_clean_ok _ (Ea s Es)).
  - injection H as <-. exact I.
Qed.
(** What stands in the dictionary of a datapoint. *)
Definition entry_of (d : dpt) (n : string) (v : pyval) : Prop :=
  prop_get d n = Ok v \/ (n = "decoded_value" /\ exists x, dpt_decode d = Ok x /\ v = VFloat x) \/
  (d_class d = Brightness /\ n = "value" /\ v = VInt (d_value d)).
Lemma describe_entries d name fs : describe d = Ok (name, fs) ->
  name = class_name (d_class d) /\ (forall n v, In (n, v) fs <-> entry_of d n v).
Proof.
  unfold describe. intros H. unfold rbind in H. destruct (describe_props d (properties (d_class d))) as [l|] eqn:E; [|discriminate].
  destruct (describe_props_shown _ _ _ E) as [M F].
  assert (P : forall n v, In (n, v) l <-> prop_get d n = Ok v).
  { intros n v. split.
    - intros I. rewrite Forall_forall in F. exact (proj2 (F _ I)).
    - intros G. assert (In n (map fst l)) as I.
      { rewrite M. unfold prop_get in G. destruct (sfind n (properties (d_class d))) as [a|] eqn:Es; [|discriminate]. apply sfind_in in Es. apply in_map_iff. exists (n, a). auto. }
      apply in_map_iff in I. destruct I as [[k w] [Ek I]]. cbn in Ek. subst k. rewrite Forall_forall in F. pose proof (proj2 (F _ I)) as G'. cbn in G'.
      rewrite G in G'. injection G' as <-. exact I. }
  unfold entry_of, dpt_decode in *. destruct (d_class d) eqn:Ec; cbn [is_f16 is_f32 orb properties describe_props] in *.
  all: try (injection H as <- <-; split; [reflexivity|]; intros n v; rewrite P; split; [auto|intros [G|[(_ & x & G & _)|(G & _)]]; [exact G|discriminate G|discriminate G]]).
  all: try (injection E as <-; injection H as <- <-; split; [reflexivity|]; intros n v; cbn [app In]; rewrite <- P; cbn [In]; split;
            [intros [G|[]]; injection G as <- <-; eauto 6|intros [[]|[(-> & x & G & ->)|(G & _)]]; [injection G as <-; auto|discriminate G]]).
  injection E as <-; injection H as <- <-. split; [reflexivity|]. intros n v. cbn [In]. rewrite <- P. cbn [In]. split.
  - intros [G|[]]. injection G as <- <-. auto.
  - intros [[]|[(_ & x & G & _)|(_ & -> & ->)]]; [discriminate G|auto].
Qed.
Lemma describe_reads d name fs : describe d = Ok (name, fs) ->
  forall n a, sfind n (properties (d_class d)) = Some a -> exists v, prop_get d n = Ok v.
Proof.
  unfold describe. intros H n a Es. unfold rbind in H. destruct (describe_props d (properties (d_class d))) as [l|] eqn:E; [|discriminate].
  destruct (describe_props_shown _ _ _ E) as [M F]. apply sfind_in in Es. apply (in_map fst) in Es. cbn [fst] in Es. rewrite <- M in Es.
  apply in_map_iff in Es. destruct Es as [[k w] [Ek I]]. cbn in Ek. subst k. rewrite Forall_forall in F. exists w. exact (proj2 (F _ I)).
Qed.
Lemma describe_clean ft d name fs : describe d = Ok (name, fs) -> Forall (clean_entry ft) fs.
Proof.
  intros H. apply describe_entries in H. destruct H as [_ H]. apply Forall_forall. intros [n v] I. apply H in I.
  destruct I as [I|[(-> & x & _ & ->)|(_ & -> & ->)]]; [exact (prop_clean ft d n v I)| |]; (split; [apply names_clean_ok; vm_compute; reflexivity|exact Logic.I]).
Qed.
Definition word_char (c : ascii) : bool := negb (existsb (Ascii.eqb c) (L " :({")).
Lemma class_word c : forallb word_char (L (class_name c)) = true.
Proof. destruct c; vm_compute; reflexivity. Qed.
Lemma class_not c : ~ In "}"%char (L (class_name c)).
Proof. destruct c; vm_compute; intuition discriminate. Qed.
Lemma forall2_in {A B} (R : A -> B -> Prop) l m x : Forall2 R l m -> In x l -> exists y, In y m /\ R x y.
Proof. induction 1 as [|a b u w Rab _ IH]; [intros []|]. intros [<-|J]; [eauto using in_eq|]. destruct (IH J) as (z & ? & ?). eauto using in_cons. Qed.
Lemma forall2_in' {A B} (R : A -> B -> Prop) l m y : Forall2 R l m -> In y m -> exists x, In x l /\ R x y.
Proof. induction 1 as [|a b u w Rab _ IH]; [intros []|]. intros [<-|J]; [eauto using in_eq|]. destruct (IH J) as (z & ? & ?). eauto using in_cons. Qed.
Lemma decode_class d e : d_class d = d_class e -> forall x, dpt_decode d = Ok x -> exists y, dpt_decode e = Ok y.
Proof. unfold dpt_decode. intros <- x. destruct (is_f16 (d_class d)), (is_f32 (d_class d)); eauto; discriminate. Qed.
Lemma decode_err d e f : d_class d = d_class e -> dpt_decode d = Err f -> dpt_decode e = Err f.
Proof. unfold dpt_decode. intros <-. destruct (is_f16 (d_class d)), (is_f32 (d_class d)); intros E; try discriminate; exact E. Qed.
Lemma no_prop_decoded d : prop_get d "decoded_value" = Err AttributeError.
Proof. destruct d as [c v]. unfold prop_get. cbn [d_class]. destruct c; reflexivity. Qed.
Lemma no_prop_value d : prop_get d "value" = Err AttributeError.
Proof. destruct d as [c v]. unfold prop_get. cbn [d_class]. destruct c; reflexivity. Qed.
(** The text of a datapoint ends at its only closing brace. *)
Lemma dpt_text_end ft d t : float_texts ft -> dpt_text ft d t -> exists b, t = b ++ "}" /\ ~ In "}"%char (L b).
Proof.
  intros F (name & fs & o & D & P & ->). exists (name ++ (if is_f16 (d_class d) || is_f32 (d_class d) then ": {" else " {") ++ entries_text ft o).
  rewrite !app_assoc_s. split; [reflexivity|]. rewrite !L_app. intros J. apply in_app_or in J. destruct J as [J|J].
  - rewrite (proj1 (describe_entries _ _ _ D)) in J. exact (class_not _ J).
  - apply in_app_or in J. destruct J as [J|J]; [revert J; destruct (is_f16 (d_class d) || is_f32 (d_class d)); notin|].
    revert J. apply entries_not; [exact F|]. apply (Permutation_Forall P). exact (describe_clean ft _ _ _ D).
Qed.
Lemma dpt_text_inj ft d e t : float_texts ft -> dpt_text ft d t -> dpt_text ft e t -> same_reading ft d e.
Proof.
  intros F (n1 & fs & o & D & P & ->) (n2 & gs & q & E & Q & X).
  pose proof (describe_clean ft _ _ _ D) as C1. apply (Permutation_Forall P) in C1. pose proof (describe_clean ft _ _ _ E) as C2. apply (Permutation_Forall Q) in C2.
  pose proof (describe_reads _ _ _ D) as Rd. apply describe_entries in D, E. destruct D as [-> D], E as [-> E].
  apply (word_inj word_char) in X; [|apply class_word|apply class_word|destruct (is_f16 (d_class d) || is_f32 (d_class d)); reflexivity|destruct (is_f16 (d_class e) || is_f32 (d_class e)); reflexivity].
  destruct X as [Xc X]. apply class_name_inj in Xc. rewrite <- Xc in X. apply app_prefix, app_suffix in X. apply entries_inj in X; [|exact F|exact C1|exact C2].
  assert (D' : forall n v, In (n, v) o <-> entry_of d n v).
  { intros n v. rewrite <- D. split; intros I; [apply (Permutation_in _ (Permutation_sym P) I)|apply (Permutation_in _ P I)]. }
  assert (E' : forall n v, In (n, v) q <-> entry_of e n v).
  { intros n v. rewrite <- E. split; intros I; [apply (Permutation_in _ (Permutation_sym Q) I)|apply (Permutation_in _ Q I)]. }
  assert (Lk : forall n v, prop_get d n = Ok v -> looks ft (prop_get d n) (prop_get e n)).
  { intros n v G. destruct (forall2_in _ _ _ (n, v) X) as ([n' w] & I & [R1 R2]); [apply D'; left; exact G|]. cbn [fst snd] in R1, R2. subst n'.
    apply E' in I. destruct I as [I|[(-> & _)|(_ & -> & _)]]; [rewrite G, I; exact R2| |]; [rewrite no_prop_decoded in G|rewrite no_prop_value in G]; discriminate G. }
  assert (Lk' : forall n w, prop_get e n = Ok w -> looks ft (prop_get d n) (prop_get e n)).
  { intros n w G. destruct (forall2_in' _ _ _ (n, w) X) as ([n' v] & I & [R1 R2]); [apply E'; left; exact G|]. cbn [fst snd] in R1, R2. subst n'.
    apply D' in I. destruct I as [I|[(-> & _)|(_ & -> & _)]]; [rewrite G, I; exact R2| |]; [rewrite no_prop_decoded in G|rewrite no_prop_value in G]; discriminate G. }
  split; [exact Xc|]. split; [|split].
  - intros n. destruct (prop_get d n) as [v|x] eqn:Gd; [rewrite <- Gd; exact (Lk n v Gd)|]. destruct (prop_get e n) as [w|y] eqn:Ge; [rewrite <- Gd, <- Ge; exact (Lk' n w Ge)|].
    cbn [looks].
    destruct (sfind n (properties (d_class d))) as [a|] eqn:S1; [destruct (Rd n a S1) as [v G]; rewrite G in Gd; discriminate Gd|].
    unfold prop_get in Gd, Ge. rewrite <- Xc in Ge. rewrite S1 in Gd, Ge. congruence.
  - destruct (dpt_decode d) as [x|f] eqn:Gd.
    + destruct (decode_class d e Xc x Gd) as [y Ge]. rewrite Ge. cbn [looks_float].
      destruct (forall2_in _ _ _ ("decoded_value", VFloat x) X) as ([n' w] & I & [R1 R2]); [apply D'; right; left; eauto|]. cbn [fst snd] in R1, R2. subst n'.
      apply E' in I. destruct I as [I|[(_ & z & I & ->)|(_ & H & _)]]; [rewrite no_prop_decoded in I; discriminate I| |discriminate H]. rewrite Ge in I. injection I as <-. exact R2.
    + rewrite (decode_err _ _ _ Xc Gd). reflexivity.
  - intros B. destruct (forall2_in _ _ _ ("value", VInt (d_value d)) X) as ([n' w] & I & [R1 R2]); [apply D'; right; right; auto|]. cbn [fst snd] in R1, R2. subst n'.
    apply E' in I. destruct I as [I|[(H & _)|(_ & _ & ->)]]; [rewrite no_prop_value in I; discriminate I|discriminate H|]. cbn [looks] in R2. congruence.
Qed.

(** ** Messages *)
Lemma kind_word m : forallb word_char (L (kind_text m)) = true.
Proof. destruct m; vm_compute; reflexivity. Qed.
Lemma rest_start dt m : match rest_text dt m with String c _ => word_char c = false | _ => True end.
Proof. destruct m; reflexivity. Qed.
Lemma bare_seen a b : seen_asap a = seen_asap b -> bare_asap a = bare_asap b.
Proof. unfold seen_asap, bare_asap. intros E. injection E as -> ->. reflexivity. Qed.
Lemma asap_end a b : asap_text a ++ ")" = asap_text b ++ ")" -> bare_asap a = bare_asap b.
Proof. intros E. apply app_suffix, asap_text_inj, bare_seen in E. exact E. Qed.
Lemma group_part_inj ft d e dt dt' a b : float_texts ft -> dpt_text ft d dt -> dpt_text ft e dt' -> group_part dt a = group_part dt' b ->
  same_reading ft d e /\ bare_asap a = bare_asap b.
Proof.
  intros F D E X. unfold group_part in X. apply app_prefix in X.
  destruct (dpt_text_end ft d dt F D) as (x & -> & Nx), (dpt_text_end ft e dt' F E) as (y & -> & Ny).
  rewrite !app_assoc_s in X. apply (sep_s "}") in X; [|exact Nx|exact Ny]. destruct X as [-> X]. apply (app_prefix " for asap "), asap_end in X.
  split; [exact (dpt_text_inj ft d e _ F D E)|exact X].
Qed.
Lemma dec_sep c v w (x y : string) : ~ is_dec_char c -> dec v ++ String c x = dec w ++ String c y -> v = w /\ x = y.
Proof. intros N E. apply sep_s in E; [|apply dec_not; exact N|apply dec_not; exact N]. destruct E as [E ->]. split; [exact (dec_inj _ _ E)|reflexivity]. Qed.
Ltac dsep c E := apply (dec_sep c) in E; [|notin]; destruct E as [-> E].
Lemma property_part_inj a oi pid ne si b oi' pid' ne' si' : property_part a oi pid ne si = property_part b oi' pid' ne' si' ->
  bare_asap a = bare_asap b /\ oi = oi' /\ pid = pid' /\ ne = ne' /\ si = si'.
Proof.
  unfold property_part. intros E. apply app_prefix in E. dsep ","%char E. apply (app_prefix " property id ") in E.
  dsep ","%char E. apply (app_prefix " number of elements ") in E. dsep ","%char E. apply (app_prefix " start index ") in E. dsep " "%char E.
  apply (app_prefix "for asap "), asap_end in E. auto.
Qed.
Lemma status_inj st st' u w : status_part st ++ " " ++ u = status_part st' ++ " " ++ w -> st = st' /\ " " ++ u = " " ++ w.
Proof. unfold status_part. rewrite !app_assoc_s. intros E. apply app_prefix in E. dsep " "%char E. change ("" ++ u) with u in E. change ("" ++ w) with w in E. rewrite E. auto. Qed.
Lemma group_blank dt a : group_part dt a = " " ++ "(" ++ dt ++ " for asap " ++ asap_text a ++ ")".
Proof. reflexivity. Qed.
Lemma property_blank a oi pid ne si : exists u, property_part a oi pid ne si = " " ++ u.
Proof. eexists. unfold property_part. change (" (object index " ++ ?x) with (" " ++ "(object index " ++ x). reflexivity. Qed.
Lemma status_group ft d e dt dt' a b st st' : float_texts ft -> dpt_text ft d dt -> dpt_text ft e dt' ->
  status_part st ++ group_part dt a = status_part st' ++ group_part dt' b ->
  st = st' /\ same_reading ft d e /\ bare_asap a = bare_asap b.
Proof.
  intros F D E X. rewrite !group_blank in X. apply status_inj in X. destruct X as [-> X]. rewrite <- !group_blank in X.
  split; [reflexivity|]. exact (group_part_inj ft d e dt dt' a b F D E X).
Qed.
Lemma status_property a oi pid ne si b oi' pid' ne' si' st st' :
  status_part st ++ property_part a oi pid ne si = status_part st' ++ property_part b oi' pid' ne' si' ->
  st = st' /\ bare_asap a = bare_asap b /\ oi = oi' /\ pid = pid' /\ ne = ne' /\ si = si'.
Proof.
  intros X. destruct (property_blank a oi pid ne si) as [u U], (property_blank b oi' pid' ne' si') as [w W]. rewrite U, W in X.
  apply status_inj in X. destruct X as [-> X]. rewrite <- U, <- W in X. split; [reflexivity|]. exact (property_part_inj _ _ _ _ _ _ _ _ _ _ X).
Qed.
Lemma msg_str_not c m : ~ In c (L "0123456789ABCDEF") -> octets m -> ~ In c (L (msg_str m)).
Proof.
  intros N. induction m as [|o r IH]; intros O; cbn [msg_str list_ascii_of_string In]; [auto|]. apply Forall_cons_iff in O. destruct O as [Ho Or]. unfold is_octet in Ho.
  intros [E|[E|E]]; [| |exact (IH Or E)]; apply N; rewrite <- E; apply hexdigit_char; lia.
Qed.
Lemma msg_str_inj m n : octets m -> octets n -> msg_str m = msg_str n -> m = n.
Proof. intros Om On E. apply make_of_str in Om, On. congruence. Qed.
Lemma data_property d e u w x y : octets d -> octets e -> u = " " ++ x -> w = " " ++ y ->
  " " ++ msg_str d ++ u = " " ++ msg_str e ++ w -> d = e /\ u = w.
Proof.
  intros Od Oe -> -> E. apply app_prefix in E. apply (sep_s " ") in E; [|apply msg_str_not; [notin|assumption]|apply msg_str_not; [notin|assumption]].
  destruct E as [E X]. apply msg_str_inj in E; [|assumption|assumption]. change ("" ++ x) with x in X. change ("" ++ y) with y in X. rewrite X. auto.
Qed.
Lemma short_text_inj v w : 0 <= v < 65536 -> 0 <= w < 65536 -> short_text v = short_text w -> v = w.
Proof. intros Hv Hw E. unfold short_text in E. apply app_prefix in E. apply (hexpad_inj 4); [exact Hv|exact Hw|rewrite E; reflexivity]. Qed.
Lemma ia_text_inj v w : match v with Some x => 0 <= x < 65536 | None => True end -> match w with Some x => 0 <= x < 65536 | None => True end ->
  ia_text v = ia_text w -> v = w.
Proof. destruct v, w; cbn [ia_text]; intros; try discriminate; [|reflexivity]. f_equal. apply short_text_inj; assumption. Qed.
Lemma ia_text_not v : ~ In ","%char (L (ia_text v)).
Proof.
  destruct v as [x|]; cbn [ia_text]; [|notin]. unfold individual_text. rewrite L_app. intros J. apply in_app_or in J. destruct J as [J|J]; [revert J; notin|].
  revert J. apply (not_in_sub _ _ _ (hexpad_chars 4 x)). notin.
Qed.
Lemma error_name_not z : ~ In ":"%char (L (error_name z)).
Proof. unfold error_name. repeat destruct (_ =? _)%Z; notin. Qed.
Lemma error_repr_inj v w : error_repr v ++ ")" = error_repr w ++ ")" -> v = w.
Proof.
  intros E. apply app_suffix in E. unfold error_repr in E. apply app_prefix in E. apply (sep_s ":") in E; [|apply error_name_not|apply error_name_not]. destruct E as [_ E].
  apply (app_prefix " "), app_suffix, dec_inj in E. exact E.
Qed.
Lemma dec_end v w s : dec v ++ s = dec w ++ s -> v = w.
Proof. intros E. apply app_suffix, dec_inj in E. exact E. Qed.
Lemma no_carry m n ft : message_dpt m = None -> bare m = bare n -> alike ft m n.
Proof. intros N E. split; [exact E|]. intros d e C _. destruct C; discriminate N. Qed.
Lemma unambiguous ft m n t : float_texts ft -> legible m -> legible n -> message_text ft m t -> message_text ft n t -> alike ft m n.
Proof.
  intros F Lm Ln (dt & Dm & ->) (dt' & Dn & E).
  apply (word_inj word_char) in E; [|apply kind_word|apply kind_word|apply rest_start|apply rest_start]. destruct E as [K E].
  destruct m, n; try discriminate K; clear K; cbn [rest_text message_dpt legible] in *; unfold host in *.
  all: try (apply no_carry; [reflexivity|]; cbn [bare]).
  - apply app_prefix in E. apply (sep_s ":") in E; [|apply Lm|apply Ln]. destruct E as [-> E]. apply (app_prefix "") in E. dsep " "%char E.
    apply (app_prefix "data endpoint ") in E. apply (sep_s ":") in E; [|apply Lm|apply Ln]. destruct E as [-> E]. apply dec_end in E. subst. reflexivity.
  - apply app_prefix in E. apply (sep_s ",") in E; [|apply Lm|apply Ln]. destruct E as [-> E]. apply (app_prefix " port=") in E. dsep ","%char E.
    apply (app_prefix " individual address=") in E. apply (sep_s ",") in E; [|apply ia_text_not|apply ia_text_not]. destruct E as [Ei E].
    apply ia_text_inj in Ei; [|apply Lm|apply Ln]. apply (app_prefix " status="), dec_end in E. subst. reflexivity.
  - apply app_prefix in E. apply (sep_s ":") in E; [|apply Lm|apply Ln]. destruct E as [-> E]. apply dec_end in E. subst. reflexivity.
  - apply app_prefix, dec_end in E. subst. reflexivity.
  - apply app_prefix in E. apply (sep_s ":") in E; [|apply Lm|apply Ln]. destruct E as [-> E]. apply dec_end in E. subst. reflexivity.
  - apply app_prefix in E. dsep ","%char E. apply (app_prefix " status="), dec_end in E. subst. reflexivity.
  - apply app_prefix in E. apply (sep_s ":") in E; [|apply Lm|apply Ln]. destruct E as [-> E]. apply dec_end in E. subst. reflexivity.
  - apply app_prefix in E. apply (sep_s ",") in E; [|apply Lm|apply Ln]. destruct E as [-> E]. apply (app_prefix " port=") in E. dsep ","%char E.
    apply (app_prefix " individual address="), app_suffix in E. apply short_text_inj in E; [|apply Lm|apply Ln]. subst. reflexivity.
  - apply app_prefix in E. dsep ","%char E. apply (app_prefix " status="), error_repr_inj in E. subst. reflexivity.
  - apply app_prefix in E. dsep ","%char E. apply (app_prefix " status="), dec_end in E. subst. reflexivity.
  - apply app_prefix, asap_end in E. rewrite E. reflexivity.
  - destruct (group_part_inj _ _ _ _ _ _ _ F Dm Dn E) as [R Ea]. split; [cbn [bare]; rewrite Ea; reflexivity|]. intros x y Cx Cy. inversion Cx; inversion Cy; subst. exact R.
  - destruct (status_group _ _ _ _ _ _ _ _ _ F Dm Dn E) as (-> & R & Ea). split; [cbn [bare]; rewrite Ea; reflexivity|]. intros x y Cx Cy. inversion Cx; inversion Cy; subst. exact R.
  - destruct (group_part_inj _ _ _ _ _ _ _ F Dm Dn E) as [R Ea]. split; [cbn [bare]; rewrite Ea; reflexivity|]. intros x y Cx Cy. inversion Cx; inversion Cy; subst. exact R.
  - destruct (status_group _ _ _ _ _ _ _ _ _ F Dm Dn E) as (-> & R & Ea). split; [cbn [bare]; rewrite Ea; reflexivity|]. intros x y Cx Cy. inversion Cx; inversion Cy; subst. exact R.
  - destruct (group_part_inj _ _ _ _ _ _ _ F Dm Dn E) as [R Ea]. split; [cbn [bare]; rewrite Ea; reflexivity|]. intros x y Cx Cy. inversion Cx; inversion Cy; subst. exact R.
  - destruct (group_part_inj _ _ _ _ _ _ _ F Dm Dn E) as [R Ea]. split; [cbn [bare]; rewrite Ea; reflexivity|]. intros x y Cx Cy. inversion Cx; inversion Cy; subst. exact R.
  - destruct (status_group _ _ _ _ _ _ _ _ _ F Dm Dn E) as (-> & R & Ea). split; [cbn [bare]; rewrite Ea; reflexivity|]. intros x y Cx Cy. inversion Cx; inversion Cy; subst. exact R.
  - destruct (property_part_inj _ _ _ _ _ _ _ _ _ _ E) as (-> & -> & -> & -> & ->). reflexivity.
  - destruct (property_part_inj _ _ _ _ _ _ _ _ _ _ E) as (-> & -> & -> & -> & ->). reflexivity.
  - destruct (status_property _ _ _ _ _ _ _ _ _ _ _ _ E) as (-> & -> & -> & -> & -> & ->). reflexivity.
  - destruct (property_blank a oi pid ne si) as [u U], (property_blank a0 oi0 pid0 ne0 si0) as [w W].
    destruct (data_property _ _ _ _ _ _ Lm Ln U W E) as [-> X]. destruct (property_part_inj _ _ _ _ _ _ _ _ _ _ X) as (-> & -> & -> & -> & ->). reflexivity.
  - destruct (data_property data data0 _ _ _ _ Lm Ln eq_refl eq_refl E) as [-> X]. destruct (status_property _ _ _ _ _ _ _ _ _ _ _ _ X) as (-> & -> & -> & -> & -> & ->). reflexivity.
  - apply app_prefix in E. destruct (property_blank a oi pid ne si) as [u U], (property_blank a0 oi0 pid0 ne0 si0) as [w W]. rewrite U, W in E.
    apply (sep_s " ") in E; [|exact Lm|exact Ln]. destruct E as [-> X]. change ("" ++ u) with u in X. change ("" ++ w) with w in X.
    rewrite X, <- W in U. destruct (property_part_inj _ _ _ _ _ _ _ _ _ _ U) as (-> & -> & -> & -> & ->). reflexivity.
  - destruct (property_blank a oi pid ne si) as [u U], (property_blank a0 oi0 pid0 ne0 si0) as [w W].
    destruct (data_property _ _ _ _ _ _ Lm Ln U W E) as [-> X]. destruct (property_part_inj _ _ _ _ _ _ _ _ _ _ X) as (-> & -> & -> & -> & ->). reflexivity.
  - destruct (data_property data data0 _ _ _ _ Lm Ln eq_refl eq_refl E) as [-> X]. destruct (status_property _ _ _ _ _ _ _ _ _ _ _ _ X) as (-> & -> & -> & -> & -> & ->). reflexivity.
  - apply app_prefix, app_suffix in E. subst. reflexivity.
  - apply app_prefix, app_suffix in E. subst. reflexivity.
Qed.

Lemma text_exists ft m : message_repr m = Ok tt <-> exists t, message_text ft m t.
Proof.
  assert (R : message_repr m = match message_dpt m with Some d => dpt_repr d | None => Ok tt end) by (destruct m; reflexivity).
  unfold message_text. rewrite R. destruct (message_dpt m) as [d|]; [|split; [intros _; eauto|reflexivity]].
  unfold dpt_repr, dpt_text. destruct (describe d) as [[name fs]|e].
  - split; [intros _|reflexivity]. eexists. eexists. split; [|reflexivity]. exists name, fs, fs. split; [reflexivity|]. split; [apply Permutation_refl|reflexivity].
  - split; [discriminate|]. intros (t & dt & (? & ? & ? & E & _) & _). discriminate E.
Qed.


(** ** Alike messages have the same texts *)
Lemma looks_ok ft v w : looks ft (Ok v) w -> exists x, w = Ok x.
Proof. destruct v, w as [[]|]; cbn [looks]; intros H; try discriminate; eauto. Qed.
Lemma looks_text ft v w : looks ft (Ok v) (Ok w) -> value_text ft v = value_text ft w.
Proof. destruct v, w; cbn [looks value_text]; intros H; try discriminate; try congruence. Qed.
Lemma describe_props_like ft d e l : (forall n, looks ft (prop_get d n) (prop_get e n)) -> forall fs, describe_props d l = Ok fs ->
  exists gs, describe_props e l = Ok gs /\ Forall2 (same_entry ft) fs gs.
Proof.
  intros Lk. induction l as [|[n a] l IH]; cbn [describe_props]; intros fs H; [injection H as <-; exists []; split; [reflexivity|constructor]|].
  specialize (Lk n). unfold rbind in *. destruct (prop_get d n) as [v|]; [|discriminate]. destruct (describe_props d l) as [vs|]; [|discriminate]. injection H as <-.
  destruct (IH vs eq_refl) as (gs & -> & F). destruct (looks_ok _ _ _ Lk) as [w Ew]. rewrite Ew in *. eexists. split; [reflexivity|]. constructor; [split; [reflexivity|exact Lk]|exact F].
Qed.
Lemma describe_like ft d e : same_reading ft d e -> forall name fs, describe d = Ok (name, fs) ->
  exists gs, describe e = Ok (name, gs) /\ Forall2 (same_entry ft) fs gs.
Proof.
  intros (C & Lk & Lf & Lb) name fs H. unfold describe in *. rewrite <- C. unfold rbind in *.
  destruct (describe_props d (properties (d_class d))) as [l|] eqn:E; [|discriminate]. destruct (describe_props_like ft d e _ Lk l E) as (gs & -> & F).
  destruct (is_f16 (d_class d) || is_f32 (d_class d))%bool eqn:Ef.
  - destruct (dpt_decode d) as [x|]; [|discriminate]. injection H as <- <-. destruct (dpt_decode e) as [y|]; [|discriminate Lf]. eexists. split; [reflexivity|].
    apply Forall2_app; [exact F|]. constructor; [split; [reflexivity|exact Lf]|constructor].
  - destruct (properties (d_class d)) as [|p q] eqn:Ep.
    + injection H as <- <-. eexists. split; [reflexivity|]. constructor; [split; [reflexivity|]|constructor]. cbn [snd looks]. f_equal. f_equal. apply Lb.
      destruct (d_class d); try discriminate Ep; try discriminate Ef; reflexivity.
    + injection H as <- <-. eauto.
Qed.
Lemma entries_like ft : forall l m, Forall2 (same_entry ft) l m -> entries_text ft l = entries_text ft m.
Proof.
  induction 1 as [|[n v] [k w] l m [E1 E2] F IH]; [reflexivity|]. cbn [fst snd] in E1, E2. subst k. rewrite !entries_cons, IH. unfold entry_text. cbn [fst snd].
  rewrite (looks_text _ _ _ E2). destruct F; reflexivity.
Qed.
Lemma dpt_text_like ft d e t : same_reading ft d e -> dpt_text ft d t -> dpt_text ft e t.
Proof.
  intros R (name & fs & o & D & P & ->). destruct (describe_like ft d e R name fs D) as (gs & E & F).
  destruct (Permutation_Forall2 P F) as (q & Q & G). exists name, gs, q. split; [exact E|]. split; [exact Q|].
  rewrite (entries_like ft _ _ G). destruct R as [<- _]. reflexivity.
Qed.
Lemma bare_text a b : bare_asap a = bare_asap b -> asap_text a = asap_text b.
Proof.
  unfold bare_asap, asap_text. intros E. injection E as -> E. destruct (asap_name a) as [[|x s]|], (asap_name b) as [[|y r]|]; try discriminate; try reflexivity. injection E as -> ->. reflexivity.
Qed.
Lemma message_dpt_carries m d : message_dpt m = Some d <-> carries m d.
Proof. split; [destruct m; try discriminate; intros E; injection E as <-; constructor|intros []; reflexivity]. Qed.
Lemma bare_rest dt m n : bare m = bare n -> kind_text m = kind_text n /\ rest_text dt m = rest_text dt n.
Proof.
  destruct m, n; try discriminate; cbn [bare kind_text rest_text]; intros E; (split; [reflexivity|]).
  all: try (injection E; intros; subst; reflexivity).
  all: inversion E; subst; unfold group_part, property_part; try match goal with H : asap_value ?a = asap_value ?b |- _ =>
     assert (bare_asap a = bare_asap b) as Eb by (unfold bare_asap; congruence); rewrite (bare_text a b Eb) end; reflexivity.
Qed.
Lemma bare_dpt m n d : bare m = bare n -> message_dpt m = Some d -> exists e, message_dpt n = Some e.
Proof. destruct m, n; try discriminate; cbn [message_dpt]; eauto. Qed.
Lemma bare_none m n : bare m = bare n -> message_dpt m = None -> message_dpt n = None.
Proof. destruct m, n; try discriminate; cbn [message_dpt]; eauto; discriminate. Qed.
Lemma alike_text ft m n t : alike ft m n -> message_text ft m t -> message_text ft n t.
Proof.
  intros [B R] (dt & D & ->). exists dt. destruct (bare_rest dt m n B) as [<- <-]. split; [|reflexivity].
  destruct (message_dpt m) as [d|] eqn:Em.
  - destruct (bare_dpt m n d B Em) as [e En]. rewrite En. apply (dpt_text_like ft d e); [|exact D]. apply R; apply message_dpt_carries; assumption.
  - rewrite (bare_none m n B Em). exact D.
Qed.

(** ** What the decoder returns *)
Local Close Scope string_scope.
Definition ensures {A} (Q : A -> Prop) (m : M state A) : Prop := forall st, match fst (m st) with Ok a => Q a | Err _ => True end.
Lemma ens_ret {A} (Q : A -> Prop) a : Q a -> ensures Q (mret a).
Proof. intros H st. exact H. Qed.
Lemma ens_bind {A B} (P : A -> Prop) (Q : B -> Prop) (m : M state A) k : ensures P m -> (forall a, P a -> ensures Q (k a)) -> ensures Q (mbind m k).
Proof.
  intros Hm Hk st. unfold mbind. specialize (Hm st). destruct (m st) as [[a|e] st']; cbn [fst] in *; [exact (Hk a Hm st')|exact I].
Qed.
Lemma ens_any {A} (m : M state A) : ensures (fun _ => True) m.
Proof. intros st. destruct (fst (m st)); exact I. Qed.
Lemma ens_skip {A B} (Q : B -> Prop) (m : M state A) k : (forall a, ensures Q (k a)) -> ensures Q (mbind m k).
Proof. intros H. apply (ens_bind (fun _ => True)); [apply ens_any|auto]. Qed.
Lemma ens_lift {A} (Q : A -> Prop) r : match r with Ok a => Q a | Err _ => True end -> ensures Q (mlift r).
Proof. intros H st. exact H. Qed.
Lemma ens_octect m : octets m -> ensures (fun p => octets (snd p)) (mlift (octect m)).
Proof. intros O. apply ens_lift. destruct m; cbn; [exact I|]. apply Forall_inv_tail in O. exact O. Qed.
Lemma ens_short m : octets m -> ensures (fun p => 0 <= fst p < 65536 /\ octets (snd p)) (mlift (short m)).
Proof.
  intros O. apply ens_lift. destruct m as [|a [|b r]]; try exact I. rewrite !octets_cons in O. destruct O as (Oa & Ob & Or).
  rewrite octets_short by (rewrite !octets_cons; auto). cbn [fst snd]. unfold is_octet in *. split; [lia|exact Or].
Qed.
Lemma ens_long m : octets m -> ensures (fun p => octets (snd p)) (mlift (long m)).
Proof. intros O. apply ens_lift. destruct m as [|a [|b [|c [|d r]]]]; try exact I. rewrite !octets_cons in O. cbn [long snd]. tauto. Qed.
Definition good (r : dres) : Prop := match r with RList l | RAck l => Forall legible l | RNone => True end.
Lemma good_nil : good (RList []).
Proof. constructor. Qed.
Lemma good_nil' : ensures good (mret (RList [])).
Proof. apply ens_ret, good_nil. Qed.
Lemma legible_nil : ensures (Forall legible) (mret []).
Proof. apply ens_ret. constructor. Qed.
Local Hint Resolve good_nil good_nil' legible_nil : good.
Lemma e_group mk mkc k m : (forall a d, legible (mk a d)) -> (forall a d st, legible (mkc a d st)) -> ensures (Forall legible) (d_group mk mkc k m).
Proof.
  intros H1 H2. unfold d_group. apply ens_skip. intros vs. destruct k; [apply ens_ret|apply ens_skip; intros l; apply ens_ret];
    (apply Forall_forall; intros x I; apply in_map_iff in I; destruct I as (p & <- & _); auto).
Qed.
Lemma e_property mk mkc k m : octets m -> (forall oi pid ne si d, octets d -> legible (mk oi pid ne si d)) ->
  (forall oi pid ne si d st, octets d -> legible (mkc oi pid ne si d st)) -> ensures (Forall legible) (d_property mk mkc k m).
Proof.
  intros O H1 H2. unfold d_property. apply (ens_bind _ _ _ _ (ens_long m O)). intros [h data] Od. cbn [snd] in Od.
  destruct k; [apply ens_ret|apply ens_skip; intros l; apply ens_ret]; constructor; auto.
Qed.
Lemma e_debug l : Forall legible l -> ensures (Forall legible) (mbind (mlift (debug_first l)) (fun _ => mret l)).
Proof. intros H. apply ens_skip. intros _. apply ens_ret. exact H. Qed.
Lemma e_dispatch k m : octets m -> ensures (Forall legible) (d_property_dispatch k m).
Proof.
  intros O. unfold d_property_dispatch. apply ens_skip. intros l. apply (ens_bind (Forall legible)).
  - destruct (_ =? _); [|destruct (_ =? _); [|destruct (_ =? _); [|apply legible_nil]]]; apply e_property; (exact O || (intros; cbn; auto)).
  - exact e_debug.
Qed.
Lemma e_ldata k m : octets m -> ensures good (d_ldata k m).
Proof.
  intros O. unfold d_ldata. apply ens_skip. intros l. destruct (ld_address_type l =? AT_individual); [|destruct (_ && negb _)%bool; [|destruct (_ && _)%bool; [|auto with good]]].
  - unfold d_ndata_individual. apply ens_skip. intros l'. apply (ens_bind (Forall legible)); [|intros r Hr; apply ens_ret; exact Hr].
    destruct (ld_nsdu l') as [[]|]; try apply legible_nil. destruct k; unfold d_tdata_individual, d_tdata_individual_ind, d_tdata_individual_con; repeat (apply ens_skip; intros ?).
    + destruct (_ =? _); [apply e_dispatch; exact O|apply legible_nil].
    + destruct (match _ with Some n => _ | None => _ end); [apply e_dispatch; exact O|apply legible_nil].
  - unfold d_ndata_group. apply ens_skip. intros l'. destruct (ld_nsdu l') as [[]|]; try (apply ens_ret; exact I).
    apply (ens_bind (Forall legible)); [|intros r Hr; apply ens_ret; exact Hr]. unfold d_tdata_group. do 3 (apply ens_skip; intros ?).
    destruct (match _ with Some n => _ | None => _ end); [|apply legible_nil]. apply (ens_bind (Forall legible)); [|exact e_debug].
    destruct (_ =? _); [|destruct (_ =? _); [|destruct (_ =? _); [|apply legible_nil]]]; apply e_group; intros; exact I.
  - unfold d_ndata_broadcast, d_todo. apply (ens_bind (Forall legible)); [apply legible_nil|intros r Hr; apply ens_ret; exact Hr].
Qed.
Lemma e_make_from m : octets m -> ensures (fun p => octets (snd p)) (mlift (ld_make_from m)).
Proof.
  intros O. apply ens_lift. destruct m as [|a [|b [|c [|d [|e [|f [|g [|h [|i r]]]]]]]]]; try exact I.
  unfold ld_make_from, octect, short. cbn [rbind fst snd]. rewrite !octets_cons in O.
  destruct O as (_ & _ & _ & _ & _ & _ & _ & _ & Oi & Or). destruct r; [repeat constructor; apply Oi|exact Or].
Qed.
Lemma e_msg_code m : octets m -> ensures good (d_msg_code m).
Proof.
  intros O. unfold d_msg_code. apply (ens_bind _ _ _ _ (ens_octect m O)). intros [code b] Ob. cbn [snd] in Ob.
  apply (ens_bind _ _ _ _ (ens_octect b Ob)). intros [il c] Oc. cbn [snd] in Oc. apply (octets_zdrop il) in Oc.
  assert (G : forall k, ensures good (d_cemi_ldata k (zdrop il c))).
  { intros k. unfold d_cemi_ldata. apply (ens_bind _ _ _ _ (e_make_from _ Oc)). intros [ld x] Ox. apply ens_skip. intros _. apply e_ldata. exact Ox. }
  destruct (_ =? _); [apply G|]. destruct (_ =? _); [apply G|auto with good].
Qed.
Lemma e_feature m : ensures good (d_feature_identifier m).
Proof.
  unfold d_feature_identifier. apply ens_skip. intros [h b].
  repeat match goal with |- ensures _ (if ?b then _ else _) => destruct b | |- ensures _ (mbind _ _) => apply ens_skip; intros [? ?] end;
    apply ens_ret; repeat constructor.
Qed.
Lemma e_service m : ensures good (d_service_identifier m).
Proof.
  unfold d_service_identifier. apply ens_skip. intros [h b]. apply (ens_bind (fun p => good (snd p))).
  - destruct (h =? 4); [|apply ens_ret; exact good_nil]. apply ens_skip. intros [h2 c]. destruct (h2 =? 0); [|apply ens_ret; exact good_nil].
    apply (ens_bind good); [apply e_feature|intros r Hr; apply ens_ret; exact Hr].
  - intros [h' r] Hr. cbn [snd] in Hr. destruct (h' =? 2); [|apply ens_ret; exact Hr]. apply ens_skip. intros [h2 c]. destruct (h2 =? 0); [apply e_feature|apply ens_ret; exact Hr].
Qed.
Ltac step L O := apply (ens_bind _ _ _ _ (L _ O)); clear O; intros [? ?] O; cbn [fst snd] in O.
Lemma e_report m : octets m -> ensures good (d_report_identifier m).
Proof.
  intros O. unfold d_report_identifier. step ens_octect O. destruct (_ =? _); [|auto with good].
  unfold d_packet_info. step ens_octect O. destruct (_ =? _); [|auto with good]. step ens_octect O. eapply octets_ztake in O.
  unfold d_protocol_version. step ens_octect O. destruct (_ =? _); [|auto with good].
  unfold d_header_length. step ens_octect O. destruct (_ =? _); [|auto with good].
  unfold d_body_length. step ens_short O. destruct O as [_ O]. eapply octets_ztake in O.
  unfold d_protocol_id. step ens_octect O. destruct (_ =? _); [|destruct (_ =? _); [apply e_service|auto with good]].
  unfold d_emi_id. step ens_octect O. destruct (_ =? _); [|auto with good]. step ens_short O. destruct O as [_ O]. destruct (_ =? _); [|auto with good].
  apply e_msg_code. exact O.
Qed.
Lemma dec3_no_comma n : 0 <= n < 256 -> ~ In ","%char (dec3 n).
Proof.
  intros H. assert (S1 : forallb (fun k => negb (existsb (Ascii.eqb ","%char) (dec3 (Z.of_nat k)))) (seq 0 256) = true) by (vm_compute; reflexivity).
  rewrite forallb_forall in S1. specialize (S1 (Z.to_nat n)). rewrite Z2Nat.id in S1 by lia. intros J.
  assert (existsb (Ascii.eqb ","%char) (dec3 n) = true) as X by (apply existsb_exists; exists ","%char; split; [exact J|reflexivity]).
  rewrite X in S1. discriminate S1. apply in_seq. lia.
Qed.
Lemma ntoa_no_comma v : ~ In ","%char (L (inet_ntoa (get v 24 8) (get v 16 8) (get v 8 8) (get v 0 8))).
Proof.
  assert (G : forall o, 0 <= o -> ~ In ","%char (dec3 (get v o 8))).
  { intros o Ho. apply dec3_no_comma. rewrite get_arith by lia. change (2 ^ 8) with 256. lia. }
  unfold inet_ntoa. rewrite list_ascii_of_string_of_list_ascii. rewrite !in_app_iff. cbn [In].
  pose proof (G 24 ltac:(lia)) as G1. pose proof (G 16 ltac:(lia)) as G2. pose proof (G 8 ltac:(lia)) as G3. pose proof (G 0 ltac:(lia)) as G4. clear G.
  intros [J|[[J|[]]|[J|[[J|[]]|[J|[[J|[]]|J]]]]]]; (contradiction || discriminate J).
Qed.
Lemma e_hpai c m : octets m -> ensures (fun p => ~ In ","%char (L (fst (fst p))) /\ octets (snd p)) (mlift (HPAI c m)).
Proof.
  intros O. apply ens_lift. assert (X : match hpai_fields m with Ok p => ~ In ","%char (L (fst (fst p))) /\ octets (snd p) | Err _ => True end).
  { destruct m as [|a [|b [|i1 [|i2 [|i3 [|i4 [|p1 [|p2 r]]]]]]]]; try exact I. unfold hpai_fields, octect, long, short. cbn [rbind fst snd].
    rewrite !octets_cons in O. split; [apply ntoa_no_comma|tauto]. }
  destruct c; cbn [HPAI]; [exact I|destruct (_ >=? _); [exact X|exact I]|exact X].
Qed.
Lemma e_crd c m : octets m -> ensures (fun p => 0 <= snd (fst p) < 65536) (mlift (CRD c m)).
Proof.
  intros O. apply ens_lift. destruct c; [exact I| |]; (destruct m as [|a [|b [|h [|l r]]]]; try exact I; rewrite !octets_cons in O; destruct O as (_ & _ & Oh & Ol & Or);
    unfold CRD, octect; cbn [rbind]; rewrite octets_short by (rewrite !octets_cons; auto); cbn [rbind fst snd]; unfold is_octet in *; lia).
Qed.
Lemma e_conn_header c m : octets m -> ensures (fun p => octets (snd p)) (mlift (ip_conn_header c m)).
Proof.
  intros O. apply ens_lift. destruct c; [exact I| |]; (destruct m as [|a [|b [|h [|l r]]]]; try exact I; rewrite !octets_cons in O; cbn; tauto).
Qed.
Lemma e_ip c m : octets m -> ensures good (d_ip_header c m).
Proof.
  intros O. unfold d_ip_header. step ens_octect O. step ens_octect O. step ens_short O. destruct O as [_ O].
  destruct (_ && _)%bool; [|auto with good].
  destruct (_ =? _); [|destruct (_ =? _); [|destruct (_ =? _); [|destruct (_ =? _); [|destruct (_ =? _); [|destruct (_ =? _); [|auto with good]]]]]].
  - unfold d_search_res. step ens_short O. destruct O as [_ O]. do 2 step ens_octect O. step ens_long O. step ens_short O. destruct O as [_ O]. do 2 step ens_octect O. step ens_short O.
    apply ens_ret. repeat constructor; [apply ntoa_no_comma|apply O|apply O].
  - unfold d_disconnect_res. do 3 (apply ens_skip; intros [? ?]). destruct (_ =? _); [|auto with good]. do 2 (apply ens_skip; intros ?). apply ens_ret. repeat constructor.
  - unfold d_connect_res. step ens_short O. destruct O as [_ O]. do 2 step ens_octect O. apply (ens_bind _ _ _ _ (e_hpai c _ O)). clear O. intros [[ip port] b] [Hip O]. cbn [fst snd] in *.
    apply (ens_bind (fun ia => match ia with Some v => 0 <= v < 65536 | None => True end)).
    + destruct (_ =? _); [|apply ens_ret; exact I]. apply (ens_bind _ _ _ _ (e_crd c b O)). intros [[x ia] y] Hia. cbn [fst snd] in Hia. apply ens_skip. intros _. apply ens_ret. exact Hia.
    + intros ia Hia. apply ens_skip. intros st. apply ens_ret. repeat constructor; [exact Hip|exact Hia].
  - unfold d_connectionstate_res. do 3 (apply ens_skip; intros [? ?]). apply ens_skip. intros st. apply ens_ret. repeat constructor.
  - unfold d_tunneling_req. step ens_short O. destruct O as [_ O]. apply (ens_bind _ _ _ _ (e_conn_header c _ O)). intros [[[x seq] y] b] Ob. cbn [snd] in Ob.
    apply ens_skip. intros s. destruct (_ =? _); [|destruct (_ =? _); apply ens_ret; repeat constructor].
    apply (ens_bind good); [apply e_msg_code; exact Ob|]. intros r Hr. apply ens_ret. constructor; [exact I|]. destruct r; [exact Hr|constructor|exact Hr].
  - unfold d_tunneling_ack. apply ens_skip. intros [? ?]. apply ens_skip. intros [[[? ?] ?] ?]. do 4 (apply ens_skip; intros ?). apply ens_ret. repeat constructor.
Qed.
Lemma decoded_legible c m st r st' : octets m -> decode_msg c m st = (Ok r, st') -> good r.
Proof.
  intros O E. assert (G : ensures good (decode_msg c m)).
  { unfold decode_msg. apply ens_skip. intros s. destruct (st_medium s); first [apply e_report; exact O|apply e_ip; exact O|intros x; exact I]. }
  specialize (G st). rewrite E in G. exact G.
Qed.

(** ** The form of the text *)
Local Open Scope string_scope.
Lemma app_assoc_s (a b c : string) : (a ++ b) ++ c = a ++ b ++ c.
Proof. induction a as [|x a IH]; [reflexivity|]. cbn. rewrite IH. reflexivity. Qed.
Definition piece_str (dt : string) (p : piece) : string :=
  match p with
  | PNumber z => dec z
  | PText u => u
  | PDatapoint => dt
  | PAsap a => asap_text a
  | PAddress z => short_text z
  | POctets m => msg_str m
  end.
Definition piece_ok (p : piece) : Prop :=
  match p with PAddress z => 0 <= z < 65536 | POctets m => octets m | _ => True end.
Lemma piece_str_spec dt p s : piece_ok p -> (piece_text dt p s <-> s = piece_str dt p).
Proof.
  destruct p as [z|u| |a|z|m]; cbn [piece_ok piece_text piece_str]; intros H.
  - split; [apply decimal_dec|intros ->; apply dec_spec].
  - reflexivity.
  - reflexivity.
  - unfold asap_text. split.
    + intros (n & D & ->). apply decimal_dec in D. subst n. destruct (asap_name a) as [[|c r]|]; reflexivity.
    + intros ->. exists (dec (asap_value a)). split; [apply dec_spec|]. destruct (asap_name a) as [[|c r]|]; reflexivity.
  - unfold short_text. split.
    + intros (hi & lo & O & -> & ->). rewrite <- (hexpad_octets [hi; lo] O). reflexivity.
    + intros ->. exists (z / 256), (z mod 256).
      assert (O : octets [z / 256; z mod 256]) by (repeat constructor; unfold is_octet; lia).
      assert (E : z = big_endian [z / 256; z mod 256]) by (unfold big_endian; cbn [fold_left]; lia).
      split; [exact O|]. split; [exact E|]. rewrite <- (hexpad_octets _ O), <- E. reflexivity.
  - rewrite (msg_str_text m H). reflexivity.
Qed.
Lemma pieces_str dt l : Forall piece_ok l -> forall ts, Forall2 (piece_text dt) l ts <-> ts = map (piece_str dt) l.
Proof.
  induction 1 as [|p l H F IH]; intros ts; split.
  - intros X. inversion X. reflexivity.
  - intros ->. constructor.
  - intros X. inversion X as [|? s ? ts' P Q]; subst. apply (piece_str_spec dt p s H) in P. apply IH in Q. subst. reflexivity.
  - intros ->. cbn [map]. constructor; [apply piece_str_spec; auto|apply IH; reflexivity].
Qed.
Lemma template_ok m : legible m -> Forall piece_ok (snd (template m)).
Proof.
  destruct m; try (match goal with ia : option Z |- _ => destruct ia end); cbn [legible template snd]; intros H;
    repeat constructor; cbn [piece_ok]; tauto.
Qed.
Lemma error_found st :
  match find (fun e => (fst e =? st)%Z) [(0, "E_NO_ERROR"); (1, "E_HOST_PROTOCOL_TYPE"); (2, "E_VERSION_NOT_SUPPORTED")] with
  | Some e => snd e
  | None => "E_SEQUENCE_NUMBER"
  end = error_name st.
Proof.
  cbn [find fst]. unfold error_name. rewrite !(Z.eqb_sym st).
  destruct (0 =? st)%Z; [reflexivity|]. destruct (1 =? st)%Z; [reflexivity|]. destruct (2 =? st)%Z; reflexivity.
Qed.
Lemma fill_template dt m : fill (fst (template m)) (map (piece_str dt) (snd (template m))) = kind_text m ++ rest_text dt m.
Proof.
  destruct m; try (match goal with ia : option Z |- _ => destruct ia end);
    cbn [template fst snd map piece_str kind_text rest_text ia_text]; rewrite ?error_found;
    unfold at_position, error_repr, group_part, property_part, status_part, individual_text, short_text; cbn [append fill Ascii.eqb Bool.eqb];
    repeat progress (rewrite ?app_assoc_s; cbn [append]); reflexivity.
Qed.
Lemma carries_dpt m d : carries m d <-> message_dpt m = Some d.
Proof. split; [destruct 1; reflexivity|destruct m; intros E; try discriminate E; injection E as ->; constructor]. Qed.
Lemma shown_value_text ft v s : shown_value ft v s <-> s = value_text ft v.
Proof. destruct v; cbn [shown_value value_text]; try reflexivity. split; [apply decimal_dec|intros ->; apply dec_spec]. Qed.
Lemma entries_concat ft l : String.concat ", " (map (entry_text ft) l) = entries_text ft l.
Proof. induction l as [|e [|f r] IH]; [reflexivity|reflexivity|]. cbn [map String.concat entries_text] in *. rewrite IH. reflexivity. Qed.
Lemma entries_shown ft : forall l texts,
  Forall2 (fun e s => exists v, shown_value ft (snd e) v /\ s = "'" ++ fst e ++ "': " ++ v) l texts <-> texts = map (entry_text ft) l.
Proof.
  induction l as [|e l IH]; intros ts; split.
  - intros X. inversion X. reflexivity.
  - intros ->. constructor.
  - intros X. inversion X as [|? s ? ts' P Q]; subst. destruct P as (v & V & ->). apply shown_value_text in V. subst v. apply IH in Q. subst. reflexivity.
  - intros ->. cbn [map]. constructor; [|apply IH; reflexivity]. eexists. split; [apply shown_value_text; reflexivity|reflexivity].
Qed.
Lemma shown_dpt_text ft d t : shown_dpt ft d t <-> dpt_text ft d t.
Proof.
  unfold shown_dpt, dpt_text. split.
  - intros (name & fields & order & texts & E & P & F & ->). apply entries_shown in F. subst texts. exists name, fields, order.
    rewrite entries_concat. auto.
  - intros (name & fields & order & E & P & ->). exists name, fields, order, (map (entry_text ft) order).
    rewrite entries_concat. split; [exact E|]. split; [exact P|]. split; [apply entries_shown; reflexivity|reflexivity].
Qed.
Lemma text_form ft m t : legible m ->
  (message_text ft m t <-> exists dt texts, (forall d, carries m d -> shown_dpt ft d dt) /\
     Forall2 (piece_text dt) (snd (template m)) texts /\ t = fill (fst (template m)) texts).
Proof.
  intros H. pose proof (template_ok m H) as K. unfold message_text. split.
  - intros (dt & D & ->). exists dt, (map (piece_str dt) (snd (template m))). split; [|split].
    + intros d C. apply carries_dpt in C. rewrite C in D. apply shown_dpt_text. exact D.
    + apply pieces_str; [exact K|reflexivity].
    + symmetry. apply fill_template.
  - intros (dt & ts & D & F & ->). apply (pieces_str dt _ K) in F. subst ts. rewrite fill_template.
    destruct (message_dpt m) as [d|] eqn:E.
    + exists dt. split; [apply shown_dpt_text, D, carries_dpt; exact E|reflexivity].
    + exists "". split; [reflexivity|]. f_equal. destruct m; try discriminate E; reflexivity.
Qed.
