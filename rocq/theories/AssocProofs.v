(** Proofs about the association table and the group object table (C06-C12). *)
From Coq Require Import String ZArith List Bool Lia Permutation.
From Verif Require Import Py Address Dpt Tables Base SpecTables TablesProofs.
Import ListNotations.
Open Scope Z_scope.

Lemma asap_eqb_spec a b : asap_eqb a b = true <-> asap_value a = asap_value b.
Proof. unfold asap_eqb. apply Z.eqb_eq. Qed.
Lemma oz_spec a b : oz_eqb a b = true <-> (fun x : option Z => x) a = (fun x => x) b.
Proof. apply oz_eqb_spec. Qed.

(** ** The map from TSAPs to ASAPs *)

Definition oapp (o : option (list asap)) (L : list asap) : option (list asap) :=
  match o, L with
  | None, [] => None
  | None, _ => Some L
  | Some l, _ => Some (l ++ L)
  end.
Lemma oapp_nil o : oapp o [] = o.
Proof. destruct o; cbn; [rewrite app_nil_r|]; reflexivity. Qed.
Lemma oapp_app o L1 L2 : oapp (oapp o L1) L2 = oapp o (L1 ++ L2).
Proof.
  destruct o as [l|]; cbn; [rewrite app_assoc; reflexivity|].
  destruct L1; [reflexivity|]. reflexivity.
Qed.

Definition sel (P : address -> bool) (p : asap * list address) : list asap :=
  map (fun _ => fst p) (filter P (snd p)).
Definition routed (t : address_table) (d : list (asap * list address)) (key : option Z) : list asap :=
  flat_map (sel (fun x => oz_eqb (at_get_tsap t x) key)) d.

Lemma tsap_append_get t a m x key :
  dget oz_eqb key (tsap_append t a m x) =
  oapp (dget oz_eqb key m) (if oz_eqb (at_get_tsap t x) key then [a] else []).
Proof.
  unfold tsap_append. destruct (oz_eqb (at_get_tsap t x) key) eqn:E.
  - pose proof E as E'. apply oz_eqb_spec in E. rewrite E.
    destruct (dget oz_eqb key m) eqn:Eg; rewrite (dget_dset _ _ oz_spec);
      rewrite (proj2 (oz_eqb_spec key key) eq_refl); reflexivity.
  - rewrite oapp_nil.
    destruct (dget oz_eqb (at_get_tsap t x) m); rewrite (dget_dset _ _ oz_spec), E; reflexivity.
Qed.
Lemma tsap_fold_get t a l : forall m key,
  dget oz_eqb key (fold_left (tsap_append t a) l m) =
  oapp (dget oz_eqb key m) (sel (fun x => oz_eqb (at_get_tsap t x) key) (a, l)).
Proof.
  induction l as [|x r IH]; intros m key; cbn [fold_left].
  - cbn. rewrite oapp_nil. reflexivity.
  - rewrite IH, tsap_append_get, oapp_app. f_equal. unfold sel. cbn [filter fst snd].
    destruct (oz_eqb (at_get_tsap t x) key); reflexivity.
Qed.
Lemma rebuild_fold_get t d : forall m key,
  dget oz_eqb key (fold_left (fun m p => fold_left (tsap_append t (fst p)) (snd p) m) d m) =
  oapp (dget oz_eqb key m) (routed t d key).
Proof.
  induction d as [|[a l] d IH]; intros m key; cbn [fold_left].
  - cbn. rewrite oapp_nil. reflexivity.
  - rewrite IH, tsap_fold_get, oapp_app. reflexivity.
Qed.
Lemma rebuild_get t d key : dget oz_eqb key (rebuild_tsaps t d) = oapp None (routed t d key).
Proof. unfold rebuild_tsaps. rewrite rebuild_fold_get. reflexivity. Qed.

(** ** Dictionaries of ASAPs *)

Definition keys (d : list (asap * list address)) : list Z := map (fun p => asap_value (fst p)) d.
Definition entry (d : list (asap * list address)) (v : Z) : list address :=
  match dget asap_eqb (mkasap v None) d with Some l => l | None => [] end.

Lemma dget_value {V} (d : list (asap * V)) a b : asap_value a = asap_value b ->
  dget asap_eqb a d = dget asap_eqb b d.
Proof.
  intros E. induction d as [|[k v] d IH]; cbn; [reflexivity|].
  unfold asap_eqb in *. rewrite E, IH. reflexivity.
Qed.
Lemma dget_entry d a l : dget asap_eqb a d = Some l -> entry d (asap_value a) = l.
Proof. intros H. unfold entry. rewrite (dget_value d _ a) by reflexivity. rewrite H. reflexivity. Qed.
Lemma dget_entry_None d a : dget asap_eqb a d = None -> entry d (asap_value a) = [].
Proof. intros H. unfold entry. rewrite (dget_value d _ a) by reflexivity. rewrite H. reflexivity. Qed.

Lemma entry_dset d a l v :
  entry (dset asap_eqb a l d) v = if asap_value a =? v then l else entry d v.
Proof.
  unfold entry. rewrite (dget_dset _ _ asap_eqb_spec). unfold asap_eqb at 1. cbn.
  destruct (asap_value a =? v); reflexivity.
Qed.
Lemma entry_append d a l v :
  entry (asap_append a l d) v = entry d v ++ (if asap_value a =? v then l else []).
Proof.
  unfold asap_append. destruct (dget asap_eqb a d) as [l0|] eqn:E; rewrite entry_dset;
    destruct (asap_value a =? v) eqn:Ev; rewrite ?app_nil_r; try reflexivity;
    apply Z.eqb_eq in Ev; subst v.
  - rewrite (dget_entry _ _ _ E). reflexivity.
  - rewrite (dget_entry_None _ _ E). reflexivity.
Qed.
Lemma append_NoDup d a l : NoDup (keys d) -> NoDup (keys (asap_append a l d)).
Proof.
  intros H. unfold asap_append. destruct (dget asap_eqb a d);
    apply (dset_NoDup _ _ asap_eqb_spec); assumption.
Qed.
Lemma keys_dset d a l : dget asap_eqb a d <> None -> keys (dset asap_eqb a l d) = keys d.
Proof.
  intros H. unfold keys. rewrite <- !(map_map fst asap_value).
  rewrite (dset_keys_present _ a l d H). reflexivity.
Qed.

(** ** Invariant: the map agrees with table and dictionary *)

Record inv (s : assoc_table) : Prop := mkinv {
  inv_map : as_tsaps s = rebuild_tsaps (as_table s) (as_addresses s);
  inv_keys : NoDup (keys (as_addresses s))
}.
Lemma inv_empty t : inv (mkassoc t [] []).
Proof. split; [reflexivity|constructor]. Qed.

Lemma get_asaps_routed s g : inv s ->
  as_get_asaps_from_address s g =
  match routed (as_table s) (as_addresses s) (at_get_tsap (as_table s) g) with
  | [] => Err KeyError
  | L => Ok L
  end.
Proof.
  intros [H _]. unfold as_get_asaps_from_address, as_get_asaps. rewrite H, rebuild_get.
  destruct (routed _ _ _); reflexivity.
Qed.

Lemma associate_ok a l s s' : associate a l s = (Ok tt, s') ->
  as_addresses s' = asap_append a l (as_addresses s) /\
  as_tsaps s' = rebuild_tsaps (as_table s') (as_addresses s') /\
  assoc_insert l (as_table s) = (Ok tt, as_table s').
Proof.
  unfold associate. destruct (assoc_insert l (as_table s)) as [[[]|e] t'] eqn:E; [|discriminate].
  intros [= <-]. cbn. auto.
Qed.

Lemma disassoc_loop_ok a l : forall t d t' d', disassoc_loop a l t d = (Ok tt, (t', d')) ->
  (l <> [] -> dget asap_eqb a d <> None) /\
  map fst d' = map fst d /\
  (forall v, v <> asap_value a -> entry d' v = entry d v) /\
  (forall g, occ g (vals (entry d' (asap_value a))) =
             occ g (vals (entry d (asap_value a))) - occ g (vals l)).
Proof.
  induction l as [|x r IH]; intros t d t' d'; cbn [disassoc_loop].
  - intros [= <- <-]. split; [congruence|]. split; [reflexivity|]. split; [reflexivity|].
    intros g. cbn. lia.
  - destruct (if negb (addr_eqb x (at_ia t)) then at_remove x t else (Ok tt, t)) as [[u|e] t1];
      [|discriminate].
    destruct (dget asap_eqb a d) as [l0|] eqn:E; [|discriminate].
    destruct (remove_first x l0) as [l1|] eqn:E1; [|discriminate].
    intros H. apply IH in H. destruct H as (_ & H1 & H2 & H3).
    split; [congruence|]. split.
    { rewrite H1. apply dset_keys_present. congruence. }
    split.
    + intros v Hv. rewrite H2 by assumption. rewrite entry_dset.
      destruct (asap_value a =? v) eqn:Ev; [lia|reflexivity].
    + intros g. rewrite H3, entry_dset, Z.eqb_refl, (dget_entry _ _ _ E).
      apply remove_first_Some in E1. destruct E1 as (b & Eb & P).
      apply (Permutation_map a_val) in P. apply (occ_perm g) in P. cbn [map] in P.
      rewrite occ_cons in P. unfold vals at 4. cbn [map]. rewrite occ_cons.
      rewrite Eb in P. unfold vals in *. lia.
Qed.

Lemma disassociate_ok a l s s' : disassociate a l s = (Ok tt, s') ->
  disassoc_loop a l (as_table s) (as_addresses s) = (Ok tt, (as_table s', as_addresses s')) /\
  as_tsaps s' = rebuild_tsaps (as_table s') (as_addresses s').
Proof.
  unfold disassociate. destruct (disassoc_loop _ _ _ _) as [[[]|e] [t' d']]; [|discriminate].
  intros [= <-]. cbn. auto.
Qed.

Lemma keys_map_fst d : keys d = map asap_value (map fst d).
Proof. unfold keys. rewrite map_map. reflexivity. Qed.

Lemma as_do_ok s c s' : inv s -> as_do s c = (Ok tt, s') ->
  inv s' /\
  forall v g, occ g (vals (entry (as_addresses s') v)) =
              occ g (vals (entry (as_addresses s) v)) + balance1 v g c.
Proof.
  intros [Hm Hk] H. destruct c as [a l|a l]; cbn [as_do balance1] in *.
  - apply associate_ok in H. destruct H as (H1 & H2 & _). split.
    + split; [exact H2|]. rewrite H1. apply append_NoDup, Hk.
    + intros v g. rewrite H1, entry_append. unfold vals. rewrite map_app, occ_app.
      destruct (asap_value a =? v); cbn; reflexivity.
  - apply disassociate_ok in H. destruct H as (H1 & H2). apply disassoc_loop_ok in H1.
    destruct H1 as (_ & H3 & H4 & H5). split.
    + split; [exact H2|]. rewrite keys_map_fst, H3, <- keys_map_fst. exact Hk.
    + intros v g. destruct (asap_value a =? v) eqn:E.
      * apply Z.eqb_eq in E. subst v. rewrite H5. lia.
      * apply Z.eqb_neq in E. rewrite H4 by auto. lia.
Qed.

Lemma as_run_cons s c r os s' : as_run s (c :: r) = (os, s') ->
  exists o s1 os1, as_do s c = (o, s1) /\ as_run s1 r = (os1, s') /\ os = o :: os1.
Proof.
  cbn. destruct (as_do s c) as [o s1], (as_run s1 r) as [os1 s2] eqn:E.
  intros [= <- <-]. eauto 10.
Qed.
Lemma as_run_app h1 : forall s h2 os s', as_run s (h1 ++ h2) = (os, s') ->
  exists os1 s1 os2, as_run s h1 = (os1, s1) /\ as_run s1 h2 = (os2, s') /\ os = os1 ++ os2.
Proof.
  induction h1 as [|c r IH]; intros s h2 os s' H.
  - exists [], s, os. auto.
  - rewrite <- app_comm_cons in H. apply as_run_cons in H. destruct H as (o & s1 & os1 & E1 & E2 & ->).
    apply IH in E2. destruct E2 as (os2 & s2 & os3 & E3 & E4 & ->).
    exists (o :: os2), s2, os3. cbn. rewrite E1, E3. auto.
Qed.
Lemma as_run_app_eq h1 : forall s h2 os1 s1, as_run s h1 = (os1, s1) ->
  as_run s (h1 ++ h2) = (let '(os2, s2) := as_run s1 h2 in (os1 ++ os2, s2)).
Proof.
  induction h1 as [|c r IH]; intros s h2 os1 s1 H.
  - cbn in H. injection H as <- <-. cbn. destruct (as_run s h2). reflexivity.
  - apply as_run_cons in H. destruct H as (o & s2 & os2 & E1 & E2 & ->). cbn. rewrite E1.
    rewrite (IH _ _ _ _ E2). destruct (as_run s1 h2). reflexivity.
Qed.

Lemma assoc_init_run l : forall s s', assoc_init l s = (Ok tt, s') ->
  exists os, as_run s (map (fun p => Associate (fst p) [snd p]) l) = (os, s') /\ all_ok os.
Proof.
  induction l as [|[a x] r IH]; intros s s' H.
  - injection H as <-. exists []. split; [reflexivity|constructor].
  - cbn [assoc_init] in H. destruct (associate a [x] s) as [[[]|e] s1] eqn:E; [|discriminate].
    apply IH in H. destruct H as (os & H1 & H2). exists (Ok tt :: os). cbn [map fst snd as_run as_do].
    rewrite E, H1. split; [reflexivity|]. constructor; auto.
Qed.
Lemma assoc_new_run t l s : assoc_new t l = Ok s ->
  exists os, as_run (mkassoc t [] []) (initial_calls t l) = (os, s) /\ all_ok os.
Proof.
  unfold assoc_new, initial_calls.
  destruct (associate _ [at_ia t] (mkassoc t [] [])) as [[[]|e] s1] eqn:E; [|discriminate].
  destruct (assoc_init l s1) as [[[]|e] s2] eqn:E2; [|discriminate]. intros [= <-].
  apply assoc_init_run in E2. destruct E2 as (os & H1 & H2).
  exists (Ok tt :: os). cbn [as_run as_do]. rewrite E, H1. split; [reflexivity|]. constructor; auto.
Qed.
Lemma built_run t l h s : built t l h s ->
  exists os, as_run (mkassoc t [] []) (initial_calls t l ++ h) = (os, s) /\ all_ok os.
Proof.
  intros (s0 & os & H1 & H2 & H3). apply assoc_new_run in H1. destruct H1 as (os0 & H1 & H4).
  exists (os0 ++ os). rewrite (as_run_app_eq _ _ _ _ _ H1), H2. split; [reflexivity|].
  apply Forall_app. auto.
Qed.

Lemma as_run_counts h : forall s os s', inv s -> as_run s h = (os, s') -> all_ok os ->
  inv s' /\
  forall v g, occ g (vals (entry (as_addresses s') v)) =
              occ g (vals (entry (as_addresses s) v)) + zsum (map (balance1 v g) h).
Proof.
  induction h as [|c r IH]; intros s os s' Hi H Hok.
  - injection H as <- <-. split; [assumption|]. intros. cbn. lia.
  - apply as_run_cons in H. destruct H as (o & s1 & os1 & E1 & E2 & ->).
    inversion Hok as [|? ? Ho Hos]. subst. apply as_do_ok in E1; [|assumption].
    destruct E1 as [I1 C1]. destruct (IH _ _ _ I1 E2 Hos) as [I2 C2]. split; [assumption|].
    intros v g. rewrite C2, C1. unfold zsum. cbn [map fold_right]. lia.
Qed.
Lemma built_counts t l h s : built t l h s ->
  inv s /\ forall v g, occ g (vals (entry (as_addresses s) v)) = balance t l h v g.
Proof.
  intros H. apply built_run in H. destruct H as (os & H1 & H2).
  destruct (as_run_counts _ _ _ _ (inv_empty t) H1 H2) as [I C]. split; [assumption|].
  intros v g. rewrite C. cbn. reflexivity.
Qed.

(** ** Counting routed ASAPs *)

Lemma occ_map_const {A} (l : list A) v w : occ v (map (fun _ => w) l) = if v =? w then zlen l else 0.
Proof.
  induction l as [|x l IH]; cbn [map].
  - cbn. destruct (v =? w); reflexivity.
  - rewrite occ_cons, IH, zlen_cons. destruct (v =? w); lia.
Qed.
Lemma occ_sel P d v : NoDup (keys d) ->
  occ v (map asap_value (flat_map (sel P) d)) = zlen (filter P (entry d v)).
Proof.
  induction d as [|[k l] d IH]; intros ND; [reflexivity|].
  inversion ND as [|? ? Hk ND']. subst. cbn [flat_map]. rewrite map_app, occ_app, IH by assumption.
  unfold sel. cbn [fst snd]. rewrite map_map, occ_map_const.
  assert (entry ((k, l) :: d) v = if asap_value k =? v then l else entry d v) as -> by
    (unfold entry; cbn [dget]; unfold asap_eqb at 1; cbn [asap_value];
     destruct (asap_value k =? v); reflexivity).
  rewrite (Z.eqb_sym v). destruct (asap_value k =? v) eqn:E; [|lia].
  apply Z.eqb_eq in E.
  assert (entry d v = []) as ->; [|cbn; lia].
  unfold entry. assert (dget asap_eqb (mkasap v None) d = None) as ->; [|reflexivity].
  apply (dget_None _ _ asap_eqb_spec). cbn. rewrite <- E. exact Hk.
Qed.
Lemma filter_known t g k l : at_get_tsap t g = Some k ->
  filter (fun x => oz_eqb (at_get_tsap t x) (Some k)) l = filter (fun x => a_val g =? a_val x) l.
Proof.
  intros H. apply filter_ext. intros x. destruct (a_val g =? a_val x) eqn:E.
  - apply Z.eqb_eq in E. rewrite <- (get_tsap_val t g x E), H. apply oz_eqb_spec. reflexivity.
  - apply Z.eqb_neq in E. destruct (oz_eqb _ _) eqn:E2; [|reflexivity].
    apply oz_eqb_spec in E2. elim E. eapply get_tsap_inj; eassumption.
Qed.
Lemma filter_vals g l : zlen (filter (fun x => a_val g =? a_val x) l) = occ (a_val g) (vals l).
Proof.
  induction l as [|x l IH]; [reflexivity|]. cbn [filter vals map]. rewrite occ_cons.
  fold (vals l). destruct (a_val g =? a_val x); rewrite ?zlen_cons; lia.
Qed.
Lemma routed_counts s g k v : inv s -> at_get_tsap (as_table s) g = Some k ->
  occ v (map asap_value (routed (as_table s) (as_addresses s) (Some k))) =
  occ (a_val g) (vals (entry (as_addresses s) v)).
Proof.
  intros [_ Hk] H. unfold routed. rewrite occ_sel by assumption.
  rewrite (filter_known _ g) by assumption. apply filter_vals.
Qed.

Lemma routing t l h s g : built t l h s -> known (as_table s) (a_val g) ->
  match as_get_asaps_from_address s g with
  | Ok L => L <> [] /\ forall v, occ v (map asap_value L) = balance t l h v (a_val g)
  | Err e => e = KeyError /\ forall v, balance t l h v (a_val g) = 0
  end.
Proof.
  intros B K. apply built_counts in B. destruct B as [I C].
  apply get_tsap_known in K. rewrite get_asaps_routed by assumption.
  destruct (at_get_tsap (as_table s) g) as [k|] eqn:E; [|congruence].
  pose proof (fun v => routed_counts s g k v I E) as R.
  destruct (routed (as_table s) (as_addresses s) (Some k)) as [|x L] eqn:EL.
  - split; [reflexivity|]. intros v. rewrite <- C, <- R. reflexivity.
  - split; [discriminate|]. intros v. rewrite <- C, <- R. reflexivity.
Qed.

(** ** No duplicates through the association table *)

Lemma NoDup_perm_cons l l' (a : address) : Permutation l' (a :: l) ->
  ~ In (a_val a) (vals l) -> NoDup (vals l) -> NoDup (vals l').
Proof.
  intros P N ND. apply (Permutation_NoDup (l := vals (a :: l))).
  - apply Permutation_map. symmetry. exact P.
  - cbn. constructor; assumption.
Qed.
Lemma assoc_insert_NoDup l : forall t, NoDup (vals (at_addrs t)) ->
  NoDup (vals (at_addrs (snd (assoc_insert l t)))).
Proof.
  induction l as [|a r IH]; intros t H; cbn; [assumption|].
  destruct (mem_addr a (at_addrs t)) eqn:Em; cbn; [apply IH; assumption|].
  destruct (addr_is a (at_ia t)); cbn; [apply IH; assumption|].
  destruct (at_add a t) as [[[]|e] t'] eqn:E; cbn.
  - apply IH. apply at_add_ok in E. destruct E as (_ & _ & E). rewrite Em in E. cbn in E.
    destruct E as [_ E]. apply mem_addr_nIn in Em. eapply NoDup_perm_cons; eassumption.
  - apply at_add_err in E. destruct E as [_ ->]. assumption.
Qed.
Lemma at_remove_NoDup a t : NoDup (vals (at_addrs t)) -> NoDup (vals (at_addrs (snd (at_remove a t)))).
Proof.
  intros H. unfold at_remove. destruct (remove_first a (at_addrs t)) as [l|] eqn:E; cbn; [|assumption].
  apply remove_first_Some in E. destruct E as (b & _ & P).
  apply (Permutation_NoDup (l := vals l)).
  - apply Permutation_map. symmetry. apply sort_perm.
  - apply (Permutation_map a_val) in P. apply (Permutation_NoDup P) in H. inversion H. assumption.
Qed.
Lemma disassoc_loop_NoDup a l : forall t d, NoDup (vals (at_addrs t)) ->
  NoDup (vals (at_addrs (fst (snd (disassoc_loop a l t d))))).
Proof.
  induction l as [|x r IH]; intros t d H; cbn [disassoc_loop]; [assumption|].
  assert (H1 : NoDup (vals (at_addrs (snd (if negb (addr_eqb x (at_ia t)) then at_remove x t else (Ok tt, t)))))).
  { destruct (negb _); [apply at_remove_NoDup; assumption|assumption]. }
  destruct (if negb (addr_eqb x (at_ia t)) then at_remove x t else (Ok tt, t)) as [[u|e] t1];
    [|exact H1].
  destruct (dget asap_eqb a d); [|exact H1]. destruct (remove_first x l); [|exact H1].
  apply IH. exact H1.
Qed.
Lemma as_do_NoDup s c : NoDup (vals (at_addrs (as_table s))) ->
  NoDup (vals (at_addrs (as_table (snd (as_do s c))))).
Proof.
  intros H. destruct c as [a l|a l]; cbn.
  - unfold associate. pose proof (assoc_insert_NoDup l _ H) as H1.
    destruct (assoc_insert l (as_table s)) as [[[]|e] t']; exact H1.
  - unfold disassociate. pose proof (disassoc_loop_NoDup a l (as_table s) (as_addresses s) H) as H1.
    destruct (disassoc_loop a l (as_table s) (as_addresses s)) as [[[]|e] [t' d']]; exact H1.
Qed.
Lemma as_run_NoDup h : forall s os s', as_run s h = (os, s') ->
  NoDup (vals (at_addrs (as_table s))) -> NoDup (vals (at_addrs (as_table s'))).
Proof.
  induction h as [|c r IH]; intros s os s' H ND.
  - injection H as _ <-. assumption.
  - apply as_run_cons in H. destruct H as (o & s1 & os1 & E1 & E2 & ->).
    apply (IH _ _ _ E2). pose proof (as_do_NoDup s c ND) as H. rewrite E1 in H. exact H.
Qed.

(** ** Sending addresses *)

Lemma addresses_of_targets t l : addresses_of t (map (at_get_tsap t) l) =
  fold_right (fun x r => do a <- at_target t x; do rest <- r; Ok (a :: rest)) (Ok []) l.
Proof.
  induction l as [|x r IH]; [reflexivity|]. cbn [map addresses_of fold_right].
  rewrite target_spec, IH. reflexivity.
Qed.
Lemma target_known t x : known t (a_val x) -> exists b, at_target t x = Ok b /\ a_val b = a_val x.
Proof.
  intros H. apply get_tsap_known in H. destruct (at_get_tsap t x) as [k|] eqn:E; [|congruence].
  pose proof (get_tsap_get_address t x k E) as (b & H1 & H2). rewrite <- E, target_spec in H1. eauto.
Qed.
Lemma target_unknown t x : ~ known t (a_val x) -> at_target t x = Err TypeError.
Proof.
  intros H. rewrite <- target_spec.
  destruct (at_get_tsap t x) eqn:E; [|reflexivity].
  elim H. apply get_tsap_known. congruence.
Qed.
Lemma known_dec t v : {known t v} + {~ known t v}.
Proof.
  unfold known. destruct (in_dec Z.eq_dec v (vals (at_addrs t))); [auto|].
  destruct (Z.eq_dec v (a_val (at_ia t))); [auto|]. right. intros [?|?]; contradiction.
Qed.
Definition targets (t : address_table) (l : list address) : res (list address) :=
  fold_right (fun x r => do a <- at_target t x; do rest <- r; Ok (a :: rest)) (Ok []) l.
Lemma targets_known t l : (forall x, In x l -> known t (a_val x)) ->
  exists L, targets t l = Ok L /\ vals L = vals l.
Proof.
  induction l as [|x r IH]; intros H; [exists []; auto|].
  destruct (target_known t x) as (b & H1 & H2); [apply H; left; reflexivity|].
  destruct IH as (L & H3 & H4); [intros; apply H; right; assumption|].
  exists (b :: L). cbn. fold (targets t r). rewrite H1, H3. cbn. split; [reflexivity|].
  unfold vals in *. cbn. congruence.
Qed.
Lemma targets_unknown t l x : In x l -> ~ known t (a_val x) -> targets t l = Err TypeError.
Proof.
  induction l as [|y r IH]; intros H N; [destruct H|]. cbn. fold (targets t r).
  destruct (known_dec t (a_val y)) as [K|K].
  - destruct (target_known t y K) as (b & -> & _). cbn. destruct H as [->|H]; [contradiction|].
    rewrite IH by assumption. reflexivity.
  - rewrite target_unknown by assumption. reflexivity.
Qed.
Lemma targets_ok_known t l L : targets t l = Ok L -> forall x, In x l -> known t (a_val x).
Proof.
  intros H x Hx. destruct (known_dec t (a_val x)) as [K|K]; [assumption|].
  rewrite (targets_unknown t l x Hx K) in H. discriminate.
Qed.
Lemma sends_to_targets s b : sends_to s b =
  match dget asap_eqb b (as_addresses s) with
  | None => Err KeyError
  | Some l => targets (as_table s) l
  end.
Proof.
  unfold sends_to, as_get_tsaps, as_get_addresses, as_get_tsap.
  destruct (dget asap_eqb b (as_addresses s)); [|reflexivity]. cbn. apply addresses_of_targets.
Qed.

(** Associating keeps everything known. *)
Lemma assoc_insert_grow l : forall t t', assoc_insert l t = (Ok tt, t') ->
  at_ia t' = at_ia t /\ (forall v, known t v -> known t' v) /\
  (forall x, In x l -> known t' (a_val x)).
Proof.
  induction l as [|a r IH]; intros t t'; cbn.
  - intros [= <-]. split; [reflexivity|]. split; [auto|tauto].
  - destruct (negb (mem_addr a (at_addrs t)) && negb (addr_is a (at_ia t))) eqn:E.
    + destruct (at_add a t) as [[[]|e] t1] eqn:Ea; [|discriminate]. intros H.
      apply IH in H. destruct H as (H1 & H2 & H3). apply at_add_ok in Ea.
      destruct Ea as (_ & Ei & Ea). apply andb_true_iff in E. destruct E as [E _].
      apply negb_true_iff in E. rewrite E in Ea. cbn in Ea. destruct Ea as [_ P].
      apply (Permutation_map a_val) in P.
      split; [congruence|]. split.
      * intros v K. apply H2. unfold known in *. rewrite Ei. destruct K as [K|K]; [|auto].
        left. apply (Permutation_in _ (Permutation_sym P)). cbn. auto.
      * intros x [<-|Hx]; [|auto]. apply H2. left.
        apply (Permutation_in _ (Permutation_sym P)). cbn. auto.
    + intros H. apply IH in H. destruct H as (H1 & H2 & H3). split; [assumption|].
      split; [assumption|]. intros x [<-|Hx]; [|auto]. apply H2.
      apply andb_false_iff in E. destruct E as [E|E]; apply negb_false_iff in E.
      * left. apply mem_addr_In. assumption.
      * right. unfold addr_is in E. apply andb_true_iff in E. apply Z.eqb_eq, E.
Qed.

Definition all_known (s : assoc_table) : Prop :=
  forall v x, In x (entry (as_addresses s) v) -> known (as_table s) (a_val x).

Lemma associate_known a l s s' : associate a l s = (Ok tt, s') -> all_known s -> all_known s'.
Proof.
  intros H K. apply associate_ok in H. destruct H as (H1 & _ & H3).
  apply assoc_insert_grow in H3. destruct H3 as (_ & H4 & H5).
  intros v x. rewrite H1, entry_append. intros Hx. apply in_app_or in Hx.
  destruct Hx as [Hx|Hx]; [apply H4; eapply K; eassumption|].
  destruct (asap_value a =? v); [apply H5; assumption|destruct Hx].
Qed.

Lemma dget_append a l d b :
  dget asap_eqb b (asap_append a l d) =
  if asap_value a =? asap_value b then Some (entry d (asap_value b) ++ l) else dget asap_eqb b d.
Proof.
  unfold asap_append. destruct (dget asap_eqb a d) as [l0|] eqn:E;
    rewrite (dget_dset _ _ asap_eqb_spec); unfold asap_eqb at 1;
    destruct (asap_value a =? asap_value b) eqn:Ev; try reflexivity;
    apply Z.eqb_eq in Ev; rewrite <- Ev.
  - rewrite (dget_entry _ _ _ E). reflexivity.
  - rewrite (dget_entry_None _ _ E). reflexivity.
Qed.

Lemma as_run_given h : forall s os s', as_run s h = (os, s') -> all_ok os -> only_associates h ->
  all_known s ->
  all_known s' /\
  (forall v, vals (entry (as_addresses s') v) =
             vals (entry (as_addresses s) v) ++ flat_map (given1 v) h) /\
  (forall b, dget asap_eqb b (as_addresses s') <> None <->
             dget asap_eqb b (as_addresses s) <> None \/
             existsb (introduced1 (asap_value b)) h = true).
Proof.
  induction h as [|c r IH]; intros s os s' H Hok Ho K.
  - injection H as _ <-. split; [assumption|]. split; [intros; cbn; rewrite app_nil_r; reflexivity|].
    intros b. cbn. intuition congruence.
  - apply as_run_cons in H. destruct H as (o & s1 & os1 & E1 & E2 & ->).
    inversion Hok as [|? ? Hu Hos]. subst. inversion Ho as [|? ? Hc Hr]. subst.
    destruct c as [a l|a l]; [|destruct Hc]. cbn [as_do] in E1.
    destruct (IH _ _ _ E2 Hos Hr (associate_known _ _ _ _ E1 K)) as (K2 & V2 & D2).
    apply associate_ok in E1. destruct E1 as (E1 & _ & _).
    split; [assumption|]. split.
    + intros v. rewrite V2, E1, entry_append. cbn [flat_map given1]. unfold vals. rewrite map_app.
      rewrite <- app_assoc. destruct (asap_value a =? v); reflexivity.
    + intros b. rewrite D2, E1, dget_append. cbn [existsb introduced1].
      rewrite orb_true_iff.
      destruct (asap_value a =? asap_value b) eqn:E; intuition congruence.
Qed.

Lemma sending t l h s a : built t l h s -> only_associates h ->
  if introduced t l h (asap_value a)
  then exists L, sends_to s a = Ok L /\ vals L = given t l h (asap_value a)
  else as_get_tsaps s a = Err KeyError.
Proof.
  intros B O. apply built_run in B. destruct B as (os & H1 & H2).
  assert (O' : only_associates (initial_calls t l ++ h)).
  { apply Forall_app. split; [|assumption]. constructor; [exact I|].
    apply Forall_map, Forall_forall. intros; exact I. }
  assert (K0 : all_known (mkassoc t [] [])) by (intros v x []).
  destruct (as_run_given _ _ _ _ H1 H2 O' K0) as (K & V & D).
  specialize (D a). unfold introduced. rewrite sends_to_targets.
  destruct (existsb (introduced1 (asap_value a)) (initial_calls t l ++ h)) eqn:E.
  - destruct (dget asap_eqb a (as_addresses s)) as [e|] eqn:Eg; [|exfalso; apply (proj2 D); auto].
    destruct (targets_known (as_table s) e) as (L & T1 & T2).
    { intros x Hx. apply (K (asap_value a)). rewrite (dget_entry _ _ _ Eg). assumption. }
    exists L. split; [assumption|]. rewrite T2, <- (dget_entry _ _ _ Eg), V. reflexivity.
  - unfold as_get_tsaps. destruct (dget asap_eqb a (as_addresses s)); [|reflexivity].
    cbn in D. destruct D as [D _]. exfalso. destruct D as [D|D]; congruence.
Qed.

(** ** Disassociating one address *)

Lemma at_remove_listed g t : In (a_val g) (vals (at_addrs t)) -> exists l',
  remove_first g (at_addrs t) = Some l' /\
  at_remove g t = (Ok tt, mkat (at_max t) (at_ia t) (sort_addrs l')).
Proof.
  intros H. unfold at_remove. apply remove_first_In in H.
  destruct (remove_first g (at_addrs t)) as [l'|]; [|congruence]. eauto.
Qed.
Lemma removed_table g t l' : NoDup (vals (at_addrs t)) -> remove_first g (at_addrs t) = Some l' ->
  a_val g <> a_val (at_ia t) ->
  let t' := mkat (at_max t) (at_ia t) (sort_addrs l') in
  (forall v, known t' v <-> known t v /\ v <> a_val g) /\
  (forall x, a_val x <> a_val g -> at_target t' x = at_target t x).
Proof.
  intros ND R Ni t'. pose proof (remove_first_Some _ _ _ R) as (b & Eb & P).
  apply (Permutation_map a_val) in P. pose proof (Permutation_NoDup P ND) as ND'. cbn in ND'.
  inversion ND' as [|? ? Nb ND2]. subst.
  assert (S : Permutation (vals (sort_addrs l')) (vals l')) by apply Permutation_map, sort_perm.
  split.
  - intros v. unfold known, t'. cbn.
    assert (In v (vals (sort_addrs l')) <-> In v (vals l')) as ->
      by (split; apply Permutation_in; [|symmetry]; assumption).
    assert (In v (vals (at_addrs t)) <-> v = a_val g \/ In v (vals l')) as ->.
    { split; intros H.
      - apply (Permutation_in _ P) in H. cbn in H. destruct H; [left; congruence|auto].
      - apply (Permutation_in _ (Permutation_sym P)). cbn. destruct H; [left; congruence|auto]. }
    split.
    + intros [H|H]; [|split; [auto|congruence]]. split; [auto|]. intros ->. apply Nb.
      rewrite Eb. assumption.
    + intros [[[->|H]|H] N]; auto; congruence.
  - intros x Nx. unfold at_target, t'. cbn.
    rewrite (NoDup_find_perm (sort_addrs l') l').
    + rewrite (remove_first_find _ _ _ _ R Nx). reflexivity.
    + apply (Permutation_NoDup (Permutation_sym S)). assumption.
    + apply sort_perm.
Qed.

Lemma disassociate_one a g s : In (a_val g) (vals (at_addrs (as_table s))) ->
  a_val g <> a_val (at_ia (as_table s)) ->
  In (a_val g) (vals (entry (as_addresses s) (asap_value a))) ->
  exists l' e', remove_first g (at_addrs (as_table s)) = Some l' /\
    remove_first g (entry (as_addresses s) (asap_value a)) = Some e' /\
    let t' := mkat (at_max (as_table s)) (at_ia (as_table s)) (sort_addrs l') in
    let d' := dset asap_eqb a e' (as_addresses s) in
    disassociate a [g] s = (Ok tt, mkassoc t' d' (rebuild_tsaps t' d')).
Proof.
  intros H1 H2 H3. destruct (at_remove_listed _ _ H1) as (l' & R1 & R2).
  assert (exists e, dget asap_eqb a (as_addresses s) = Some e /\
                    entry (as_addresses s) (asap_value a) = e) as (e & E1 & E2).
  { destruct (dget asap_eqb a (as_addresses s)) as [e|] eqn:E.
    - exists e. split; [reflexivity|]. apply dget_entry. assumption.
    - rewrite (dget_entry_None _ _ E) in H3. destruct H3. }
  rewrite E2 in *. apply remove_first_In in H3.
  destruct (remove_first g e) as [e'|] eqn:R3; [|congruence].
  exists l', e'. split; [assumption|]. split; [reflexivity|].
  apply addr_eqb_nval in H2. unfold disassociate. cbn [disassoc_loop]. rewrite H2. cbn [negb].
  rewrite R2, E1, R3. reflexivity.
Qed.

Lemma flat_map_dset {B} (f : asap * list address -> list B) a l d :
  NoDup (keys d) ->
  (forall k, asap_value k = asap_value a -> f (k, l) = f (k, entry d (asap_value a))) ->
  (dget asap_eqb a d <> None) ->
  flat_map f (dset asap_eqb a l d) = flat_map f d.
Proof.
  induction d as [|[k v] d IH]; intros ND H G; cbn in *; [congruence|].
  inversion ND as [|? ? Nk ND']. subst.
  destruct (asap_eqb k a) eqn:E.
  - apply asap_eqb_spec in E. cbn. f_equal. rewrite H by assumption.
    unfold entry. cbn. unfold asap_eqb. cbn. rewrite E, Z.eqb_refl. reflexivity.
  - cbn. f_equal. apply IH; try assumption. intros k' Hk. rewrite H by assumption.
    unfold entry. cbn. unfold asap_eqb in E |- *. cbn. rewrite E. reflexivity.
Qed.
Lemma flat_map_ext_in {A B} (f g : A -> list B) l : (forall x, In x l -> f x = g x) ->
  flat_map f l = flat_map g l.
Proof.
  induction l as [|x l IH]; intros H; cbn; [reflexivity|].
  rewrite H by (left; reflexivity). rewrite IH by (intros; apply H; right; assumption). reflexivity.
Qed.
Lemma filter_removed (P : address -> bool) g l l' : remove_first g l = Some l' ->
  (forall x, a_val x = a_val g -> P x = false) -> filter P l' = filter P l.
Proof.
  revert l'. induction l as [|x r IH]; intros l' H HP; [discriminate|]. cbn in H |- *.
  destruct (addr_eqb x g) eqn:E.
  - injection H as <-. apply addr_eqb_val in E. rewrite (HP x E). reflexivity.
  - destruct (remove_first g r) as [r'|] eqn:R; [|discriminate]. injection H as <-. cbn.
    rewrite (IH r') by auto. reflexivity.
Qed.
Lemma entry_In d k l : NoDup (keys d) -> In (k, l) d -> entry d (asap_value k) = l.
Proof.
  induction d as [|[k0 l0] d IH]; intros ND H; [destruct H|].
  inversion ND as [|? ? Nk ND']. subst. unfold entry in *. cbn. unfold asap_eqb at 1. cbn.
  destruct H as [[= -> ->]|H]; [rewrite Z.eqb_refl; reflexivity|].
  destruct (asap_value k0 =? asap_value k) eqn:E; [|apply IH; assumption].
  apply Z.eqb_eq in E. elim Nk. cbn. rewrite E. unfold keys. apply in_map_iff. exists (k, l). auto.
Qed.

Lemma disassociate_unshared t l h s a g : NoDup (vals (at_addrs t)) -> built t l h s ->
  In (a_val g) (vals (at_addrs (as_table s))) -> a_val g <> a_val (at_ia (as_table s)) ->
  balance t l h (asap_value a) (a_val g) = 1 ->
  (forall v, v <> asap_value a -> balance t l h v (a_val g) = 0) ->
  exists s', disassociate a [g] s = (Ok tt, s') /\
    at_get_tsap (as_table s') g = None /\
    (forall x, a_val x <> a_val g -> as_get_asaps_from_address s' x = as_get_asaps_from_address s x) /\
    (forall b, asap_value b <> asap_value a -> sends_to s' b = sends_to s b) /\
    (forall L, sends_to s a = Ok L ->
       exists L', sends_to s' a = Ok L' /\ Permutation (vals L) (a_val g :: vals L')).
Proof.
  intros ND0 B Hin Nia B1 B0. pose proof B as B'. apply built_counts in B'. destruct B' as [I C].
  assert (ND : NoDup (vals (at_addrs (as_table s)))).
  { apply built_run in B. destruct B as (os & R & _). eapply as_run_NoDup; [exact R|exact ND0]. }
  assert (Ha : In (a_val g) (vals (entry (as_addresses s) (asap_value a)))).
  { apply occ_In. rewrite C, B1. lia. }
  destruct (disassociate_one a g s Hin Nia Ha) as (l' & e' & R1 & R2 & D). cbn zeta in D.
  set (t' := mkat (at_max (as_table s)) (at_ia (as_table s)) (sort_addrs l')) in *.
  set (d' := dset asap_eqb a e' (as_addresses s)) in *.
  destruct (removed_table g (as_table s) l' ND R1 Nia) as [K T]. fold t' in K, T.
  assert (Ga : dget asap_eqb a (as_addresses s) <> None).
  { intros E. apply dget_entry_None in E. rewrite E in Ha. destruct Ha. }
  assert (ND' : NoDup (keys d')) by (unfold d'; rewrite keys_dset; [apply I|assumption]).
  assert (Ng : forall v x, In x (entry d' v) -> a_val x <> a_val g).
  { intros v x Hx E. unfold d' in Hx. rewrite entry_dset in Hx.
    destruct (asap_value a =? v) eqn:Ev.
    - apply remove_first_Some in R2. destruct R2 as (b & Eb & P).
      apply (Permutation_map a_val), (occ_perm (a_val g)) in P. fold (vals (entry (as_addresses s) (asap_value a))) in P.
      rewrite C, B1 in P. cbn [map] in P. rewrite occ_cons, Eb, Z.eqb_refl in P.
      assert (0 < occ (a_val g) (map a_val e')); [|lia].
      apply occ_In. rewrite <- E. apply in_map. assumption.
    - apply Z.eqb_neq in Ev. specialize (B0 v). rewrite <- C in B0.
      assert (0 < occ (a_val g) (vals (entry (as_addresses s) v))); [|specialize (B0 ltac:(congruence)); lia].
      apply occ_In. rewrite <- E. apply in_map. assumption. }
  eexists. split; [exact D|]. cbn [as_table as_addresses]. split.
  { destruct (at_get_tsap t' g) eqn:E; [|reflexivity].
    assert (K1 : known t' (a_val g)) by (apply get_tsap_known; congruence).
    apply K in K1. destruct K1 as [_ N]. congruence. }
  split; [|split].
  - intros x Nx. rewrite !get_asaps_routed; [|assumption|split; [reflexivity|exact ND']].
    cbn [as_table as_addresses].
    enough (routed t' d' (at_get_tsap t' x) = routed (as_table s) (as_addresses s) (at_get_tsap (as_table s) x)) as -> by reflexivity.
    unfold routed.
    destruct (known_dec (as_table s) (a_val x)) as [Kx|Kx].
    + assert (Kx' : known t' (a_val x)) by (apply K; auto).
      apply get_tsap_known in Kx, Kx'.
      destruct (at_get_tsap (as_table s) x) as [k|] eqn:E1; [|congruence].
      destruct (at_get_tsap t' x) as [k'|] eqn:E2; [|congruence].
      transitivity (flat_map (sel (fun y => a_val x =? a_val y)) d').
      { apply flat_map_ext_in. intros [k0 l0] _. unfold sel. cbn.
        rewrite (filter_known t' x) by assumption. reflexivity. }
      transitivity (flat_map (sel (fun y => a_val x =? a_val y)) (as_addresses s)).
      { apply flat_map_dset; [apply I| |assumption]. intros k0 Hk0. unfold sel. cbn.
        rewrite (filter_removed _ g _ _ R2); [reflexivity|]. intros y Ey. apply Z.eqb_neq. congruence. }
      apply flat_map_ext_in. intros [k0 l0] _. unfold sel. cbn.
      rewrite (filter_known (as_table s) x) by assumption. reflexivity.
    + assert (Kx' : ~ known t' (a_val x)) by (rewrite K; tauto).
      assert (E1 : at_get_tsap (as_table s) x = None).
      { destruct (at_get_tsap (as_table s) x) eqn:E; [|reflexivity]. elim Kx. apply get_tsap_known. congruence. }
      assert (E2 : at_get_tsap t' x = None).
      { destruct (at_get_tsap t' x) eqn:E; [|reflexivity]. elim Kx'. apply get_tsap_known. congruence. }
      rewrite E1, E2.
      assert (U : forall tb y, oz_eqb (at_get_tsap tb y) None = if known_dec tb (a_val y) then false else true).
      { intros tb y. destruct (known_dec tb (a_val y)) as [Ky|Ky].
        - apply get_tsap_known in Ky. destruct (at_get_tsap tb y); [reflexivity|congruence].
        - destruct (at_get_tsap tb y) eqn:E; [|reflexivity]. elim Ky. apply get_tsap_known. congruence. }
      transitivity (flat_map (sel (fun y => oz_eqb (at_get_tsap (as_table s) y) None)) d').
      { apply flat_map_ext_in. intros [k0 l0] Hkl. unfold sel. cbn. f_equal.
        apply filter_ext_in. intros y Hy. rewrite !U.
        assert (Ny : a_val y <> a_val g).
        { apply (Ng (asap_value k0)). rewrite (entry_In _ _ _ ND' Hkl). assumption. }
        destruct (known_dec t' (a_val y)) as [K1|K1], (known_dec (as_table s) (a_val y)) as [K2|K2];
          try reflexivity; rewrite K in K1; tauto. }
      apply flat_map_dset; [apply I| |assumption]. intros k0 Hk0. unfold sel. cbn.
      rewrite (filter_removed _ g _ _ R2); [reflexivity|].
      intros y Ey. rewrite U. destruct (known_dec (as_table s) (a_val y)) as [K2|K2]; [reflexivity|].
      elim K2. left. rewrite Ey. assumption.
  - intros b Nb. rewrite !sends_to_targets. cbn [as_table as_addresses].
    assert (dget asap_eqb b d' = dget asap_eqb b (as_addresses s)) as Eq.
    { unfold d'. rewrite (dget_dset _ _ asap_eqb_spec).
      destruct (asap_eqb a b) eqn:E; [apply asap_eqb_spec in E; congruence|reflexivity]. }
    destruct (dget asap_eqb b d') as [e|] eqn:Eb; rewrite <- Eq; [|reflexivity].
    apply dget_entry in Eb.
    assert (Ne : forall x, In x e -> a_val x <> a_val g) by (intros x Hx; apply (Ng (asap_value b)); rewrite Eb; assumption).
    clear - T Ne. induction e as [|x e IH]; [reflexivity|]. cbn.
    fold (targets t' e) (targets (as_table s) e). rewrite T by (apply Ne; left; reflexivity).
    rewrite IH by (intros; apply Ne; right; assumption). reflexivity.
  - intros L HL. rewrite sends_to_targets in HL |- *. cbn [as_table as_addresses].
    unfold d'. rewrite (dget_dset _ _ asap_eqb_spec), (dk_refl _ _ asap_eqb_spec).
    destruct (dget asap_eqb a (as_addresses s)) as [e|] eqn:E; [|congruence].
    rewrite (dget_entry _ _ _ E) in *.
    pose proof (targets_ok_known _ _ _ HL) as Ke.
    destruct (targets_known _ _ Ke) as (L0 & HL0 & V0). rewrite HL0 in HL. injection HL as <-.
    pose proof (remove_first_Some _ _ _ R2) as (b & Eb & P).
    destruct (targets_known t' e') as (L' & HL' & V').
    { intros x Hx. apply K. split.
      - apply Ke. apply (Permutation_in _ (Permutation_sym P)). right. assumption.
      - apply (Ng (asap_value a)). unfold d'. rewrite entry_dset, Z.eqb_refl. assumption. }
    exists L'. split; [assumption|]. rewrite V0, V', <- Eb.
    apply (Permutation_map a_val) in P. exact P.
Qed.

Lemma disassociate_shared t l h s a b g : NoDup (vals (at_addrs t)) -> built t l h s ->
  In (a_val g) (vals (at_addrs (as_table s))) -> a_val g <> a_val (at_ia (as_table s)) ->
  asap_value a <> asap_value b ->
  0 < balance t l h (asap_value a) (a_val g) ->
  0 < balance t l h (asap_value b) (a_val g) ->
  exists s', disassociate a [g] s = (Ok tt, s') /\
    at_get_tsap (as_table s') g = None /\ sends_to s' b = Err TypeError.
Proof.
  intros ND0 B Hin Nia Nab Ba Bb. pose proof B as B'. apply built_counts in B'. destruct B' as [I C].
  assert (ND : NoDup (vals (at_addrs (as_table s)))).
  { apply built_run in B. destruct B as (os & R & _). eapply as_run_NoDup; [exact R|exact ND0]. }
  rewrite <- C in Ba, Bb. apply occ_In in Ba, Bb.
  destruct (disassociate_one a g s Hin Nia Ba) as (l' & e' & R1 & R2 & D). cbn zeta in D.
  destruct (removed_table g (as_table s) l' ND R1 Nia) as [K T].
  eexists. split; [exact D|]. cbn [as_table as_addresses].
  set (t' := mkat (at_max (as_table s)) (at_ia (as_table s)) (sort_addrs l')) in *.
  assert (Kg : ~ known t' (a_val g)) by (rewrite K; tauto). split.
  { destruct (at_get_tsap t' g) eqn:E; [|reflexivity]. elim Kg. apply get_tsap_known. congruence. }
  rewrite sends_to_targets. cbn [as_table as_addresses]. rewrite (dget_dset _ _ asap_eqb_spec).
  destruct (asap_eqb a b) eqn:E; [apply asap_eqb_spec in E; congruence|].
  destruct (dget asap_eqb b (as_addresses s)) as [e|] eqn:Eb.
  - rewrite (dget_entry _ _ _ Eb) in Bb. apply in_map_iff in Bb. destruct Bb as (x & Ex & Hx).
    apply (targets_unknown t' e x Hx). rewrite Ex. assumption.
  - rewrite (dget_entry_None _ _ Eb) in Bb. destruct Bb.
Qed.

(** ** Failing calls *)

Lemma associate_single_err a x s e s' : associate a [x] s = (Err e, s') ->
  e = AddressTableException /\ s' = s.
Proof.
  unfold associate. cbn. destruct (_ && _); [|discriminate].
  destruct (at_add x (as_table s)) as [[[]|e'] t'] eqn:E; [discriminate|].
  intros [= <- <-]. apply at_add_err in E. destruct E as [-> ->].
  split; [reflexivity|]. destruct s; reflexivity.
Qed.

Lemma assoc_insert_err l : forall t e t', assoc_insert l t = (Err e, t') ->
  e = AddressTableException /\
  exists done x rest, l = done ++ x :: rest /\ assoc_insert done t = (Ok tt, t') /\
    ~ In (a_val x) (vals (at_addrs t')) /\ zlen (at_addrs t') >= at_max t'.
Proof.
  induction l as [|x r IH]; intros t e t'; cbn; [discriminate|].
  destruct (negb (mem_addr x (at_addrs t)) && negb (addr_is x (at_ia t))) eqn:E.
  - destruct (at_add x t) as [[[]|e1] t1] eqn:Ea.
    + intros H. apply IH in H. destruct H as (H1 & dn & y & rest & -> & H2 & H3). split; [assumption|].
      exists (x :: dn), y, rest. split; [reflexivity|]. split; [|assumption].
      cbn. rewrite E, Ea. assumption.
    + intros [= <- <-]. pose proof Ea as Eb. apply at_add_err in Ea. destruct Ea as [-> ->].
      split; [reflexivity|]. exists [], x, r. split; [reflexivity|]. split; [reflexivity|].
      apply andb_true_iff in E. destruct E as [E _]. apply negb_true_iff, mem_addr_nIn in E.
      split; [assumption|]. unfold at_add in Eb.
      destruct (_ || _); [|discriminate]. destruct (zlen (at_addrs t) >=? at_max t) eqn:E2; [|discriminate].
      lia.
  - intros H. apply IH in H. destruct H as (H1 & dn & y & rest & -> & H2 & H3). split; [assumption|].
    exists (x :: dn), y, rest. split; [reflexivity|]. split; [|assumption].
    cbn. rewrite E. assumption.
Qed.

Lemma associate_several_err a l s e s' : associate a l s = (Err e, s') ->
  e = AddressTableException /\ as_addresses s' = as_addresses s /\ as_tsaps s' = as_tsaps s /\
  exists done x rest, l = done ++ x :: rest /\ ~ In (a_val x) (vals (at_addrs (as_table s'))) /\
    forall y, In y done -> known (as_table s') (a_val y).
Proof.
  unfold associate. destruct (assoc_insert l (as_table s)) as [[[]|e1] t1] eqn:E; [discriminate|].
  intros [= <- <-]. apply assoc_insert_err in E.
  destruct E as (-> & dn & x & rest & H1 & H2 & H3 & _). cbn. repeat split.
  exists dn, x, rest. split; [assumption|]. split; [assumption|].
  apply assoc_insert_grow in H2. apply H2.
Qed.

Lemma disassociate_unassociated a g s : In (a_val g) (vals (at_addrs (as_table s))) ->
  a_val g <> a_val (at_ia (as_table s)) ->
  ~ In (a_val g) (vals (entry (as_addresses s) (asap_value a))) ->
  exists e s', disassociate a [g] s = (Err e, s') /\ (e = KeyError \/ e = ValueError) /\
    (e = KeyError <-> as_get_tsaps s a = Err KeyError) /\
    Permutation (vals (at_addrs (as_table s))) (a_val g :: vals (at_addrs (as_table s'))) /\
    as_addresses s' = as_addresses s /\ as_tsaps s' = as_tsaps s.
Proof.
  intros H1 H2 H3. destruct (at_remove_listed _ _ H1) as (l' & R1 & R2).
  apply addr_eqb_nval in H2. unfold disassociate. cbn [disassoc_loop]. rewrite H2. cbn [negb].
  rewrite R2. unfold as_get_tsaps.
  assert (P : Permutation (vals (at_addrs (as_table s))) (a_val g :: vals (sort_addrs l'))).
  { apply remove_first_Some in R1. destruct R1 as (b & Eb & P). rewrite <- Eb.
    apply (Permutation_map a_val) in P. rewrite P. cbn. constructor. symmetry.
    apply Permutation_map, sort_perm. }
  destruct (dget asap_eqb a (as_addresses s)) as [e|] eqn:E.
  - rewrite (dget_entry _ _ _ E) in H3.
    destruct (remove_first g e) eqn:R; [exfalso; apply H3, remove_first_In; congruence|].
    eexists _, _. split; [reflexivity|]. split; [auto|]. split; [split; discriminate|]. cbn. auto.
  - eexists _, _. split; [reflexivity|]. split; [auto|]. split; [tauto|]. cbn. auto.
Qed.

(** ** Order of introduction and the free number *)

Fixpoint uses (acc l : list Z) : list Z :=
  match l with
  | [] => acc
  | x :: r => uses (if existsb (Z.eqb x) acc then acc else acc ++ [x]) r
  end.
Lemma first_uses_uses l : forall acc, uses acc l = acc ++ first_uses acc l.
Proof.
  assert (Ext : forall k s1 s2, (forall x, In x s1 <-> In x s2) -> first_uses s1 k = first_uses s2 k).
  { induction k as [|x k IH]; intros s1 s2 H; cbn; [reflexivity|].
    assert (existsb (Z.eqb x) s1 = existsb (Z.eqb x) s2) as ->.
    { apply eq_iff_eq_true. rewrite !existsb_exists.
      split; intros (y & Hy & E); exists y; split; try assumption; apply H; assumption. }
    destruct (existsb (Z.eqb x) s2); [apply IH; assumption|]. f_equal. apply IH.
    intros y. cbn. rewrite H. reflexivity. }
  induction l as [|x l IH]; intros acc; cbn; [rewrite app_nil_r; reflexivity|].
  destruct (existsb (Z.eqb x) acc) eqn:E; [apply IH|]. rewrite IH, <- app_assoc. cbn. f_equal. f_equal.
  apply Ext. intros y. rewrite in_app_iff. cbn. tauto.
Qed.
Lemma uses_app l1 : forall acc l2, uses acc (l1 ++ l2) = uses (uses acc l1) l2.
Proof. induction l1; intros; cbn; [reflexivity|]. apply IHl1. Qed.

Lemma keys_append a l d : keys (asap_append a l d) = uses (keys d) [asap_value a].
Proof.
  cbn. unfold asap_append. destruct (dget asap_eqb a d) as [l0|] eqn:E.
  - rewrite keys_dset by congruence.
    assert (existsb (Z.eqb (asap_value a)) (keys d) = true) as ->; [|reflexivity].
    apply existsb_exists. exists (asap_value a). rewrite Z.eqb_refl. split; [|reflexivity].
    destruct (in_dec Z.eq_dec (asap_value a) (keys d)) as [H|H]; [assumption|].
    apply (dget_None _ _ asap_eqb_spec) in H. congruence.
  - rewrite dset_absent by assumption. unfold keys at 1. rewrite map_app. cbn.
    apply (dget_None _ _ asap_eqb_spec) in E.
    destruct (existsb (Z.eqb (asap_value a)) (keys d)) eqn:Ex; [|reflexivity].
    apply existsb_exists in Ex. destruct Ex as (y & Hy & Ey). apply Z.eqb_eq in Ey. subst y. contradiction.
Qed.

Lemma disassoc_loop_keys a l : forall t d,
  map fst (snd (snd (disassoc_loop a l t d))) = map fst d.
Proof.
  induction l as [|x r IH]; intros t d; cbn [disassoc_loop]; [reflexivity|].
  destruct (if negb (addr_eqb x (at_ia t)) then at_remove x t else (Ok tt, t)) as [[u|e] t1]; [|reflexivity].
  destruct (dget asap_eqb a d) as [l0|] eqn:E; [|reflexivity].
  destruct (remove_first x l0) as [l1|]; [|reflexivity].
  rewrite IH. apply dset_keys_present. congruence.
Qed.
Lemma as_do_keys s c : keys (as_addresses (snd (as_do s c))) =
  uses (keys (as_addresses s)) (assoc_values (match fst (as_do s c) with Ok _ => [c] | Err _ => [] end)).
Proof.
  destruct c as [a l|a l]; cbn [as_do].
  - unfold associate. destruct (assoc_insert l (as_table s)) as [[[]|e] t']; cbn [fst snd as_addresses];
      [|reflexivity]. rewrite keys_append. reflexivity.
  - unfold disassociate. pose proof (disassoc_loop_keys a l (as_table s) (as_addresses s)) as H.
    destruct (disassoc_loop a l (as_table s) (as_addresses s)) as [[[]|e] [t' d']];
      cbn [fst snd as_addresses] in *; cbn; rewrite !keys_map_fst, H; reflexivity.
Qed.
Lemma assoc_values_app l1 l2 : assoc_values (l1 ++ l2) = assoc_values l1 ++ assoc_values l2.
Proof. unfold assoc_values. rewrite flat_map_app. reflexivity. Qed.
Lemma as_run_keys h : forall s os s', as_run s h = (os, s') ->
  keys (as_addresses s') = uses (keys (as_addresses s)) (assoc_values (accepted h os)).
Proof.
  induction h as [|c r IH]; intros s os s' H.
  - injection H as <- <-. reflexivity.
  - apply as_run_cons in H. destruct H as (o & s1 & os1 & E1 & E2 & ->). cbn [accepted].
    rewrite assoc_values_app, uses_app, (IH _ _ _ E2). f_equal.
    pose proof (as_do_keys s c) as H. rewrite E1 in H. exact H.
Qed.
Lemma accepted_all h : forall s os s', as_run s h = (os, s') -> all_ok os -> accepted h os = h.
Proof.
  induction h as [|c r IH]; intros s os s' H Hok; [destruct os; reflexivity|].
  apply as_run_cons in H. destruct H as (o & s1 & os1 & E1 & E2 & ->).
  inversion Hok; subst. cbn. f_equal. eapply IH; eassumption.
Qed.

Lemma introduction t l s0 h os s : assoc_new t l = Ok s0 -> as_run s0 h = (os, s) ->
  map asap_value (as_asaps s) = first_uses [] (assoc_values (initial_calls t l ++ accepted h os)).
Proof.
  intros H1 H2. apply assoc_new_run in H1. destruct H1 as (os0 & H1 & H3).
  unfold as_asaps. rewrite <- keys_map_fst, (as_run_keys _ _ _ _ H2), (as_run_keys _ _ _ _ H1).
  rewrite (accepted_all _ _ _ _ H1 H3), assoc_values_app, <- uses_app.
  rewrite first_uses_uses. reflexivity.
Qed.

Lemma free_from_least ks : forall e, strictly_ascending (map asap_value ks) ->
  (forall k, In k (map asap_value ks) -> e <= k) ->
  let f := free_from e ks in
  e <= f /\ ~ In f (map asap_value ks) /\ forall j, e <= j < f -> In j (map asap_value ks).
Proof.
  assert (SA : forall x l, strictly_ascending (x :: l) -> forall y, In y l -> x < y).
  { intros x l. revert x. induction l as [|z r IH]; intros x [H1 H2] y Hy; [destruct Hy|].
    destruct Hy as [->|Hy]; [assumption|]. specialize (IH z H2 y Hy). lia. }
  induction ks as [|k r IH]; intros e S H; cbn zeta; cbn [free_from].
  - split; [lia|]. split; [tauto|]. intros; lia.
  - cbn [map] in *. pose proof (SA _ _ S) as Hk. destruct S as [_ S].
    destruct (e =? asap_value k) eqn:E; cbn.
    + apply Z.eqb_eq in E. destruct (IH (e + 1) S) as (F1 & F2 & F3).
      { intros y Hy. specialize (Hk y Hy). lia. }
      split; [lia|]. split; [intros [Hf|Hf]; [lia|contradiction]|].
      intros j Hj. destruct (Z.eq_dec j e); [left; lia|]. right. apply F3. lia.
    + apply Z.eqb_neq in E. pose proof (H _ (or_introl eq_refl)). split; [lia|]. split.
      * intros [Hf|Hf]; [congruence|]. specialize (Hk _ Hf). lia.
      * intros; lia.
Qed.

Lemma first_uses_head x l : first_uses [] (x :: l) = x :: first_uses [x] l.
Proof. reflexivity. Qed.

Lemma free_least t l s0 h os s : assoc_new t l = Ok s0 -> as_run s0 h = (os, s) ->
  strictly_ascending (first_uses [] (assoc_values (initial_calls t l ++ accepted h os))) ->
  let f := as_get_free_asap_value s in
  0 <= f /\ ~ In f (map asap_value (as_asaps s)) /\
  forall j, 0 <= j < f -> In j (map asap_value (as_asaps s)).
Proof.
  intros H1 H2 S. pose proof (introduction _ _ _ _ _ _ H1 H2) as Hi. rewrite <- Hi in S.
  unfold as_get_free_asap_value. apply free_from_least; [assumption|].
  intros k Hk. cbn [initial_calls app assoc_values flat_map] in Hi.
  cbn [asap_value app] in Hi. rewrite first_uses_head in Hi. rewrite Hi in S, Hk.
  destruct Hk as [<-|Hk]; [lia|].
  assert (SA : forall x l, strictly_ascending (x :: l) -> forall y, In y l -> x < y).
  { intros x l1. revert x. induction l1 as [|z r IH]; intros x [Hx1 Hx2] y Hy; [destruct Hy|].
    destruct Hy as [->|Hy]; [assumption|]. specialize (IH z Hx2 y Hy). lia. }
  specialize (SA _ _ S _ Hk). lia.
Qed.

(** ** The group object table *)

Lemma type_of_dget g v : type_of g v = dget asap_eqb (mkasap v None) g.
Proof.
  unfold type_of. induction g as [|[k c] g IH]; [reflexivity|]. cbn. unfold asap_eqb at 1. cbn.
  destruct (asap_value k =? v); [reflexivity|apply IH].
Qed.
Lemma go_do_spec g c v : distinct_keys g ->
  distinct_keys (snd (go_do g c)) /\
  type_of (snd (go_do g c)) v = last_type (type_of g v) [c] v.
Proof.
  intros ND. destruct c as [a k|a]; cbn [go_do last_type snd].
  - unfold go_associate. split; [apply (dset_NoDup _ _ asap_eqb_spec); assumption|].
    rewrite !type_of_dget, (dget_dset _ _ asap_eqb_spec). unfold asap_eqb at 1. cbn. reflexivity.
  - unfold go_disassociate. destruct (dget asap_eqb a g) eqn:E; cbn.
    + split; [apply (ddel_NoDup asap_eqb asap_value); assumption|].
      rewrite !type_of_dget, (dget_ddel _ _ asap_eqb_spec) by assumption.
      unfold asap_eqb at 1. cbn. reflexivity.
    + split; [assumption|]. destruct (asap_value a =? v) eqn:Ev; [|reflexivity].
      apply Z.eqb_eq in Ev. rewrite type_of_dget, <- E. apply dget_value. cbn. congruence.
Qed.
Lemma last_type_app l1 : forall st l2 v, last_type st (l1 ++ l2) v = last_type (last_type st l2 v) l1 v.
Proof. induction l1 as [|[a k|a] r IH]; intros; cbn; [reflexivity| |]; rewrite IH; reflexivity. Qed.
Lemma go_after_spec h : forall g v, distinct_keys g ->
  distinct_keys (go_after g h) /\ type_of (go_after g h) v = last_type (type_of g v) (rev h) v.
Proof.
  induction h as [|c r IH]; intros g v ND; cbn [go_after rev]; [split; [assumption|reflexivity]|].
  destruct (go_do_spec g c v ND) as [N1 T1]. destruct (IH _ v N1) as [N2 T2].
  split; [assumption|]. rewrite T2, last_type_app, T1. reflexivity.
Qed.
Lemma go_disassociate_err g a :
  (fst (go_disassociate a g) = Err KeyError <-> type_of g (asap_value a) = None) /\
  (fst (go_disassociate a g) = Ok tt \/ fst (go_disassociate a g) = Err KeyError) /\
  (fst (go_disassociate a g) <> Ok tt -> snd (go_disassociate a g) = g).
Proof.
  rewrite type_of_dget. unfold go_disassociate.
  rewrite (dget_value g (mkasap (asap_value a) None) a) by reflexivity.
  destruct (dget asap_eqb a g); cbn; repeat split; auto; congruence.
Qed.
