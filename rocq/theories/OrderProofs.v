(** Proofs for C97: calls for different ASAPs commute. *)
From Coq Require Import String ZArith List Bool Lia ZifyBool Permutation.
From Verif Require Import Py Base Msg Address Dpt Tables LData Inet State Encode Decode.
From Verif Require Import SpecTables TablesProofs AssocProofs SpecWire SimProofs SpecOrder.
Import ListNotations.
Open Scope Z_scope.

(** ** The address table: the order of insertions does not matter *)

Definition like (t t' : address_table) : Prop :=
  at_max t' = at_max t /\ at_ia t' = at_ia t /\ vals (at_addrs t') = vals (at_addrs t).
Lemma like_refl t : like t t.
Proof. repeat split. Qed.
Lemma like_trans t u v : like t u -> like u v -> like t v.
Proof. unfold like. intuition congruence. Qed.
Lemma like_mem t t' x : like t t' -> mem_addr x (at_addrs t') = mem_addr x (at_addrs t).
Proof.
  intros (_ & _ & H). apply eq_true_iff_eq. rewrite !mem_addr_In, H. reflexivity.
Qed.
Lemma like_len t t' : like t t' -> zlen (at_addrs t') = zlen (at_addrs t).
Proof. intros (_ & _ & H). apply (f_equal zlen) in H. unfold zlen, vals in *. rewrite !map_length in H. exact H. Qed.

Lemma asc_unique l : forall l', ascending l -> ascending l' -> Permutation l l' -> l = l'.
Proof.
  induction l as [|x l IH]; intros l' A A' P.
  - apply Permutation_nil in P. congruence.
  - destruct l' as [|y l']; [apply Permutation_sym, Permutation_nil in P; congruence|].
    apply ascending_cons in A. apply ascending_cons in A'.
    assert (x = y).
    { assert (H1 : In x (y :: l')) by (apply (Permutation_in _ P); left; reflexivity).
      assert (H2 : In y (x :: l)) by (apply (Permutation_in _ (Permutation_sym P)); left; reflexivity).
      destruct H1 as [H1|H1]; [auto|]. destruct H2 as [H2|H2]; [auto|].
      pose proof (proj1 A _ H2). pose proof (proj1 A' _ H1). lia. }
    subst y. f_equal. apply IH; [tauto|tauto|]. exact (Permutation_cons_inv P).
Qed.
Lemma sort_vals A B : Permutation (vals A) (vals B) -> vals (sort_addrs A) = vals (sort_addrs B).
Proof.
  intros P. apply asc_unique; [apply sort_asc|apply sort_asc|].
  rewrite (Permutation_map a_val (sort_perm A)), (Permutation_map a_val (sort_perm B)). exact P.
Qed.

Definition skips (x : address) (t : address_table) : bool := mem_addr x (at_addrs t) || addr_is x (at_ia t).
Definition added (x : address) (t : address_table) : address_table :=
  mkat (at_max t) (at_ia t) (sort_addrs (at_addrs t ++ [x])).
(** One insertion. *)
Definition one (x : address) (t : address_table) : option address_table :=
  if skips x t then Some t else if zlen (at_addrs t) <? at_max t then Some (added x t) else None.
Lemma insert_cons x l t : assoc_insert (x :: l) t =
  match one x t with Some t' => assoc_insert l t' | None => (Err AddressTableException, t) end.
Proof.
  cbn [assoc_insert]. unfold one, skips, at_add, added. rewrite <- negb_orb.
  destruct (mem_addr x (at_addrs t) || addr_is x (at_ia t)) eqn:E; [reflexivity|]. cbn [negb].
  apply orb_false_iff in E. destruct E as [-> _]. cbn [negb orb].
  destruct (zlen (at_addrs t) >=? at_max t) eqn:G, (zlen (at_addrs t) <? at_max t) eqn:L; try lia; reflexivity.
Qed.
Lemma added_perm x t : Permutation (vals (at_addrs (added x t))) (a_val x :: vals (at_addrs t)).
Proof.
  unfold added. cbn [at_addrs]. rewrite (Permutation_map a_val (sort_perm _)). rewrite map_app. cbn.
  symmetry. apply Permutation_cons_append.
Qed.
Lemma added_len x t : zlen (at_addrs (added x t)) = zlen (at_addrs t) + 1.
Proof.
  pose proof (Permutation_length (added_perm x t)) as P. cbn [length] in P. unfold vals in P.
  rewrite !map_length in P. unfold zlen. lia.
Qed.
Lemma added_mem x y t : mem_addr y (at_addrs (added x t)) = mem_addr y (at_addrs t) || (a_val y =? a_val x).
Proof.
  apply eq_true_iff_eq. rewrite orb_true_iff, !mem_addr_In, Z.eqb_eq. split; intros H.
  - apply (Permutation_in _ (added_perm x t)) in H. destruct H as [H|H]; auto.
  - apply (Permutation_in _ (Permutation_sym (added_perm x t))). cbn. intuition.
Qed.
Lemma one_like x t t' u : like t t' -> one x t = Some u -> exists u', one x t' = Some u' /\ like u u'.
Proof.
  intros L. pose proof L as (M & I & V). unfold one, skips. rewrite (like_mem _ _ x L), (like_len _ _ L), M, I.
  destruct (mem_addr x (at_addrs t) || addr_is x (at_ia t)).
  - intros [= <-]. eauto.
  - destruct (zlen (at_addrs t) <? at_max t); [|discriminate]. intros [= <-].
    exists (added x t'). split; [reflexivity|]. unfold added. split; [exact M|]. split; [exact I|]. cbn [at_addrs].
    apply sort_vals. unfold vals in *. rewrite !map_app, V. reflexivity.
Qed.
Lemma insert_like xs : forall t t' u, like t t' -> assoc_insert xs t = (Ok tt, u) ->
  exists u', assoc_insert xs t' = (Ok tt, u') /\ like u u'.
Proof.
  induction xs as [|x xs IH]; intros t t' u L H.
  - cbn in *. injection H as <-. eauto.
  - rewrite insert_cons in H. destruct (one x t) as [t1|] eqn:E; [|discriminate].
    destruct (one_like x t t' t1 L E) as (t1' & E' & L1). destruct (IH t1 t1' u L1 H) as (u' & H' & L').
    exists u'. rewrite insert_cons, E'. auto.
Qed.
Lemma one_swap x y t t1 t2 : one x t = Some t1 -> one y t1 = Some t2 ->
  exists t1' t2', one y t = Some t1' /\ one x t1' = Some t2' /\ like t2 t2'.
Proof.
  unfold one. destruct (skips x t) eqn:Sx.
  - intros [= <-]. destruct (skips y t) eqn:Sy.
    + intros [= <-]. exists t, t. rewrite Sx. auto using like_refl.
    + destruct (zlen (at_addrs t) <? at_max t) eqn:Lt; [|discriminate]. intros [= <-].
      exists (added y t), (added y t). split; [reflexivity|].
      assert (skips x (added y t) = true) as ->; [|auto using like_refl].
      unfold skips in *. rewrite added_mem. cbn [added at_ia]. destruct (mem_addr x (at_addrs t)); [reflexivity|].
      cbn in *. rewrite Sx. apply orb_true_r.
  - destruct (zlen (at_addrs t) <? at_max t) eqn:Lt; [|discriminate]. intros [= <-].
    assert (My : skips y (added x t) = skips y t || (a_val y =? a_val x)).
    { unfold skips. rewrite added_mem. cbn [added at_ia]. destruct (mem_addr y (at_addrs t)), (addr_is y (at_ia t)), (a_val y =? a_val x); reflexivity. }
    assert (Mx : skips x (added y t) = (a_val x =? a_val y)).
    { unfold skips. rewrite added_mem. cbn [added at_ia]. unfold skips in Sx. apply orb_false_iff in Sx. destruct Sx as [-> ->].
      destruct (a_val x =? a_val y); reflexivity. }
    rewrite My. destruct (skips y t) eqn:Sy; cbn [orb].
    + intros [= <-]. exists t, (added x t). rewrite Sx, Lt. auto using like_refl.
    + destruct (a_val y =? a_val x) eqn:E.
      * intros [= <-]. exists (added y t), (added y t). split; [reflexivity|]. rewrite Mx.
        destruct (a_val x =? a_val y) eqn:E'; [|lia]. split; [reflexivity|].
        split; [reflexivity|]. split; [reflexivity|]. unfold added. cbn [at_addrs]. apply sort_vals.
        unfold vals. rewrite !map_app. cbn. apply Z.eqb_eq in E. rewrite E. reflexivity.
      * rewrite added_len. cbn [added at_max]. destruct (zlen (at_addrs t) + 1 <? at_max t) eqn:Lt2; [|discriminate].
        intros [= <-]. exists (added y t), (added x (added y t)). split; [reflexivity|]. rewrite Mx.
        destruct (a_val x =? a_val y) eqn:E'; [lia|]. rewrite added_len. cbn [added at_max]. rewrite Lt2.
        split; [reflexivity|]. split; [reflexivity|]. split; [reflexivity|].
        apply asc_unique; [apply sort_asc|apply sort_asc|].
        change (mkat (at_max t) (at_ia t) (sort_addrs (at_addrs t ++ [x]))) with (added x t).
        change (mkat (at_max t) (at_ia t) (sort_addrs (at_addrs t ++ [y]))) with (added y t).
        etransitivity; [exact (added_perm x (added y t))|]. etransitivity; [|symmetry; exact (added_perm y (added x t))].
        rewrite (added_perm y t), (added_perm x t). apply perm_swap.
Qed.
Lemma insert_perm xs ys : Permutation xs ys -> forall t u, assoc_insert xs t = (Ok tt, u) ->
  exists u', assoc_insert ys t = (Ok tt, u') /\ like u u'.
Proof.
  induction 1 as [|x l l' P IH|x y l|l l' l'' P1 IH1 P2 IH2]; intros t u H.
  - exists u. split; [exact H|apply like_refl].
  - rewrite insert_cons in H. destruct (one x t) as [t1|] eqn:E; [|discriminate].
    destruct (IH t1 u H) as (u' & H' & L). exists u'. rewrite insert_cons, E. auto.
  - rewrite insert_cons in H. destruct (one y t) as [t1|] eqn:E1; [|discriminate].
    rewrite insert_cons in H. destruct (one x t1) as [t2|] eqn:E2; [|discriminate].
    destruct (one_swap y x t t1 t2 E1 E2) as (t1' & t2' & E1' & E2' & L).
    destruct (insert_like l t2 t2' u L H) as (u' & H' & L'). exists u'.
    rewrite insert_cons, E1', insert_cons, E2'. auto.
  - destruct (IH1 t u H) as (u1 & H1 & L1). destruct (IH2 t u1 H1) as (u2 & H2 & L2). exists u2.
    split; [exact H2|]. exact (like_trans _ _ _ L1 L2).
Qed.

(** ** Calls that are shuffled are a permutation of each other *)

Lemma filter_about_app v h1 h2 : filter (fun c => about c =? v) (h1 ++ h2) =
  filter (fun c => about c =? v) h1 ++ filter (fun c => about c =? v) h2.
Proof. apply filter_app. Qed.
Lemma first_about c h' rest : filter (fun d => about d =? about c) h' = c :: rest ->
  exists p q, h' = p ++ c :: q /\ filter (fun d => about d =? about c) p = [].
Proof.
  induction h' as [|d h' IH]; [discriminate|]. cbn [filter]. destruct (about d =? about c) eqn:E.
  - intros [= -> _]. exists [], h'. auto.
  - intros H. destruct (IH H) as (p & q & -> & F). exists (d :: p), q. split; [reflexivity|].
    cbn [filter]. rewrite E. exact F.
Qed.
Lemma shuffled_perm h : forall h', shuffled h h' -> Permutation h h'.
Proof.
  induction h as [|c h IH]; intros h' S.
  - destruct h' as [|d h']; [reflexivity|]. specialize (S (about d)). cbn in S. rewrite Z.eqb_refl in S. discriminate.
  - pose proof (S (about c)) as Sc. cbn [filter] in Sc. rewrite Z.eqb_refl in Sc. symmetry in Sc.
    destruct (first_about c h' _ Sc) as (p & q & -> & F).
    apply Permutation_cons_app. apply IH. intros v. specialize (S v).
    rewrite filter_about_app in *. cbn [filter] in S. destruct (about c =? v) eqn:E.
    + apply Z.eqb_eq in E. subst v. rewrite F in *. cbn in *. congruence.
    + exact S.
Qed.
Lemma perm_only h h' : Permutation h h' -> only_associates h -> only_associates h'.
Proof. intros P H. exact (Permutation_Forall P H). Qed.

(** ** Runs of associate calls *)

Definition addrs_of (c : as_call) : list address :=
  match c with Associate _ l => l | Disassociate _ l => l end.
Lemma insert_app l1 : forall l2 t, assoc_insert (l1 ++ l2) t =
  match assoc_insert l1 t with (Ok _, t') => assoc_insert l2 t' | (Err e, t') => (Err e, t') end.
Proof.
  induction l1 as [|x l1 IH]; intros l2 t; [reflexivity|]. cbn [app]. rewrite !insert_cons.
  destruct (one x t); [apply IH|reflexivity].
Qed.
Lemma run_insert h : forall s os s', as_run s h = (os, s') -> all_ok os -> only_associates h ->
  assoc_insert (flat_map addrs_of h) (as_table s) = (Ok tt, as_table s').
Proof.
  induction h as [|c h IH]; intros s os s' H A O.
  - injection H as _ <-. reflexivity.
  - apply as_run_cons in H. destruct H as (o & s1 & os1 & E1 & E2 & ->).
    inversion A as [|? ? Ho Hos]. inversion O as [|? ? Hc Hr]. subst.
    destruct c as [a l|a l]; [|destruct Hc]. cbn [as_do] in E1. apply associate_ok in E1. destruct E1 as (_ & _ & E1).
    cbn [flat_map addrs_of]. rewrite insert_app, E1. exact (IH _ _ _ E2 Hos Hr).
Qed.
Lemma insert_run h : forall s u, only_associates h ->
  assoc_insert (flat_map addrs_of h) (as_table s) = (Ok tt, u) ->
  exists os s', as_run s h = (os, s') /\ all_ok os /\ as_table s' = u.
Proof.
  induction h as [|c h IH]; intros s u O H.
  - injection H as <-. exists [], s. repeat split. constructor.
  - inversion O as [|? ? Hc Hr]. subst. destruct c as [a l|a l]; [|destruct Hc].
    cbn [flat_map addrs_of] in H. rewrite insert_app in H. destruct (assoc_insert l (as_table s)) as [[[]|e] t1] eqn:E; [|discriminate].
    set (s1 := mkassoc t1 (asap_append a l (as_addresses s)) (rebuild_tsaps t1 (asap_append a l (as_addresses s)))).
    destruct (IH s1 u Hr H) as (os & s' & R & A & T). exists (Ok tt :: os), s'.
    cbn [as_run as_do]. unfold associate. rewrite E. fold s1. rewrite R. repeat split; [|exact T]. constructor; auto.
Qed.
Lemma run_built t l h os s : as_run (mkassoc t [] []) (initial_calls t l ++ h) = (os, s) -> all_ok os -> built t l h s.
Proof.
  intros H A. apply as_run_app in H. destruct H as (os1 & s1 & os2 & H1 & H2 & ->).
  apply Forall_app in A. destruct A as [A1 A2]. exists s1, os2. split; [|auto].
  unfold assoc_new, initial_calls in *. cbn [as_run as_do] in H1.
  destruct (associate _ [at_ia t] (mkassoc t [] [])) as [o s0].
  destruct (as_run s0 (map (fun p => Associate (fst p) [snd p]) l)) as [os3 s3] eqn:E3. injection H1 as <- <-.
  inversion A1 as [|? ? Ho A3]. subst.
  assert (assoc_init l s0 = (Ok tt, s3)) as ->; [|reflexivity].
  clear - E3 A3. revert s0 os3 E3 A3. induction l as [|[a x] l IH]; intros s0 os3 E A.
  - cbn in *. injection E as _ <-. reflexivity.
  - cbn [map fst snd as_run as_do] in E. cbn [assoc_init].
    destruct (associate a [x] s0) as [o s1]. destruct (as_run s1 _) as [os4 s4] eqn:E4. injection E as <- <-.
    inversion A as [|? ? Ho A4]. subst. exact (IH _ _ E4 A4).
Qed.
Lemma initial_only t l : only_associates (initial_calls t l).
Proof. constructor; [exact Logic.I|]. apply Forall_map, Forall_forall. intros; exact Logic.I. Qed.
Lemma said_only t l h : only_associates h -> only_associates (said_by t l h).
Proof. intros H. apply Forall_app. split; [apply initial_only|exact H]. Qed.
Lemma said_only_inv t l h : only_associates (said_by t l h) -> only_associates h.
Proof. intros H. apply Forall_app in H. tauto. Qed.
Lemma flat_map_perm {A B} (f : A -> list B) l l' : Permutation l l' -> Permutation (flat_map f l) (flat_map f l').
Proof. apply Permutation_flat_map. Qed.

Lemma order_accepted t l h s l' h' : built t l h s -> only_associates h -> shuffled (said_by t l h) (said_by t l' h') ->
  exists s', built t l' h' s' /\ like (as_table s) (as_table s').
Proof.
  intros B O S. apply built_run in B. destruct B as (os & R & A). fold (said_by t l h) in R.
  pose proof (shuffled_perm _ _ S) as P. pose proof (run_insert _ _ _ _ R A (said_only _ _ _ O)) as I.
  destruct (insert_perm _ _ (Permutation_flat_map addrs_of P) _ _ I) as (u & I' & L).
  destruct (insert_run (said_by t l' h') (mkassoc t [] []) u) as (os' & s' & R' & A' & T).
  - exact (perm_only _ _ P (said_only _ _ _ O)).
  - exact I'.
  - exists s'. split; [exact (run_built _ _ _ _ _ R' A')|]. rewrite T. exact L.
Qed.

(** ** Two tables with the same view *)

Definition reach (s : assoc_table) (tsap : option Z) (go : gobj_table) : res (list (asap * dpt_class)) :=
  do asaps <- as_get_asaps s tsap; Ok (filter (fun p => existsb (asap_eqb (fst p)) asaps) go).
Definition twins (a a' : assoc_table) : Prop :=
  like (as_table a) (as_table a') /\
  (forall b, as_get_tsaps a' b = as_get_tsaps a b) /\
  (forall tsap go, reach a' tsap go = reach a tsap go).

Lemma like_tsap t t' x : like t t' -> at_get_tsap t' x = at_get_tsap t x.
Proof.
  intros (_ & I & V). unfold at_get_tsap. rewrite I.
  assert (index_of x (at_addrs t') = index_of x (at_addrs t)) as ->; [|reflexivity].
  revert V. generalize (at_addrs t) as l. induction (at_addrs t') as [|b r IH]; intros [|c l] V; try discriminate; [reflexivity|].
  cbn in V. cbn [index_of]. unfold addr_eqb. assert (V1 : a_val b = a_val c) by congruence.
  rewrite V1. rewrite (IH l); [reflexivity|]. unfold vals. congruence.
Qed.
Lemma shuffled_flat {A} (f : as_call -> list A) v h : (forall c, about c <> v -> f c = []) ->
  flat_map f h = flat_map f (filter (fun c => about c =? v) h).
Proof.
  intros H. induction h as [|c h IH]; [reflexivity|]. cbn [flat_map filter]. destruct (about c =? v) eqn:E.
  - cbn [flat_map]. rewrite IH. reflexivity.
  - rewrite H by lia. exact IH.
Qed.
Lemma given_about v c : about c <> v -> given1 v c = [].
Proof. destruct c as [a l|a l]; cbn; [|reflexivity]. intros H. destruct (asap_value a =? v) eqn:E; [lia|reflexivity]. Qed.
Lemma introduced_about v h : existsb (introduced1 v) h = existsb (introduced1 v) (filter (fun c => about c =? v) h).
Proof.
  induction h as [|c h IH]; [reflexivity|]. cbn [existsb filter]. destruct (about c =? v) eqn:E.
  - cbn [existsb]. rewrite IH. reflexivity.
  - assert (introduced1 v c = false) as ->; [|exact IH]. destruct c; cbn in *; [exact E|reflexivity].
Qed.

Lemma occ_existsb s s' : (forall v, occ v (map asap_value s) = occ v (map asap_value s')) ->
  forall a, existsb (asap_eqb a) s = existsb (asap_eqb a) s'.
Proof.
  assert (X : forall a (x : list asap), existsb (asap_eqb a) x = true <-> 0 < occ (asap_value a) (map asap_value x)).
  { intros a x. rewrite <- occ_In, in_map_iff, existsb_exists. split.
    - intros (b & Hb & E). exists b. apply asap_eqb_spec in E. auto.
    - intros (b & E & Hb). exists b. split; [exact Hb|]. apply asap_eqb_spec. auto. }
  intros H a. apply eq_true_iff_eq. rewrite !X, H. reflexivity.
Qed.

Lemma filter_same_vals (P P' : address -> bool) : (forall x y, a_val x = a_val y -> P x = P' y) ->
  forall l l', vals l = vals l' -> zlen (filter P l) = zlen (filter P' l').
Proof.
  intros H. induction l as [|x l IH]; intros [|y l'] E; try discriminate; [reflexivity|].
  cbn in E. assert (E1 : a_val x = a_val y) by congruence. assert (E2 : vals l = vals l') by (unfold vals; congruence).
  cbn [filter]. rewrite (H x y E1). specialize (IH l' E2). destruct (P' y); [rewrite !zlen_cons, IH|exact IH]. reflexivity.
Qed.

Lemma order_twins t l h s l' h' s' : built t l h s -> built t l' h' s' -> only_associates h ->
  shuffled (said_by t l h) (said_by t l' h') -> twins s s'.
Proof.
  intros B B' O S.
  assert (L : like (as_table s) (as_table s')).
  { destruct (order_accepted t l h s l' h' B O S) as (s2 & B2 & L). 
    assert (s2 = s') as <-; [|exact L].
    destruct B2 as (x & os & E1 & E2 & _), B' as (x' & os' & E1' & E2' & _). rewrite E1 in E1'. injection E1' as <-. rewrite E2 in E2'. congruence. }
  destruct (built_counts _ _ _ _ B) as [I _]. destruct (built_counts _ _ _ _ B') as [I' _].
  apply built_run in B. apply built_run in B'. destruct B as (os & R & A), B' as (os' & R' & A').
  fold (said_by t l h) in R. fold (said_by t l' h') in R'.
  pose proof (perm_only _ _ (shuffled_perm _ _ S) (said_only t l h O)) as O'.
  assert (K0 : all_known (mkassoc t [] [])) by (intros v x []).
  destruct (as_run_given _ _ _ _ R A (said_only t l h O) K0) as (K & V & D).
  destruct (as_run_given _ _ _ _ R' A' O' K0) as (K' & V' & D').
  assert (VV : forall v, vals (entry (as_addresses s') v) = vals (entry (as_addresses s) v)).
  { intros v. rewrite V, V'. f_equal. rewrite (shuffled_flat (given1 v) v _ (given_about v)).
    rewrite (shuffled_flat (given1 v) v (said_by t l h) (given_about v)). rewrite (S v). reflexivity. }
  split; [exact L|]. split.
  - intros b. specialize (D b). specialize (D' b). rewrite introduced_about in D, D'. rewrite (S (asap_value b)) in D.
    unfold as_get_tsaps.
    destruct (dget asap_eqb b (as_addresses s)) as [e|] eqn:E, (dget asap_eqb b (as_addresses s')) as [e'|] eqn:E'.
    + f_equal. specialize (VV (asap_value b)). rewrite (dget_entry _ _ _ E), (dget_entry _ _ _ E') in VV.
      clear - VV L. revert e VV. induction e' as [|x e' IH]; intros [|y e] VV; try discriminate; [reflexivity|].
      cbn in VV. assert (V1 : a_val x = a_val y) by congruence. cbn [map]. f_equal.
      * unfold as_get_tsap. rewrite (like_tsap _ _ x L). apply get_tsap_val. exact V1.
      * apply IH. unfold vals. congruence.
    + exfalso. apply (proj2 D'); [|reflexivity]. apply D. discriminate.
    + exfalso. apply (proj2 D); [|reflexivity]. apply D'. discriminate.
    + reflexivity.
  - intros tsap go. unfold reach, as_get_asaps. destruct I as [M N], I' as [M' N']. rewrite M, M', !rebuild_get.
    assert (C : forall v, occ v (map asap_value (routed (as_table s') (as_addresses s') tsap)) =
                          occ v (map asap_value (routed (as_table s) (as_addresses s) tsap))).
    { intros v. unfold routed. rewrite !occ_sel by assumption. apply filter_same_vals; [|apply VV].
      intros x y E. rewrite (like_tsap _ _ x L), (get_tsap_val _ x y E). reflexivity. }
    destruct (routed (as_table s') (as_addresses s') tsap) as [|x r], (routed (as_table s) (as_addresses s) tsap) as [|y q]; cbn [oapp rbind].
    + reflexivity.
    + specialize (C (asap_value y)). cbn [map] in C. rewrite occ_cons, Z.eqb_refl in C. cbn in C.
      unfold occ in C. pose proof (zlen_nonneg (filter (Z.eqb (asap_value y)) (map asap_value q))). lia.
    + specialize (C (asap_value x)). cbn [map] in C. rewrite occ_cons, Z.eqb_refl in C. cbn in C.
      unfold occ in C. pose proof (zlen_nonneg (filter (Z.eqb (asap_value x)) (map asap_value r))). lia.
    + f_equal. apply filter_ext. intros p. apply occ_existsb. exact C.
Qed.

(** ** Encoding and decoding see no difference *)

Definition twin_states (s s' : state) : Prop :=
  (exists a a', st_assoc s = Some a /\ st_assoc s' = Some a' /\ twins a a') /\
  st_medium s' = st_medium s /\ st_gobj s' = st_gobj s /\ st_ldata s' = st_ldata s /\ st_asap s' = st_asap s /\
  st_apci s' = st_apci s /\ st_address_type s' = st_address_type s /\ st_remote s' = st_remote s /\
  st_local s' = st_local s /\ st_channel s' = st_channel s.
Lemma tw_tsap s s' : twin_states s s' -> st_get_tsap s' = st_get_tsap s.
Proof.
  intros ((a & a' & E & E' & L & _) & _ & _ & Hl & _). unfold st_get_tsap. rewrite E, E', Hl. cbn [need rbind].
  destruct (st_ldata s); [|reflexivity]. cbn [need rbind]. unfold as_get_tsap. rewrite (like_tsap _ _ _ L). reflexivity.
Qed.
Lemma tw_dpts s s' : twin_states s s' -> st_get_asaps_and_dpts s' = st_get_asaps_and_dpts s.
Proof.
  intros T. unfold st_get_asaps_and_dpts, st_get_asaps. rewrite (tw_tsap _ _ T).
  destruct T as ((a & a' & E & E' & _ & _ & X) & _ & Hg & _). rewrite E, E', Hg.
  destruct (st_get_tsap s) as [tsap|e]; [|reflexivity]. cbn [need rbind].
  destruct (st_gobj s) as [go|]; cbn [need rbind].
  - exact (X tsap go).
  - specialize (X tsap []). unfold reach in X. destruct (as_get_asaps a' tsap), (as_get_asaps a tsap); cbn in *; congruence.
Qed.
Lemma tw_ia s s' : twin_states s s' -> st_individual_address s' = st_individual_address s.
Proof.
  intros ((a & a' & E & E' & (_ & I & _) & _) & _). unfold st_individual_address. rewrite E, E'. cbn.
  unfold as_individual_address. rewrite I. reflexivity.
Qed.
Lemma tw_tsaps s s' : twin_states s s' -> st_get_tsaps s' = st_get_tsaps s.
Proof.
  intros ((a & a' & E & E' & _ & X & _) & _ & _ & _ & Ha & _). unfold st_get_tsaps. rewrite E, E', Ha. cbn.
  destruct (st_asap s); [apply X|reflexivity].
Qed.
Lemma tw_dpt s s' : twin_states s s' -> st_get_dpt s' = st_get_dpt s.
Proof. intros (_ & _ & Hg & _ & Ha & _). unfold st_get_dpt. rewrite Hg, Ha. reflexivity. Qed.
Ltac tw_get := let s := fresh in let s' := fresh in let H := fresh in
  intros s s' H;
  rewrite ?(tw_tsap _ _ H), ?(tw_dpts _ _ H), ?(tw_ia _ _ H), ?(tw_tsaps _ _ H), ?(tw_dpt _ _ H);
  destruct H as (_ & ? & ? & ? & ? & ? & ? & ? & ? & ?);
  repeat match goal with E : _ s' = _ s |- _ => rewrite E; clear E end; reflexivity.
Ltac tw_set := let s := fresh in let s' := fresh in let H := fresh in
  intros s s' H; unfold twin_states in *; cbn; intuition congruence.
Ltac tw_tac := repeat match goal with
  | |- sim _ (mret _) => apply sim_ret
  | |- sim _ (mraise _) => apply sim_raise
  | |- sim _ (mlift _) => apply sim_lift
  | |- sim _ (mmodify _) => apply sim_modify; tw_set
  | |- sim _ (mbind mget _) => apply sim_get; [tw_get|intros]
  | |- sim _ (mbind _ _) => apply sim_bind; [|intros]
  | |- sim _ (match ?x with _ => _ end) => destruct x
  | |- sim _ (let '(_, _) := ?x in _) => destruct x
  end.

Lemma tw_cur_ldata : sim twin_states cur_ldata.
Proof. unfold cur_ldata. tw_tac. Qed.
Lemma tw_decode c m : sim twin_states (decode_msg c m).
Proof.
  assert (G : forall mk mkc k m, sim twin_states (d_group mk mkc k m)).
  { intros. unfold d_group, d_group_value. tw_tac. apply tw_cur_ldata. }
  assert (TG : forall k m, sim twin_states (d_tdata_group k m)).
  { intros. unfold d_tdata_group, d_group_value_read, d_group_value_response, d_group_value_write.
    tw_tac; try apply tw_cur_ldata; apply G. }
  assert (P : forall mk mkc k m, sim twin_states (d_property mk mkc k m)).
  { intros. unfold d_property. tw_tac; try apply tw_cur_ldata. }
  assert (PD : forall k m, sim twin_states (d_property_dispatch k m)).
  { intros. unfold d_property_dispatch, d_property_value_read, d_property_value_response, d_property_value_write.
    tw_tac; try apply tw_cur_ldata; apply P. }
  assert (TI : forall k m, sim twin_states (d_tdata_individual k m)).
  { intros k x. destruct k; cbn [d_tdata_individual]; unfold d_tdata_individual_ind, d_tdata_individual_con.
    - apply sim_bind; [apply tw_cur_ldata|intros]. tw_tac; apply PD.
    - tw_tac; apply PD. }
  assert (LD : forall k m, sim twin_states (d_ldata k m)).
  { intros. unfold d_ldata, d_ndata_individual, d_ndata_group, d_ndata_broadcast, d_todo.
    tw_tac; try apply tw_cur_ldata; try apply TI; try apply TG. }
  assert (MC : forall m, sim twin_states (d_msg_code m)).
  { intros. unfold d_msg_code, d_cemi_ldata. tw_tac; apply LD. }
  assert (F : forall m, sim twin_states (d_feature_identifier m)) by (intros; unfold d_feature_identifier; tw_tac).
  assert (SV : forall m, sim twin_states (d_service_identifier m)) by (intros; unfold d_service_identifier; tw_tac; apply F).
  unfold decode_msg. tw_tac.
  - unfold d_report_identifier, d_packet_info, d_protocol_version, d_header_length, d_body_length, d_protocol_id, d_emi_id.
    tw_tac; try apply MC; apply SV.
  - unfold d_ip_header, d_search_res, d_disconnect_res, d_connect_res, d_connectionstate_res, d_tunneling_req, d_tunneling_ack.
    tw_tac; apply MC.
Qed.

Lemma like_address t t' k : like t t' ->
  match at_get_address t k, at_get_address t' k with
  | Ok x, Ok x' => a_val x = a_val x'
  | Err e, Err e' => e = e'
  | _, _ => False
  end.
Proof.
  intros (_ & I & V). unfold at_get_address. destruct k as [n|]; [|reflexivity]. destruct (1 <=? n) eqn:E; [|congruence].
  rewrite !znth_nth by lia. revert V. generalize (Z.to_nat (n - 1)) as i. intros i V.
  assert (X : nth_error (vals (at_addrs t')) i = nth_error (vals (at_addrs t)) i) by (rewrite V; reflexivity).
  unfold vals in X. rewrite !nth_error_map in X.
  destruct (nth_error (at_addrs t) i), (nth_error (at_addrs t') i); cbn in *; congruence || reflexivity.
Qed.
Lemma like_addresses t t' ks : like t t' ->
  match addresses_of t ks, addresses_of t' ks with
  | Ok l, Ok l' => vals l = vals l'
  | Err e, Err e' => e = e'
  | _, _ => False
  end.
Proof.
  intros L. induction ks as [|k ks IH]; [reflexivity|]. cbn [addresses_of]. pose proof (like_address t t' k L) as X.
  destruct (at_get_address t k), (at_get_address t' k); cbn [rbind]; try contradiction; [|exact X].
  destruct (addresses_of t ks), (addresses_of t' ks); cbn [rbind]; try contradiction; [|exact IH].
  cbn. rewrite X. unfold vals in IH. rewrite IH. reflexivity.
Qed.
Lemma tw_nl m : sim twin_states (nl_encode m).
Proof.
  intros s s' H. unfold nl_encode, mbind, mget, mlift, st_get_addresses. rewrite (tw_tsaps _ _ H).
  pose proof H as ((a & a' & E & E' & L & _) & _). rewrite E, E'.
  destruct (st_get_tsaps s) as [ks|e]; cbn [need rbind]; [|split; [reflexivity|exact H]].
  unfold as_get_addresses. pose proof (like_addresses _ _ ks L) as X.
  destruct (addresses_of (as_table a) ks) as [l|e], (addresses_of (as_table a') ks) as [l'|e']; try contradiction.
  - destruct l as [|x l], l' as [|x' l']; try discriminate; unfold mret; cbn [fst snd]; [auto|].
    cbn in X. assert (X1 : a_val x = a_val x') by congruence. rewrite X1. auto.
  - subst e'. auto.
Qed.
Lemma tw_encode m : sim twin_states (encode_msg m).
Proof.
  assert (CH : forall a b, sim twin_states (e_connection_header a b)).
  { intros. unfold e_connection_header, channel_id. tw_tac. }
  assert (CR : forall m, sim twin_states (e_cemi_req m)).
  { intros. unfold e_cemi_req, e_tunneling_req. tw_tac. apply CH. }
  assert (LL : forall m, sim twin_states (ll_encode m)) by (intros; unfold ll_encode; tw_tac).
  assert (LR : forall m, sim twin_states (e_ldata_req m)).
  { intros. unfold e_ldata_req. tw_tac; [apply LL|apply CR]. }
  assert (LI : forall m, sim twin_states (e_ldata_ind m)).
  { intros. unfold e_ldata_ind, e_cemi_ind. tw_tac. apply LL. }
  assert (TL : forall m, sim twin_states (tl_encode m)) by (intros; unfold tl_encode; tw_tac).
  assert (GR : forall m, sim twin_states (e_tdata_group_req m)).
  { intros. unfold e_tdata_group_req, e_ndata_group_req. tw_tac; [apply TL|apply tw_nl|apply LR]. }
  assert (GI : forall m, sim twin_states (e_tdata_group_ind m)).
  { intros. unfold e_tdata_group_ind, e_ndata_group_ind. tw_tac; [apply TL|apply tw_nl|apply LI]. }
  assert (IR : forall m, sim twin_states (e_tdata_individual_req m)).
  { intros. unfold e_tdata_individual_req, e_ndata_individual_req. tw_tac; apply LR. }
  assert (AL : forall a d, sim twin_states (al_encode a d)) by (intros; unfold al_encode; tw_tac).
  destruct m; cbn [encode_msg]; try apply sim_raise.
  - unfold e_connect_req. tw_tac.
  - unfold e_connectionstate_req, e_channel_req, channel_id. tw_tac.
  - unfold e_disconnect_req, e_channel_req, channel_id. tw_tac.
  - unfold e_search_req. tw_tac.
  - unfold e_tunneling_ack, e_connection_header, channel_id. tw_tac.
  - unfold e_group_value_read. tw_tac. apply GR.
  - unfold e_group_value_write_req. tw_tac; [apply AL|apply GR].
  - unfold e_group_value_write_ind. tw_tac; [apply AL|apply GI].
  - unfold e_property_value_read. tw_tac. apply IR.
  - unfold e_property_value_write. tw_tac. apply IR.
Qed.
Lemma twin_sees us : forall s s', twin_states s s' -> sees s us = sees s' us.
Proof.
  induction us as [|u us IH]; intros s s' T; [reflexivity|]. cbn [sees].
  assert (X : fst (perform s u) = fst (perform s' u) /\ twin_states (snd (perform s u)) (snd (perform s' u))).
  { destruct u as [m|c m]; cbn [perform].
    - destruct (tw_encode m s s' T) as [X Y]. destruct (encode_msg m s), (encode_msg m s'). cbn [fst snd] in *. split; congruence || assumption.
    - destruct (tw_decode c m s s' T) as [X Y]. destruct (decode_msg c m s), (decode_msg c m s'). cbn [fst snd] in *. split; congruence || assumption. }
  destruct X as [-> Y]. f_equal. apply IH. exact Y.
Qed.

(** ** The order of the group object table *)

Definition typed_alike (s s' : state) : Prop :=
  (exists g g', st_gobj s = Some g /\ st_gobj s' = Some g' /\ forall a, dget asap_eqb a g' = dget asap_eqb a g) /\
  st_assoc s' = st_assoc s /\
  st_medium s' = st_medium s /\ st_ldata s' = st_ldata s /\ st_asap s' = st_asap s /\
  st_apci s' = st_apci s /\ st_address_type s' = st_address_type s /\ st_remote s' = st_remote s /\
  st_local s' = st_local s /\ st_channel s' = st_channel s.
Lemma ta_dpt s s' : typed_alike s s' -> st_get_dpt s' = st_get_dpt s.
Proof.
  intros ((g & g' & E & E' & X) & _ & _ & _ & Ha & _). unfold st_get_dpt. rewrite E, E', Ha. cbn.
  destruct (st_asap s); [rewrite X|]; reflexivity.
Qed.
Ltac ta_get := let s := fresh in let s' := fresh in let H := fresh in
  intros s s' H; unfold st_individual_address, st_get_tsaps, st_get_addresses, st_get_tsaps; rewrite ?(ta_dpt _ _ H);
  destruct H as (_ & ? & ? & ? & ? & ? & ? & ? & ? & ?);
  repeat match goal with E : _ s' = _ s |- _ => rewrite E; clear E end; reflexivity.
Ltac ta_set := let s := fresh in let s' := fresh in let H := fresh in
  intros s s' H; unfold typed_alike in *; cbn; intuition congruence.
Ltac ta_tac := repeat match goal with
  | |- sim _ (mret _) => apply sim_ret
  | |- sim _ (mraise _) => apply sim_raise
  | |- sim _ (mlift _) => apply sim_lift
  | |- sim _ (mmodify _) => apply sim_modify; ta_set
  | |- sim _ (mbind mget _) => apply sim_get; [ta_get|intros]
  | |- sim _ (mbind _ _) => apply sim_bind; [|intros]
  | |- sim _ (match ?x with _ => _ end) => destruct x
  | |- sim _ (let '(_, _) := ?x in _) => destruct x
  end.
Lemma ta_encode m : sim typed_alike (encode_msg m).
Proof.
  assert (GR : forall m, sim typed_alike (e_tdata_group_req m)).
  { intros. unfold e_tdata_group_req, e_ndata_group_req, tl_encode, nl_encode, e_ldata_req, ll_encode, e_cemi_req,
      e_tunneling_req, e_connection_header, channel_id. ta_tac. }
  assert (GI : forall m, sim typed_alike (e_tdata_group_ind m)).
  { intros. unfold e_tdata_group_ind, e_ndata_group_ind, tl_encode, nl_encode, e_ldata_ind, ll_encode, e_cemi_ind. ta_tac. }
  assert (IR : forall m, sim typed_alike (e_tdata_individual_req m)).
  { intros. unfold e_tdata_individual_req, e_ndata_individual_req, e_ldata_req, ll_encode, e_cemi_req,
      e_tunneling_req, e_connection_header, channel_id. ta_tac. }
  assert (AL : forall a d, sim typed_alike (al_encode a d)) by (intros; unfold al_encode; ta_tac).
  destruct m; cbn [encode_msg]; try apply sim_raise.
  - unfold e_connect_req. ta_tac.
  - unfold e_connectionstate_req, e_channel_req, channel_id. ta_tac.
  - unfold e_disconnect_req, e_channel_req, channel_id. ta_tac.
  - unfold e_search_req. ta_tac.
  - unfold e_tunneling_ack, e_connection_header, channel_id. ta_tac.
  - unfold e_group_value_read. ta_tac. apply GR.
  - unfold e_group_value_write_req. ta_tac; [apply AL|apply GR].
  - unfold e_group_value_write_ind. ta_tac; [apply AL|apply GI].
  - unfold e_property_value_read. ta_tac. apply IR.
  - unfold e_property_value_write. ta_tac. apply IR.
Qed.
Lemma typed_sees us : forall s s', typed_alike s s' -> only_encodes us -> sees s us = sees s' us.
Proof.
  induction us as [|u us IH]; intros s s' T O; [reflexivity|]. cbn [sees]. inversion O as [|? ? Hu Hr]. subst.
  destruct u as [m|c m]; [|destruct Hu]. cbn [perform].
  destruct (ta_encode m s s' T) as [X Y]. destruct (encode_msg m s), (encode_msg m s'). cbn [fst snd] in *.
  f_equal; [congruence|]. apply IH; assumption.
Qed.
Lemma type_dget g a : type_of g (asap_value a) = dget asap_eqb a g.
Proof.
  unfold type_of. induction g as [|[k c] g IH]; [reflexivity|]. cbn [find dget fst]. unfold asap_eqb at 1.
  destruct (asap_value k =? asap_value a); [reflexivity|exact IH].
Qed.
