(** Proofs about an address table shared with the caller (C71). *)
From Coq Require Import String ZArith List Bool Lia Permutation.
From Verif Require Import Py Address Dpt Tables Base SpecTables TablesProofs AssocProofs SpecShared.
Import ListNotations.
Open Scope Z_scope.

(** ** Counting associations over mixed histories *)

Definition kept (s : assoc_table) : Prop := NoDup (keys (as_addresses s)).
(** Any table with the same associations whose map is up to date. *)
Definition refreshed (s : assoc_table) : assoc_table :=
  mkassoc (as_table s) (as_addresses s) (rebuild_tsaps (as_table s) (as_addresses s)).
Lemma refreshed_inv s : kept s -> inv (refreshed s).
Proof. intros K. split; [reflexivity|exact K]. Qed.
Lemma as_do_refreshed s c s' : as_do s c = (Ok tt, s') -> as_do (refreshed s) c = (Ok tt, s').
Proof.
  destruct c as [a l|a l]; cbn; unfold associate, disassociate; cbn [refreshed as_table as_addresses as_tsaps].
  - destruct (assoc_insert l (as_table s)) as [[u|e] t']; [auto|discriminate].
  - destruct (disassoc_loop a l (as_table s) (as_addresses s)) as [[u|e] [t' d]]; [auto|discriminate].
Qed.
Lemma as_do_shared s c s' : kept s -> as_do s c = (Ok tt, s') ->
  inv s' /\ forall v g, occ g (vals (entry (as_addresses s') v)) =
                        occ g (vals (entry (as_addresses s) v)) + balance1 v g c.
Proof. intros K H. exact (as_do_ok (refreshed s) c s' (refreshed_inv s K) (as_do_refreshed s c s' H)). Qed.

Lemma zsum_cons a l : zsum (a :: l) = a + zsum l.
Proof. reflexivity. Qed.
Lemma shared_counts h : forall s s', kept s -> shared_run s h = Some s' ->
  kept s' /\ forall v g, occ g (vals (entry (as_addresses s') v)) =
             occ g (vals (entry (as_addresses s) v)) + zsum (map (balance1 v g) (through h)).
Proof.
  induction h as [|[c|c] r IH]; intros s s' K H.
  - injection H as <-. split; [exact K|]. intros. cbn. lia.
  - cbn [shared_run] in H. destruct (as_do s c) as [[[]|e] s1] eqn:E; [|discriminate].
    destruct (as_do_shared s c s1 K E) as [I C]. destruct (IH s1 s' (inv_keys _ I) H) as [K' C'].
    split; [exact K'|]. intros v g. rewrite C', C. change (through (Through c :: r)) with (c :: through r).
    cbn [map]. rewrite zsum_cons. lia.
  - cbn [shared_run] in H. unfold as_direct in H. destruct (at_do (as_table s) c) as [o t].
    cbn [snd] in H. destruct (IH (mkassoc t (as_addresses s) (as_tsaps s)) s' K H) as [K' C']. split; [exact K'|]. exact C'.
Qed.
Lemma shared_run_app h1 : forall s h2, shared_run s (h1 ++ h2) =
  match shared_run s h1 with Some s1 => shared_run s1 h2 | None => None end.
Proof.
  induction h1 as [|[c|c] r IH]; intros s h2; [reflexivity| |]; cbn [shared_run app].
  - destruct (as_do s c) as [[u|e] s1]; [apply IH|reflexivity].
  - apply IH.
Qed.
Lemma zsum_app a b : zsum (a ++ b) = zsum a + zsum b.
Proof. induction a as [|x a IH]; [reflexivity|]. cbn [app]. rewrite !zsum_cons, IH. lia. Qed.
Lemma new_counts t l s0 : assoc_new t l = Ok s0 ->
  inv s0 /\ forall v g, occ g (vals (entry (as_addresses s0) v)) = balance t l [] v g.
Proof.
  intros H. apply (built_counts t l [] s0). exists s0, []. split; [exact H|]. split; [reflexivity|constructor].
Qed.
Lemma shared_balance t l s0 h s : assoc_new t l = Ok s0 -> shared_run s0 h = Some s ->
  kept s /\ forall v g, occ g (vals (entry (as_addresses s) v)) = balance t l (through h) v g.
Proof.
  intros H0 H. destruct (new_counts t l s0 H0) as [I C].
  destruct (shared_counts h s0 s (inv_keys _ I) H) as [K C']. split; [exact K|].
  intros v g. rewrite C', C. unfold balance. rewrite app_nil_r, map_app, zsum_app. reflexivity.
Qed.

Lemma inv_routing s g : inv s -> known (as_table s) (a_val g) ->
  match as_get_asaps_from_address s g with
  | Ok L => L <> [] /\ forall v, occ v (map asap_value L) = occ (a_val g) (vals (entry (as_addresses s) v))
  | Err e => e = KeyError /\ forall v, occ (a_val g) (vals (entry (as_addresses s) v)) = 0
  end.
Proof.
  intros I K. apply get_tsap_known in K. rewrite get_asaps_routed by assumption.
  destruct (at_get_tsap (as_table s) g) as [k|] eqn:E; [|congruence].
  pose proof (fun v => routed_counts s g k v I E) as R.
  destruct (routed (as_table s) (as_addresses s) (Some k)) as [|x L] eqn:EL.
  - split; [reflexivity|]. intros v. rewrite <- R. reflexivity.
  - split; [discriminate|]. intros v. rewrite <- R. reflexivity.
Qed.
Lemma through_app a b : through (a ++ b) = through a ++ through b.
Proof. apply flat_map_app. Qed.
Lemma refresh_routing t l s0 h c s g : assoc_new t l = Ok s0 -> shared_run s0 (h ++ [Through c]) = Some s ->
  known (as_table s) (a_val g) ->
  match as_get_asaps_from_address s g with
  | Ok L => L <> [] /\ forall v, occ v (map asap_value L) = balance t l (through h ++ [c]) v (a_val g)
  | Err e => e = KeyError /\ forall v, balance t l (through h ++ [c]) v (a_val g) = 0
  end.
Proof.
  intros H0 H K. pose proof (shared_balance t l s0 _ s H0 H) as [_ B].
  assert (I : inv s).
  { rewrite shared_run_app in H. destruct (shared_run s0 h) as [s1|] eqn:E; [|discriminate].
    pose proof (shared_balance t l s0 h s1 H0 E) as [K1 _].
    cbn in H. destruct (as_do s1 c) as [[[]|e] s2] eqn:Ec; [|discriminate]. injection H as <-.
    exact (proj1 (as_do_shared s1 c s2 K1 Ec)). }
  rewrite through_app in B. change (through [Through c]) with [c] in B.
  pose proof (inv_routing s g I K) as R. destruct (as_get_asaps_from_address s g) as [L|e];
    destruct R as [R1 R2]; (split; [exact R1|]); intros v; rewrite <- B; apply R2.
Qed.

(** Sending needs no map. *)
Lemma shared_sends t l s0 h s b : assoc_new t l = Ok s0 -> shared_run s0 h = Some s ->
  match sends_to s b with
  | Ok L => (forall g, balance t l (through h) (asap_value b) g = occ g (vals L)) /\
            (forall g, 0 < balance t l (through h) (asap_value b) g -> known (as_table s) g)
  | Err KeyError => dget asap_eqb b (as_addresses s) = None
  | Err e => e = TypeError /\ exists g, 0 < balance t l (through h) (asap_value b) g /\ ~ known (as_table s) g
  end.
Proof.
  intros H0 H. pose proof (shared_balance t l s0 _ s H0 H) as [_ B]. rewrite sends_to_targets.
  destruct (dget asap_eqb b (as_addresses s)) as [L|] eqn:E; [|reflexivity].
  apply dget_entry in E. specialize (B (asap_value b)). rewrite E in B.
  assert (D : (forall x, In x L -> known (as_table s) (a_val x)) \/ exists x, In x L /\ ~ known (as_table s) (a_val x)).
  { clear. induction L as [|x r IH]; [left; intros x []|].
    destruct (known_dec (as_table s) (a_val x)) as [K|K]; [|right; exists x; cbn; auto].
    destruct IH as [IH|(y & I & N)]; [left; intros y [<-|I]; auto|right; exists y; cbn; auto]. }
  destruct D as [D|(x & I & N)].
  - destruct (targets_known (as_table s) L D) as (L' & -> & EL). split.
    + intros g. rewrite EL. symmetry. apply B.
    + intros g P. rewrite <- B in P. apply occ_In in P. apply in_map_iff in P. destruct P as (x & <- & I). exact (D x I).
  - rewrite (targets_unknown _ L x I N). split; [reflexivity|]. exists (a_val x). split; [|exact N].
    rewrite <- B. apply occ_In, in_map, I.
Qed.

(** ** What a direct call does until the next refresh *)

Lemma strict_cons x l : strictly_ascending (x :: l) <-> (forall y, In y l -> x < y) /\ strictly_ascending l.
Proof.
  revert x. induction l as [|y r IH]; intros x; [cbn; intuition|].
  split.
  - intros [H1 H2]. split; [|exact H2]. intros z [<-|I]; [exact H1|].
    apply IH in H2. destruct H2 as [H2 _]. specialize (H2 z I). lia.
  - intros [H1 H2]. split; [apply H1; left; reflexivity|exact H2].
Qed.
Lemma index_nth l : strictly_ascending (vals l) -> forall i b, nth_error l i = Some b -> index_of b l = Some (Z.of_nat i).
Proof.
  induction l as [|x r IH]; intros S i b E; [destruct i; discriminate|].
  apply strict_cons in S. destruct S as [S1 S2]. destruct i as [|i]; cbn in E |- *.
  - injection E as <-. rewrite addr_eqb_refl. reflexivity.
  - destruct (addr_eqb x b) eqn:Q.
    + apply addr_eqb_val in Q. apply nth_error_In in E. specialize (S1 (a_val b) (in_map a_val _ _ E)). lia.
    + rewrite (IH S2 i b E). f_equal. lia.
Qed.
Lemma tsap_nth t i b : strictly_ascending (vals (at_addrs t)) -> nth_error (at_addrs t) i = Some b ->
  at_get_tsap t b = Some (Z.of_nat i + 1).
Proof. intros S E. unfold at_get_tsap. rewrite (index_nth _ S i b E). reflexivity. Qed.

Lemma insert_last a l : (forall b, In b l -> a_val b <= a_val a) -> insert_sorted a l = l ++ [a].
Proof.
  induction l as [|b r IH]; intros H; [reflexivity|]. cbn.
  rewrite (proj2 (Z.ltb_ge _ _)) by (apply H; left; reflexivity). f_equal. apply IH. intros c I. apply H. right. exact I.
Qed.
Lemma insert_middle x before after : (forall b, In b before -> a_val b < a_val x) ->
  (forall b, In b after -> a_val x < a_val b) -> insert_sorted x (before ++ after) = before ++ x :: after.
Proof.
  induction before as [|b r IH]; intros H1 H2; cbn.
  - destruct after as [|c r]; [reflexivity|]. cbn. rewrite (proj2 (Z.ltb_lt _ _)) by (apply H2; left; reflexivity). reflexivity.
  - rewrite (proj2 (Z.ltb_ge _ _)) by (specialize (H1 b (or_introl eq_refl)); lia). f_equal. apply IH; [|exact H2].
    intros c I. apply H1. right. exact I.
Qed.
Lemma sort_from_sorted l : forall acc, strictly_ascending (vals (acc ++ l)) -> sort_from acc l = acc ++ l.
Proof.
  induction l as [|a r IH]; intros acc S; cbn; [rewrite app_nil_r; reflexivity|].
  rewrite insert_last.
  - rewrite IH; rewrite <- app_assoc; [reflexivity|exact S].
  - intros b I. clear IH. induction acc as [|c acc IHa]; [destruct I|]. cbn in S. apply strict_cons in S. destruct S as [S1 S2].
    destruct I as [<-|I]; [|apply IHa; assumption].
    specialize (S1 (a_val a)). unfold vals in S1. rewrite map_app, in_app_iff in S1. cbn in S1. intuition lia.
Qed.
Lemma sort_from_app l1 : forall acc l2, sort_from acc (l1 ++ l2) = sort_from (sort_from acc l1) l2.
Proof. induction l1 as [|a r IH]; intros acc l2; [reflexivity|]. apply IH. Qed.
Lemma sort_sorted l : strictly_ascending (vals l) -> sort_addrs l = l.
Proof. intros S. exact (sort_from_sorted l [] S). Qed.
Lemma sort_append x before after : strictly_ascending (vals (before ++ after)) ->
  (forall b, In b before -> a_val b < a_val x) -> (forall b, In b after -> a_val x < a_val b) ->
  sort_addrs ((before ++ after) ++ [x]) = before ++ x :: after.
Proof.
  intros S H1 H2. unfold sort_addrs. rewrite sort_from_app. fold (sort_addrs (before ++ after)).
  rewrite sort_sorted by exact S. apply insert_middle; assumption.
Qed.
Lemma strict_app l1 l2 : strictly_ascending (l1 ++ l2) <->
  strictly_ascending l1 /\ strictly_ascending l2 /\ forall a b, In a l1 -> In b l2 -> a < b.
Proof.
  induction l1 as [|x r IH].
  - cbn. intuition.
  - cbn [app]. rewrite !strict_cons, IH. split.
    + intros (H1 & H2 & H3 & H4). split; [split; [intros y I; apply H1, in_app_iff; auto|exact H2]|].
      split; [exact H3|]. intros a b [<-|I] J; [apply H1, in_app_iff; auto|apply H4; assumption].
    + intros ([H1 H2] & H3 & H4). split.
      * intros y I. apply in_app_iff in I. destruct I as [I|I]; [auto|apply H4; [left; reflexivity|exact I]].
      * split; [exact H2|]. split; [exact H3|]. intros a b I J. apply H4; [right; exact I|exact J].
Qed.
Lemma strict_insert x before after : strictly_ascending (vals (before ++ after)) ->
  (forall b, In b before -> a_val b < a_val x) -> (forall b, In b after -> a_val x < a_val b) ->
  strictly_ascending (vals (before ++ x :: after)).
Proof.
  unfold vals. rewrite !map_app. cbn [map]. intros S H1 H2. apply strict_app in S. destruct S as (S1 & S2 & S3).
  apply strict_app. split; [exact S1|]. split.
  - apply strict_cons. split; [|exact S2]. intros y I. apply in_map_iff in I. destruct I as (b & <- & I). auto.
  - intros a b I [<-|J]; [apply in_map_iff in I; destruct I as (c & <- & I); auto|auto].
Qed.

(** TSAPs above the number of addresses are not in the map. *)
Lemma tsap_bound t x k : at_get_tsap t x = Some k -> 0 <= k <= zlen (at_addrs t).
Proof.
  unfold at_get_tsap. destruct (index_of x (at_addrs t)) as [i|] eqn:E.
  - intros [= <-]. apply index_of_Some in E. lia.
  - destruct (addr_eqb x (at_ia t)); [|discriminate]. intros [= <-]. pose proof (zlen_nonneg (at_addrs t)). lia.
Qed.
Lemma map_bound s k : inv s -> zlen (at_addrs (as_table s)) < k -> as_get_asaps s (Some k) = Err KeyError.
Proof.
  intros I H. unfold as_get_asaps. rewrite (inv_map _ I), rebuild_get.
  assert (routed (as_table s) (as_addresses s) (Some k) = []) as ->; [|reflexivity].
  unfold routed. induction (as_addresses s) as [|[a l] d IH]; [reflexivity|]. cbn [flat_map]. rewrite IH, app_nil_r.
  unfold sel. cbn. assert (filter (fun x => oz_eqb (at_get_tsap (as_table s) x) (Some k)) l = []) as ->; [|reflexivity].
  induction l as [|x r IHl]; [reflexivity|]. cbn. destruct (oz_eqb _ _) eqn:E; [|exact IHl].
  apply oz_eqb_spec in E. apply tsap_bound in E. lia.
Qed.

Lemma direct_as s c o s' : as_direct s c = (o, s') ->
  as_table s' = snd (at_do (as_table s) c) /\ as_addresses s' = as_addresses s /\ as_tsaps s' = as_tsaps s /\
  o = fst (at_do (as_table s) c).
Proof. unfold as_direct. destruct (at_do (as_table s) c) as [o1 t]. intros [= <- <-]. auto. Qed.
Lemma get_asaps_tsaps s s' k : as_tsaps s' = as_tsaps s -> as_get_asaps s' k = as_get_asaps s k.
Proof. intros E. unfold as_get_asaps. rewrite E. reflexivity. Qed.

Lemma add_shifts s x s' before after : inv s -> as_direct s (AtAdd x) = (Ok tt, s') ->
  at_addrs (as_table s) = before ++ after -> strictly_ascending (vals (before ++ after)) ->
  (forall b, In b before -> a_val b < a_val x) -> (forall b, In b after -> a_val x < a_val b) ->
  (forall b, In b before -> as_get_asaps_from_address s' b = as_get_asaps_from_address s b) /\
  (forall i b c, nth_error (x :: after) i = Some b -> nth_error after i = Some c ->
     as_get_asaps_from_address s' b = as_get_asaps_from_address s c) /\
  (forall i b, nth_error (x :: after) i = Some b -> nth_error after i = None ->
     as_get_asaps_from_address s' b = Err KeyError) /\
  at_addrs (as_table s') = before ++ x :: after.
Proof.
  intros I H A S L1 L2. apply direct_as in H. destruct H as (H1 & H2 & H3 & H4). cbn in H1, H4.
  assert (M : mem_addr x (at_addrs (as_table s)) = false).
  { apply mem_addr_nIn. rewrite A. unfold vals. intros J. apply in_map_iff in J. destruct J as (b & E & J).
    apply in_app_iff in J. destruct J as [J|J]; [specialize (L1 b J)|specialize (L2 b J)]; lia. }
  unfold at_add in H1, H4. rewrite M in H1, H4. cbn in H1, H4.
  destruct (zlen (at_addrs (as_table s)) >=? at_max (as_table s)); [discriminate H4|]. cbn in H1.
  assert (A' : at_addrs (as_table s') = before ++ x :: after).
  { rewrite H1, A. cbn. apply sort_append; assumption. }
  pose proof (strict_insert x before after S L1 L2) as S'.
  unfold as_get_asaps_from_address.
  split; [|split; [|split; [|exact A']]].
  - intros b J. rewrite (get_asaps_tsaps s s' _ H3). apply In_nth_error in J. destruct J as [i E].
    assert (i < length before)%nat by (apply nth_error_Some; congruence).
    rewrite (tsap_nth (as_table s') i b), (tsap_nth (as_table s) i b); rewrite ?A, ?A'; try assumption; try reflexivity;
      rewrite nth_error_app1; assumption.
  - intros i b c E1 E2. rewrite (get_asaps_tsaps s s' _ H3).
    rewrite (tsap_nth (as_table s') (length before + i) b), (tsap_nth (as_table s) (length before + i) c);
      rewrite ?A, ?A'; try assumption; try reflexivity; rewrite nth_error_app2 by lia;
      replace (length before + i - length before)%nat with i by lia; assumption.
  - intros i b E1 E2. rewrite (get_asaps_tsaps s s' _ H3).
    rewrite (tsap_nth (as_table s') (length before + i) b).
    + apply map_bound; [exact I|]. rewrite A. unfold zlen. rewrite app_length. apply nth_error_None in E2. lia.
    + rewrite A'. exact S'.
    + rewrite A', nth_error_app2 by lia. replace (length before + i - length before)%nat with i by lia. exact E1.
Qed.

Lemma remove_first_middle x y before after : a_val x = a_val y -> (forall b, In b before -> a_val b <> a_val x) ->
  remove_first x (before ++ y :: after) = Some (before ++ after).
Proof.
  intros E. induction before as [|b r IH]; intros H; cbn.
  - rewrite (proj2 (addr_eqb_val y x)) by congruence. reflexivity.
  - rewrite (proj2 (addr_eqb_nval b x)) by (apply H; left; reflexivity). rewrite IH; [reflexivity|].
    intros c I. apply H. right. exact I.
Qed.
Lemma remove_shifts s x y s' before after : inv s -> as_direct s (AtRemove x) = (Ok tt, s') -> a_val x = a_val y ->
  at_addrs (as_table s) = before ++ y :: after -> strictly_ascending (vals (before ++ y :: after)) ->
  (forall b, In b before -> as_get_asaps_from_address s' b = as_get_asaps_from_address s b) /\
  (forall i b c, nth_error after i = Some b -> nth_error (y :: after) i = Some c ->
     as_get_asaps_from_address s' b = as_get_asaps_from_address s c) /\
  at_addrs (as_table s') = before ++ after.
Proof.
  intros I H E A S. apply direct_as in H. destruct H as (H1 & H2 & H3 & H4). cbn in H1, H4.
  pose proof S as S0. unfold vals in S. rewrite map_app in S. cbn [map] in S. apply strict_app in S. destruct S as (S1 & S2 & S3).
  assert (S' : strictly_ascending (vals (before ++ after))).
  { unfold vals. rewrite map_app. apply strict_app. split; [exact S1|]. apply strict_cons in S2. split; [apply S2|].
    intros a b P Q. apply S3; [exact P|right; exact Q]. }
  unfold at_remove in H1. rewrite A, (remove_first_middle x y before after E) in H1.
  2:{ intros b J. specialize (S3 (a_val b) (a_val y) (in_map a_val _ _ J) (or_introl eq_refl)). lia. }
  cbn in H1.
  assert (A' : at_addrs (as_table s') = before ++ after) by (rewrite H1; cbn; apply sort_sorted; exact S').
  unfold as_get_asaps_from_address. split; [|split; [|exact A']].
  - intros b J. rewrite (get_asaps_tsaps s s' _ H3). apply In_nth_error in J. destruct J as [i Ei].
    assert (i < length before)%nat by (apply nth_error_Some; congruence).
    rewrite (tsap_nth (as_table s') i b), (tsap_nth (as_table s) i b); rewrite ?A, ?A'; try assumption; try reflexivity;
      rewrite nth_error_app1; assumption.
  - intros i b c E1 E2. rewrite (get_asaps_tsaps s s' _ H3).
    rewrite (tsap_nth (as_table s') (length before + i) b), (tsap_nth (as_table s) (length before + i) c);
      rewrite ?A, ?A'; try assumption; try reflexivity; rewrite nth_error_app2 by lia;
      replace (length before + i - length before)%nat with i by lia; assumption.
Qed.

Lemma readdress s ia s' o : as_direct s (AtSetIA ia) = (o, s') ->
  o = Ok tt /\
  (forall g, In (a_val g) (vals (at_addrs (as_table s))) ->
     as_get_asaps_from_address s' g = as_get_asaps_from_address s g) /\
  (~ In (a_val ia) (vals (at_addrs (as_table s))) ->
   ~ In (a_val (at_ia (as_table s))) (vals (at_addrs (as_table s))) ->
     as_get_asaps_from_address s' ia = as_get_asaps_from_address s (at_ia (as_table s))).
Proof.
  intros H. apply direct_as in H. destruct H as (H1 & H2 & H3 & H4). cbn in H1, H4. split; [exact H4|].
  unfold as_get_asaps_from_address. split.
  - intros g J. rewrite (get_asaps_tsaps s s' _ H3). f_equal. unfold at_get_tsap. rewrite H1. cbn.
    destruct (index_of g (at_addrs (as_table s))) eqn:E; [reflexivity|]. apply index_of_None in E. contradiction.
  - intros N1 N2. rewrite (get_asaps_tsaps s s' _ H3), (get_tsap_ia (as_table s)) by (assumption || reflexivity).
    rewrite (get_tsap_ia (as_table s')); [reflexivity|rewrite H1; exact N1|rewrite H1; reflexivity].
Qed.

(** ** The ASAPs of a mixed history *)

Lemma uses_In l : forall acc x, In x (uses acc l) <-> In x acc \/ In x l.
Proof.
  induction l as [|y r IH]; intros acc x; [cbn; tauto|]. cbn [uses]. rewrite IH.
  destruct (existsb (Z.eqb y) acc) eqn:E.
  - apply existsb_exists in E. destruct E as (z & I & E). apply Z.eqb_eq in E. subst z. cbn. intuition congruence.
  - rewrite in_app_iff. cbn. tauto.
Qed.
Lemma shared_keys h : forall s s', shared_run s h = Some s' ->
  keys (as_addresses s') = uses (keys (as_addresses s)) (assoc_values (through h)).
Proof.
  induction h as [|[c|c] r IH]; intros s s' H.
  - injection H as <-. reflexivity.
  - cbn [shared_run] in H. pose proof (as_do_keys s c) as K. destruct (as_do s c) as [[[]|e] s1] eqn:E; [|discriminate].
    cbn [fst snd] in K. rewrite (IH s1 s' H), K, <- uses_app.
    change (through (Through c :: r)) with ([c] ++ through r). rewrite assoc_values_app. reflexivity.
  - cbn [shared_run] in H. unfold as_direct in H. destruct (at_do (as_table s) c) as [o t].
    cbn [snd] in H. exact (IH (mkassoc t (as_addresses s) (as_tsaps s)) s' H).
Qed.
Lemma dget_keys {V} (d : list (asap * V)) b : dget asap_eqb b d = None <-> ~ In (asap_value b) (map (fun p => asap_value (fst p)) d).
Proof.
  induction d as [|[k v] r IH]; cbn; [tauto|]. destruct (asap_eqb k b) eqn:E.
  - apply asap_eqb_spec in E. split; [discriminate|]. intuition.
  - rewrite IH. assert (asap_value k <> asap_value b) by (intros Q; apply asap_eqb_spec in Q; congruence). intuition.
Qed.
Lemma shared_introduced t l s0 h s b : assoc_new t l = Ok s0 -> shared_run s0 h = Some s ->
  (dget asap_eqb b (as_addresses s) = None <-> ~ In (asap_value b) (assoc_values (initial_calls t l ++ through h))).
Proof.
  intros H0 H. rewrite dget_keys. fold (keys (as_addresses s)). rewrite (shared_keys h s0 s H), uses_In.
  apply assoc_new_run in H0. destruct H0 as (os & R & O). rewrite assoc_values_app, in_app_iff.
  rewrite (as_run_keys _ _ _ _ R), (accepted_all _ _ _ _ R O), uses_In. cbn. tauto.
Qed.
