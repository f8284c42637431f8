(** C04 and C08, continued: the address objects of the tables. *)
From Coq Require Import ZArith NArith List Bool Lia ZifyBool Permutation.
From Verif Require Import Py Base Address Tables SpecMsg SpecTables SpecShelf TablesProofs.
Import ListNotations.
Open Scope Z_scope.

Local Lemma numbered_app v l r : numbered v (l ++ r) = numbered v l ++ numbered v r.
Proof. apply filter_app. Qed.
Local Lemma numbered_above v l : (forall y, In y (vals l) -> v < y) -> numbered v l = [].
Proof.
  induction l as [|b l IH]; intros H; [reflexivity|]. cbn [numbered filter]. pose proof (H (a_val b) (or_introl eq_refl)) as B.
  replace (a_val b =? v) with false by lia. apply IH. intros y I. apply H. right. exact I.
Qed.
Local Lemma insert_numbered v a l : ascending (vals l) -> numbered v (insert_sorted a l) = numbered v l ++ numbered v [a].
Proof.
  induction l as [|b r IH]; intros A; [reflexivity|]. cbn [insert_sorted]. pose proof A as A0. cbn [vals map] in A. fold (vals r) in A.
  apply ascending_cons in A. destruct A as [L A]. destruct (a_val a <? a_val b) eqn:E.
  - unfold numbered at 1 3. cbn [filter]. destruct (Z.eqb_spec (a_val a) v) as [V|V]; [|rewrite app_nil_r; reflexivity].
    fold (numbered v r). change (if a_val b =? v then b :: numbered v r else numbered v r) with (numbered v (b :: r)).
    rewrite (numbered_above v (b :: r)); [reflexivity|]. intros y [<-|I]; [cbn; lia|]. specialize (L y I). lia.
  - unfold numbered at 1 2. cbn [filter]. fold (numbered v (insert_sorted a r)) (numbered v r). rewrite (IH A).
    destruct (a_val b =? v); reflexivity.
Qed.
Local Lemma sort_from_numbered v l : forall acc, ascending (vals acc) -> numbered v (sort_from acc l) = numbered v acc ++ numbered v l.
Proof.
  induction l as [|a r IH]; intros acc A; cbn [sort_from]; [rewrite app_nil_r; reflexivity|].
  rewrite IH by (apply insert_sorted_asc, A). rewrite insert_numbered by exact A. rewrite <- app_assoc.
  f_equal. symmetry. exact (numbered_app v [a] r).
Qed.
Local Lemma sort_numbered v l : numbered v (sort_addrs l) = numbered v l.
Proof. unfold sort_addrs. rewrite sort_from_numbered by exact I. reflexivity. Qed.
Local Lemma remove_numbered a l : match remove_first a l with
  | None => numbered (a_val a) l = []
  | Some l' => exists x, numbered (a_val a) l = x :: numbered (a_val a) l' /\ zlen l' = zlen l - 1 /\
                 forall v, v <> a_val a -> numbered v l' = numbered v l
  end.
Proof.
  induction l as [|b r IH]; [reflexivity|]. cbn [remove_first]. unfold addr_eqb. destruct (Z.eqb_spec (a_val b) (a_val a)) as [E|E].
  - exists b. unfold numbered. cbn [filter]. rewrite (proj2 (Z.eqb_eq _ _) E). split; [reflexivity|]. split; [unfold zlen; cbn [length]; lia|].
    intros v N. replace (a_val b =? v) with false by lia. reflexivity.
  - destruct (remove_first a r) as [r'|].
    + destruct IH as (x & H & Ln & O). exists x. unfold numbered in *. cbn [filter]. rewrite (proj2 (Z.eqb_neq _ _) E).
      split; [exact H|]. split; [unfold zlen in *; cbn [length]; lia|]. intros v N. rewrite (O v N). reflexivity.
    + unfold numbered in *. cbn [filter]. rewrite (proj2 (Z.eqb_neq _ _) E). exact IH.
Qed.
Local Lemma mem_numbered a l : mem_addr a l = negb (match numbered (a_val a) l with [] => true | _ => false end).
Proof.
  unfold mem_addr, numbered. induction l as [|b r IH]; [reflexivity|]. cbn [existsb filter]. unfold addr_eqb at 1.
  rewrite Z.eqb_sym. destruct (a_val b =? a_val a); [reflexivity|]. exact IH.
Qed.
Local Lemma sort_zlen l : zlen (sort_addrs l) = zlen l.
Proof. unfold zlen. rewrite (Permutation_length (sort_perm l)). reflexivity. Qed.

Local Definition shelved (max : Z) (t : address_table) (s : shelf) : Prop :=
  at_max t = max /\ a_val (at_ia t) = sh_own s /\ zlen (at_addrs t) = sh_count s /\ forall v, numbered v (at_addrs t) = sh_at s v.
Local Lemma do_shelved max t s c : shelved max t s ->
  fst (at_do t c) = fst (shelf_do max s c) /\ shelved max (snd (at_do t c)) (snd (shelf_do max s c)).
Proof.
  intros (M & O & C & Q). destruct c as [a|a|a]; cbn [at_do shelf_do].
  - unfold at_add. rewrite mem_numbered, Q. unfold addr_eqb. rewrite O, M, C.
    destruct (a_val a =? sh_own s); destruct (sh_at s (a_val a)) as [|x l] eqn:E; cbn [negb orb andb fst snd];
      try (split; [reflexivity|]; repeat split; assumption);
      rewrite Z.geb_leb; destruct (max <=? sh_count s); cbn [fst snd]; (split; [reflexivity|]);
      try (repeat split; assumption);
      (split; [reflexivity|split; [exact O|split]]);
      [cbn [at_addrs sh_count]; rewrite sort_zlen; unfold zlen in *; rewrite app_length; cbn [length]; lia| |
       cbn [at_addrs sh_count]; rewrite sort_zlen; unfold zlen in *; rewrite app_length; cbn [length]; lia| |
       cbn [at_addrs sh_count]; rewrite sort_zlen; unfold zlen in *; rewrite app_length; cbn [length]; lia|];
      intros v; cbn [at_addrs sh_at]; rewrite sort_numbered, numbered_app, Q; unfold with_at, numbered; cbn [filter];
      rewrite (Z.eqb_sym v); destruct (Z.eqb_spec (a_val a) v) as [V|V]; try (rewrite app_nil_r; reflexivity);
      rewrite <- V, E; reflexivity.
  - unfold at_remove. pose proof (remove_numbered a (at_addrs t)) as R. rewrite Q in R.
    destruct (remove_first a (at_addrs t)) as [l|].
    + destruct R as (x & E & Ln & Ot). rewrite E. cbn [fst snd]. split; [reflexivity|]. split; [exact M|]. split; [exact O|].
      split; [cbn [at_addrs sh_count]; rewrite sort_zlen; lia|]. intros v. cbn [at_addrs sh_at]. rewrite sort_numbered. unfold with_at.
      destruct (Z.eqb_spec v (a_val a)) as [->|V]; [reflexivity|]. rewrite (Ot v V). apply Q.
    + rewrite R. split; [reflexivity|]. repeat split; assumption.
  - split; [reflexivity|]. split; [exact M|]. split; [reflexivity|]. split; [exact C|exact Q].
Qed.
Local Lemma run_shelved max h : forall t s, shelved max t s ->
  fst (at_run t h) = fst (shelf_run max s h) /\ shelved max (snd (at_run t h)) (snd (shelf_run max s h)).
Proof.
  induction h as [|c h IH]; intros t s S; [split; [reflexivity|exact S]|]. cbn [at_run shelf_run].
  destruct (do_shelved max t s c S) as [R S1]. destruct (at_do t c) as [o t1], (shelf_do max s c) as [o' s1]. cbn [fst snd] in *.
  destruct (IH t1 s1 S1) as [R2 S2]. destruct (at_run t1 h) as [os t2], (shelf_run max s1 h) as [os' s2]. cbn [fst snd] in *.
  split; [rewrite R, R2; reflexivity|exact S2].
Qed.

(** ** C04 *)

(** Which address objects an address table holds after any calls, and what the calls
    say: those of one number stand in the order in which they came, and the oldest
    goes first. *)
Theorem C04_objects : forall ia addrs max h,
  let table := at_run (at_new ia addrs max) h in
  let kept := shelf_run max (shelf_new ia addrs) h in
  fst table = fst kept /\
  zlen (at_addrs (snd table)) = sh_count (snd kept) /\
  forall v, numbered v (at_addrs (snd table)) = sh_at (snd kept) v.
Proof.
  intros ia addrs max h table kept.
  assert (S : shelved max (at_new ia addrs max) (shelf_new ia addrs)).
  { split; [reflexivity|]. split; [reflexivity|]. split; [apply sort_zlen|intros v; apply sort_numbered]. }
  destruct (run_shelved max h _ _ S) as (R & _ & _ & C & Q). split; [exact R|]. split; [exact C|exact Q].
Qed.
Print Assumptions C04_objects.
(** As the table is in ascending order (C04_sorted), this leaves one list only. *)
Theorem C04_determined : forall l r, ascending (vals l) -> ascending (vals r) -> (forall v, numbered v l = numbered v r) -> l = r.
Proof.
  induction l as [|a l IH]; intros r A B Q.
  - destruct r as [|b r]; [reflexivity|]. specialize (Q (a_val b)). unfold numbered in Q. cbn [filter] in Q. rewrite Z.eqb_refl in Q. discriminate Q.
  - destruct r as [|b r]; [specialize (Q (a_val a)); unfold numbered in Q; cbn [filter] in Q; rewrite Z.eqb_refl in Q; discriminate Q|].
    cbn [vals map] in A, B. apply ascending_cons in A, B. destruct A as [LA A], B as [LB B].
    assert (V : a_val a = a_val b).
    { pose proof (Q (a_val a)) as Qa. pose proof (Q (a_val b)) as Qb. unfold numbered in Qa, Qb. cbn [filter] in Qa, Qb. rewrite Z.eqb_refl in Qa, Qb.
      destruct (Z.eqb_spec (a_val b) (a_val a)) as [E|E]; [symmetry; exact E|]. rewrite (proj2 (Z.eqb_neq _ _) (fun H => E (eq_sym H))) in Qb.
      assert (Ia : In a r). { apply (filter_In (fun x => a_val x =? a_val a)). rewrite <- Qa. left. reflexivity. }
      assert (Ib : In b l). { apply (filter_In (fun x => a_val x =? a_val b)). rewrite Qb. left. reflexivity. }
      pose proof (LA (a_val b) (in_map a_val l b Ib)). pose proof (LB (a_val a) (in_map a_val r a Ia)). lia. }
    assert (E : a = b).
    { specialize (Q (a_val a)). unfold numbered in Q. cbn [filter] in Q. rewrite <- V, Z.eqb_refl in Q. injection Q as E _. exact E. }
    subst b. f_equal. apply (IH r A B). intros v. specialize (Q v). unfold numbered in Q. cbn [filter] in Q.
    destruct (a_val a =? v); [injection Q as Q; exact Q|exact Q].
Qed.
Print Assumptions C04_determined.

Local Lemma index_numbered a l : match index_of a l with
  | Some i => 0 <= i /\ exists x, znth i l = Some x /\ a_val x = a_val a /\ hd_error (numbered (a_val x) l) = Some x
  | None => numbered (a_val a) l = []
  end.
Proof.
  induction l as [|b r IH]; [reflexivity|]. cbn [index_of]. unfold addr_eqb. destruct (Z.eqb_spec (a_val b) (a_val a)) as [E|E].
  - split; [lia|]. exists b. split; [reflexivity|]. split; [exact E|]. unfold numbered. cbn [filter]. rewrite Z.eqb_refl. reflexivity.
  - destruct (index_of a r) as [i|].
    + destruct IH as (P & x & N & V & H). split; [lia|]. exists x. split; [|split; [exact V|]].
      * cbn [znth]. replace (i + 1 =? 0) with false by lia. replace (i + 1 - 1) with i by lia. exact N.
      * unfold numbered in *. cbn [filter]. replace (a_val b =? a_val x) with false by lia. exact H.
    + unfold numbered in *. cbn [filter]. rewrite (proj2 (Z.eqb_neq _ _) E). exact IH.
Qed.
Local Lemma tsap_object t a x : at_get_address t (at_get_tsap t a) = Ok x ->
  a_val x = a_val a /\ hd_error (numbered (a_val x) (at_addrs t) ++ [at_ia t]) = Some x.
Proof.
  unfold at_get_tsap. pose proof (index_numbered a (at_addrs t)) as I. destruct (index_of a (at_addrs t)) as [i|].
  - destruct I as (P & y & N & V & H). unfold at_get_address. replace (1 <=? i + 1) with true by lia.
    replace (i + 1 - 1) with i by lia. rewrite N. intros E. injection E as <-. split; [exact V|].
    destruct (numbered (a_val y) (at_addrs t)); [discriminate H|exact H].
  - unfold addr_eqb. destruct (Z.eqb_spec (a_val a) (a_val (at_ia t))) as [E|E]; cbn; [|discriminate].
    intros G. injection G as <-. rewrite <- E, I. split; reflexivity.
Qed.
Local Lemma tsaps_objects t l : forall r, addresses_of t (map (at_get_tsap t) l) = Ok r ->
  vals r = vals l /\ Forall (fun x => hd_error (numbered (a_val x) (at_addrs t) ++ [at_ia t]) = Some x) r.
Proof.
  induction l as [|a l IH]; intros r H; cbn [map addresses_of] in H; [injection H as <-; split; [reflexivity|constructor]|].
  destruct (at_get_address t (at_get_tsap t a)) as [x|e] eqn:G; [|discriminate H]. cbn [rbind] in H.
  destruct (addresses_of t (map (at_get_tsap t) l)) as [q|e]; [|discriminate H]. injection H as <-.
  destruct (IH q eq_refl) as [V F]. destruct (tsap_object t a x G) as [V1 O]. split; [cbn [vals map]; rewrite V1; f_equal; exact V|].
  constructor; [exact O|exact F].
Qed.

(** ** C08 *)

(** Which objects are sent to, for every table: for each number the first that the
    address table has of it, or the own address. *)
Theorem C08_objects : forall s a l, sends_to s a = Ok l ->
  Forall (fun x => hd_error (numbered (a_val x) (at_addrs (as_table s)) ++ [at_ia (as_table s)]) = Some x) l.
Proof.
  intros s a l H. unfold sends_to, as_get_tsaps in H. destruct (dget asap_eqb a (as_addresses s)) as [m|]; [|discriminate H].
  exact (proj2 (tsaps_objects (as_table s) m l H)).
Qed.
Print Assumptions C08_objects.
(** Two objects of number 5, and the number of the device itself. *)
Example C08_objects_example : let t := at_new (mkaddr 1 0x1001) [mkaddr 2 5; mkaddr 3 5] 4 in
  exists s, assoc_new t [(mkasap 1 None, mkaddr 4 5); (mkasap 1 None, mkaddr 1 0x1001)] = Ok s /\
    sends_to s (mkasap 1 None) = Ok [mkaddr 2 5; mkaddr 1 0x1001].
Proof. eexists. split; vm_compute; reflexivity. Qed.

(** Three objects of number 5: the one that came first goes first. *)
Example C04_objects_example :
  let t := at_new (mkaddr 1 0x1001) [mkaddr 2 7; mkaddr 3 5] 4 in
  let h := [AtAdd (mkaddr 4 5); AtAdd (mkaddr 5 5); AtAdd (mkaddr 6 9); AtRemove (mkaddr 7 5); AtRemove (mkaddr 8 6)] in
  fst (at_run t h) = [Ok tt; Ok tt; Err AddressTableException; Ok tt; Err ValueError] /\
  at_addrs (snd (at_run t h)) = [mkaddr 4 5; mkaddr 5 5; mkaddr 2 7] /\
  sh_at (snd (shelf_run 4 (shelf_new (mkaddr 1 0x1001) [mkaddr 2 7; mkaddr 3 5]) h)) 5 = [mkaddr 4 5; mkaddr 5 5].
Proof. repeat split. Qed.
