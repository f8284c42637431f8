(** Proofs that the notebook of SpecBook.v tells what the tables do (C113). *)
From Coq Require Import String ZArith NArith List Bool Lia Permutation.
From Verif Require Import Py Address Dpt Tables Base SpecTables TablesProofs AssocProofs SpecShared OrderProofs SpecBook.
Import ListNotations.
Open Scope Z_scope.

(** ** Numbers of addresses *)

Lemma put_perm g l : Permutation (put g l) (g :: l).
Proof.
  induction l as [|x r IH]; [reflexivity|]. cbn [put]. destruct (g <=? x); [reflexivity|].
  rewrite IH. apply perm_swap.
Qed.
Lemma in_order_perm l : Permutation (in_order l) l.
Proof. induction l as [|x r IH]; [reflexivity|]. cbn. rewrite put_perm. constructor. exact IH. Qed.
Lemma put_asc g l : ascending l -> ascending (put g l).
Proof.
  induction l as [|x r IH]; intros H; [cbn; auto|]. cbn [put]. destruct (Z.leb_spec g x).
  - apply ascending_cons. split; [|exact H]. intros y [<-|Hy]; [assumption|].
    apply ascending_cons in H. destruct H as [H _]. specialize (H y Hy). lia.
  - apply ascending_cons in H. destruct H as [H1 H2]. apply ascending_cons. split; [|apply IH, H2].
    intros y Hy. apply (Permutation_in _ (put_perm g r)) in Hy. destruct Hy as [<-|Hy]; [lia|apply H1, Hy].
Qed.
Lemma in_order_asc l : ascending (in_order l).
Proof. induction l as [|x r IH]; [exact I|]. apply put_asc, IH. Qed.
Lemma sort_in_order l l' : Permutation (vals l) l' -> vals (sort_addrs l) = in_order l'.
Proof.
  intros P. apply asc_unique; [apply sort_asc|apply in_order_asc|].
  rewrite in_order_perm, <- P. apply Permutation_map, sort_perm.
Qed.

Lemma has_In g l : has g l = true <-> In g l.
Proof.
  unfold has. rewrite existsb_exists. split.
  - intros (x & Hx & E). apply Z.eqb_eq in E. subst. exact Hx.
  - intros H. exists g. split; [exact H|apply Z.eqb_refl].
Qed.
Lemma mem_has a l : mem_addr a l = has (a_val a) (vals l).
Proof. induction l as [|b r IH]; [reflexivity|]. cbn. unfold mem_addr, has, vals in *. rewrite IH. reflexivity. Qed.
Lemma remove_has a l : match remove_first a l with
  | Some l' => has (a_val a) (vals l) = true /\ vals l' = strike (a_val a) (vals l)
  | None => has (a_val a) (vals l) = false end.
Proof.
  induction l as [|b r IH]; [reflexivity|]. cbn [remove_first vals map has existsb strike].
  unfold addr_eqb. rewrite (Z.eqb_sym (a_val a)). destruct (a_val b =? a_val a) eqn:E; [auto|].
  cbn [orb]. destruct (remove_first a r) as [r'|]; [|exact IH]. destruct IH as [H1 H2].
  split; [exact H1|]. cbn. f_equal. exact H2.
Qed.

(** ** Pages *)

Definition pages_of (d : list (asap * list address)) : pages := map (fun p => (asap_value (fst p), vals (snd p))) d.
Lemma page_of a d : page (asap_value a) (pages_of d) = option_map vals (dget asap_eqb a d).
Proof.
  induction d as [|[k l] d IH]; [reflexivity|]. cbn [pages_of map page dget fst snd]. unfold asap_eqb at 1.
  destruct (asap_value k =? asap_value a); [reflexivity|exact IH].
Qed.
Lemma pages_dset a l d : pages_of (dset asap_eqb a l d) = rewrite_page (asap_value a) (vals l) (pages_of d).
Proof.
  induction d as [|[k m] d IH]; [reflexivity|]. cbn [pages_of map rewrite_page dset fst snd]. unfold asap_eqb at 1.
  destruct (asap_value k =? asap_value a); [reflexivity|]. cbn [map fst snd]. f_equal. exact IH.
Qed.
Lemma pages_append a l d : pages_of (asap_append a l d) =
  rewrite_page (asap_value a) (match page (asap_value a) (pages_of d) with Some k => k | None => [] end ++ vals l) (pages_of d).
Proof.
  unfold asap_append. rewrite page_of. destruct (dget asap_eqb a d) as [k|]; cbn [option_map]; rewrite pages_dset.
  - unfold vals. rewrite map_app. reflexivity.
  - reflexivity.
Qed.

(** ** Places *)

Lemma first_place_index a l : first_place (a_val a) (vals l) = option_map (fun i => i + 1) (index_of a l).
Proof.
  induction l as [|b r IH]; [reflexivity|]. cbn [vals map first_place index_of]. unfold addr_eqb at 1.
  destruct (a_val b =? a_val a); [reflexivity|]. fold (vals r). rewrite IH. destruct (index_of a r); reflexivity.
Qed.
Lemma place_tsap a t : place (a_val (at_ia t)) (vals (at_addrs t)) (a_val a) = at_get_tsap t a.
Proof.
  unfold place, at_get_tsap. rewrite first_place_index. destruct (index_of a (at_addrs t)); reflexivity.
Qed.
Lemma same_place_oz p q : same_place p q = oz_eqb p q.
Proof. destruct p, q; reflexivity. Qed.
Lemma routes_routed t d k : map asap_value (routed t d k) =
  flat_map (fun p => map (fun _ => fst p)
    (filter (fun x => same_place (place (a_val (at_ia t)) (vals (at_addrs t)) x) k) (snd p))) (pages_of d).
Proof.
  unfold routed. induction d as [|[a l] d IH]; [reflexivity|]. cbn [flat_map pages_of map fst snd].
  rewrite map_app, IH. f_equal. unfold sel. cbn [fst snd]. rewrite map_map.
  induction l as [|x r IHl]; [reflexivity|]. change (vals (x :: r)) with (a_val x :: vals r). cbn [filter].
  rewrite place_tsap, (same_place_oz (at_get_tsap t x) k). destruct (oz_eqb (at_get_tsap t x) k); [|exact IHl]. cbn [map]. f_equal. exact IHl.
Qed.

(** ** The calls *)

Lemma at_add_book x t : at_add x t =
  (if has (a_val x) (vals (at_addrs t)) && (a_val x =? a_val (at_ia t)) then (Ok tt, t)
   else if zlen (vals (at_addrs t)) <? at_max t then (Ok tt, mkat (at_max t) (at_ia t) (sort_addrs (at_addrs t ++ [x])))
   else (Err AddressTableException, t)).
Proof.
  unfold at_add. rewrite mem_has. unfold addr_eqb, zlen, vals. rewrite map_length. fold (vals (at_addrs t)).
  destruct (has (a_val x) (vals (at_addrs t))), (a_val x =? a_val (at_ia t)); cbn [negb orb andb]; try reflexivity;
    destruct (Z.of_nat (length (at_addrs t)) >=? at_max t) eqn:A;
    destruct (Z.of_nat (length (at_addrs t)) <? at_max t) eqn:B; try reflexivity; lia.
Qed.
Lemma added_order x l : vals (sort_addrs (l ++ [x])) = in_order (a_val x :: vals l).
Proof. apply sort_in_order. unfold vals. rewrite map_app. cbn. symmetry. apply Permutation_cons_append. Qed.

Lemma list_them_insert l : forall t, exists t',
  assoc_insert l t = (if fst (list_them (at_ia t) (at_max t) l (vals (at_addrs t))) then Ok tt else Err AddressTableException, t') /\
  at_ia t' = at_ia t /\ at_max t' = at_max t /\
  vals (at_addrs t') = snd (list_them (at_ia t) (at_max t) l (vals (at_addrs t))).
Proof.
  induction l as [|x r IH]; intros t; [exists t; auto|]. cbn [assoc_insert list_them].
  rewrite mem_has. unfold addr_is.
  destruct (has (a_val x) (vals (at_addrs t))) eqn:M; cbn [negb orb andb]; [apply IH|].
  destruct (N.eqb (a_ref x) (a_ref (at_ia t)) && (a_val x =? a_val (at_ia t))); cbn [negb]; [apply IH|].
  rewrite at_add_book, M. cbn [andb].
  destruct (zlen (vals (at_addrs t)) <? at_max t); [|exists t; auto].
  destruct (IH (mkat (at_max t) (at_ia t) (sort_addrs (at_addrs t ++ [x])))) as (t' & E & I & X & V).
  cbn [at_ia at_max at_addrs] in *. rewrite added_order in *. exists t'. auto.
Qed.

Lemma strike_them_loop a l : forall t d, exists t' d',
  disassoc_loop a l t d =
    (fst (strike_them (a_val (at_ia t)) (asap_value a) (vals l) (vals (at_addrs t)) (pages_of d)), (t', d')) /\
  at_ia t' = at_ia t /\ at_max t' = at_max t /\
  (vals (at_addrs t'), pages_of d') =
    snd (strike_them (a_val (at_ia t)) (asap_value a) (vals l) (vals (at_addrs t)) (pages_of d)).
Proof.
  induction l as [|x r IH]; intros t d; [exists t, d; auto|]. cbn [disassoc_loop vals map strike_them].
  fold (vals r). unfold addr_eqb.
  assert (Step : exists t', (if negb (a_val x =? a_val (at_ia t)) then at_remove x t else (Ok tt, t)) =
      (if negb (a_val x =? a_val (at_ia t)) && negb (has (a_val x) (vals (at_addrs t))) then Err ValueError else Ok tt, t') /\
      at_ia t' = at_ia t /\ at_max t' = at_max t /\
      vals (at_addrs t') = if negb (a_val x =? a_val (at_ia t)) && negb (has (a_val x) (vals (at_addrs t))) then vals (at_addrs t)
        else if a_val x =? a_val (at_ia t) then vals (at_addrs t) else in_order (strike (a_val x) (vals (at_addrs t)))).
  { destruct (a_val x =? a_val (at_ia t)) eqn:O; cbn [negb andb]; [exists t; auto|].
    unfold at_remove. pose proof (remove_has x (at_addrs t)) as R.
    destruct (remove_first x (at_addrs t)) as [l'|].
    - destruct R as [R1 R2]. rewrite R1. cbn [negb]. eexists. split; [reflexivity|]. cbn. split; [reflexivity|]. split; [reflexivity|].
      apply sort_in_order. rewrite R2. reflexivity.
    - rewrite R. cbn [negb]. exists t. auto. }
  destruct Step as (t' & -> & I & X & V).
  destruct (negb (a_val x =? a_val (at_ia t)) && negb (has (a_val x) (vals (at_addrs t)))); cbv zeta.
  { exists t', d. split; [reflexivity|]. split; [exact I|]. split; [exact X|]. cbn. rewrite V. reflexivity. }
  rewrite page_of. destruct (dget asap_eqb a d) as [k|] eqn:D; cbn [option_map].
  2:{ exists t', d. split; [reflexivity|]. split; [exact I|]. split; [exact X|]. cbn. rewrite V. reflexivity. }
  pose proof (remove_has x k) as R. destruct (remove_first x k) as [k'|].
  - destruct R as [R1 R2]. rewrite R1. destruct (IH t' (dset asap_eqb a k' d)) as (t2 & d2 & E & I2 & X2 & V2).
    rewrite I, V, pages_dset, R2 in E, V2. exists t2, d2. split; [exact E|]. split; [congruence|]. split; [congruence|]. exact V2.
  - rewrite R. exists t', d. split; [reflexivity|]. split; [exact I|]. split; [exact X|]. cbn. rewrite V. reflexivity.
Qed.

Definition kept_by (s : assoc_table) (b : book) : Prop :=
  b_own b = at_ia (as_table s) /\ b_room b = at_max (as_table s) /\ b_listed b = vals (at_addrs (as_table s)) /\
  b_pages b = pages_of (as_addresses s) /\
  exists t d, as_tsaps s = rebuild_tsaps t d /\ b_then b = (a_val (at_ia t), vals (at_addrs t), pages_of d).

Lemma kept_settled t d : kept_by (mkassoc t d (rebuild_tsaps t d)) (settled (at_ia t) (at_max t) (vals (at_addrs t)) (pages_of d)).
Proof. repeat (split; [reflexivity|]). exists t, d. split; reflexivity. Qed.

Lemma call_kept s b c : kept_by s b ->
  fst (table_call s c) = fst (book_call b c) /\ kept_by (snd (table_call s c)) (snd (book_call b c)).
Proof.
  intros (O & R & L & P & t0 & d0 & T & H).
  destruct c as [[a l|a l]|[x|x|x]]; cbn [table_call as_do as_direct book_call].
  - unfold associate. destruct (list_them_insert l (as_table s)) as (t' & E & I & X & V). rewrite E.
    rewrite O, R, L. destruct (list_them (at_ia (as_table s)) (at_max (as_table s)) l (vals (at_addrs (as_table s)))) as [[|] L'];
      cbn [fst snd] in *; (split; [reflexivity|]).
    + rewrite P, <- pages_append, <- V, <- I, <- X. apply kept_settled.
    + split; [symmetry; exact I|]. split; [symmetry; exact X|]. split; [symmetry; exact V|]. split; [exact P|].
      exists t0, d0. auto.
  - unfold disassociate. destruct (strike_them_loop a l (as_table s) (as_addresses s)) as (t' & d' & E & I & X & V).
    rewrite E, O, R, L, P.
    destruct (strike_them _ _ _ _ _) as [[[]|e] [L' D']]; cbn [fst snd] in *; injection V as V1 V2;
      (split; [reflexivity|]).
    + rewrite <- V1, <- V2, <- I, <- X. apply kept_settled.
    + split; [symmetry; exact I|]. split; [symmetry; exact X|]. split; [symmetry; exact V1|]. split; [symmetry; exact V2|].
      exists t0, d0. auto.
  - unfold as_direct; cbn [at_do]. rewrite at_add_book, L, O, R.
    destruct (has (a_val x) (vals (at_addrs (as_table s))) && (a_val x =? a_val (at_ia (as_table s)))).
    + split; [reflexivity|]. repeat (split; [assumption|]). exists t0, d0. auto.
    + destruct (zlen (vals (at_addrs (as_table s))) <? at_max (as_table s)); (split; [reflexivity|]).
      * split; [reflexivity|]. split; [reflexivity|]. split; [symmetry; apply added_order|]. split; [exact P|]. exists t0, d0. auto.
      * repeat (split; [assumption|]). exists t0, d0. auto.
  - unfold as_direct; cbn [at_do]. unfold at_remove. pose proof (remove_has x (at_addrs (as_table s))) as Q. rewrite L.
    destruct (remove_first x (at_addrs (as_table s))) as [l'|].
    + destruct Q as [Q1 Q2]. rewrite Q1. split; [reflexivity|]. split; [exact O|]. split; [exact R|]. split.
      * cbn. symmetry. apply sort_in_order. rewrite Q2. reflexivity.
      * split; [exact P|]. exists t0, d0. auto.
    + rewrite Q. split; [reflexivity|]. repeat (split; [assumption|]). exists t0, d0. auto.
  - split; [reflexivity|]. split; [reflexivity|]. split; [exact R|]. split; [exact L|]. split; [exact P|]. exists t0, d0. auto.
Qed.

Lemma run_kept h : forall s b, kept_by s b ->
  fst (table_run s h) = fst (book_run b h) /\ kept_by (snd (table_run s h)) (snd (book_run b h)).
Proof.
  induction h as [|c r IH]; intros s b K; [split; [reflexivity|exact K]|]. cbn [table_run book_run].
  destruct (call_kept s b c K) as [O1 K1].
  destruct (table_call s c) as [o s1]. destruct (book_call b c) as [o' b1]. cbn [fst snd] in *.
  destruct (IH s1 b1 K1) as [O2 K2]. destruct (table_run s1 r), (book_run b1 r). cbn [fst snd] in *.
  split; [congruence|exact K2].
Qed.

Lemma init_kept l : forall s b, kept_by s b ->
  match assoc_init l s, unless_raised b (map (fun p => Associate (fst p) [snd p]) l) with
  | (Ok _, s'), Ok b' => kept_by s' b'
  | (Err e, _), Err e' => e = e'
  | _, _ => False
  end.
Proof.
  induction l as [|[a x] r IH]; intros s b K; [exact K|]. cbn [assoc_init map unless_raised fst snd].
  destruct (call_kept s b (Through (Associate a [x])) K) as [O1 K1]. cbn [table_call as_do] in *.
  destruct (associate a [x] s) as [[u|e] s1]; destruct (book_call b (Through (Associate a [x]))) as [[u'|e'] b1];
    cbn [fst snd] in *; try discriminate; [apply IH, K1|congruence].
Qed.
Lemma new_kept t l : match assoc_new t l, book_new t l with
  | Ok s, Ok b => kept_by s b
  | Err e, Err e' => e = e'
  | _, _ => False
  end.
Proof.
  unfold assoc_new, book_new, initial_calls. cbn [unless_raised].
  assert (K0 : kept_by (mkassoc t [] []) (empty_book t)).
  { unfold empty_book. exact (kept_settled t []). }
  destruct (call_kept _ _ (Through (Associate (mkasap 0 (Some "individual address"%string)) [at_ia t])) K0) as [O1 K1].
  cbn [table_call as_do] in *.
  destruct (associate _ [at_ia t] (mkassoc t [] [])) as [[u|e] s1]; destruct (book_call _ _) as [[u'|e'] b1];
    cbn [fst snd] in *; try discriminate; [|congruence].
  pose proof (init_kept l s1 b1 K1) as Q. destruct (assoc_init l s1) as [[u2|e] s2];
    destruct (unless_raised b1 _) as [b2|e']; exact Q.
Qed.

(** ** Reading *)

Lemma known_book t v : known t v <-> has v (vals (at_addrs t)) || (v =? a_val (at_ia t)) = true.
Proof. unfold known. rewrite orb_true_iff, has_In, Z.eqb_eq. reflexivity. Qed.
Lemma kept_sends s b a : kept_by s b -> seen_as vals (sends_to s a) = book_sends b (asap_value a).
Proof.
  intros (O & R & L & P & _). unfold book_sends. rewrite P, page_of, sends_to_targets.
  destruct (dget asap_eqb a (as_addresses s)) as [l|]; [|reflexivity]. cbn [option_map]. rewrite L, O.
  destruct (forallb _ (vals l)) eqn:F.
  - rewrite forallb_forall in F. destruct (targets_known (as_table s) l) as (M & -> & V).
    + intros x Hx. apply known_book, F, in_map, Hx.
    + cbn. rewrite V. reflexivity.
  - destruct (existsb (fun g => negb (has g (vals (at_addrs (as_table s))) || (g =? a_val (at_ia (as_table s))))) (vals l)) eqn:X.
    + apply existsb_exists in X. destruct X as (g & Hg & N). apply in_map_iff in Hg. destruct Hg as (x & <- & Hx).
      rewrite (targets_unknown (as_table s) l x Hx); [reflexivity|]. intros K. apply known_book in K. rewrite K in N. discriminate.
    + assert (F' : forallb (fun g => has g (vals (at_addrs (as_table s))) || (g =? a_val (at_ia (as_table s)))) (vals l) = true).
      { apply forallb_forall. intros g Hg. destruct (has g _ || _) eqn:N; [reflexivity|].
        rewrite <- X. apply existsb_exists. exists g. split; [exact Hg|]. rewrite N. reflexivity. }
      congruence.
Qed.
Lemma kept_routes s b g : kept_by s b ->
  seen_as (map asap_value) (as_get_asaps_from_address s g) = book_routes b (a_val g).
Proof.
  intros (O & R & L & P & t & d & T & H). unfold book_routes. rewrite H, O, L, place_tsap.
  rewrite <- routes_routed. unfold as_get_asaps_from_address, as_get_asaps. rewrite T, rebuild_get.
  destruct (routed t d (at_get_tsap (as_table s) g)); reflexivity.
Qed.
Lemma kept_asaps s b : kept_by s b -> map asap_value (as_asaps s) = map fst (b_pages b).
Proof. intros (_ & _ & _ & P & _). rewrite P. unfold as_asaps, pages_of. rewrite !map_map. reflexivity. Qed.
