(** Proofs about address objects whose numbers change inside tables (C74). *)
From Coq Require Import String ZArith NArith List Bool Lia Permutation.
From Verif Require Import Py Address Dpt Tables Mutate Base SpecTables TablesProofs AssocProofs SpecShared SharedProofs SpecMutate.
Import ListNotations.
Open Scope Z_scope.

(** ** Every object of the tables satisfies a predicate *)

Section Every.
  Variable P : address -> Prop.
  Definition every_t (t : address_table) : Prop := P (at_ia t) /\ Forall P (at_addrs t).
  Definition every_d (d : list (asap * list address)) : Prop := Forall (fun p => Forall P (snd p)) d.
  Definition every (s : assoc_table) : Prop := every_t (as_table s) /\ every_d (as_addresses s).

  Lemma forall_perm l l' : Permutation l l' -> Forall P l -> Forall P l'.
  Proof. intros Q H. apply Forall_forall. intros x Hx. rewrite Forall_forall in H. apply H, (Permutation_in _ (Permutation_sym Q)), Hx. Qed.
  Lemma at_add_every a t : P a -> every_t t -> every_t (snd (at_add a t)).
  Proof.
    intros Ha [H1 H2]. unfold at_add. destruct (_ || _); [|split; assumption].
    destruct (_ >=? _); split; cbn; try assumption.
    apply (forall_perm (at_addrs t ++ [a])); [apply Permutation_sym, sort_perm|].
    apply Forall_app. auto.
  Qed.
  Lemma assoc_insert_every l : forall t, Forall P l -> every_t t -> every_t (snd (assoc_insert l t)).
  Proof.
    induction l as [|a r IH]; intros t Hl Ht; [exact Ht|]. cbn [assoc_insert].
    pose proof (Forall_inv Hl) as Ha. pose proof (Forall_inv_tail Hl) as Hr.
    destruct (_ && _); [|apply IH; assumption].
    pose proof (at_add_every a t Ha Ht) as K. destruct (at_add a t) as [[u|e] t'];
      [apply IH; assumption|exact K].
  Qed.
  Lemma remove_first_every a l l' : remove_first a l = Some l' -> Forall P l -> Forall P l'.
  Proof.
    intros H F. apply remove_first_Some in H. destruct H as (b & _ & Q).
    apply (forall_perm _ _ Q) in F. inversion F; assumption.
  Qed.
  Lemma at_remove_every a t : every_t t -> every_t (snd (at_remove a t)).
  Proof.
    intros [H1 H2]. unfold at_remove. destruct (remove_first a (at_addrs t)) as [l|] eqn:E; [|split; assumption].
    split; [exact H1|]. apply (forall_perm l); [apply Permutation_sym, sort_perm|].
    eapply remove_first_every; eassumption.
  Qed.
  Lemma dset_every a l d : Forall P l -> every_d d -> every_d (dset asap_eqb a l d).
  Proof.
    intros Hl H. induction d as [|[k v] d IH]; cbn.
    - constructor; [exact Hl|constructor].
    - destruct (asap_eqb k a); (constructor; [|]); try (exact Hl); try exact (Forall_inv H);
        try exact (Forall_inv_tail H). apply IH. exact (Forall_inv_tail H).
  Qed.
  Lemma dget_every a d l : every_d d -> dget asap_eqb a d = Some l -> Forall P l.
  Proof.
    intros H E. induction d as [|[k v] d IH]; cbn in E; [discriminate|].
    destruct (asap_eqb k a); [injection E as <-; exact (Forall_inv H)|].
    apply IH; [exact (Forall_inv_tail H)|exact E].
  Qed.
  Lemma entry_every d v : every_d d -> Forall P (entry d v).
  Proof.
    intros H. unfold entry. destruct (dget asap_eqb (mkasap v None) d) eqn:E; [|constructor].
    eapply dget_every; eassumption.
  Qed.
  Lemma associate_every a l s : Forall P l -> every s -> every (snd (associate a l s)).
  Proof.
    intros Hl [Ht Hd]. unfold associate. pose proof (assoc_insert_every l (as_table s) Hl Ht) as K.
    destruct (assoc_insert l (as_table s)) as [[u|e] t']; cbn [snd] in *; [|split; assumption].
    split; [exact K|]. cbn. unfold asap_append.
    destruct (dget asap_eqb a (as_addresses s)) as [l0|] eqn:E; apply dset_every; try assumption.
    apply Forall_app. split; [eapply dget_every; eassumption|exact Hl].
  Qed.
  Lemma disassoc_loop_every a l : forall t d, every_t t -> every_d d ->
    every_t (fst (snd (disassoc_loop a l t d))) /\ every_d (snd (snd (disassoc_loop a l t d))).
  Proof.
    induction l as [|x r IH]; intros t d Ht Hd; [split; assumption|]. cbn [disassoc_loop].
    destruct (if negb (addr_eqb x (at_ia t)) then at_remove x t else (Ok tt, t)) as [rm t'] eqn:E.
    assert (Ht' : every_t t').
    { destruct (negb (addr_eqb x (at_ia t))); [|injection E as _ <-; exact Ht].
      pose proof (at_remove_every x t Ht) as K. rewrite E in K. exact K. }
    destruct rm as [u|e]; [|split; assumption].
    destruct (dget asap_eqb a d) as [l0|] eqn:E1; [|split; assumption].
    destruct (remove_first x l0) as [l1|] eqn:E2; [|split; assumption].
    apply IH; [exact Ht'|]. apply dset_every; [|exact Hd].
    eapply remove_first_every; [exact E2|]. eapply dget_every; eassumption.
  Qed.
  Lemma disassociate_every a l s : every s -> every (snd (disassociate a l s)).
  Proof.
    intros [Ht Hd]. unfold disassociate. pose proof (disassoc_loop_every a l _ _ Ht Hd) as [K1 K2].
    destruct (disassoc_loop a l (as_table s) (as_addresses s)) as [[u|e] [t' d']]; split; assumption.
  Qed.
End Every.

(** ** Objects with the numbers of [num] *)

Definition is_obj (U : list N) (num : N -> Z) (a : address) : Prop := In (a_ref a) U /\ a_val a = num (a_ref a).
Lemma obj_is_obj U num r : In r U -> is_obj U num (obj num r).
Proof. intros H. split; [exact H|reflexivity]. Qed.
Lemma objs_are U num l : incl l U -> Forall (is_obj U num) (map (obj num) l).
Proof. intros H. apply Forall_map, Forall_forall. intros r Hr. apply obj_is_obj, H, Hr. Qed.
Lemma is_obj_eq U num a b : apart U num -> is_obj U num a -> is_obj U num b ->
  addr_eqb a b = N.eqb (a_ref a) (a_ref b).
Proof.
  intros A [Ha Va] [Hb Vb]. unfold addr_eqb. rewrite Va, Vb. destruct (N.eqb_spec (a_ref a) (a_ref b)) as [->|E].
  - apply Z.eqb_refl.
  - apply Z.eqb_neq. intros K. apply E, A; assumption.
Qed.

(** Changing the numbers of all objects from [num] to [num']. *)
Definition move (num : N -> Z) (a : address) : address := mkaddr (a_ref a) (num (a_ref a)).
Lemma store1_move U num r f x a : is_obj U num a ->
  store1 r f x a = move (numbers num (OStore r f x)) a.
Proof.
  intros [_ V]. unfold store1, move. cbn [numbers]. destruct a as [q v]; cbn [a_ref a_val] in *.
  destruct (N.eqb q r); [rewrite V|rewrite <- V]; reflexivity.
Qed.
Lemma move_is U num num' a : is_obj U num a -> is_obj U num' (move num' a).
Proof. intros [H _]. split; [exact H|reflexivity]. Qed.
Definition move_t (num : N -> Z) (t : address_table) : address_table :=
  mkat (at_max t) (move num (at_ia t)) (map (move num) (at_addrs t)).
Definition move_d (num : N -> Z) (d : list (asap * list address)) :=
  map (fun p => (fst p, map (move num) (snd p))) d.
Definition move_s (num : N -> Z) (s : assoc_table) : assoc_table :=
  mkassoc (move_t num (as_table s)) (move_d num (as_addresses s)) (as_tsaps s).

Lemma as_store_move U num r f x s : every (is_obj U num) s ->
  as_store r f x s = move_s (numbers num (OStore r f x)) s.
Proof.
  intros [[H1 H2] H3]. unfold as_store, move_s, at_store, move_t, move_d. f_equal.
  - f_equal; [eapply store1_move; exact H1|]. apply map_ext_in. intros a Ha.
    rewrite Forall_forall in H2. eapply store1_move, H2, Ha.
  - apply map_ext_in. intros [k l] Hk. cbn [fst snd]. f_equal. apply map_ext_in. intros a Ha.
    unfold every_d in H3. rewrite Forall_forall in H3. specialize (H3 _ Hk). cbn in H3.
    rewrite Forall_forall in H3. eapply store1_move, H3, Ha.
Qed.
Lemma move_every U num num' s : every (is_obj U num) s -> every (is_obj U num') (move_s num' s).
Proof.
  intros [[H1 H2] H3]. split; [split|].
  - eapply move_is; exact H1.
  - apply Forall_map. eapply Forall_impl; [|exact H2]. intros a. apply move_is.
  - apply Forall_map. eapply Forall_impl; [|exact H3]. intros [k l] H. apply Forall_map.
    eapply Forall_impl; [|exact H]. intros a. apply move_is.
Qed.

Section Moving.
  Variables (U : list N) (num num' : N -> Z).
  Hypothesis A : apart U num.
  Hypothesis A' : apart U num'.
  Lemma eqb_move a b : is_obj U num a -> is_obj U num b ->
    addr_eqb (move num' a) (move num' b) = addr_eqb a b.
  Proof.
    intros Ha Hb. rewrite (is_obj_eq U num' _ _ A' (move_is U num num' a Ha) (move_is U num num' b Hb)).
    rewrite (is_obj_eq U num a b A Ha Hb). reflexivity.
  Qed.
  Lemma index_move a l : is_obj U num a -> Forall (is_obj U num) l ->
    index_of (move num' a) (map (move num') l) = index_of a l.
  Proof.
    intros Ha H. induction H as [|b r Hb Hr IH]; [reflexivity|]. cbn [map index_of].
    rewrite eqb_move, IH by assumption. reflexivity.
  Qed.
  Lemma tsap_move t a : is_obj U num a -> every_t (is_obj U num) t ->
    at_get_tsap (move_t num' t) (move num' a) = at_get_tsap t a.
  Proof.
    intros Ha [H1 H2]. unfold at_get_tsap. cbn [move_t at_addrs at_ia].
    rewrite index_move, eqb_move by assumption. reflexivity.
  Qed.
  Lemma fold_move t k l : every_t (is_obj U num) t -> Forall (is_obj U num) l -> forall m,
    fold_left (tsap_append (move_t num' t) k) (map (move num') l) m = fold_left (tsap_append t k) l m.
  Proof.
    intros Ht H. induction H as [|b r Hb Hr IH]; intros m; [reflexivity|]. cbn [map fold_left].
    rewrite <- IH. f_equal. unfold tsap_append. rewrite tsap_move by assumption. reflexivity.
  Qed.
  Lemma rebuild_move t d : every_t (is_obj U num) t -> every_d (is_obj U num) d ->
    rebuild_tsaps (move_t num' t) (move_d num' d) = rebuild_tsaps t d.
  Proof.
    intros Ht H. unfold rebuild_tsaps. generalize (@nil (option Z * list asap)).
    induction H as [|[k l] r Hb Hr IH]; intros m; [reflexivity|]. cbn [move_d map fold_left fst snd].
    rewrite fold_move by assumption. apply IH.
  Qed.
  Lemma occ_move r l : In r U -> Forall (is_obj U num) l ->
    occ (num' r) (vals (map (move num') l)) = occ (num r) (vals l).
  Proof.
    intros Hr H. induction H as [|b q Hb Hq IH]; [reflexivity|]. cbn [map vals]. unfold vals in *.
    cbn [map]. rewrite !occ_cons, IH. f_equal.
    pose proof (eqb_move (obj num r) b (obj_is_obj U num r Hr) Hb) as E. unfold addr_eqb in E.
    cbn [move a_val obj a_ref] in *. rewrite E. reflexivity.
  Qed.
End Moving.

Lemma entry_move num d v : entry (move_d num d) v = map (move num) (entry d v).
Proof.
  unfold entry. induction d as [|[k l] d IH]; [reflexivity|]. cbn [move_d map dget fst snd].
  destruct (asap_eqb k (mkasap v None)); [reflexivity|]. exact IH.
Qed.
Lemma keys_move num d : keys (move_d num d) = keys d.
Proof. unfold keys, move_d. rewrite map_map. reflexivity. Qed.

(** ** Histories *)

Lemma occ_times U num r l : apart U num -> In r U -> incl l U ->
  occ (num r) (vals (map (obj num) l)) = times r l.
Proof.
  intros A Hr. induction l as [|q l IH]; intros I; [reflexivity|]. cbn [map]. unfold vals in *. cbn [map].
  rewrite occ_cons, IH by (intros x Hx; apply I; right; exact Hx). cbn [obj a_val].
  unfold times, zlen. cbn [filter]. destruct (N.eqb_spec r q) as [->|E].
  - rewrite Z.eqb_refl. cbn [length]. lia.
  - destruct (Z.eqb_spec (num r) (num q)) as [K|K]; [|lia].
    elim E. apply A; [exact Hr|apply I; left; reflexivity|exact K].
Qed.

Lemma apart_now U num h : apart_throughout U num h -> apart U num.
Proof. destruct h; intros [H _]; exact H. Qed.

Lemma object_counts U h : forall num s num' s', inv s -> every (is_obj U num) s ->
  apart_throughout U num h -> incl (named h) U -> object_run num s h = Some (num', s') ->
  inv s' /\ every (is_obj U num') s' /\ apart U num' /\
  forall v r, In r U -> occ (num' r) (vals (entry (as_addresses s') v)) =
    occ (num r) (vals (entry (as_addresses s) v)) + zsum (map (object_balance1 v r) h).
Proof.
  induction h as [|c h IH]; intros num s num' s' I E T B H.
  - injection H as <- <-. split; [exact I|]. split; [exact E|]. split; [exact (apart_now _ _ _ T)|].
    intros. cbn. lia.
  - pose proof (apart_now _ _ _ T) as A. destruct T as [_ T].
    assert (B1 : incl (named h) U) by (intros x Hx; apply B; apply in_or_app; right; exact Hx).
    destruct c as [a l|a l|q f x]; cbn [object_run] in H.
    + assert (Bl : incl l U) by (intros y Hy; apply B; apply in_or_app; left; exact Hy).
      pose proof (associate_every (is_obj U num) a (map (obj num) l) s (objs_are U num l Bl) E) as E1.
      destruct (associate a (map (obj num) l) s) as [[[]|e] s1] eqn:D; [|discriminate].
      destruct (as_do_ok s (Associate a (map (obj num) l)) s1 I D) as [I1 C1].
      destruct (IH num s1 num' s' I1 E1 T B1 H) as (I2 & E2 & A2 & C2).
      split; [exact I2|]. split; [exact E2|]. split; [exact A2|]. intros v r Hr.
      rewrite (C2 v r Hr), C1. cbn [map]. rewrite zsum_cons. cbn [balance1 object_balance1].
      rewrite (occ_times U num r l A Hr Bl). lia.
    + assert (Bl : incl l U) by (intros y Hy; apply B; apply in_or_app; left; exact Hy).
      pose proof (disassociate_every (is_obj U num) a (map (obj num) l) s E) as E1.
      destruct (disassociate a (map (obj num) l) s) as [[[]|e] s1] eqn:D; [|discriminate].
      destruct (as_do_ok s (Disassociate a (map (obj num) l)) s1 I D) as [I1 C1].
      destruct (IH num s1 num' s' I1 E1 T B1 H) as (I2 & E2 & A2 & C2).
      split; [exact I2|]. split; [exact E2|]. split; [exact A2|]. intros v r Hr.
      rewrite (C2 v r Hr), C1. cbn [map]. rewrite zsum_cons. cbn [balance1 object_balance1].
      rewrite (occ_times U num r l A Hr Bl). lia.
    + pose proof (apart_now _ _ _ T) as A1. rewrite (as_store_move U num q f x s E) in H.
      set (n1 := numbers num (OStore q f x)) in *.
      assert (I1 : inv (move_s n1 s)).
      { destruct I as [I1 I2]. split; [|cbn [move_s as_addresses]; rewrite keys_move; exact I2]. cbn [move_s as_tsaps as_table as_addresses].
        destruct E as [Et Ed]. rewrite (rebuild_move U num n1 A A1) by assumption. exact I1. }
      destruct (IH n1 _ num' s' I1 (move_every U num n1 s E) T B1 H) as (I2 & E2 & A2 & C2).
      split; [exact I2|]. split; [exact E2|]. split; [exact A2|]. intros v r Hr.
      rewrite (C2 v r Hr). cbn [move_s as_addresses map]. rewrite entry_move, zsum_cons.
      rewrite (occ_move U num n1 A A1 r) by (try assumption; apply entry_every, E). cbn [object_balance1]. lia.
Qed.

Lemma object_run_app h1 : forall num s h2, object_run num s (h1 ++ h2) =
  match object_run num s h1 with Some (num1, s1) => object_run num1 s1 h2 | None => None end.
Proof.
  induction h1 as [|[a l|a l|q f x] r IH]; intros num s h2; [reflexivity| | |]; cbn [object_run app].
  - destruct (associate a (map (obj num) l) s) as [[u|e] s1]; [apply IH|reflexivity].
  - destruct (disassociate a (map (obj num) l) s) as [[u|e] s1]; [apply IH|reflexivity].
  - apply IH.
Qed.
Lemma object_init num l : forall s s', assoc_init (object_links num l) s = (Ok tt, s') ->
  object_run num s (map (fun p => OAssociate (fst p) [snd p]) l) = Some (num, s').
Proof.
  induction l as [|[a r] l IH]; intros s s' H; [injection H as <-; reflexivity|].
  cbn [object_links map assoc_init fst snd] in H. cbn [map object_run fst snd].
  destruct (associate a [obj num r] s) as [[u|e] s1]; [|discriminate]. apply IH. exact H.
Qed.
Lemma object_new num max ia group l s : assoc_new (object_table num max ia group) (object_links num l) = Ok s ->
  object_run num (mkassoc (object_table num max ia group) [] []) (object_initial ia l) = Some (num, s).
Proof.
  unfold assoc_new, object_initial. cbn [object_run map].
  change (at_ia (object_table num max ia group)) with (obj num ia).
  destruct (associate (mkasap 0 (Some "individual address"%string)) [obj num ia] _) as [[u|e] s1]; [|discriminate].
  destruct (assoc_init (object_links num l) s1) as [[[]|e] s2] eqn:E; [|discriminate]. intros [= <-].
  apply object_init, E.
Qed.
Lemma initial_apart U num l h : apart_throughout U num h ->
  apart_throughout U num (map (fun p : asap * N => OAssociate (fst p) [snd p]) l ++ h).
Proof. intros T. induction l as [|p l IH]; [exact T|]. split; [exact (apart_now _ _ _ T)|exact IH]. Qed.
Lemma named_initial (l : list (asap * N)) : named (map (fun p => OAssociate (fst p) [snd p]) l) = map snd l.
Proof. induction l as [|p l IH]; [reflexivity|]. cbn. f_equal. exact IH. Qed.
Lemma named_app h1 h2 : named (h1 ++ h2) = named h1 ++ named h2.
Proof. apply flat_map_app. Qed.

Lemma object_built num max ia group l s0 h num' s :
  assoc_new (object_table num max ia group) (object_links num l) = Ok s0 ->
  object_run num s0 h = Some (num', s) ->
  apart_throughout (involved ia group l h) num h ->
  object_run num (mkassoc (object_table num max ia group) [] []) (object_initial ia l ++ h) = Some (num', s) /\
  every (is_obj (involved ia group l h) num) (mkassoc (object_table num max ia group) [] []) /\
  apart_throughout (involved ia group l h) num (object_initial ia l ++ h) /\
  incl (named (object_initial ia l ++ h)) (involved ia group l h).
Proof.
  intros HN R T. split; [rewrite object_run_app, (object_new _ _ _ _ _ _ HN); exact R|]. split.
  - split; [split|constructor]; cbn [as_table object_table at_ia at_addrs].
    + apply obj_is_obj. left. reflexivity.
    + apply objs_are. intros r Hr. right. apply in_or_app. left. exact Hr.
  - split.
    + split; [exact (apart_now _ _ _ T)|]. cbn [app numbers]. apply initial_apart, T.
    + rewrite named_app. cbn [object_initial named flat_map]. 
      change (flat_map _ (map _ l)) with (named (map (fun p : asap * N => OAssociate (fst p) [snd p]) l)).
      rewrite named_initial. intros r Hr. unfold involved.
      rewrite !in_app_iff in Hr. cbn [In] in *. rewrite !in_app_iff. tauto.
Qed.

Lemma object_routing num max ia group l s0 h num' s r g :
  assoc_new (object_table num max ia group) (object_links num l) = Ok s0 ->
  object_run num s0 h = Some (num', s) ->
  apart_throughout (involved ia group l h) num h ->
  In r (involved ia group l h) -> a_val g = num' r -> known (as_table s) (num' r) ->
  match as_get_asaps_from_address s g with
  | Ok L => L <> [] /\ forall v, occ v (map asap_value L) = object_balance ia l h v r
  | Err e => e = KeyError /\ forall v, object_balance ia l h v r = 0
  end.
Proof.
  intros HN R T Hr Hg K. destruct (object_built _ _ _ _ _ _ _ _ _ HN R T) as (R1 & E & T1 & B).
  destruct (object_counts _ _ _ _ _ _ (inv_empty _) E T1 B R1) as (I & _ & _ & C).
  rewrite <- Hg in K. pose proof (inv_routing s g I K) as Q. rewrite Hg in Q.
  assert (C1 : forall v, occ (num' r) (vals (entry (as_addresses s) v)) = object_balance ia l h v r).
  { intros v. rewrite (C v r Hr). cbn [as_addresses]. unfold entry at 1. cbn. reflexivity. }
  destruct (as_get_asaps_from_address s g) as [L|e].
  - destruct Q as [Q1 Q2]. split; [exact Q1|]. intros v. rewrite Q2. apply C1.
  - destruct Q as [Q1 Q2]. split; [exact Q1|]. intros v. rewrite <- C1. apply Q2.
Qed.

(** ** Sending *)

Lemma known_move U num num' t a : apart U num -> apart U num' -> is_obj U num a -> every_t (is_obj U num) t ->
  known t (a_val a) -> known (move_t num' t) (a_val (move num' a)).
Proof.
  intros A A' Ha Ht K. apply get_tsap_known. rewrite (tsap_move U num num' A A' t a Ha Ht).
  apply get_tsap_known. exact K.
Qed.
Lemma dget_move num d b : dget asap_eqb b (move_d num d) = option_map (map (move num)) (dget asap_eqb b d).
Proof.
  induction d as [|[k l] d IH]; [reflexivity|]. cbn [move_d map dget fst snd].
  destruct (asap_eqb k b); [reflexivity|]. exact IH.
Qed.

Definition refs (l : list address) : list N := map a_ref l.
Definition given_by (v : Z) (c : object_call) : list N :=
  match c with OAssociate a q => if asap_value a =? v then q else [] | _ => [] end.
Definition introduces (v : Z) (c : object_call) : bool :=
  match c with OAssociate a q => asap_value a =? v | _ => false end.
Lemma refs_obj num l : refs (map (obj num) l) = l.
Proof. unfold refs. rewrite map_map. cbn. apply map_id. Qed.
Lemma refs_move num l : refs (map (move num) l) = refs l.
Proof. unfold refs. rewrite map_map. reflexivity. Qed.

Lemma object_sends U h : forall num s num' s', every (is_obj U num) s -> all_known s ->
  apart_throughout U num h -> incl (named h) U -> never_disassociates h ->
  object_run num s h = Some (num', s') ->
  every (is_obj U num') s' /\ all_known s' /\
  (forall v, refs (entry (as_addresses s') v) = refs (entry (as_addresses s) v) ++ flat_map (given_by v) h) /\
  (forall b, dget asap_eqb b (as_addresses s') <> None <->
             dget asap_eqb b (as_addresses s) <> None \/ existsb (introduces (asap_value b)) h = true).
Proof.
  induction h as [|c h IH]; intros num s num' s' E K T B D H.
  - injection H as <- <-. split; [exact E|]. split; [exact K|]. split; [intros; cbn; rewrite app_nil_r; reflexivity|].
    intros b. cbn. intuition congruence.
  - pose proof (apart_now _ _ _ T) as A. destruct T as [_ T].
    assert (B1 : incl (named h) U) by (intros x Hx; apply B; apply in_or_app; right; exact Hx).
    pose proof (Forall_inv D) as Dc. pose proof (Forall_inv_tail D) as Dh.
    destruct c as [a l|a l|q f x]; cbn [object_run] in H; [|destruct Dc|].
    + assert (Bl : incl l U) by (intros y Hy; apply B; apply in_or_app; left; exact Hy).
      pose proof (associate_every (is_obj U num) a (map (obj num) l) s (objs_are U num l Bl) E) as E1.
      destruct (associate a (map (obj num) l) s) as [[[]|e] s1] eqn:F; [|discriminate].
      pose proof (associate_known _ _ _ _ F K) as K1.
      destruct (IH num s1 num' s' E1 K1 T B1 Dh H) as (E2 & K2 & V2 & D2).
      split; [exact E2|]. split; [exact K2|]. apply associate_ok in F. destruct F as (F & _ & _). split.
      * intros v. rewrite V2, F, entry_append. cbn [flat_map given_by]. unfold refs at 1. rewrite map_app, <- app_assoc.
        f_equal. destruct (asap_value a =? v); [|reflexivity]. fold (refs (map (obj num) l)). rewrite refs_obj. reflexivity.
      * intros b. rewrite D2, F, dget_append. cbn [existsb introduces]. rewrite orb_true_iff.
        destruct (asap_value a =? asap_value b) eqn:Q; intuition congruence.
    + pose proof (apart_now _ _ _ T) as A1. rewrite (as_store_move U num q f x s E) in H.
      set (n1 := numbers num (OStore q f x)) in *.
      assert (K1 : all_known (move_s n1 s)).
      { intros v y. cbn [move_s as_addresses as_table]. rewrite entry_move. intros Hy.
        apply in_map_iff in Hy. destruct Hy as (z & <- & Hz). destruct E as [Et Ed].
        pose proof (entry_every _ _ v Ed) as F. rewrite Forall_forall in F.
        apply (known_move U num n1 _ z A A1 (F z Hz) Et). eapply K, Hz. }
      destruct (IH n1 _ num' s' (move_every U num n1 s E) K1 T B1 Dh H) as (E2 & K2 & V2 & D2).
      split; [exact E2|]. split; [exact K2|]. split.
      * intros v. rewrite V2. cbn [move_s as_addresses flat_map given_by app]. rewrite entry_move, refs_move. reflexivity.
      * intros b. rewrite D2. cbn [move_s as_addresses existsb introduces orb]. rewrite dget_move.
        destruct (dget asap_eqb b (as_addresses s)); cbn; intuition congruence.
Qed.
Lemma vals_refs U num l : Forall (is_obj U num) l -> vals l = map num (refs l).
Proof.
  intros H. induction H as [|a r [_ Ha] Hr IH]; [reflexivity|]. unfold vals, refs in *. cbn. rewrite Ha, IH. reflexivity.
Qed.

Lemma object_sending num max ia group l s0 h num' s b :
  assoc_new (object_table num max ia group) (object_links num l) = Ok s0 ->
  object_run num s0 h = Some (num', s) ->
  apart_throughout (involved ia group l h) num h -> never_disassociates h ->
  existsb (introduces (asap_value b)) (object_initial ia l ++ h) = true ->
  exists L, sends_to s b = Ok L /\ vals L = map num' (object_given ia l h (asap_value b)).
Proof.
  intros HN R T D X. destruct (object_built _ _ _ _ _ _ _ _ _ HN R T) as (R1 & E & T1 & B).
  assert (D1 : never_disassociates (object_initial ia l ++ h)).
  { apply Forall_app. split; [|exact D]. constructor; [exact I|]. apply Forall_map, Forall_forall. intros; exact I. }
  assert (K0 : all_known (mkassoc (object_table num max ia group) [] [])) by (intros v x []).
  destruct (object_sends _ _ _ _ _ _ E K0 T1 B D1 R1) as (E2 & K2 & V2 & D2).
  rewrite sends_to_targets. destruct (dget asap_eqb b (as_addresses s)) as [e|] eqn:Eg.
  - destruct (targets_known (as_table s) e) as (L & L1 & L2).
    { intros x Hx. apply (K2 (asap_value b)). rewrite (dget_entry _ _ _ Eg). exact Hx. }
    exists L. split; [exact L1|]. rewrite L2.
    assert (F : Forall (is_obj (involved ia group l h) num') e) by (eapply dget_every; [apply E2|exact Eg]).
    rewrite (vals_refs _ _ _ F), <- (dget_entry _ _ _ Eg), V2. cbn [as_addresses]. reflexivity.
  - exfalso. apply (proj2 (D2 b)); [right; exact X|exact Eg].
Qed.

(** ** Sending after disassociations *)

Lemma let_go_perm r l : In r l -> Permutation l (r :: let_go r l).
Proof.
  induction l as [|q k IH]; intros H; [destruct H|]. cbn [let_go]. destruct (N.eqb_spec q r) as [->|E]; [reflexivity|].
  destruct H as [H|H]; [congruence|]. rewrite perm_swap. constructor. apply IH, H.
Qed.
Lemma let_go_out r l : ~ In r l -> let_go r l = l.
Proof.
  induction l as [|q k IH]; intros H; [reflexivity|]. cbn [let_go]. destruct (N.eqb_spec q r) as [->|E].
  - elim H. left. reflexivity.
  - f_equal. apply IH. intros K. apply H. right. exact K.
Qed.
Lemma let_go_cong r l l' : Permutation l l' -> Permutation (let_go r l) (let_go r l').
Proof.
  intros P. destruct (in_dec N.eq_dec r l) as [H|H].
  - apply Permutation_cons_inv with (a := r). rewrite <- (let_go_perm r l H).
    rewrite <- (let_go_perm r l' (Permutation_in _ P H)). exact P.
  - rewrite !let_go_out; [exact P| |exact H]. intros K. apply H. apply (Permutation_in _ (Permutation_sym P)), K.
Qed.
Lemma remove_first_refs U num a l l' : apart U num -> is_obj U num a -> Forall (is_obj U num) l ->
  remove_first a l = Some l' -> refs l' = let_go (a_ref a) (refs l).
Proof.
  intros A Ha H. revert l'. induction H as [|b r Hb Hr IH]; intros l' E; [discriminate|].
  cbn [remove_first] in E. cbn [refs map let_go]. rewrite (is_obj_eq U num b a A Hb Ha) in E.
  destruct (N.eqb (a_ref b) (a_ref a)); [injection E as <-; reflexivity|].
  destruct (remove_first a r) as [r'|]; [|discriminate]. injection E as <-. cbn. f_equal. apply IH. reflexivity.
Qed.
Lemma mem_refs U num a l : apart U num -> is_obj U num a -> Forall (is_obj U num) l ->
  mem_addr a l = existsb (N.eqb (a_ref a)) (refs l).
Proof.
  intros A Ha H. induction H as [|b r Hb Hr IH]; [reflexivity|]. unfold mem_addr, refs in *. cbn [existsb map].
  rewrite (is_obj_eq U num a b A Ha Hb), IH. reflexivity.
Qed.
Lemma existsb_perm r l l' : Permutation l l' -> existsb (N.eqb r) l = existsb (N.eqb r) l'.
Proof.
  intros P. apply eq_true_iff_eq. rewrite !existsb_exists. split; intros (x & Hx & E); exists x; (split; [|exact E]).
  - exact (Permutation_in _ P Hx).
  - exact (Permutation_in _ (Permutation_sym P) Hx).
Qed.
Lemma refs_perm l l' : Permutation l l' -> Permutation (refs l) (refs l').
Proof. apply Permutation_map. Qed.

Lemma insert_listed U num ia l : apart U num -> incl l U -> forall t t' k, every_t (is_obj U num) t -> a_ref (at_ia t) = ia ->
  Permutation (refs (at_addrs t)) k -> assoc_insert (map (obj num) l) t = (Ok tt, t') ->
  a_ref (at_ia t') = ia /\ Permutation (refs (at_addrs t')) (fold_left (fun k r => if N.eqb r ia || existsb (N.eqb r) k then k else r :: k) l k).
Proof.
  intros A. induction l as [|r l IH]; intros B t t' k E I P H; [injection H as <-; auto|].
  assert (Br : In r U) by (apply B; left; reflexivity).
  assert (Bl : incl l U) by (intros x Hx; apply B; right; exact Hx).
  cbn [map assoc_insert] in H. cbn [fold_left].
  pose proof (mem_refs U num (obj num r) (at_addrs t) A (obj_is_obj U num r Br) (proj2 E)) as M. cbn [obj a_ref] in M.
  rewrite (existsb_perm r _ _ P) in M.
  assert (W : addr_is (obj num r) (at_ia t) = N.eqb r ia).
  { destruct E as [[_ E1] _]. unfold addr_is. cbn [obj a_ref a_val]. rewrite I in *. destruct (N.eqb_spec r ia) as [->|N]; [|reflexivity].
    rewrite E1. apply Z.eqb_refl. }
  rewrite M, W in H.
  destruct (existsb (N.eqb r) k) eqn:X; [rewrite orb_true_r; apply (IH Bl t t' k E I P H)|].
  destruct (N.eqb r ia) eqn:Y; [apply (IH Bl t t' k E I P H)|]. cbn [negb andb] in H. cbn [orb].
  pose proof (at_add_every (is_obj U num) (obj num r) t (obj_is_obj U num r Br) E) as E1.
  destruct (at_add (obj num r) t) as [[u|e] t1] eqn:F; [|discriminate]. cbn [snd] in E1.
  unfold at_add in F. rewrite M in F. cbn [negb orb] in F. destruct (_ >=? _); [discriminate|]. injection F as _ <-.
  apply (IH Bl _ t' (r :: k) E1); [exact I| |exact H]. cbn [at_addrs]. rewrite (refs_perm _ _ (sort_perm _)).
  unfold refs. rewrite map_app. cbn. rewrite <- Permutation_cons_append. constructor. exact P.
Qed.

Lemma loop_objects U num ia a l : apart U num -> incl l U -> forall t d t' d' k, every_t (is_obj U num) t -> every_d (is_obj U num) d ->
  a_ref (at_ia t) = ia -> Permutation (refs (at_addrs t)) k ->
  disassoc_loop a (map (obj num) l) t d = (Ok tt, (t', d')) ->
  a_ref (at_ia t') = ia /\ Permutation (refs (at_addrs t')) (fold_left (fun k r => if N.eqb r ia then k else let_go r k) l k) /\
  (forall v, refs (entry d' v) = if asap_value a =? v then fold_left (fun k r => let_go r k) l (refs (entry d v)) else refs (entry d v)) /\
  (forall b, dget asap_eqb b d' <> None <-> dget asap_eqb b d <> None).
Proof.
  intros A. induction l as [|r l IH]; intros B t d t' d' k Et Ed I P H.
  - injection H as <- <-. split; [exact I|]. split; [exact P|]. split; [intros v; destruct (_ =? _); reflexivity|reflexivity].
  - assert (Br : In r U) by (apply B; left; reflexivity).
    assert (Bl : incl l U) by (intros x Hx; apply B; right; exact Hx).
    pose proof (obj_is_obj U num r Br) as Or.
    cbn [map disassoc_loop] in H. rewrite (is_obj_eq U num _ _ A Or (proj1 Et)) in H. cbn [obj a_ref] in H. fold (obj num r) in H.
    rewrite I in H. cbn [fold_left].
    destruct (if negb (N.eqb r ia) then at_remove (obj num r) t else (Ok tt, t)) as [rm t1] eqn:F.
    assert (S1 : every_t (is_obj U num) t1 /\ (rm = Ok tt -> a_ref (at_ia t1) = ia /\
                 Permutation (refs (at_addrs t1)) (if N.eqb r ia then k else let_go r k))).
    { destruct (N.eqb r ia); cbn [negb] in F; [injection F as <- <-; auto|].
      pose proof (at_remove_every (is_obj U num) (obj num r) t Et) as E1. rewrite F in E1. split; [exact E1|].
      unfold at_remove in F. destruct (remove_first (obj num r) (at_addrs t)) as [l1|] eqn:G; injection F as <- <-; [|discriminate].
      intros _. split; [exact I|]. cbn [at_addrs]. rewrite (refs_perm _ _ (sort_perm _)).
      rewrite (remove_first_refs U num (obj num r) _ _ A Or (proj2 Et) G). cbn [obj a_ref]. apply let_go_cong, P. }
    destruct S1 as [E1 S1]. destruct rm as [[]|e]; [|discriminate]. destruct (S1 eq_refl) as [I1 P1].
    destruct (dget asap_eqb a d) as [l0|] eqn:G; [|discriminate].
    destruct (remove_first (obj num r) l0) as [l1|] eqn:G1; [|discriminate].
    pose proof (dget_every _ _ _ _ Ed G) as E0.
    assert (Ed1 : every_d (is_obj U num) (dset asap_eqb a l1 d)) by (apply dset_every; [eapply remove_first_every; eassumption|exact Ed]).
    destruct (IH Bl t1 _ t' d' _ E1 Ed1 I1 P1 H) as (I2 & P2 & V2 & D2).
    split; [exact I2|]. split; [exact P2|]. split.
    + intros v. rewrite V2, entry_dset. destruct (asap_value a =? v) eqn:Q; [|reflexivity].
      apply Z.eqb_eq in Q. subst v. rewrite (dget_entry _ _ _ G).
      rewrite (remove_first_refs U num (obj num r) _ _ A Or E0 G1). reflexivity.
    + intros b. rewrite D2, (dget_dset _ _ asap_eqb_spec). destruct (asap_eqb a b) eqn:Q; [|reflexivity].
      split; [|congruence]. intros _. unfold asap_eqb in Q. apply Z.eqb_eq in Q.
      rewrite <- (dget_value d a b) by exact Q. congruence.
Qed.

Lemma object_holds U ia h : forall num s num' s' k, every (is_obj U num) s ->
  apart_throughout U num h -> incl (named h) U -> a_ref (at_ia (as_table s)) = ia -> Permutation (refs (at_addrs (as_table s))) k ->
  object_run num s h = Some (num', s') ->
  every (is_obj U num') s' /\ apart U num' /\ a_ref (at_ia (as_table s')) = ia /\
  Permutation (refs (at_addrs (as_table s'))) (fold_left (listed_step ia) h k) /\
  (forall v, refs (entry (as_addresses s') v) = fold_left (object_step v) h (refs (entry (as_addresses s) v))) /\
  (forall b, dget asap_eqb b (as_addresses s') <> None <->
             dget asap_eqb b (as_addresses s) <> None \/ exists a q, In (OAssociate a q) h /\ asap_value a = asap_value b).
Proof.
  induction h as [|c h IH]; intros num s num' s' k E T B I P H.
  - injection H as <- <-. split; [exact E|]. split; [exact (apart_now _ _ _ T)|]. split; [exact I|]. split; [exact P|].
    split; [reflexivity|]. intros b. split; [auto|]. intros [K|(a & q & [] & _)]. exact K.
  - pose proof (apart_now _ _ _ T) as A. destruct T as [_ T].
    assert (B1 : incl (named h) U) by (intros x Hx; apply B; apply in_or_app; right; exact Hx).
    destruct c as [a l|a l|q f x]; cbn [object_run] in H; cbn [fold_left listed_step object_step].
    + assert (Bl : incl l U) by (intros y Hy; apply B; apply in_or_app; left; exact Hy).
      pose proof (associate_every (is_obj U num) a (map (obj num) l) s (objs_are U num l Bl) E) as E1.
      destruct (associate a (map (obj num) l) s) as [[[]|e] s1] eqn:F; [|discriminate].
      assert (S1 : a_ref (at_ia (as_table s1)) = ia /\ Permutation (refs (at_addrs (as_table s1)))
                (fold_left (fun k r => if N.eqb r ia || existsb (N.eqb r) k then k else r :: k) l k)).
      { unfold associate in F. destruct (assoc_insert (map (obj num) l) (as_table s)) as [[[]|e] t1] eqn:G; [|discriminate].
        injection F as <-. apply (insert_listed U num ia l A Bl (as_table s) t1 k (proj1 E) I P G). }
      destruct S1 as [I1 P1].
      destruct (IH num s1 num' s' _ E1 T B1 I1 P1 H) as (E2 & A2 & I2 & P2 & V2 & D2).
      split; [exact E2|]. split; [exact A2|]. split; [exact I2|]. split; [exact P2|].
      apply associate_ok in F. destruct F as (F & _ & _). split.
      * intros v. rewrite V2, F, entry_append. f_equal. destruct (asap_value a =? v); [|rewrite app_nil_r; reflexivity].
        unfold refs at 1. rewrite map_app. fold (refs (map (obj num) l)). rewrite refs_obj. reflexivity.
      * intros b. rewrite D2, F, dget_append. destruct (Z.eqb_spec (asap_value a) (asap_value b)) as [Q|Q].
        -- split; [intros _; right; exists a, l; split; [left; reflexivity|exact Q]|]. intros _. left. congruence.
        -- split.
           ++ intros [K|(a' & q & K1 & K2)]; [left; exact K|right; exists a', q; split; [right; exact K1|exact K2]].
           ++ intros [K|(a' & q & [K1|K1] & K2)]; [left; exact K|congruence|right; exists a', q; auto].
    + assert (Bl : incl l U) by (intros y Hy; apply B; apply in_or_app; left; exact Hy).
      pose proof (disassociate_every (is_obj U num) a (map (obj num) l) s E) as E1.
      destruct (disassociate a (map (obj num) l) s) as [[[]|e] s1] eqn:F; [|discriminate].
      unfold disassociate in F. destruct (disassoc_loop a (map (obj num) l) (as_table s) (as_addresses s)) as [[[]|e] [t1 d1]] eqn:G; [|discriminate].
      injection F as <-. cbn [snd] in E1.
      destruct (loop_objects U num ia a l A Bl _ _ t1 d1 k (proj1 E) (proj2 E) I P G) as (I1 & P1 & V1 & D1).
      destruct (IH num _ num' s' _ E1 T B1 I1 P1 H) as (E2 & A2 & I2 & P2 & V2 & D2). cbn [as_addresses] in *.
      split; [exact E2|]. split; [exact A2|]. split; [exact I2|]. split; [exact P2|]. split.
      * intros v. rewrite V2, V1. reflexivity.
      * intros b. rewrite D2, D1. split.
        -- intros [K|(a' & q & K1 & K2)]; [left; exact K|right; exists a', q; split; [right; exact K1|exact K2]].
        -- intros [K|(a' & q & [K1|K1] & K2)]; [left; exact K|discriminate|right; exists a', q; auto].
    + rewrite (as_store_move U num q f x s E) in H. set (n1 := numbers num (OStore q f x)) in *.
      destruct (IH n1 _ num' s' k (move_every U num n1 s E) T B1) as (E2 & A2 & I2 & P2 & V2 & D2).
      { cbn. exact I. }
      { cbn [move_s as_table move_t at_addrs]. rewrite refs_move. exact P. }
      { exact H. }
      split; [exact E2|]. split; [exact A2|]. split; [exact I2|]. split; [exact P2|]. split.
      * intros v. rewrite V2. cbn [move_s as_addresses]. rewrite entry_move, refs_move. reflexivity.
      * intros b. rewrite D2. cbn [move_s as_addresses]. rewrite dget_move.
        assert (K0 : option_map (map (move n1)) (dget asap_eqb b (as_addresses s)) <> None <-> dget asap_eqb b (as_addresses s) <> None)
          by (destruct (dget asap_eqb b (as_addresses s)); cbn; split; congruence).
        rewrite K0. split.
        -- intros [K|(a' & y & K1 & K2)]; [left; exact K|right; exists a', y; split; [right; exact K1|exact K2]].
        -- intros [K|(a' & y & [K1|K1] & K2)]; [left; exact K|discriminate|right; exists a', y; auto].
Qed.

Lemma apart_check U num :
  forallb (fun r => forallb (fun q => negb (num r =? num q) || N.eqb r q) U) U = true -> apart U num.
Proof.
  intros H r q Hr Hq E. rewrite forallb_forall in H. specialize (H r Hr). rewrite forallb_forall in H.
  specialize (H q Hq). rewrite E, Z.eqb_refl in H. apply N.eqb_eq. exact H.
Qed.
Lemma object_sending_all num max ia group l s0 h num' s b :
  assoc_new (object_table num max ia group) (object_links num l) = Ok s0 ->
  object_run num s0 h = Some (num', s) ->
  apart_throughout (involved ia group l h) num h ->
  let held := object_held ia l h (asap_value b) in
  let listed := object_listed ia group l h in
  match sends_to s b with
  | Ok L => ever_associated ia l h (asap_value b) /\ vals L = map num' held /\ forall r, In r held -> r = ia \/ In r listed
  | Err KeyError => ~ ever_associated ia l h (asap_value b)
  | Err e => e = TypeError /\ exists r, In r held /\ r <> ia /\ ~ In r listed
  end.
Proof.
  intros HN R T held listed. destruct (object_built _ _ _ _ _ _ _ _ _ HN R T) as (R1 & E & T1 & B).
  assert (P0 : Permutation (refs (at_addrs (object_table num max ia group))) group) by (cbn; rewrite refs_obj; reflexivity).
  destruct (object_holds _ ia _ _ _ _ _ group E T1 B eq_refl P0 R1) as (E2 & A2 & I2 & P2 & V2 & D2).
  specialize (D2 b). cbn [as_addresses dget] in D2.
  assert (Known : forall x, is_obj (involved ia group l h) num' x -> known (as_table s) (a_val x) <-> a_ref x = ia \/ In (a_ref x) listed).
  { intros x Hx. destruct E2 as [[Ei El] _]. split.
    - intros [K|K].
      + right. apply (Permutation_in _ P2). unfold vals in K. apply in_map_iff in K. destruct K as (y & K1 & K2).
        rewrite Forall_forall in El. specialize (El y K2). apply in_map_iff. exists y. split; [|exact K2].
        apply A2; [apply El|apply Hx|]. destruct El as [_ El], Hx as [_ Hx]. congruence.
      + left. rewrite <- I2. apply A2; [apply Hx|apply Ei|]. destruct Ei as [_ Ei], Hx as [_ Hx]. congruence.
    - intros [K|K].
      + right. destruct Ei as [_ Ei], Hx as [_ Hx]. rewrite Hx, K, Ei, I2. reflexivity.
      + left. apply (Permutation_in _ (Permutation_sym P2)) in K. apply in_map_iff in K. destruct K as (y & K1 & K2).
        apply in_map_iff. exists y. split; [|exact K2]. rewrite Forall_forall in El. destruct (El y K2) as [_ W], Hx as [_ Hx]. congruence. }
  rewrite sends_to_targets. destruct (dget asap_eqb b (as_addresses s)) as [e|] eqn:Eg.
  2:{ intros K. apply (proj2 D2); [right; exact K|reflexivity]. }
  assert (F : Forall (is_obj (involved ia group l h) num') e) by (eapply dget_every; [apply E2|exact Eg]).
  assert (W : refs e = held) by (rewrite <- (dget_entry _ _ _ Eg), V2; reflexivity).
  rewrite Forall_forall in F.
  assert (D : (forall x, In x e -> known (as_table s) (a_val x)) \/ exists x, In x e /\ ~ known (as_table s) (a_val x)).
  { clear. induction e as [|x r IH]; [left; intros x []|].
    destruct (known_dec (as_table s) (a_val x)) as [K|K]; [|right; exists x; cbn; auto].
    destruct IH as [IH|(y & I & N)]; [left; intros y [<-|I]; auto|right; exists y; cbn; auto]. }
  destruct D as [D|(x & Hx & N)].
  - destruct (targets_known (as_table s) e D) as (L & -> & L2). split; [|split].
    + destruct (proj1 D2) as [K|K]; [discriminate|elim K; reflexivity|exact K].
    + rewrite L2, (vals_refs (involved ia group l h) num'), W; [reflexivity|]. apply Forall_forall. exact F.
    + intros r Hr. rewrite <- W in Hr. apply in_map_iff in Hr. destruct Hr as (x & <- & Hx). apply Known; [apply F, Hx|apply D, Hx].
  - rewrite (targets_unknown _ e x Hx N). split; [reflexivity|]. exists (a_ref x). split; [rewrite <- W; apply in_map, Hx|].
    rewrite (Known x (F x Hx)) in N. tauto.
Qed.
