(** C04-C12: address table, association table, group object table. *)
From Coq Require Import String ZArith NArith List Bool Lia Permutation.
From Verif Require Import Py Base Msg Address Dpt Tables LData State Encode Decode.
From Verif Require Import SpecTables TablesProofs AssocProofs.
Import ListNotations.
Open Scope Z_scope.

(** Tables used by the examples: individual address 1001h. *)
Definition ex_ia := mkaddr 1 0x1001.
Definition ex_table := at_new ex_ia [mkaddr 2 0x0900; mkaddr 3 0x0300] 4.
Definition ex_calls := [Associate (mkasap 1 None) [mkaddr 4 0x0900];
                        Associate (mkasap 2 None) [mkaddr 5 0x0300; mkaddr 6 0x0100];
                        Associate (mkasap 3 None) [mkaddr 7 0x0900];
                        Disassociate (mkasap 2 None) [mkaddr 8 0x0300]].
Lemma ex_built : exists s, built ex_table [] ex_calls s.
Proof.
  eexists. eexists. exists [Ok tt; Ok tt; Ok tt; Ok tt].
  split; [vm_compute; reflexivity|]. split; [vm_compute; reflexivity|]. repeat constructor.
Qed.

(** ** C04 *)

Theorem C04_sorted : forall ia addrs max h,
  ascending (vals (at_addrs (at_after (at_new ia addrs max) h))).
Proof. intros. apply at_after_asc, sort_asc. Qed.
Print Assumptions C04_sorted.

(** The constructor keeps every address it is given. *)
Theorem C04_constructor : forall ia addrs max,
  Permutation (at_addrs (at_new ia addrs max)) addrs /\ at_ia (at_new ia addrs max) = ia.
Proof. intros. split; [apply sort_perm|reflexivity]. Qed.
Print Assumptions C04_constructor.

(** The TSAPs are 0, 1, .., n; number k >= 1 names the k-th address, anything
    below 1 the individual address, anything above n raises. *)
Theorem C04_tsaps : forall t k,
  znth k (at_tsaps t) = (if (0 <=? k) && (k <=? zlen (at_addrs t)) then Some k else None) /\
  (1 <= k <= zlen (at_addrs t) -> exists a, nth_error (at_addrs t) (Z.to_nat (k - 1)) = Some a /\
                                            at_get_address t (Some k) = Ok a) /\
  (k <= 0 -> at_get_address t (Some k) = Ok (at_ia t)) /\
  (zlen (at_addrs t) < k -> at_get_address t (Some k) = Err IndexError).
Proof.
  intros t k. split; [apply tsaps_znth|]. split; [|split; [|apply get_address_above]].
  - intros H. rewrite get_address_range by lia.
    destruct (nth_error (at_addrs t) (Z.to_nat (k - 1))) eqn:E; [eauto|].
    apply nth_error_None in E. unfold zlen in H. lia.
  - intros H. cbn. destruct (1 <=? k) eqn:E; [apply Z.leb_le in E; lia|reflexivity].
Qed.
Print Assumptions C04_tsaps.

(** get_tsap: the first TSAP carrying the address, 0 for the unlisted individual
    address, None for everything else. *)
Theorem C04_get_tsap : forall t g,
  (In (a_val g) (vals (at_addrs t)) ->
     exists k, at_get_tsap t g = Some k /\ 1 <= k <= zlen (at_addrs t) /\
       (exists b, at_get_address t (Some k) = Ok b /\ a_val b = a_val g) /\
       (forall j b, 1 <= j < k -> at_get_address t (Some j) = Ok b -> a_val b <> a_val g)) /\
  (~ In (a_val g) (vals (at_addrs t)) -> a_val g = a_val (at_ia t) -> at_get_tsap t g = Some 0) /\
  (~ In (a_val g) (vals (at_addrs t)) -> a_val g <> a_val (at_ia t) -> at_get_tsap t g = None).
Proof. intros t g. split; [apply get_tsap_listed|]. split; [apply get_tsap_ia|apply get_tsap_unknown]. Qed.
Print Assumptions C04_get_tsap.

Example C04_example :
  vals (at_addrs (at_after ex_table [AtAdd (mkaddr 9 0x0500); AtRemove (mkaddr 0 0x0300); AtRemove (mkaddr 0 1);
                                     AtSetIA (mkaddr 10 0x0500)])) = [0x0500; 0x0900] /\
  at_get_tsap ex_table (mkaddr 0 0x0900) = Some 2 /\ at_get_tsap ex_table (mkaddr 0 0x1001) = Some 0 /\
  at_get_tsap ex_table (mkaddr 0 7) = None /\ at_get_address ex_table (Some 3) = Err IndexError.
Proof. vm_compute. auto 10. Qed.

(** ** C05 *)

Theorem C05_capacity : forall t h, zlen (at_addrs t) <= at_max t ->
  zlen (at_addrs (at_after t h)) <= at_max t.
Proof. intros t h H. destruct (at_after_capacity h t H) as [H1 H2]. lia. Qed.
Print Assumptions C05_capacity.

(** On a full table add changes nothing; it raises unless the address is listed
    and equals the individual address. *)
Theorem C05_full_add : forall a t, zlen (at_addrs t) >= at_max t ->
  snd (at_add a t) = t /\
  (fst (at_add a t) = Err AddressTableException \/
   (fst (at_add a t) = Ok tt /\ In (a_val a) (vals (at_addrs t)) /\ a_val a = a_val (at_ia t))).
Proof.
  intros a t H. rewrite at_add_full by assumption. cbn. split; [reflexivity|].
  destruct (mem_addr a (at_addrs t)) eqn:E1, (addr_eqb a (at_ia t)) eqn:E2; cbn; auto.
  right. apply mem_addr_In in E1. apply addr_eqb_val in E2. auto.
Qed.
Print Assumptions C05_full_add.
Theorem C05_full_add_raises : forall a t, zlen (at_addrs t) >= at_max t ->
  ~ (In (a_val a) (vals (at_addrs t)) /\ a_val a = a_val (at_ia t)) ->
  at_add a t = (Err AddressTableException, t).
Proof.
  intros a t H N. rewrite at_add_full by assumption.
  destruct (mem_addr a (at_addrs t)) eqn:E1, (addr_eqb a (at_ia t)) eqn:E2; cbn; try reflexivity.
  elim N. apply mem_addr_In in E1. apply addr_eqb_val in E2. auto.
Qed.
Print Assumptions C05_full_add_raises.

(** The constructor does not enforce the limit. *)
Theorem C05_constructor_unlimited : forall n : nat, exists ia addrs,
  zlen (at_addrs (at_new ia addrs 0)) = Z.of_nat n.
Proof.
  intros n. exists ex_ia, (repeat ex_ia n). unfold at_new. cbn.
  rewrite (perm_zlen _ _ (sort_perm _)). unfold zlen. rewrite repeat_length. reflexivity.
Qed.
Print Assumptions C05_constructor_unlimited.
Example C05_example : let t := at_new ex_ia [ex_ia; mkaddr 2 5] 2 in
  zlen (at_addrs t) >= at_max t /\ at_add (mkaddr 3 6) t = (Err AddressTableException, t) /\
  at_add (mkaddr 4 0x1001) t = (Ok tt, t).
Proof. vm_compute. split; [congruence|]. auto. Qed.

(** ** C06 *)

Theorem C06_add_one : forall a t t', at_add a t = (Ok tt, t') ->
  at_ia t' = at_ia t /\ at_max t' = at_max t /\
  (In (a_val a) (vals (at_addrs t)) /\ a_val a = a_val (at_ia t) -> t' = t) /\
  (~ (In (a_val a) (vals (at_addrs t)) /\ a_val a = a_val (at_ia t)) ->
   Permutation (at_addrs t') (a :: at_addrs t)).
Proof.
  intros a t t' H. apply at_add_ok in H. destruct H as (H1 & H2 & H3).
  split; [assumption|]. split; [assumption|].
  destruct (mem_addr a (at_addrs t)) eqn:E1, (addr_eqb a (at_ia t)) eqn:E2; cbn in H3;
    rewrite <- mem_addr_In, <- addr_eqb_val, E1, E2; intuition congruence.
Qed.
Print Assumptions C06_add_one.

(** Through the association table no address is ever listed twice, whatever the
    calls and whether they return or raise. *)
Theorem C06_associate_no_duplicates : forall t l s0 h os s,
  NoDup (vals (at_addrs t)) -> assoc_new t l = Ok s0 -> as_run s0 h = (os, s) ->
  NoDup (vals (at_addrs (as_table s))).
Proof.
  intros t l s0 h os s ND H1 H2. apply assoc_new_run in H1. destruct H1 as (os0 & H1 & _).
  eapply as_run_NoDup; [exact H2|]. eapply as_run_NoDup; [exact H1|exact ND].
Qed.
Print Assumptions C06_associate_no_duplicates.

(** What associate adds to the address table: an address that is not listed,
    except the very object that is the individual address.  An equal copy of it
    is added. *)
Theorem C06_associate_adds : forall s a x s', associate a [x] s = (Ok tt, s') ->
  let t := as_table s in
  let same := a_ref x = a_ref (at_ia t) /\ a_val x = a_val (at_ia t) in
  (In (a_val x) (vals (at_addrs t)) \/ same -> as_table s' = t) /\
  (~ In (a_val x) (vals (at_addrs t)) -> ~ same -> Permutation (at_addrs (as_table s')) (x :: at_addrs t)).
Proof.
  intros s a x s' H t same. unfold associate in H. cbn [assoc_insert] in H. fold t in H.
  assert (S : addr_is x (at_ia t) = true <-> same).
  { unfold addr_is, same. rewrite andb_true_iff, N.eqb_eq, Z.eqb_eq. reflexivity. }
  destruct (mem_addr x (at_addrs t)) eqn:E1; cbn [negb andb] in H.
  { injection H as <-. cbn [as_table]. split; [reflexivity|]. intros N. exfalso. apply N, mem_addr_In. exact E1. }
  destruct (addr_is x (at_ia t)) eqn:E2; cbn [negb] in H.
  { injection H as <-. cbn [as_table]. split; [reflexivity|]. intros _ N. exfalso. apply N, S. reflexivity. }
  split.
  { intros [I|I]; [apply mem_addr_In in I; congruence|apply S in I; discriminate I]. }
  intros N _. destruct (at_add x t) as [[[]|e] t'] eqn:A; [|discriminate H].
  injection H as <-. cbn [as_table]. apply (C06_add_one x t t' A). intros [I _]. exact (N I).
Qed.
Print Assumptions C06_associate_adds.
Example C06_own_address : exists s0 s, assoc_new ex_table [] = Ok s0 /\
  associate (mkasap 5 None) [mkaddr 9 0x1001] s0 = (Ok tt, s) /\ vals (at_addrs (as_table s)) = [0x0300; 0x0900; 0x1001] /\
  fst (associate (mkasap 5 None) [ex_ia] s0) = Ok tt /\ as_table (snd (associate (mkasap 5 None) [ex_ia] s0)) = as_table s0.
Proof. eexists. eexists. repeat split; vm_compute; reflexivity. Qed.

Example C06_add_twice : let a := mkaddr 9 0x0500 in
  vals (at_addrs (at_after ex_table [AtAdd a; AtAdd a])) = [0x0300; 0x0500; 0x0500; 0x0900].
Proof. reflexivity. Qed.
Example C06_example : NoDup (vals (at_addrs ex_table)) /\
  exists s0 os s, assoc_new ex_table [] = Ok s0 /\ as_run s0 ex_calls = (os, s) /\
    vals (at_addrs (as_table s)) = [0x0100; 0x0900].
Proof.
  split; [vm_compute; repeat constructor; cbn; intuition congruence|].
  do 3 eexists. split; [vm_compute; reflexivity|]. split; vm_compute; reflexivity.
Qed.

(** ** C07 *)

Theorem C07_routing : forall t l h s g, built t l h s -> known (as_table s) (a_val g) ->
  match as_get_asaps_from_address s g with
  | Ok asaps => asaps <> [] /\ forall v, occ v (map asap_value asaps) = balance t l h v (a_val g)
  | Err e => e = KeyError /\ forall v, balance t l h v (a_val g) = 0
  end.
Proof. exact routing. Qed.
Print Assumptions C07_routing.

Example C07_example : exists s, built ex_table [] ex_calls s /\ known (as_table s) 0x0900 /\
  as_get_asaps_from_address s (mkaddr 0 0x0900) = Ok [mkasap 1 None; mkasap 3 None] /\
  balance ex_table [] ex_calls 3 0x0900 = 1.
Proof.
  destruct ex_built as [s H]. exists s. split; [exact H|].
  destruct H as (s0 & os & H1 & H2 & _). vm_compute in H1. injection H1 as <-.
  vm_compute in H2. injection H2 as _ <-. split; [left; vm_compute; auto|].
  split; vm_compute; reflexivity.
Qed.

(** Why "known" is needed: after a shared address left the table, every unknown
    address is answered with the ASAPs that lost theirs. *)
Theorem C07_unknown_address_refuted : exists t h s g v,
  built t [] h s /\ ~ known (as_table s) (a_val g) /\
  (forall w, balance t [] h w (a_val g) = 0) /\
  as_get_asaps_from_address s g = Ok [mkasap v None].
Proof.
  exists ex_table, (ex_calls ++ [Disassociate (mkasap 1 None) [mkaddr 4 0x0900]]).
  eexists. exists (mkaddr 0 0x7777), 3.
  split; [eexists; exists [Ok tt; Ok tt; Ok tt; Ok tt; Ok tt];
          split; [vm_compute; reflexivity|]; split; [vm_compute; reflexivity|repeat constructor]|].
  split; [vm_compute; intuition congruence|]. split; [|vm_compute; reflexivity].
  intros w. unfold balance. cbn.
  repeat match goal with |- context [if ?b then _ else _] => destruct b end; reflexivity.
Qed.
Print Assumptions C07_unknown_address_refuted.

(** ** C08 *)

Theorem C08_sending_order : forall t l h s a, built t l h s -> only_associates h ->
  if introduced t l h (asap_value a)
  then exists tsaps addrs, as_get_tsaps s a = Ok tsaps /\ as_get_addresses s tsaps = Ok addrs /\
                           vals addrs = given t l h (asap_value a)
  else as_get_tsaps s a = Err KeyError.
Proof.
  intros t l h s a B O. pose proof (sending t l h s a B O) as H.
  destruct (introduced t l h (asap_value a)); [|exact H].
  destruct H as (L & H1 & H2). unfold sends_to in H1.
  destruct (as_get_tsaps s a) as [ts|e]; [|discriminate]. exists ts, L. auto.
Qed.
Print Assumptions C08_sending_order.

Example C08_example : let h := [Associate (mkasap 1 None) [mkaddr 4 0x0900; mkaddr 5 0x0100];
                                Associate (mkasap 1 (Some "x"%string)) [mkaddr 6 0x0500]] in
  exists s, built ex_table [] h s /\ only_associates h /\ introduced ex_table [] h 1 = true /\
    given ex_table [] h 1 = [0x0900; 0x0100; 0x0500] /\
    sends_to s (mkasap 1 None) = Ok [mkaddr 2 0x0900; mkaddr 5 0x0100; mkaddr 6 0x0500] /\
    as_get_tsaps s (mkasap 9 None) = Err KeyError.
Proof.
  eexists. split; [eexists; exists [Ok tt; Ok tt]; split; [vm_compute; reflexivity|];
                   split; [vm_compute; reflexivity|repeat constructor]|].
  split; [repeat constructor|]. vm_compute. auto.
Qed.

(** ** C09 *)

Theorem C09_unshared : forall t l h s a g,
  NoDup (vals (at_addrs t)) -> built t l h s ->
  In (a_val g) (vals (at_addrs (as_table s))) -> a_val g <> a_val (at_ia (as_table s)) ->
  balance t l h (asap_value a) (a_val g) = 1 ->
  (forall v, v <> asap_value a -> balance t l h v (a_val g) = 0) ->
  exists s', disassociate a [g] s = (Ok tt, s') /\
    at_get_tsap (as_table s') g = None /\
    (forall x, a_val x <> a_val g -> as_get_asaps_from_address s' x = as_get_asaps_from_address s x) /\
    (forall b, asap_value b <> asap_value a -> sends_to s' b = sends_to s b) /\
    (forall addrs, sends_to s a = Ok addrs ->
       exists addrs', sends_to s' a = Ok addrs' /\ Permutation (vals addrs) (a_val g :: vals addrs')).
Proof. exact disassociate_unshared. Qed.
Print Assumptions C09_unshared.

(** When another ASAP shares the address, the address leaves the table and the
    other ASAP can neither receive from it nor send anywhere (the encoder's
    failure is C09_shared_encode in Props_Encode.v). *)
Theorem C09_shared : forall t l h s a b g,
  NoDup (vals (at_addrs t)) -> built t l h s ->
  In (a_val g) (vals (at_addrs (as_table s))) -> a_val g <> a_val (at_ia (as_table s)) ->
  asap_value a <> asap_value b ->
  0 < balance t l h (asap_value a) (a_val g) ->
  0 < balance t l h (asap_value b) (a_val g) ->
  exists s', disassociate a [g] s = (Ok tt, s') /\
    at_get_tsap (as_table s') g = None /\ sends_to s' b = Err TypeError.
Proof. exact disassociate_shared. Qed.
Print Assumptions C09_shared.

Example C09_unshared_example : exists s, built ex_table [] ex_calls s /\
  NoDup (vals (at_addrs ex_table)) /\ In 0x0100 (vals (at_addrs (as_table s))) /\
  0x0100 <> a_val (at_ia (as_table s)) /\
  balance ex_table [] ex_calls 2 0x0100 = 1 /\
  (forall v, v <> 2 -> balance ex_table [] ex_calls v 0x0100 = 0).
Proof.
  destruct ex_built as [s H]. exists s. split; [exact H|].
  split; [vm_compute; repeat constructor; cbn; intuition congruence|].
  destruct H as (s0 & os & H1 & H2 & _). vm_compute in H1. injection H1 as <-.
  vm_compute in H2. injection H2 as _ <-. split; [vm_compute; auto|]. split; [vm_compute; congruence|].
  split; [reflexivity|]. intros v Hv. unfold balance. cbn.
  assert (match v with Z.pos q => (2 =? q)%positive | _ => false end = false) as ->.
  { destruct v as [|p|p]; try reflexivity. apply Pos.eqb_neq. congruence. }
  repeat match goal with |- context [if ?b then _ else _] => destruct b end; reflexivity.
Qed.
Example C09_shared_example : exists s, built ex_table [] ex_calls s /\
  In 0x0900 (vals (at_addrs (as_table s))) /\ 0x0900 <> a_val (at_ia (as_table s)) /\
  balance ex_table [] ex_calls 1 0x0900 = 1 /\ balance ex_table [] ex_calls 3 0x0900 = 1.
Proof.
  destruct ex_built as [s H]. exists s. split; [exact H|].
  destruct H as (s0 & os & H1 & H2 & _). vm_compute in H1. injection H1 as <-.
  vm_compute in H2. injection H2 as _ <-. vm_compute. intuition congruence.
Qed.

(** ** C10 *)

Theorem C10_single_harmless : forall a x s e s', associate a [x] s = (Err e, s') ->
  e = AddressTableException /\ s' = s.
Proof. exact associate_single_err. Qed.
Print Assumptions C10_single_harmless.

(** With several addresses those before the failing one stay inserted and the
    routing map is the old one. *)
Theorem C10_several : forall a l s e s', associate a l s = (Err e, s') ->
  e = AddressTableException /\ as_addresses s' = as_addresses s /\ as_tsaps s' = as_tsaps s /\
  exists done x rest, l = done ++ x :: rest /\ ~ In (a_val x) (vals (at_addrs (as_table s'))) /\
    forall y, In y done -> known (as_table s') (a_val y).
Proof. exact associate_several_err. Qed.
Print Assumptions C10_several.

(** Then a telegram for one group address is delivered to the ASAP of another. *)
Definition mis_table := at_new ex_ia [] 2.
Definition mis_calls := [Associate (mkasap 1 None) [mkaddr 2 0x0900]].
Theorem C10_misrouting_refuted : exists s s' a addrs,
  built mis_table [] mis_calls s /\
  associate a addrs s = (Err AddressTableException, s') /\
  (forall v, balance mis_table [] mis_calls v 0x0100 = 0) /\
  let st := state_new Usb_hid (Some s') (Some [(mkasap 1 None, Switch)]) in
  fst (decode_msg CUsbHid
    [0x01; 0x13; 0x13; 0x00; 0x08; 0x00; 0x0B; 0x01; 0x03; 0x00; 0x00; 0x29; 0x00;
     0xBC; 0xE0; 0x10; 0x02; 0x01; 0x00; 0x01; 0x00; 0x81] st)
  = Ok (RList [MGroupValueWriteInd (mkasap 1 None) (mkdpt Switch 0x81)]).
Proof.
  eexists. eexists. exists (mkasap 2 None), [mkaddr 3 0x0100; mkaddr 4 0x0200].
  split; [eexists; exists [Ok tt]; split; [vm_compute; reflexivity|];
          split; [vm_compute; reflexivity|repeat constructor]|].
  split; [vm_compute; reflexivity|]. split; [|vm_compute; reflexivity].
  intros v. unfold balance. cbn.
  repeat match goal with |- context [if ?b then _ else _] => destruct b end; reflexivity.
Qed.
Print Assumptions C10_misrouting_refuted.

(** disassociate of an ASAP not associated with the address raises after the
    address left the table; nothing else changes. *)
Theorem C10_disassociate : forall t l h s a g, built t l h s ->
  In (a_val g) (vals (at_addrs (as_table s))) -> a_val g <> a_val (at_ia (as_table s)) ->
  balance t l h (asap_value a) (a_val g) = 0 ->
  exists e s', disassociate a [g] s = (Err e, s') /\ (e = KeyError \/ e = ValueError) /\
    (e = KeyError <-> as_get_tsaps s a = Err KeyError) /\
    Permutation (vals (at_addrs (as_table s))) (a_val g :: vals (at_addrs (as_table s'))) /\
    as_addresses s' = as_addresses s /\ as_tsaps s' = as_tsaps s.
Proof.
  intros t l h s a g B H1 H2 H3. apply disassociate_unassociated; try assumption.
  destruct (built_counts _ _ _ _ B) as [_ C]. rewrite occ_In, C. lia.
Qed.
Print Assumptions C10_disassociate.
Example C10_disassociate_example : exists s, built ex_table [] ex_calls s /\
  In 0x0900 (vals (at_addrs (as_table s))) /\ 0x0900 <> a_val (at_ia (as_table s)) /\
  balance ex_table [] ex_calls 2 0x0900 = 0 /\
  fst (disassociate (mkasap 2 None) [mkaddr 0 0x0900] s) = Err ValueError.
Proof.
  destruct ex_built as [s H]. exists s. split; [exact H|].
  destruct H as (s0 & os & H1 & H2 & _). vm_compute in H1. injection H1 as <-.
  vm_compute in H2. injection H2 as _ <-. vm_compute. intuition congruence.
Qed.
Example C10_several_example : exists s e s', built mis_table [] mis_calls s /\
  associate (mkasap 2 None) [mkaddr 3 0x0100; mkaddr 4 0x0200] s = (Err e, s').
Proof.
  eexists. eexists. eexists.
  split; [eexists; exists [Ok tt]; split; [vm_compute; reflexivity|];
          split; [vm_compute; reflexivity|repeat constructor]|vm_compute; reflexivity].
Qed.

(** ** C11 *)

(** The ASAPs of the table are those of the accepted associate calls, in the
    order of their first mention (0 first, from the constructor). *)
Theorem C11_asaps : forall t l s0 h os s, assoc_new t l = Ok s0 -> as_run s0 h = (os, s) ->
  map asap_value (as_asaps s) = first_uses [] (assoc_values (initial_calls t l ++ accepted h os)).
Proof. exact introduction. Qed.
Print Assumptions C11_asaps.

Theorem C11_free_value : forall t l s0 h os s, assoc_new t l = Ok s0 -> as_run s0 h = (os, s) ->
  strictly_ascending (first_uses [] (assoc_values (initial_calls t l ++ accepted h os))) ->
  let f := as_get_free_asap_value s in
  0 <= f /\ ~ In f (map asap_value (as_asaps s)) /\
  forall j, 0 <= j < f -> In j (map asap_value (as_asaps s)).
Proof. exact free_least. Qed.
Print Assumptions C11_free_value.

Theorem C11_other_order_refuted : exists t h s, built t [] h s /\
  In (as_get_free_asap_value s) (map asap_value (as_asaps s)).
Proof.
  exists ex_table, [Associate (mkasap 2 None) []; Associate (mkasap 1 None) []]. eexists.
  split; [eexists; exists [Ok tt; Ok tt]; split; [vm_compute; reflexivity|];
          split; [vm_compute; reflexivity|repeat constructor]|].
  vm_compute. auto.
Qed.
Print Assumptions C11_other_order_refuted.

Example C11_example : exists s0 os s, assoc_new ex_table [] = Ok s0 /\
  as_run s0 (ex_calls ++ [Associate (mkasap 5 None) []]) = (os, s) /\
  strictly_ascending (first_uses [] (assoc_values (initial_calls ex_table [] ++
    accepted (ex_calls ++ [Associate (mkasap 5 None) []]) os))) /\
  as_get_free_asap_value s = 4.
Proof. do 3 eexists. split; [vm_compute; reflexivity|]. split; vm_compute; [reflexivity|]. auto 20. Qed.

(** ** C12 *)

Theorem C12_last_writer : forall g h v, distinct_keys g ->
  distinct_keys (go_after g h) /\
  type_of (go_after g h) v = last_type (type_of g v) (rev h) v.
Proof. intros g h v H. apply go_after_spec. exact H. Qed.
Print Assumptions C12_last_writer.

(** The type the encoder and get_dpt use is that one, whatever the ASAP's name;
    before any ASAP has been set there is none. *)
Theorem C12_get_dpt : forall st g, st_gobj st = Some g ->
  st_get_dpt st = match st_asap st with
                  | Some a => match type_of g (asap_value a) with Some c => Ok c | None => Err KeyError end
                  | None => Err KeyError
                  end.
Proof.
  intros st g Hg. unfold st_get_dpt. rewrite Hg. destruct (st_asap st) as [a|]; [|reflexivity]. cbn.
  rewrite type_of_dget, (dget_value g (mkasap (asap_value a) None) a) by reflexivity. reflexivity.
Qed.
Print Assumptions C12_get_dpt.

Theorem C12_disassociate : forall g a,
  (fst (go_disassociate a g) = Err KeyError <-> type_of g (asap_value a) = None) /\
  (fst (go_disassociate a g) = Ok tt \/ fst (go_disassociate a g) = Err KeyError) /\
  (fst (go_disassociate a g) <> Ok tt -> snd (go_disassociate a g) = g).
Proof. exact go_disassociate_err. Qed.
Print Assumptions C12_disassociate.

Example C12_example : let g := go_after [] [GoAssociate (mkasap 1 None) Switch; GoAssociate (mkasap 2 None) Alarm;
    GoAssociate (mkasap 1 (Some "x"%string)) Value_Temp; GoDisassociate (mkasap 2 None)] in
  distinct_keys [] /\ type_of g 1 = Some Value_Temp /\ type_of g 2 = None /\
  fst (go_disassociate (mkasap 2 None) g) = Err KeyError.
Proof. split; [constructor|]. vm_compute. auto. Qed.
