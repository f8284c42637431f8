(** C74: address objects whose numbers are assigned while tables hold them; C75:
    calls that are given the table's own list. *)
From Coq Require Import String ZArith NArith List Bool Lia.
From Verif Require Import Py Address Dpt Tables Mutate Base SpecTables SpecMutate MutateProofs LiveProofs.
Import ListNotations.
Open Scope Z_scope.

(** Assigning a field of an address object sets that field to the low bits of
    the value given and leaves the fields beside it alone; the result is again a
    16-bit number. *)
Theorem C74_fields : forall x v, 0 <= v < 65536 ->
  (forall f, 0 <= stored f x v < 65536) /\
  stored FreeStyle x v = x mod 65536 /\
  (two_main (stored TwoMain x v) = x mod 32 /\ two_sub (stored TwoMain x v) = two_sub v) /\
  (two_sub (stored TwoSub x v) = x mod 2048 /\ two_main (stored TwoSub x v) = two_main v) /\
  (three_main (stored ThreeMain x v) = x mod 32 /\ three_middle (stored ThreeMain x v) = three_middle v /\
   three_sub (stored ThreeMain x v) = three_sub v) /\
  (three_middle (stored ThreeMiddle x v) = x mod 8 /\ three_main (stored ThreeMiddle x v) = three_main v /\
   three_sub (stored ThreeMiddle x v) = three_sub v) /\
  (three_sub (stored ThreeSub x v) = x mod 256 /\ three_main (stored ThreeSub x v) = three_main v /\
   three_middle (stored ThreeSub x v) = three_middle v).
Proof.
  intros x v V. split.
  { intros f. destruct f; unfold stored;
      [unfold cuint; change (2 ^ 16) with 65536; lia|..];
      change 65536 with (2 ^ 16); apply set_range; try lia; exact V. }
  unfold stored, two_main, two_sub, three_main, three_middle, three_sub, cuint.
  repeat split; try reflexivity; try (rewrite get_set_same by lia; reflexivity); rewrite get_set_other by lia; reflexivity.
Qed.
Print Assumptions C74_fields.
Example C74_fields_example :
  (* 1/2/3 with main 31, middle 9, sub 256 assigned *)
  let v := three_level 1 2 3 in
  (three_main (stored ThreeMain 31 v), three_middle (stored ThreeMiddle 9 v), three_sub (stored ThreeSub 256 v)) = (31, 1, 0) /\
  stored TwoSub (-1) v = two_level 1 2047.
Proof. vm_compute. split; reflexivity. Qed.

(** As long as different objects have different numbers at every moment, the
    tables follow the objects: whatever calls and assignments came before, a
    telegram for the number object [r] has now reaches exactly the ASAPs
    associated with object [r], each as often as it is associated, although no
    table is told about assignments. *)
Theorem C74_routing : forall num max ia group l s0 h num' s r g,
  assoc_new (object_table num max ia group) (object_links num l) = Ok s0 ->
  object_run num s0 h = Some (num', s) ->
  apart_throughout (involved ia group l h) num h ->
  In r (involved ia group l h) -> a_val g = num' r -> known (as_table s) (num' r) ->
  match as_get_asaps_from_address s g with
  | Ok L => L <> [] /\ forall v, occ v (map asap_value L) = object_balance ia l h v r
  | Err e => e = KeyError /\ forall v, object_balance ia l h v r = 0
  end.
Proof. exact object_routing. Qed.
Print Assumptions C74_routing.

(** A request of an ASAP goes to the numbers the objects it holds have now, in
    the order in which it got them.  It fails with KeyError if no associate call
    was ever for the ASAP, and with TypeError if one of its objects was taken off
    the address table (a disassociate call for another ASAP does that) and not put
    back. *)
Theorem C74_sending : forall num max ia group l s0 h num' s b,
  assoc_new (object_table num max ia group) (object_links num l) = Ok s0 ->
  object_run num s0 h = Some (num', s) ->
  apart_throughout (involved ia group l h) num h ->
  let held := object_held ia l h (asap_value b) in
  let listed := object_listed ia group l h in
  match sends_to s b with
  | Ok L => ever_associated ia l h (asap_value b) /\ vals L = map num' held /\ forall r, In r held -> r = ia \/ In r listed
  | Err KeyError => ~ ever_associated ia l h (asap_value b)
  | Err e => e = TypeError /\ exists r, In r held /\ r <> ia /\ ~ In r listed
  end.
Proof. exact object_sending_all. Qed.
Print Assumptions C74_sending.

(** Without disassociations nothing is ever lost. *)
Theorem C74_never_lost : forall num max ia group l s0 h num' s b,
  assoc_new (object_table num max ia group) (object_links num l) = Ok s0 ->
  object_run num s0 h = Some (num', s) ->
  apart_throughout (involved ia group l h) num h -> never_disassociates h ->
  (asap_value b = 0 \/ object_given ia l h (asap_value b) <> []) ->
  exists L, sends_to s b = Ok L /\ vals L = map num' (object_given ia l h (asap_value b)).
Proof.
  intros num max ia group l s0 h num' s b H0 H1 H2 H3 H4.
  apply (object_sending num max ia group l s0 h num' s b H0 H1 H2 H3).
  destruct H4 as [H4|H4].
  - cbn [object_initial app existsb introduces asap_value]. rewrite H4. reflexivity.
  - unfold object_given in H4. induction (object_initial ia l ++ h) as [|c r IH]; [elim H4; reflexivity|].
    cbn [existsb]. destruct c as [a q|a q|q f x]; cbn [flat_map introduces orb] in *; [|exact (IH H4)..].
    destruct (asap_value a =? asap_value b); [reflexivity|]. exact (IH H4).
Qed.
Print Assumptions C74_never_lost.

(** Object 0 is the individual address 1.1.1; object 1 is 0/0/1 with ASAP 1,
    object 2 is 0/0/2 with ASAPs 1 and 2.  Object 1 is moved above object 2 and
    a third address is then associated. *)
Definition ex_num (r : N) : Z := match r with 0%N => 0x1101 | 1%N => 1 | 2%N => 2 | 3%N => 3 | _ => 0 end.
Definition ex_history : list object_call :=
  [OAssociate (mkasap 1 None) [1%N; 2%N]; OAssociate (mkasap 2 None) [2%N];
   OStore 1 ThreeMiddle 7; OAssociate (mkasap 3 None) [3%N]].
Example C74_example : exists s0 num' s,
  assoc_new (object_table ex_num 10 0 []) [] = Ok s0 /\
  object_run ex_num s0 ex_history = Some (num', s) /\
  apart_throughout (involved 0 [] [] ex_history) ex_num ex_history /\ never_disassociates ex_history /\
  num' 1%N = 0x701 /\ vals (at_addrs (as_table s)) = [2; 3; 0x701] /\
  as_get_asaps_from_address s (mkaddr 9 0x701) = Ok [mkasap 1 None] /\
  sends_to s (mkasap 1 None) = Ok [mkaddr 1 0x701; mkaddr 2 2].
Proof.
  eexists. eexists. eexists. split; [vm_compute; reflexivity|]. split; [reflexivity|]. split.
  - cbn [apart_throughout ex_history]. do 5 (split; [apply apart_check; vm_compute; reflexivity|]). exact I.
  - split; [repeat constructor|]. vm_compute. repeat split; reflexivity.
Qed.

(** ASAP 1 lets go of object 2 and moves object 1 afterwards: ASAP 2 holds object
    2 still, but nothing lists it. *)
Definition ex_let_go : list object_call :=
  [OAssociate (mkasap 1 None) [1%N; 2%N; 3%N; 2%N]; OAssociate (mkasap 2 None) [2%N];
   ODisassociate (mkasap 1 None) [2%N]; OStore 1 ThreeMiddle 7; OAssociate (mkasap 3 None) [3%N]].
Definition ex_sends (h : list object_call) (v : Z) : option (res (list Z)) :=
  match assoc_new (object_table ex_num 10 0 []) [] with
  | Err _ => None
  | Ok s0 => match object_run ex_num s0 h with
             | Some (_, s) => Some (match sends_to s (mkasap v None) with Ok l => Ok (vals l) | Err e => Err e end)
             | None => None
             end
  end.
Example C74_sending_example :
  apart_throughout (involved 0 [] [] ex_let_go) ex_num ex_let_go /\
  object_held 0 [] ex_let_go 1 = [1; 3; 2]%N /\ object_listed 0 [] [] ex_let_go = [3; 1]%N /\
  ex_sends ex_let_go 1 = Some (Err TypeError) /\ ex_sends ex_let_go 2 = Some (Err TypeError) /\
  ex_sends ex_let_go 3 = Some (Ok [3]) /\ ex_sends ex_let_go 4 = Some (Err KeyError) /\
  ex_sends (ex_let_go ++ [OAssociate (mkasap 3 None) [2%N]]) 1 = Some (Ok [0x701; 3; 2]).
Proof.
  split; [|vm_compute; repeat split; reflexivity].
  cbn [apart_throughout ex_let_go]. do 6 (split; [apply apart_check; vm_compute; reflexivity|]). exact I.
Qed.

(** ** What does not hold *)

(** The group addresses are no longer in ascending order after an assignment
    (until something is added or removed). *)
Theorem C74_sorted_refuted : exists s0 num' s,
  assoc_new (object_table ex_num 10 0 []) [] = Ok s0 /\
  object_run ex_num s0 (firstn 3 ex_history) = Some (num', s) /\
  ~ ascending (vals (at_addrs (as_table s))).
Proof.
  eexists. eexists. eexists. split; [vm_compute; reflexivity|]. split; [reflexivity|].
  vm_compute. intros [H _]. apply H. reflexivity.
Qed.
Print Assumptions C74_sorted_refuted.

(** Two objects with one number: after an assignment that gives object 1 the
    number of object 2, telegrams for that number reach the ASAPs of object 1
    only, although ASAP 2 is associated with an object of that number; the next
    call on the table puts all of them in. *)
Theorem C74_collision_refuted : exists s0 num' s,
  let h := [OAssociate (mkasap 1 None) [1%N]; OAssociate (mkasap 2 None) [2%N]; OStore 1 FreeStyle 2] in
  assoc_new (object_table ex_num 10 0 []) [] = Ok s0 /\
  object_run ex_num s0 h = Some (num', s) /\
  num' 2%N = 2 /\ object_balance 0 [] h 2 2 = 1 /\
  as_get_asaps_from_address s (mkaddr 9 2) = Ok [mkasap 1 None] /\
  exists s', object_run ex_num s0 (h ++ [OAssociate (mkasap 3 None) []]) = Some (num', s') /\
    as_get_asaps_from_address s' (mkaddr 9 2) = Ok [mkasap 1 None; mkasap 2 None].
Proof.
  eexists. eexists. eexists. cbv zeta. split; [vm_compute; reflexivity|]. split; [reflexivity|].
  split; [vm_compute; reflexivity|]. split; [vm_compute; reflexivity|]. split; [vm_compute; reflexivity|].
  eexists. split; [reflexivity|]. vm_compute. reflexivity.
Qed.
Print Assumptions C74_collision_refuted.

(** Two objects with the same number from the start: only the first is listed.
    When its number is changed, the other object is in no table any more: an
    ASAP associated with it can no longer send. *)
Theorem C74_equal_objects_refuted : exists num s0 num' s,
  let h := [OAssociate (mkasap 1 None) [1%N]; OAssociate (mkasap 2 None) [2%N]; OStore 1 FreeStyle 8] in
  num 1%N = num 2%N /\
  assoc_new (object_table num 10 0 []) [] = Ok s0 /\
  object_run num s0 h = Some (num', s) /\
  sends_to s (mkasap 2 None) = Err TypeError /\
  (* telegrams for the number it still has find no ASAP *)
  num' 2%N = 5 /\ as_get_asaps_from_address s (mkaddr 9 5) = Err KeyError /\
  (* and those for the new number of object 1 reach both *)
  as_get_asaps_from_address s (mkaddr 9 8) = Ok [mkasap 1 None; mkasap 2 None].
Proof.
  exists (fun r => match r with 0%N => 0x1101 | 1%N => 5 | 2%N => 5 | _ => 0 end).
  eexists. eexists. eexists. cbv zeta. split; [reflexivity|]. split; [vm_compute; reflexivity|].
  split; [reflexivity|]. repeat split; vm_compute; reflexivity.
Qed.
Print Assumptions C74_equal_objects_refuted.

(** ** C75 *)

(** Associating an ASAP with the table's own list does what associating it with
    a copy of the list does, and leaves the table alone. *)
Theorem C75_associate : forall a s,
  associate_live a s = associate a (at_addrs (as_table s)) s /\
  as_table (snd (associate_live a s)) = as_table s.
Proof. exact associate_live_copy. Qed.
Print Assumptions C75_associate.

(** Disassociating an ASAP from the table's own list removes the first, third,
    fifth ... address only.  The call returns normally; the other addresses
    stay in the table and telegrams for them still reach the same ASAPs, the
    disassociated one included. *)
Theorem C75_disassociate : forall t l h s a, built t l h s ->
  strictly_ascending (vals (at_addrs (as_table s))) ->
  ~ In (a_val (at_ia (as_table s))) (vals (at_addrs (as_table s))) ->
  (forall x, In x (at_addrs (as_table s)) -> 0 < balance t l h (asap_value a) (a_val x)) ->
  exists s', disassociate_live a s = (Ok tt, s') /\
    at_addrs (as_table s') = seconds (at_addrs (as_table s)) /\
    forall x, In x (seconds (at_addrs (as_table s))) ->
      exists L, as_get_asaps_from_address s' x = Ok L /\
        forall v, occ v (map asap_value L) = balance t l h v (a_val x).
Proof. exact live_disassociate. Qed.
Print Assumptions C75_disassociate.

(** With a copy of the list the table is empty afterwards. *)
Theorem C75_copy : forall t l h s a, built t l h s ->
  strictly_ascending (vals (at_addrs (as_table s))) ->
  ~ In (a_val (at_ia (as_table s))) (vals (at_addrs (as_table s))) ->
  (forall x, In x (at_addrs (as_table s)) -> 0 < balance t l h (asap_value a) (a_val x)) ->
  exists s', disassociate a (at_addrs (as_table s)) s = (Ok tt, s') /\ at_addrs (as_table s') = [].
Proof. exact copy_disassociate. Qed.
Print Assumptions C75_copy.

(** The model's bound on the iterations never ends a loop: any larger bound
    gives the same outcome. *)
Theorem C75_bound : forall a s m, (length (at_addrs (as_table s)) <= m)%nat ->
  disassociate_live a s =
  match disassoc_live_loop m a 0 (as_table s) (as_addresses s) with
  | (Err e, (t', d)) => (Err e, mkassoc t' d (as_tsaps s))
  | (Ok _, (t', d)) => (Ok tt, mkassoc t' d (rebuild_tsaps t' d))
  end.
Proof.
  intros a s m H. unfold disassociate_live.
  rewrite (live_fuel a (length (at_addrs (as_table s))) (S (length (at_addrs (as_table s))))) by lia.
  rewrite (live_fuel a (length (at_addrs (as_table s))) m) by lia. reflexivity.
Qed.
Print Assumptions C75_bound.

Example C75_example : exists s, let ia := mkaddr 0 0x1101 in
  let h := [Associate (mkasap 1 None) [mkaddr 1 1; mkaddr 2 2; mkaddr 3 3; mkaddr 4 4; mkaddr 5 5]] in
  built (at_new ia [] 10) [] h s /\
  strictly_ascending (vals (at_addrs (as_table s))) /\
  ~ In (a_val (at_ia (as_table s))) (vals (at_addrs (as_table s))) /\
  (forall x, In x (at_addrs (as_table s)) -> 0 < balance (at_new ia [] 10) [] h 1 (a_val x)) /\
  vals (at_addrs (as_table (snd (disassociate_live (mkasap 1 None) s)))) = [2; 4] /\
  as_get_asaps_from_address (snd (disassociate_live (mkasap 1 None) s)) (mkaddr 9 4) = Ok [mkasap 1 None].
Proof.
  eexists. cbv zeta. split.
  - eexists. eexists. split; [vm_compute; reflexivity|]. split; [reflexivity|]. repeat constructor.
  - split; [vm_compute; intuition lia|]. split; [vm_compute; intuition lia|].
    split; [|split; vm_compute; reflexivity].
    intros x Hx. vm_compute in Hx. repeat (destruct Hx as [<-|Hx]; [vm_compute; reflexivity|]). destruct Hx.
Qed.
