(** C71: the address table is shared with the caller. *)
From Coq Require Import String ZArith NArith List Bool Lia.
From Verif Require Import Py Base Msg Address Dpt Tables LData State Encode Decode.
From Verif Require Import SpecTables TablesProofs AssocProofs SpecShared SharedProofs Props_Tables.
Import ListNotations.
Open Scope Z_scope.

(** ** C71 *)

(** Whatever the caller does to the address table directly, the next call
    through the association table that returns makes routing exact again: an
    address the table knows is routed to the ASAPs associated with it, direct
    calls counting for nothing. *)
Theorem C71_refreshed : forall t l s0 h c s g,
  assoc_new t l = Ok s0 -> shared_run s0 (h ++ [Through c]) = Some s -> known (as_table s) (a_val g) ->
  match as_get_asaps_from_address s g with
  | Ok asaps => asaps <> [] /\ forall v, occ v (map asap_value asaps) = balance t l (through h ++ [c]) v (a_val g)
  | Err e => e = KeyError /\ forall v, balance t l (through h ++ [c]) v (a_val g) = 0
  end.
Proof. exact refresh_routing. Qed.
Print Assumptions C71_refreshed.

(** Sending depends on the table as it is now: an ASAP sends to exactly the
    addresses associated with it when the table knows them all, and fails with
    TypeError when one of them is missing. *)
Theorem C71_sending : forall t l s0 h s b,
  assoc_new t l = Ok s0 -> shared_run s0 h = Some s ->
  match sends_to s b with
  | Ok addrs => (forall g, occ g (vals addrs) = balance t l (through h) (asap_value b) g) /\
                (forall g, 0 < balance t l (through h) (asap_value b) g -> known (as_table s) g)
  | Err e => (e = KeyError /\ ~ In (asap_value b) (assoc_values (initial_calls t l ++ through h))) \/
             (e = TypeError /\ exists g, 0 < balance t l (through h) (asap_value b) g /\ ~ known (as_table s) g)
  end.
Proof.
  intros t l s0 h s b H0 H. pose proof (shared_sends t l s0 h s b H0 H) as S.
  pose proof (shared_introduced t l s0 h s b H0 H) as I.
  destruct (sends_to s b) as [L|e].
  - destruct S as [S1 S2]. split; [intros g; symmetry; apply S1|exact S2].
  - destruct e; try (right; exact S).
    left. split; [reflexivity|]. apply I. exact S.
Qed.
Print Assumptions C71_sending.

(** Until that next call, a direct add of an unlisted address shifts the
    routing of every listed address above it: the new address receives the
    ASAPs of its successor, each later address those of the one after it, and
    the last one none. *)
Theorem C71_add_shifts : forall t l h s x s' before after,
  built t l h s -> as_direct s (AtAdd x) = (Ok tt, s') ->
  at_addrs (as_table s) = before ++ after -> strictly_ascending (vals (before ++ after)) ->
  (forall b, In b before -> a_val b < a_val x) -> (forall b, In b after -> a_val x < a_val b) ->
  (forall b, In b before -> as_get_asaps_from_address s' b = as_get_asaps_from_address s b) /\
  (forall i b c, nth_error (x :: after) i = Some b -> nth_error after i = Some c ->
     as_get_asaps_from_address s' b = as_get_asaps_from_address s c) /\
  (forall i b, nth_error (x :: after) i = Some b -> nth_error after i = None ->
     as_get_asaps_from_address s' b = Err KeyError) /\
  at_addrs (as_table s') = before ++ x :: after.
Proof. intros t l h s x s' before after B. apply add_shifts. exact (proj1 (built_counts t l h s B)). Qed.
Print Assumptions C71_add_shifts.

(** A direct remove shifts the other way: each address behind the removed one
    receives the ASAPs of its predecessor. *)
Theorem C71_remove_shifts : forall t l h s x y s' before after,
  built t l h s -> as_direct s (AtRemove x) = (Ok tt, s') -> a_val x = a_val y ->
  at_addrs (as_table s) = before ++ y :: after -> strictly_ascending (vals (before ++ y :: after)) ->
  (forall b, In b before -> as_get_asaps_from_address s' b = as_get_asaps_from_address s b) /\
  (forall i b c, nth_error after i = Some b -> nth_error (y :: after) i = Some c ->
     as_get_asaps_from_address s' b = as_get_asaps_from_address s c) /\
  at_addrs (as_table s') = before ++ after.
Proof. intros t l h s x y s' before after B. apply remove_shifts. exact (proj1 (built_counts t l h s B)). Qed.
Print Assumptions C71_remove_shifts.

(** A new individual address leaves the routing of listed addresses alone and
    takes over the ASAPs of the old one. *)
Theorem C71_readdress : forall s ia o s', as_direct s (AtSetIA ia) = (o, s') ->
  o = Ok tt /\
  (forall g, In (a_val g) (vals (at_addrs (as_table s))) ->
     as_get_asaps_from_address s' g = as_get_asaps_from_address s g) /\
  (~ In (a_val ia) (vals (at_addrs (as_table s))) ->
   ~ In (a_val (at_ia (as_table s))) (vals (at_addrs (as_table s))) ->
     as_get_asaps_from_address s' ia = as_get_asaps_from_address s (at_ia (as_table s))).
Proof. intros s ia o s'. apply readdress. Qed.
Print Assumptions C71_readdress.

(** But only until the next call: ASAP 0 stays associated with the old address,
    so that afterwards no ASAP belongs to the new one and ASAP 0 cannot send. *)
Theorem C71_readdress_lost : forall t l s0 h c s,
  assoc_new t l = Ok s0 -> shared_run s0 (h ++ [Through c]) = Some s ->
  let ia := at_ia (as_table s) in let old := a_val (at_ia t) in
  ((forall v, balance t l (through h ++ [c]) v (a_val ia) = 0) -> as_get_asaps_from_address s ia = Err KeyError) /\
  (0 < balance t l (through h ++ [c]) 0 old -> ~ known (as_table s) old -> sends_to s (mkasap 0 None) = Err TypeError).
Proof.
  intros t l s0 h c s H0 H ia old. split.
  - intros B. assert (K : known (as_table s) (a_val ia)) by (right; reflexivity).
    pose proof (C71_refreshed t l s0 h c s ia H0 H K) as R.
    destruct (as_get_asaps_from_address s ia) as [[|b L]|e].
    + destruct R as [R _]. congruence.
    + destruct R as [_ R]. specialize (R (asap_value b)). rewrite B in R. cbn [map] in R.
      rewrite occ_cons, Z.eqb_refl in R. pose proof (occ_nonneg (asap_value b) (map asap_value L)). lia.
    + destruct R as [-> _]. reflexivity.
  - intros B N. pose proof (C71_sending t l s0 (h ++ [Through c]) s (mkasap 0 None) H0 H) as S.
    rewrite through_app in S. change (through [Through c]) with [c] in S. cbn [asap_value] in S.
    destruct (sends_to s (mkasap 0 None)) as [L|e].
    + destruct S as [_ S]. elim N. apply S. exact B.
    + destruct S as [[_ S]|[-> _]]; [|reflexivity]. elim S. left. reflexivity.
Qed.
Print Assumptions C71_readdress_lost.

(** The example: ASAP 1 on 0900h, ASAP 2 on 0100h and 0300h. *)
Definition sh_calls := [Associate (mkasap 1 None) [mkaddr 4 0x0900];
                        Associate (mkasap 2 None) [mkaddr 5 0x0300; mkaddr 6 0x0100]].
Lemma sh_built : exists s, built ex_table [] sh_calls s /\ vals (at_addrs (as_table s)) = [0x0100; 0x0300; 0x0900] /\
  as_get_asaps_from_address s (mkaddr 0 0x0300) = Ok [mkasap 2 None] /\
  as_get_asaps_from_address s (mkaddr 0 0x0900) = Ok [mkasap 1 None] /\
  exists s', as_direct s (AtAdd (mkaddr 9 0x0500)) = (Ok tt, s') /\
        as_get_asaps_from_address s' (mkaddr 9 0x0500) = Ok [mkasap 1 None] /\
    as_get_asaps_from_address s' (mkaddr 0 0x0900) = Err KeyError /\
  exists s'', as_direct s (AtRemove (mkaddr 0 0x0300)) = (Ok tt, s'') /\
    as_get_asaps_from_address s'' (mkaddr 0 0x0900) = Ok [mkasap 2 None].
Proof.
  eexists. split; [eexists; exists [Ok tt; Ok tt]; split; [vm_compute; reflexivity|];
                   split; [vm_compute; reflexivity|repeat constructor]|].
  split; [vm_compute; reflexivity|]. split; [vm_compute; reflexivity|]. split; [vm_compute; reflexivity|].
  eexists. split; [vm_compute; reflexivity|]. split; [vm_compute; reflexivity|]. split; [vm_compute; reflexivity|].
  eexists. split; [vm_compute; reflexivity|vm_compute; reflexivity].
Qed.
(** So the routing of C07 does not survive a direct call. *)
Theorem C71_direct_refuted : exists t h s c s' g v, built t [] h s /\ as_direct s c = (Ok tt, s') /\
  known (as_table s') (a_val g) /\ balance t [] h v (a_val g) = 0 /\
  as_get_asaps_from_address s' g = Ok [mkasap v None].
Proof.
  destruct sh_built as (s & B & V & _ & _ & s' & D & R & _).
  exists ex_table, sh_calls, s, (AtAdd (mkaddr 9 0x0500)), s', (mkaddr 9 0x0500), 1.
  split; [exact B|]. split; [exact D|]. split; [|split; [vm_compute; reflexivity|exact R]].
  apply get_tsap_known. intros N. unfold as_get_asaps_from_address in R. rewrite N in R.
  destruct B as (s0 & os & H1 & H2 & _). vm_compute in H1. injection H1 as <-. vm_compute in H2. injection H2 as _ <-.
  vm_compute in D. injection D as <-. vm_compute in R. discriminate R.
Qed.
Print Assumptions C71_direct_refuted.

(** The same misrouting as seen by the application: with 0500h added directly, a
    group write to 0500h is reported for ASAP 1; after a call through the
    association table it is not reported any more. *)
Definition sh_telegram : msg :=
  [0x01; 0x13; 0x13; 0x00; 0x08; 0x00; 0x0B; 0x01; 0x03; 0x00; 0x00; 0x29; 0x00;
   0xBC; 0xE0; 0x10; 0x02; 0x05; 0x00; 0x01; 0x00; 0x81].
Definition sh_decodes (s : option assoc_table) : res dres :=
  fst (decode_msg CUsbHid sh_telegram (state_new Usb_hid s (Some [(mkasap 1 None, Switch)]))).
Definition sh_after (h : list shared_call) : option assoc_table :=
  match assoc_new ex_table [] with Ok s0 => shared_run s0 h | Err _ => None end.
Example C71_decoded :
  sh_decodes (sh_after (map Through sh_calls)) = Ok (RList []) /\
  sh_decodes (sh_after (map Through sh_calls ++ [Direct (AtAdd (mkaddr 9 0x0500))])) =
    Ok (RList [MGroupValueWriteInd (mkasap 1 None) (mkdpt Switch 0x81)]) /\
  sh_decodes (sh_after (map Through sh_calls ++ [Direct (AtAdd (mkaddr 9 0x0500)); Through (Associate (mkasap 1 None) [])])) =
    Err KeyError.
Proof. vm_compute. auto. Qed.
(** A changed individual address: until the next call ASAP 0 has moved with it,
    afterwards it is lost. *)
Example C71_moved : exists s s',
  sh_after [Direct (AtSetIA (mkaddr 9 0x1002))] = Some s /\
  as_get_asaps_from_address s (mkaddr 9 0x1002) = Ok [mkasap 0 (Some "individual address"%string)] /\
  sh_after ([Direct (AtSetIA (mkaddr 9 0x1002))] ++ [Through (Associate (mkasap 1 None) [mkaddr 4 0x0900])]) = Some s' /\
  as_get_asaps_from_address s' (mkaddr 9 0x1002) = Err KeyError /\
  sends_to s' (mkasap 0 None) = Err TypeError /\
  sends_to s' (mkasap 1 None) = Ok [mkaddr 2 0x0900] /\ sends_to s' (mkasap 7 None) = Err KeyError /\
  ~ known (as_table s') 0x1001 /\
  0 < balance ex_table [] ([] ++ [Associate (mkasap 1 None) [mkaddr 4 0x0900]]) 0 0x1001.
Proof.
  eexists. eexists. split; [vm_compute; reflexivity|]. split; [vm_compute; reflexivity|]. split; [vm_compute; reflexivity|].
  split; [vm_compute; reflexivity|]. split; [vm_compute; reflexivity|]. split; [vm_compute; reflexivity|].
  split; [vm_compute; reflexivity|]. split; [vm_compute; intuition congruence|vm_compute; reflexivity].
Qed.
