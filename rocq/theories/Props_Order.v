(** C97: how much the order of the calls that set up the tables matters. *)
From Coq Require Import String ZArith NArith List Bool Lia ZifyBool Permutation.
From Verif Require Import Py Base Msg Address Dpt Tables LData State Encode Decode.
From Verif Require Import SpecMsg SpecTables SpecWire SpecDecode SpecOrder TablesProofs AssocProofs EncodeProofs DecodeProofs
  Props_Tables Props_Encode Props_Decode OrderProofs.
Import ListNotations.
Open Scope Z_scope.

(** Associations made in one order can be made in every order that keeps the
    calls of each single ASAP in sequence, whether they are made by the
    constructor or by later calls; the address table lists the same numbers. *)
Theorem C97_accepted : forall tb l h s l' h', built tb l h s -> only_associates h ->
  shuffled (said_by tb l h) (said_by tb l' h') ->
  exists s', built tb l' h' s' /\
    vals (at_addrs (as_table s')) = vals (at_addrs (as_table s)) /\
    at_ia (as_table s') = at_ia (as_table s).
Proof.
  intros tb l h s l' h' B O S. destruct (order_accepted tb l h s l' h' B O S) as (s' & B' & _ & I & V).
  exists s'. auto.
Qed.
Print Assumptions C97_accepted.

(** Nothing that is encoded or decoded afterwards tells the orders apart. *)
Theorem C97_unseen : forall tb l h s l' h' s' st us, built tb l h s -> built tb l' h' s' -> only_associates h ->
  shuffled (said_by tb l h) (said_by tb l' h') ->
  sees (with_table s st) us = sees (with_table s' st) us.
Proof.
  intros tb l h s l' h' s' st us B B' O S. apply twin_sees.
  pose proof (order_twins tb l h s l' h' s' B B' O S) as T. unfold twin_states, with_table. cbn.
  split; [eauto|]. repeat split.
Qed.
Print Assumptions C97_unseen.

(** With disassociate calls among them it is not so: there are calls, all of them
    accepted in both orders, after which ASAP 1 can send or cannot. *)
Theorem C97_disassociate_refuted : exists tb h h' s s' st m frame,
  built tb [] h s /\ built tb [] h' s' /\ shuffled (said_by tb [] h) (said_by tb [] h') /\
  sees (with_table s st) [Encoding m] = [Encoded (Err TypeError)] /\
  sees (with_table s' st) [Encoding m] = [Encoded (Ok frame)].
Proof.
  pose (one := Associate (mkasap 1 None) [mkaddr 4 0x0700]).
  pose (two := Associate (mkasap 2 None) [mkaddr 5 0x0700]).
  pose (off := Disassociate (mkasap 2 None) [mkaddr 6 0x0700]).
  exists ex_table, [one; two; off], [two; off; one].
  eexists. eexists. exists (ex_state Usb_hid), (MGroupValueReadReq (mkasap 1 None)). eexists.
  split; [|split; [|split; [|split]]].
  - eexists. exists [Ok tt; Ok tt; Ok tt]. split; [vm_compute; reflexivity|]. split; [vm_compute; reflexivity|repeat constructor].
  - eexists. exists [Ok tt; Ok tt; Ok tt]. split; [vm_compute; reflexivity|]. split; [vm_compute; reflexivity|repeat constructor].
  - intros v. unfold said_by, initial_calls. cbn.
    destruct v as [|[[p|p|]|[p|p|]|]|p]; reflexivity.
  - vm_compute. reflexivity.
  - vm_compute. reflexivity.
Qed.
Print Assumptions C97_disassociate_refuted.

(** Nor may the calls of one ASAP change places: the first address is the one
    that is written to. *)
Theorem C97_within_refuted : exists tb h h' s s' st m frame frame',
  built tb [] h s /\ built tb [] h' s' /\ only_associates h /\ Permutation h h' /\
  sees (with_table s st) [Encoding m] = [Encoded (Ok frame)] /\
  sees (with_table s' st) [Encoding m] = [Encoded (Ok frame')] /\ frame <> frame'.
Proof.
  pose (one := Associate (mkasap 1 None) [mkaddr 4 0x0700]).
  pose (two := Associate (mkasap 1 None) [mkaddr 5 0x0900]).
  exists ex_table, [one; two], [two; one].
  eexists. eexists. exists (ex_state Usb_hid), (MGroupValueReadReq (mkasap 1 None)). eexists. eexists.
  split; [|split; [|split; [|split; [|split; [|split]]]]].
  - eexists. exists [Ok tt; Ok tt]. split; [vm_compute; reflexivity|]. split; [vm_compute; reflexivity|repeat constructor].
  - eexists. exists [Ok tt; Ok tt]. split; [vm_compute; reflexivity|]. split; [vm_compute; reflexivity|repeat constructor].
  - repeat constructor.
  - apply perm_swap.
  - vm_compute. reflexivity.
  - vm_compute. reflexivity.
  - vm_compute. discriminate.
Qed.
Print Assumptions C97_within_refuted.

(** The order in which datapoint types are given does not matter for what is
    sent. *)
Theorem C97_types_sent : forall go go' st us, (forall v, type_of go v = type_of go' v) -> only_encodes us ->
  sees (with_types go st) us = sees (with_types go' st) us.
Proof.
  intros go go' st us T O. apply typed_sees; [|exact O]. unfold typed_alike, with_types. cbn.
  split; [|repeat split]. exists go, go'. repeat split. intros a. rewrite <- !type_dget. symmetry. apply T.
Qed.
Print Assumptions C97_types_sent.

(** It decides in which order a telegram is reported to its receivers: they get
    the same messages, unless the value cannot be displayed for one of them. *)
Theorem C97_types_received : forall tb l h st s go go' c m k t svc,
  built tb l h s -> received (with_types go st) s go c m k t -> group_telegram t -> group_service t = Some svc ->
  Permutation go go' ->
  (forall p, In p (receivers tb l h (t_dst t) go) -> undisplayable (snd p) (raw (snd p) t) = false) ->
  (exists e, fst (decode_msg c m (with_types go st)) = Err e /\ fst (decode_msg c m (with_types go' st)) = Err e) \/
  (exists ms ms', fst (decode_msg c m (with_types go st)) = Ok (reported st ms) /\
                  fst (decode_msg c m (with_types go' st)) = Ok (reported st ms') /\ Permutation ms ms').
Proof.
  intros tb l h st s go go' c m k t svc B R T S P U.
  assert (R' : received (with_types go' st) s go' c m k t).
  { destruct R as (A & _ & O & C & Bus). split; [exact A|]. split; [reflexivity|]. split; [exact O|]. split; [exact C|exact Bus]. }
  assert (PR : Permutation (receivers tb l h (t_dst t) go) (receivers tb l h (t_dst t) go')).
  { unfold receivers. clear -P. induction P as [|x a b P IH|x y a|a b d P1 IH1 P2 IH2]; cbn [filter].
    - reflexivity.
    - destruct (0 <? balance tb l h (asap_value (fst x)) (t_dst t)); [apply perm_skip|]; exact IH.
    - destruct (0 <? balance tb l h (asap_value (fst x)) (t_dst t)), (0 <? balance tb l h (asap_value (fst y)) (t_dst t));
        try reflexivity. apply perm_swap.
    - exact (Permutation_trans IH1 IH2). }
  assert (F : forall x, Permutation (receivers tb l h (t_dst t) go) x -> first_undisplayable t x = false).
  { intros [|p x] Px; [reflexivity|]. cbn. apply U. apply (Permutation_in _ (Permutation_sym Px)). left. reflexivity. }
  rewrite (group_decode _ _ _ _ _ _ _ R T), (group_decode _ _ _ _ _ _ _ R' T).
  unfold group_outcome. rewrite S. destruct (listed s (t_dst t)) eqn:L.
  2: { right. exists [], []. repeat split. constructor. }
  apply listed_In in L. pose proof (reached_balance tb l h s go (t_dst t) B (or_introl L)) as X.
  pose proof (reached_balance tb l h s go' (t_dst t) B (or_introl L)) as X'.
  destruct (reached s go (t_dst t)) as [r|e], (reached s go' (t_dst t)) as [r'|e']; cbn [rbind].
  - destruct X as [-> _], X' as [-> _].
    change (filter (fun p => 0 <? balance tb l h (asap_value (fst p)) (t_dst t)) go) with (receivers tb l h (t_dst t) go).
    change (filter (fun p => 0 <? balance tb l h (asap_value (fst p)) (t_dst t)) go') with (receivers tb l h (t_dst t) go').
    rewrite (F _ (Permutation_refl _)), (F _ PR). right.
    exists (group_messages k svc t (receivers tb l h (t_dst t) go)), (group_messages k svc t (receivers tb l h (t_dst t) go')).
    split; [reflexivity|]. split; [reflexivity|]. apply Permutation_map. exact PR.
  - destruct X as [_ [v V]], X' as [_ V']. specialize (V' v). lia.
  - destruct X as [_ V], X' as [_ [v V']]. specialize (V v). lia.
  - destruct X as [-> _], X' as [-> _]. left. exists KeyError. auto.
Qed.
Print Assumptions C97_types_received.

(** Without that proviso the order decides whether the telegram is reported at
    all: a climate controller and a switch on one address. *)
Theorem C97_types_refuted : exists tb h st s go go' m frame,
  built tb [] h s /\ st_assoc st = Some s /\ Permutation go go' /\ octets m /\
  fst (decode_msg CUsbHid m (with_types go st)) = Err ValueError /\
  fst (decode_msg CUsbHid m (with_types go' st)) = Ok frame /\ frame <> RList [].
Proof.
  exists ex_table, ex_calls, (ex_st Usb_hid), ex_assoc, ex_go, (rev ex_go).
  exists (ex_usb [0x29; 0x00; 0xBC; 0xE0; 0x11; 0x02; 0x09; 0x00; 0x05; 0x00; 0x80; 0x09; 0x00; 0x00; 0x81]). eexists.
  split; [exact ex_assoc_built|]. split; [reflexivity|]. split; [apply Permutation_rev|].
  split; [vm_compute; octets_tac|]. split; [vm_compute; reflexivity|]. split; [vm_compute; reflexivity|discriminate].
Qed.
Print Assumptions C97_types_refuted.

(** Four associations of three ASAPs in two orders, one of them partly through
    the constructor; 0700h and 0500h are new to the table. *)
Definition ord_a := Associate (mkasap 1 (Some "lamp"%string)) [mkaddr 4 0x0900].
Definition ord_b := Associate (mkasap 2 None) [mkaddr 5 0x0700; mkaddr 6 0x0900].
Definition ord_c := Associate (mkasap 1 None) [mkaddr 7 0x0500].
Definition ord_d := Associate (mkasap 3 None) [mkaddr 8 0x0700].
Example C97_example :
  (exists s, built ex_table [] [ord_a; ord_b; ord_c; ord_d] s) /\
  only_associates [ord_a; ord_b; ord_c; ord_d] /\
  shuffled (said_by ex_table [] [ord_a; ord_b; ord_c; ord_d])
           (said_by ex_table [(mkasap 3 None, mkaddr 8 0x0700)] [ord_b; ord_a; ord_c]) /\
  (forall v, type_of ex_go v = type_of (rev ex_go) v) /\
  received (with_types ex_go (ex_st Usb_hid)) ex_assoc ex_go CUsbHid (ex_usb ex_frame) Ind ex_telegram /\
  (forall p, In p (receivers ex_table [] ex_calls (t_dst ex_telegram) ex_go) -> undisplayable (snd p) (raw (snd p) ex_telegram) = false) /\
  fst (decode_msg CUsbHid (ex_usb ex_frame) (with_types ex_go (ex_st Usb_hid))) =
  Ok (RList [MGroupValueWriteInd (mkasap 3 None) (mkdpt InfoClimaReport 0x02000081); MGroupValueWriteInd (mkasap 1 None) (mkdpt Switch 0x81)]) /\
  fst (decode_msg CUsbHid (ex_usb ex_frame) (with_types (rev ex_go) (ex_st Usb_hid))) =
  Ok (RList [MGroupValueWriteInd (mkasap 1 None) (mkdpt Switch 0x81); MGroupValueWriteInd (mkasap 3 None) (mkdpt InfoClimaReport 0x02000081)]).
Proof.
  split; [|split; [|split; [|split; [|split; [|split; [|split]]]]]].
  - eexists. eexists. exists [Ok tt; Ok tt; Ok tt; Ok tt]. split; [vm_compute; reflexivity|]. split; [vm_compute; reflexivity|repeat constructor].
  - repeat constructor.
  - intros v. unfold said_by, initial_calls. cbn.
    destruct v as [|[[p|p|]|[p|p|]|]|p]; reflexivity.
  - intros v. unfold type_of. cbn.
    destruct v as [|[[p|p|]|[p|p|]|]|p]; reflexivity.
  - exact ex_received.
  - assert (receivers ex_table [] ex_calls (t_dst ex_telegram) ex_go = [(mkasap 3 None, InfoClimaReport); (mkasap 1 None, Switch)]) as -> by reflexivity.
    intros p [<-|[<-|[]]]; reflexivity.
  - vm_compute. reflexivity.
  - vm_compute. reflexivity.
Qed.
