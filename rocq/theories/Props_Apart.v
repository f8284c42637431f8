(** C99: changing some associations while the program runs leaves the others
    alone. *)
From Coq Require Import String ZArith NArith List Bool Lia ZifyBool.
From Verif Require Import Py Base Msg Address Dpt Tables LData State Encode Decode.
From Verif Require Import SpecMsg SpecTables SpecWire SpecDecode SpecOrder SpecApart TablesProofs AssocProofs DecodeProofs
  Props_Tables Props_Encode Props_Decode OrderProofs ApartProofs.
Import ListNotations.
Open Scope Z_scope.

(** Further calls of associate and disassociate, and any calls on the group
    object table, are not noticed by tasks that have nothing to do with them. *)
Theorem C99_apart : forall tb l h h' k s s' go st us,
  built tb l h s -> built tb l (h ++ h') s' ->
  Forall (left_alone tb l h s h' k) us ->
  sees (with_tables s go st) us = sees (with_tables s' (go_after go k) st) us.
Proof.
  intros tb l h h' k s s' go st us B B' F.
  apply (near_sees (spared_address tb l h h' k) (spared_asap tb l h s h' k)).
  - split; [|repeat split]. exists s, go, s', (go_after go k). repeat split; apply (apart_close tb l h h' k s s' go B B').
  - revert F. apply Forall_impl. intros [m|c b]; cbn [left_alone]; [|auto].
    intros H v E. rewrite E in H. exact H.
Qed.
Print Assumptions C99_apart.

(** So received bytes are treated differently only when they carry a telegram to
    an address that was mentioned, or to one of an ASAP that got another type. *)
Theorem C99_telegram : forall tb l h h' k s s' go st c b,
  built tb l h s -> built tb l (h ++ h') s' -> octets b ->
  fst (decode_msg c b (with_tables s go st)) <> fst (decode_msg c b (with_tables s' (go_after go k) st)) ->
  exists t, telegram_inside b t /\
    (In (t_dst t) (mentioned h') \/ exists v, In v (retyped k) /\ balance tb l h v (t_dst t) <> 0).
Proof.
  intros tb l h h' k s s' go st c b B B' O D.
  set (bad := fun t => In (t_dst t) (mentioned h') \/ exists v, In v (retyped k) /\ balance tb l h v (t_dst t) <> 0).
  assert (X : forall t, {bad t} + {~ bad t}).
  { intros t. unfold bad. destruct (in_dec Z.eq_dec (t_dst t) (mentioned h')) as [I|I]; [left; left; exact I|].
    destruct (Exists_dec (fun v => balance tb l h v (t_dst t) <> 0) (retyped k)) as [E|E].
    - intros v. destruct (Z.eq_dec (balance tb l h v (t_dst t)) 0); [right|left]; tauto.
    - left. right. apply Exists_exists in E. exact E.
    - right. intros [J|J]; [exact (I J)|]. apply E. apply Exists_exists. exact J. }
  pose (ts := match match usb_cemi b with Some cemi => cemi_telegram cemi | None => None end with Some (_, t) => [t] | None => [] end
           ++ match match tunnelled b with Some (_, cemi) => cemi_telegram cemi | None => None end with Some (_, t) => [t] | None => [] end).
  assert (I : forall t, telegram_inside b t <-> In t ts).
  { intros t. unfold ts, telegram_inside. rewrite in_app_iff.
    apply Morphisms_Prop.or_iff_morphism.
    - destruct (usb_cemi b) as [cemi|].
      + destruct (cemi_telegram cemi) as [[j u]|] eqn:E; cbn.
        * split; [intros (x & y & H1 & H2); left; congruence|intros [<-|[]]; eauto].
        * split; [intros (x & y & H1 & H2); congruence|intros []].
      + cbn. split; [intros (x & y & H1 & H2); congruence|intros []].
    - destruct (tunnelled b) as [[n cemi]|].
      + destruct (cemi_telegram cemi) as [[j u]|] eqn:E; cbn.
        * split; [intros (x & y & z & H1 & H2); left; congruence|intros [<-|[]]; eauto].
        * split; [intros (x & y & z & H1 & H2); congruence|intros []].
      + cbn. split; [intros (x & y & z & H1 & H2); congruence|intros []]. }
  destruct (Exists_dec bad ts X) as [E|E].
  - apply Exists_exists in E. destruct E as (t & Ht & Hb). exists t. split; [apply I; exact Ht|exact Hb].
  - exfalso. apply D.
    pose proof (C99_apart tb l h h' k s s' go st [Decoding c b] B B') as A. cbn [sees perform] in A.
    destruct (decode_msg c b (with_tables s go st)) as [r u], (decode_msg c b (with_tables s' (go_after go k) st)) as [r' u'].
    cbn [fst snd] in A |- *. cut ([Decoded r] = [Decoded r']); [congruence|]. apply A. constructor; [|constructor]. split; [exact O|].
    intros t Ht. apply I in Ht.
    assert (N : ~ bad t) by (intros Hb; apply E; apply Exists_exists; eauto). split; [intros J; apply N; left; exact J|].
    intros v Hv. destruct (Z.eq_dec (balance tb l h v (t_dst t)) 0); [assumption|]. elim N. right. eauto.
Qed.
Print Assumptions C99_telegram.

(** The proviso about addresses that are missing cannot be left out: ASAP 1 lost
    its address when ASAP 2 was disassociated from it, and can send again when
    ASAP 3 is associated with it. *)
Theorem C99_missing_refuted : exists tb h h' s s' st v m frame,
  built tb [] h s /\ built tb [] (h ++ h') s' /\ sent_for m = Some v /\ ~ In v (map about h') /\ withdrawn h' = [] /\
  sees (with_table s st) [Encoding m] = [Encoded (Err TypeError)] /\
  sees (with_table s' st) [Encoding m] = [Encoded (Ok frame)].
Proof.
  exists ex_table, [Associate (mkasap 1 None) [mkaddr 4 0x0700]; Associate (mkasap 2 None) [mkaddr 5 0x0700];
                    Disassociate (mkasap 2 None) [mkaddr 6 0x0700]], [Associate (mkasap 3 None) [mkaddr 7 0x0700]].
  eexists. eexists. exists (ex_state Usb_hid), 1, (MGroupValueReadReq (mkasap 1 None)). eexists.
  split; [|split; [|split; [|split; [|split; [|split]]]]].
  - eexists. exists [Ok tt; Ok tt; Ok tt]. split; [vm_compute; reflexivity|]. split; [vm_compute; reflexivity|repeat constructor].
  - eexists. exists [Ok tt; Ok tt; Ok tt; Ok tt]. split; [vm_compute; reflexivity|]. split; [vm_compute; reflexivity|repeat constructor].
  - reflexivity.
  - cbn. lia.
  - reflexivity.
  - vm_compute. reflexivity.
  - vm_compute. reflexivity.
Qed.
Print Assumptions C99_missing_refuted.

(** Nor the one about addresses that are taken away, although another ASAP is
    the one that gives them up. *)
Theorem C99_withdrawn_refuted : exists tb h h' s s' st v m frame,
  built tb [] h s /\ built tb [] (h ++ h') s' /\ sent_for m = Some v /\ ~ In v (map about h') /\
  sees (with_table s st) [Encoding m] = [Encoded (Ok frame)] /\
  sees (with_table s' st) [Encoding m] = [Encoded (Err TypeError)].
Proof.
  exists ex_table, [Associate (mkasap 1 None) [mkaddr 4 0x0700]; Associate (mkasap 2 None) [mkaddr 5 0x0700]],
    [Disassociate (mkasap 2 None) [mkaddr 6 0x0700]].
  eexists. eexists. exists (ex_state Usb_hid), 1, (MGroupValueReadReq (mkasap 1 None)). eexists.
  split; [|split; [|split; [|split; [|split]]]].
  - eexists. exists [Ok tt; Ok tt]. split; [vm_compute; reflexivity|]. split; [vm_compute; reflexivity|repeat constructor].
  - eexists. exists [Ok tt; Ok tt; Ok tt]. split; [vm_compute; reflexivity|]. split; [vm_compute; reflexivity|repeat constructor].
  - reflexivity.
  - cbn. lia.
  - vm_compute. reflexivity.
  - vm_compute. reflexivity.
Qed.
Print Assumptions C99_withdrawn_refuted.

(** ASAP 5 appears with an address below 0900h and the type of ASAP 2 changes:
    the transport number of 0900h shifts, but ASAP 1 sends as before and the
    telegram to 0900h is reported as before. *)
Definition ap_more := [Associate (mkasap 5 None) [mkaddr 9 0x0200; mkaddr 10 0x0400]; Disassociate (mkasap 5 None) [mkaddr 11 0x0400]].
Definition ap_types := [GoAssociate (mkasap 5 None) Switch; GoAssociate (mkasap 2 None) Switch; GoDisassociate (mkasap 7 None)].
Definition ap_tasks := [Decoding CUsbHid (ex_usb ex_frame); Encoding (MGroupValueWriteReq (mkasap 1 None) (mkdpt Switch 1));
                        Encoding (MConnectReq "1.2.3.4" 5 "1.2.3.4" 6)].
Example C99_example : exists s' frame request,
  built ex_table [] ex_calls ex_assoc /\ built ex_table [] (ex_calls ++ ap_more) s' /\
  as_get_tsap ex_assoc (mkaddr 0 0x0900) = Some 2 /\ as_get_tsap s' (mkaddr 0 0x0900) = Some 3 /\
  telegram_inside (ex_usb ex_frame) ex_telegram /\
  Forall (left_alone ex_table [] ex_calls ex_assoc ap_more ap_types) ap_tasks /\
  sees (with_tables s' (go_after ex_go ap_types) (ex_st Usb_hid)) ap_tasks =
  [Decoded (Ok (RList [MGroupValueWriteInd (mkasap 3 None) (mkdpt InfoClimaReport 0x02000081); MGroupValueWriteInd (mkasap 1 None) (mkdpt Switch 0x81)]));
   Encoded (Ok frame); Encoded (Ok request)].
Proof.
  assert (T : forall t, telegram_inside (ex_usb ex_frame) t -> t = ex_telegram).
  { intros t [(cemi & k & E1 & E2)|(n & cemi & k & E1 & _)]; [|discriminate E1].
    vm_compute in E1. assert (X : cemi = ex_frame) by (unfold ex_frame; congruence). subst cemi. vm_compute in E2. unfold ex_telegram. congruence. }
  eexists. eexists. eexists. split; [exact ex_assoc_built|]. split; [|split; [|split; [|split; [|split]]]].
  - eexists. exists [Ok tt; Ok tt; Ok tt; Ok tt; Ok tt; Ok tt]. split; [vm_compute; reflexivity|]. split; [vm_compute; reflexivity|repeat constructor].
  - vm_compute. reflexivity.
  - vm_compute. reflexivity.
  - left. exists ex_frame, Ind. split; vm_compute; reflexivity.
  - apply Forall_cons; [|apply Forall_cons; [|apply Forall_cons; [exact Logic.I|apply Forall_nil]]].
    + split; [vm_compute; octets_tac|]. intros t Ht. rewrite (T t Ht). split; [vm_compute; intuition discriminate|].
      intros v Hv. vm_compute in Hv. destruct Hv as [<-|[<-|[<-|[]]]]; reflexivity.
    + cbn [left_alone sent_for]. split; [vm_compute; intuition discriminate|]. split; [vm_compute; intuition discriminate|].
      intros g H. assert (g = 0x0900) as ->.
      { destruct (g =? 0x0900) eqn:E; [lia|]. exfalso. revert H. unfold balance, occ. cbn. unfold occ. cbn. rewrite E. cbn. lia. }
      split; [vm_compute; intuition discriminate|]. left. left. vm_compute. auto.
  - vm_compute. reflexivity.
Qed.

(** ** C09, on the wire *)

(** Taking a shared address away from one ASAP silences it for all: telegrams to
    it are ignored from then on, whatever they carry. *)
Theorem C09_shared_decode : forall tb l h s a b g st go c m k t,
  NoDup (vals (at_addrs tb)) -> built tb l h s ->
  In (a_val g) (vals (at_addrs (as_table s))) -> a_val g <> a_val (at_ia (as_table s)) ->
  asap_value a <> asap_value b ->
  0 < balance tb l h (asap_value a) (a_val g) -> 0 < balance tb l h (asap_value b) (a_val g) ->
  exists s', disassociate a [g] s = (Ok tt, s') /\
    (received st s' go c m k t -> group_telegram t -> t_dst t = a_val g ->
     fst (decode_msg c m st) = Ok (reported st [])).
Proof.
  intros tb l h s a b g st go c m k t ND B I NI AB B1 B2.
  destruct (C09_shared tb l h s a b g ND B I NI AB B1 B2) as (s' & D & T & _).
  exists s'. split; [exact D|]. intros R G E. apply (C24_unlisted st s' go c m k t R G). rewrite E.
  intro L. destruct (get_tsap_listed _ _ L) as (n & Hn & _). congruence.
Qed.
Print Assumptions C09_shared_decode.

(** ASAPs 1 and 3 share 0x0900; ASAP 3 gives it up, and a switch telegram that
    was reported to both is reported to nobody. *)
Example C09_shared_decode_example :
  balance ex_table [] ex_calls 3 0x0900 = 1 /\ balance ex_table [] ex_calls 1 0x0900 = 1 /\
  let m := ex_usb [0x29; 0x00; 0xBC; 0xE0; 0x12; 0x34; 0x09; 0x00; 0x01; 0x00; 0x81] in
  let st s := state_new Usb_hid (Some s) (Some [(mkasap 3 None, Switch); (mkasap 1 None, Switch)]) in
  exists s s', built ex_table [] ex_calls s /\ disassociate (mkasap 3 None) [mkaddr 9 0x0900] s = (Ok tt, s') /\
    fst (decode_msg CUsbHid m (st s)) =
      Ok (RList [MGroupValueWriteInd (mkasap 3 None) (mkdpt Switch 0x81);
                 MGroupValueWriteInd (mkasap 1 None) (mkdpt Switch 0x81)]) /\
    fst (decode_msg CUsbHid m (st s')) = Ok (RList []).
Proof.
  split; [reflexivity|]. split; [reflexivity|]. cbv zeta. eexists. eexists. split.
  - eexists. exists [Ok tt; Ok tt; Ok tt; Ok tt].
    split; [vm_compute; reflexivity|]. split; [vm_compute; reflexivity|]. repeat constructor.
  - split; [vm_compute; reflexivity|]. split; vm_compute; reflexivity.
Qed.
