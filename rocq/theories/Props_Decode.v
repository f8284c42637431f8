(** C24-C34, C59, C60: what received bytes mean. *)
From Coq Require Import String ZArith NArith List Bool Lia ZifyBool.
From Verif Require Import Py Base Msg Address Dpt Tables LData Inet State Encode Decode.
From Verif Require Import SpecMsg SpecTables SpecWire SpecDecode.
From Verif Require Import MsgProofs TablesProofs AssocProofs EncodeProofs DecodeProofs SimProofs IpProofs Props_Tables Props_Encode.
Import ListNotations.
Open Scope Z_scope.

(** The entries of the group object table that a telegram for address number
    [g] is for, after the association history [l], [h] on table [tb]. *)
Definition receivers tb l h (g : Z) (go : gobj_table) : list (asap * dpt_class) :=
  filter (fun p => 0 <? balance tb l h (asap_value (fst p)) g) go.
(** The debug output formats the first message. *)
Definition first_displayable (t : telegram) (l : list (asap * dpt_class)) : Prop :=
  match l with [] => True | p :: _ => undisplayable (snd p) (raw (snd p) t) = false end.

(** A plain telegram for a group address other than 0. *)
Definition group_telegram (t : telegram) : Prop :=
  group_addressed t = true /\ t_dst t <> 0 /\ plain t = true.

(** Bytes in which a state with these tables finds telegram [t]. *)
Definition received (st : state) (s : assoc_table) (go : gobj_table) (c : msg_class) (m : list Z) (k : dir) (t : telegram) : Prop :=
  st_assoc st = Some s /\ st_gobj st = Some go /\ octets m /\ proper_class st c /\ on_bus st m = Some (k, t).

Lemma group_decode st s go c m k t : received st s go c m k t -> group_telegram t ->
  fst (decode_msg c m st) =
  match group_outcome s go k t with Ok l => Ok (reported st l) | Err e => Err e end.
Proof.
  intros (Ha & Hg & O & C & B) (G & D & P).
  destruct (decode_telegram c m st s go k t Ha Hg O C B) as [_ ->]. cbn [fst].
  unfold telegram_outcome. rewrite G, P. destruct (t_dst t =? 0) eqn:E; [lia|].
  destruct (group_outcome s go k t); reflexivity.
Qed.
Lemma group_decode_listed tb l h st s go c m k t svc : built tb l h s -> received st s go c m k t -> group_telegram t ->
  In (t_dst t) (vals (at_addrs (as_table s))) -> group_service t = Some svc ->
  (exists v, 0 < balance tb l h v (t_dst t)) ->
  first_displayable t (receivers tb l h (t_dst t) go) ->
  fst (decode_msg c m st) = Ok (reported st (group_messages k svc t (receivers tb l h (t_dst t) go))).
Proof.
  intros B R T L S [v V] F. rewrite (group_decode st s go c m k t R T). unfold group_outcome.
  rewrite (proj2 (listed_In s (t_dst t)) L), S.
  pose proof (reached_balance tb l h s go (t_dst t) B (or_introl L)) as X.
  destruct (reached s go (t_dst t)) as [r|e]; [|destruct X as [_ X]; rewrite X in V; lia].
  destruct X as [-> _]. cbn [rbind]. change (filter _ go) with (receivers tb l h (t_dst t) go).
  destruct (first_undisplayable t (receivers tb l h (t_dst t) go)) eqn:U; [|reflexivity].
  unfold first_undisplayable in U. unfold first_displayable in F.
  destruct (receivers tb l h (t_dst t) go); congruence.
Qed.

(** ** C24 *)

Theorem C24_receivers : forall tb l h st s go c m k t svc,
  built tb l h s -> received st s go c m k t -> group_telegram t ->
  In (t_dst t) (vals (at_addrs (as_table s))) -> group_service t = Some svc ->
  (exists v, 0 < balance tb l h v (t_dst t)) ->
  first_displayable t (receivers tb l h (t_dst t) go) ->
  fst (decode_msg c m st) = Ok (reported st (group_messages k svc t (receivers tb l h (t_dst t) go))).
Proof. exact group_decode_listed. Qed.
Print Assumptions C24_receivers.
Theorem C24_unlisted : forall st s go c m k t,
  received st s go c m k t -> group_telegram t ->
  ~ In (t_dst t) (vals (at_addrs (as_table s))) ->
  fst (decode_msg c m st) = Ok (reported st []).
Proof.
  intros st s go c m k t R T L. rewrite (group_decode st s go c m k t R T). unfold group_outcome.
  destruct (listed s (t_dst t)) eqn:E; [|reflexivity]. apply listed_In in E. contradiction.
Qed.
Print Assumptions C24_unlisted.
(** The limits of the claim: an address that is listed but associated with no
    ASAP, and a first receiver whose value cannot be displayed. *)
Theorem C24_unassociated : forall tb l h st s go c m k t svc,
  built tb l h s -> received st s go c m k t -> group_telegram t ->
  In (t_dst t) (vals (at_addrs (as_table s))) -> group_service t = Some svc ->
  (forall v, balance tb l h v (t_dst t) = 0) ->
  fst (decode_msg c m st) = Err KeyError.
Proof.
  intros tb l h st s go c m k t svc B R T L S V. rewrite (group_decode st s go c m k t R T). unfold group_outcome.
  rewrite (proj2 (listed_In s (t_dst t)) L), S.
  pose proof (reached_balance tb l h s go (t_dst t) B (or_introl L)) as X.
  destruct (reached s go (t_dst t)) as [r|e]; [|destruct X as [-> _]; reflexivity].
  destruct X as [_ [v X]]. rewrite V in X. lia.
Qed.
Print Assumptions C24_unassociated.
Theorem C24_undisplayable : forall tb l h st s go c m k t svc p rest,
  built tb l h s -> received st s go c m k t -> group_telegram t ->
  In (t_dst t) (vals (at_addrs (as_table s))) -> group_service t = Some svc ->
  receivers tb l h (t_dst t) go = p :: rest -> undisplayable (snd p) (raw (snd p) t) = true ->
  fst (decode_msg c m st) = Err ValueError.
Proof.
  intros tb l h st s go c m k t svc p rest B R T L S V U. rewrite (group_decode st s go c m k t R T). unfold group_outcome.
  rewrite (proj2 (listed_In s (t_dst t)) L), S.
  pose proof (reached_balance tb l h s go (t_dst t) B (or_introl L)) as X.
  destruct (reached s go (t_dst t)) as [r|e].
  - destruct X as [-> _]. cbn [rbind]. change (filter _ go) with (receivers tb l h (t_dst t) go).
    rewrite V. cbn [first_undisplayable]. rewrite U. reflexivity.
  - destruct X as [_ X]. assert (In p (receivers tb l h (t_dst t) go)) as I by (rewrite V; left; reflexivity).
    unfold receivers in I. apply filter_In in I. rewrite X in I. destruct I. discriminate.
Qed.
Print Assumptions C24_undisplayable.

(** A state of the examples in which address 0900h belongs to ASAPs 1 (a switch)
    and 3 (a clima type). *)
Definition ex_go : gobj_table := [(mkasap 3 None, InfoClimaReport); (mkasap 2 None, Value_Temp); (mkasap 1 None, Switch)].
Definition ex_st md : state := st_set_remote 9 (st_set_channel 7 (state_new md (Some ex_assoc) (Some ex_go))).
Definition ex_usb (cemi : list Z) : list Z := usb_report cemi ++ repeat 0 10.
(** A write of 02000081h to 0900h. *)
Definition ex_frame : list Z :=
  [0x29; 0x00; 0xBC; 0xE0; 0x11; 0x02; 0x09; 0x00; 0x05; 0x00; 0x80; 0x02; 0x00; 0x00; 0x81].
Definition ex_telegram : telegram := mktg 0xBC 0xE0 0x1102 0x0900 5 0 0x80 [0x02; 0x00; 0x00; 0x81].
Ltac octets_tac := repeat (apply Forall_cons; [split; discriminate || reflexivity|]); apply Forall_nil.
Lemma ex_received : received (ex_st Usb_hid) ex_assoc ex_go CUsbHid (ex_usb ex_frame) Ind ex_telegram.
Proof.
  split; [reflexivity|]. split; [reflexivity|]. split; [|split; [left; reflexivity|reflexivity]].
  vm_compute. octets_tac.
Qed.
Lemma ex_received_ip : received (ex_st Knxnet_ip) ex_assoc ex_go CNetIP (tunnelling_request 7 9 ex_frame) Ind ex_telegram.
Proof.
  split; [reflexivity|]. split; [reflexivity|]. split; [|split; [right; reflexivity|reflexivity]].
  vm_compute. octets_tac.
Qed.
Example C24_example :
  built ex_table [] ex_calls ex_assoc /\ group_telegram ex_telegram /\ group_service ex_telegram = Some Write /\
  In (t_dst ex_telegram) (vals (at_addrs (as_table ex_assoc))) /\
  receivers ex_table [] ex_calls 0x0900 ex_go = [(mkasap 3 None, InfoClimaReport); (mkasap 1 None, Switch)] /\
  first_displayable ex_telegram (receivers ex_table [] ex_calls 0x0900 ex_go) /\
  fst (decode_msg CNetIP (tunnelling_request 7 9 ex_frame) (ex_st Knxnet_ip)) =
  Ok (RList [MTunnelingReq 9 0;
             MGroupValueWriteInd (mkasap 3 None) (mkdpt InfoClimaReport 0x02000081);
             MGroupValueWriteInd (mkasap 1 None) (mkdpt Switch 0x81)]).
Proof.
  split; [exact ex_assoc_built|]. split; [repeat split; discriminate || reflexivity|]. split; [reflexivity|].
  split; [vm_compute; auto|]. split; [reflexivity|]. split; [reflexivity|]. vm_compute. reflexivity.
Qed.
(** ... and with the operation code changed to 9. *)
Example C24_undisplayable_example :
  undisplayable InfoClimaReport (raw InfoClimaReport (mktg 0xBC 0xE0 0x1102 0x0900 5 0 0x80 [0x09; 0x00; 0x00; 0x81])) = true.
Proof. reflexivity. Qed.
(** An address given to the AddressTable constructor and never associated. *)
Example C24_unassociated_example :
  exists s, built ex_table [] [] s /\ In 0x0300 (vals (at_addrs (as_table s))) /\ forall v, balance ex_table [] [] v 0x0300 = 0.
Proof.
  eexists. split; [|split].
  - eexists. exists []. split; [vm_compute; reflexivity|]. split; [reflexivity|constructor].
  - vm_compute. auto.
  - intros v. unfold balance. cbn [initial_calls map app balance1 zsum fold_right asap_value]. destruct (0 =? v); reflexivity.
Qed.

(** ** C25 *)

Theorem C25_group : forall tb l h st s go c m k t,
  built tb l h s -> received st s go c m k t -> group_telegram t ->
  In (t_dst t) (vals (at_addrs (as_table s))) ->
  (exists v, 0 < balance tb l h v (t_dst t)) ->
  first_displayable t (receivers tb l h (t_dst t) go) ->
  let apci := 256 * (t_tpci t mod 4) + t_apci t in
  let messages svc := Ok (reported st (group_messages k svc t (receivers tb l h (t_dst t) go))) in
  0 <= apci < 1024 /\
  (apci = 0 -> fst (decode_msg c m st) = messages Read) /\
  (0x40 <= apci <= 0x7F -> fst (decode_msg c m st) = messages Response) /\
  (0x80 <= apci <= 0xBF -> fst (decode_msg c m st) = messages Write) /\
  (0x01 <= apci <= 0x3F \/ 0xC0 <= apci -> fst (decode_msg c m st) = Ok (reported st [])).
Proof.
  intros tb l h st s go c m k t B R T L V F apci messages. unfold messages.
  assert (P : proper t).
  { destruct R as (Ha & Hg & O & C & X). exact (proj1 (decode_telegram c m st s go k t Ha Hg O C X)). }
  assert (Ea : apci10 t = apci) by reflexivity.
  split. { destruct P as (_ & _ & _ & _ & _ & P1 & P2 & _). unfold is_octet in *. unfold apci. lia. }
  split; [|split; [|split]].
  - intros H. apply (group_decode_listed tb l h st s go); try assumption.
    unfold group_service. rewrite Ea, H. reflexivity.
  - intros H. apply (group_decode_listed tb l h st s go); try assumption.
    unfold group_service. rewrite Ea. destruct (apci =? 0) eqn:E0; [lia|].
    destruct ((0x40 <=? apci) && (apci <=? 0x7F)) eqn:E1; [reflexivity|lia].
  - intros H. apply (group_decode_listed tb l h st s go); try assumption.
    unfold group_service. rewrite Ea. destruct (apci =? 0) eqn:E0; [lia|].
    destruct ((0x40 <=? apci) && (apci <=? 0x7F)) eqn:E1; [lia|].
    destruct ((0x80 <=? apci) && (apci <=? 0xBF)) eqn:E2; [reflexivity|lia].
  - intros H. rewrite (group_decode st s go c m k t R T). unfold group_outcome, group_service. rewrite Ea.
    destruct (apci =? 0) eqn:E0; [lia|].
    destruct ((0x40 <=? apci) && (apci <=? 0x7F)) eqn:E1; [lia|].
    destruct ((0x80 <=? apci) && (apci <=? 0xBF)) eqn:E2; [lia|].
    destruct (listed s (t_dst t)); reflexivity.
Qed.
Print Assumptions C25_group.

(** An individually addressed plain telegram that the table accepts (C32). *)
Definition accepted_individual (s : assoc_table) (k : dir) (t : telegram) : Prop :=
  group_addressed t = false /\ plain t = true /\
  match k with
  | Ind => t_src t = a_val (at_ia (as_table s))
  | Con => t_dst t = a_val (at_ia (as_table s)) /\ ~ In (t_dst t) (vals (at_addrs (as_table s)))
  end.
Lemma individual_decode st s go c m k t : received st s go c m k t ->
  group_addressed t = false ->
  fst (decode_msg c m st) =
  if plain t && individual_accepts s k t then
    match property_outcome k t with Ok l => Ok (reported st l) | Err e => Err e end
  else Ok (reported st []).
Proof.
  intros (Ha & Hg & O & C & B) G.
  destruct (decode_telegram c m st s go k t Ha Hg O C B) as [_ ->]. cbn [fst].
  unfold telegram_outcome. rewrite G. destruct (plain t && individual_accepts s k t); [|reflexivity].
  destruct (property_outcome k t); reflexivity.
Qed.
Lemma accepts_iff s k t : group_addressed t = false ->
  (accepted_individual s k t <-> plain t && individual_accepts s k t = true).
Proof.
  intros G. unfold accepted_individual, individual_accepts. rewrite andb_true_iff.
  destruct k; [split; intuition lia|]. rewrite andb_true_iff, negb_true_iff.
  assert (X : listed s (t_dst t) = false <-> ~ In (t_dst t) (vals (at_addrs (as_table s)))).
  { rewrite <- listed_In. destruct (listed s (t_dst t)); split; congruence. }
  split; intuition lia.
Qed.

Theorem C25_property : forall st s go c m k t,
  received st s go c m k t -> accepted_individual s k t -> 4 <= zlen (t_data t) ->
  let apci := 256 * (t_tpci t mod 4) + t_apci t in
  let message svc := Ok (reported st [property_message k svc t]) in
  0 <= apci < 1024 /\
  (apci = 0x3D5 -> fst (decode_msg c m st) = message Read) /\
  (apci = 0x3D6 -> fst (decode_msg c m st) = message Response) /\
  (apci = 0x3D7 -> fst (decode_msg c m st) = message Write) /\
  (apci < 0x3D5 \/ 0x3D7 < apci -> fst (decode_msg c m st) = Ok (reported st [])).
Proof.
  intros st s go c m k t R A D apci message. unfold message.
  assert (P : proper t).
  { destruct R as (Ha & Hg & O & C & X). exact (proj1 (decode_telegram c m st s go k t Ha Hg O C X)). }
  assert (Ea : apci10 t = apci) by reflexivity.
  split. { destruct P as (_ & _ & _ & _ & _ & P1 & P2 & _). unfold is_octet in *. unfold apci. lia. }
  rewrite (individual_decode st s go c m k t R) by apply A.
  assert (G : group_addressed t = false) by apply A. apply (accepts_iff s k t G) in A. rewrite A.
  unfold property_outcome, property_service. rewrite Ea.
  destruct (4 <=? zlen (t_data t)) eqn:E4; [|lia].
  split; [|split; [|split]].
  - intros ->. reflexivity.
  - intros ->. reflexivity.
  - intros ->. reflexivity.
  - intros H. destruct (apci =? 0x3D5) eqn:E1; [lia|]. destruct (apci =? 0x3D6) eqn:E2; [lia|].
    destruct (apci =? 0x3D7) eqn:E3; [lia|reflexivity].
Qed.
Print Assumptions C25_property.

(** A property response indication from 1001h (the individual address of the
    table), to 1234h. *)
Definition ex_prop : list Z :=
  [0x29; 0x02; 0xAA; 0xBB; 0xBC; 0x60; 0x10; 0x01; 0x12; 0x34; 0x07; 0x03; 0xD6; 0x03; 0x05; 0x10; 0x01; 0x0A; 0x1B].
Definition ex_prop_telegram : telegram := mktg 0xBC 0x60 0x1001 0x1234 7 3 0xD6 [0x03; 0x05; 0x10; 0x01; 0x0A; 0x1B].
Example C25_example :
  received (ex_st Usb_hid) ex_assoc ex_go CUsbHid (ex_usb ex_prop) Ind ex_prop_telegram /\
  accepted_individual ex_assoc Ind ex_prop_telegram /\
  fst (decode_msg CUsbHid (ex_usb ex_prop) (ex_st Usb_hid)) =
  Ok (RList [MPropertyValueResponseInd (mkasap 0 None) 3 5 1 1 ([0x0A; 0x1B] ++ repeat 0 0)]).
Proof.
  split; [|split; [repeat split; reflexivity|vm_compute; reflexivity]].
  split; [reflexivity|]. split; [reflexivity|]. split; [|split; [left; reflexivity|reflexivity]].
  vm_compute. octets_tac.
Qed.

(** ** C32 *)

(** Reported exactly when accepted: plain, carrying a property service, and
    with destination (confirmation) or source (indication) equal to the
    individual address. *)
Theorem C32_accepted : forall st s go c m k t,
  received st s go c m k t -> group_addressed t = false ->
  (accepted_individual s k t -> forall svc, property_service t = Some svc -> 4 <= zlen (t_data t) ->
     fst (decode_msg c m st) = Ok (reported st [property_message k svc t])) /\
  (~ accepted_individual s k t -> fst (decode_msg c m st) = Ok (reported st [])).
Proof.
  intros st s go c m k t R G. rewrite (individual_decode st s go c m k t R G).
  rewrite (accepts_iff s k t G). split.
  - intros -> svc Hs Hl. unfold property_outcome. rewrite Hs. destruct (4 <=? zlen (t_data t)) eqn:E; [reflexivity|lia].
  - intros N. destruct (plain t && individual_accepts s k t); [congruence|reflexivity].
Qed.
Print Assumptions C32_accepted.
(** The destination of an indication plays no role, the source of a confirmation
    neither. *)
Theorem C32_irrelevant : forall s c1 c2 src src' dst dst' len tpci apci data,
  (accepted_individual s Ind (mktg c1 c2 src dst len tpci apci data) <->
   accepted_individual s Ind (mktg c1 c2 src dst' len tpci apci data)) /\
  (accepted_individual s Con (mktg c1 c2 src dst len tpci apci data) <->
   accepted_individual s Con (mktg c1 c2 src' dst len tpci apci data)).
Proof. intros. split; reflexivity. Qed.
Print Assumptions C32_irrelevant.
(** A property indication addressed to this very device, from elsewhere, is
    discarded. *)
Theorem C32_own_destination_refuted : exists st s go c m t,
  received st s go c m Ind t /\ group_addressed t = false /\ plain t = true /\
  t_dst t = a_val (at_ia (as_table s)) /\ property_service t = Some Response /\
  fst (decode_msg c m st) = Ok (RList []).
Proof.
  exists (ex_st Usb_hid), ex_assoc, ex_go, CUsbHid,
    (ex_usb [0x29; 0x00; 0xBC; 0x60; 0x12; 0x34; 0x10; 0x01; 0x06; 0x03; 0xD6; 0x03; 0x05; 0x10; 0x01; 0x0A]),
    (mktg 0xBC 0x60 0x1234 0x1001 6 3 0xD6 [0x03; 0x05; 0x10; 0x01; 0x0A]).
  split; [|repeat split; vm_compute; reflexivity].
  split; [reflexivity|]. split; [reflexivity|]. split; [|split; [left; reflexivity|reflexivity]].
  vm_compute. octets_tac.
Qed.
Print Assumptions C32_own_destination_refuted.
Example C32_example : received (ex_st Usb_hid) ex_assoc ex_go CUsbHid (ex_usb ex_prop) Ind ex_prop_telegram /\
  property_service ex_prop_telegram = Some Response /\
  ~ accepted_individual ex_assoc Con ex_prop_telegram.
Proof.
  split; [exact (proj1 C25_example)|]. split; [reflexivity|]. intros (_ & _ & H & _). discriminate H.
Qed.

(** ** C34 *)

(** The last [n] elements. *)
Definition last_octets (n : Z) (l : list Z) : list Z := zdrop (zlen l - n) l.
Theorem C34_raw : forall tb l h st s go c m k t svc,
  built tb l h s -> received st s go c m k t -> group_telegram t ->
  In (t_dst t) (vals (at_addrs (as_table s))) -> group_service t = Some svc ->
  (exists v, 0 < balance tb l h v (t_dst t)) ->
  first_displayable t (receivers tb l h (t_dst t) go) ->
  fst (decode_msg c m st) = Ok (reported st (map (fun p => group_message k svc t (fst p)
    (mkdpt (snd p)
       (big_endian (match t_data t with [] => [t_apci t] | octets => octets end)
        mod 2 ^ (match snd p with
                 | Switch | Alarm | UpDown | Start | Info_Switch
                 | VimarScene | SceneControl | Control_Dimming | Brightness => 8
                 | Float_16 | Value_Wsp | Value_Temp | Value_Lux => 16
                 | SetupClima | InfoClimaReport | Float_32 | Value_Power => 32
                 end)))) (receivers tb l h (t_dst t) go))).
Proof.
  intros tb l h st s go c m k t svc B R T L S V F.
  rewrite (group_decode_listed tb l h st s go c m k t svc) by assumption.
  unfold group_messages. do 2 f_equal. apply map_ext. intros [a d]. cbn [fst snd]. f_equal. f_equal.
  unfold raw, payload. destruct d; reflexivity.
Qed.
Print Assumptions C34_raw.
Theorem C34_last_octets : forall c t, octets (payload t) ->
  raw c t = big_endian (last_octets (value_octets c) (payload t)) /\ 1 <= value_octets c <= 4.
Proof. exact raw_last. Qed.
Print Assumptions C34_last_octets.
Example C34_example : octets (payload ex_telegram) /\ raw Value_Temp ex_telegram = 0x81 /\
  last_octets 2 (payload ex_telegram) = [0x00; 0x81] /\
  raw Value_Temp (mktg 0xBC 0xE0 0x1102 0x0900 5 0 0x85 []) = 0x85.
Proof. split; [vm_compute; octets_tac|]. repeat split; reflexivity. Qed.

(** ** C26 *)

Theorem C26_usb : forall c st m id info plen r, st_medium st = Usb_hid -> octets m ->
  m = id :: info :: plen :: r ->
  let nothing := decode_msg c m st = (Ok (RList []), st) in
  (id <> 0x01 -> nothing) /\
  (info mod 16 <> 3 -> nothing) /\
  (forall version r1, ztake plen r = version :: r1 ->
     (version <> 0 -> nothing) /\
     (forall hlen r2, r1 = hlen :: r2 ->
        (hlen <> 8 -> nothing) /\
        (forall hi lo r3 protocol r4, r2 = hi :: lo :: r3 -> ztake (256 * hi + lo + 4) r3 = protocol :: r4 ->
           (protocol <> 0x01 -> protocol <> 0x0F -> nothing) /\
           (protocol = 0x01 -> forall emi r5, r4 = emi :: r5 ->
              (emi <> 3 -> nothing) /\
              (forall m1 m2 r6, r5 = m1 :: m2 :: r6 -> m1 <> 0 \/ m2 <> 0 -> nothing))))).
Proof.
  intros c st m id info plen r Hm O E nothing.
  assert (D : decode_msg c m st = d_report_identifier m st).
  { unfold decode_msg. unfold mbind at 1, mget at 1. rewrite Hm. reflexivity. }
  unfold nothing. rewrite D. subst m. clear nothing D. rewrite !octets_cons in O. destruct O as (_ & _ & _ & O).
  unfold d_report_identifier, octect. unfold mbind, mlift.
  destruct (id =? 1) eqn:E1; [|repeat split; reflexivity].
  unfold d_packet_info, octect. unfold mbind, mlift. rewrite nibble_mod.
  destruct (info mod 16 =? 3) eqn:E2; [|repeat split; reflexivity].
  split; [intros H; lia|]. split; [intros H; lia|]. intros version r1 Hv. apply (octets_ztake plen) in O. rewrite Hv in *.
  unfold d_protocol_version, octect. unfold mbind, mlift. destruct (version =? 0) eqn:E3; [|repeat split; reflexivity].
  split; [intros H; lia|]. intros hlen r2 ->. unfold d_header_length, octect. unfold mbind, mlift.
  destruct (hlen =? 8) eqn:E4; [|repeat split; reflexivity].
  split; [intros H; lia|]. intros hi lo r3 protocol r4 -> Hp. rewrite !octets_cons in O. destruct O as (_ & _ & O1 & O2 & O).
  unfold d_body_length. unfold mbind, mlift. rewrite short_spec by assumption.
  apply (octets_ztake (256 * hi + lo + 4)) in O. rewrite Hp in *.
  unfold d_protocol_id, octect. unfold mbind, mlift.
  split.
  - intros N1 N2. destruct (protocol =? 1) eqn:E5; [lia|]. destruct (protocol =? 15) eqn:E6; [lia|reflexivity].
  - intros -> emi r5 ->. change (1 =? 1) with true. cbv iota. unfold d_emi_id, octect. unfold mbind, mlift.
    destruct (emi =? 3) eqn:E7; [|repeat split; reflexivity]. split; [intros H; lia|].
    intros m1 m2 r6 -> H. rewrite !octets_cons in O. destruct O as (_ & _ & O3 & O4 & _). rewrite short_spec by assumption.
    rewrite eqb_sum by assumption. destruct (m1 =? 0) eqn:E8; [|reflexivity]. destruct (m2 =? 0) eqn:E9; [lia|reflexivity].
Qed.
Print Assumptions C26_usb.
Lemma other_code code info r st : code <> data_ind -> code <> data_con ->
  d_msg_code (code :: info :: r) st = (Ok (RList []), st).
Proof.
  intros H1 H2. unfold data_ind, data_con in *. unfold d_msg_code, octect. unfold mbind, mlift.
  destruct (code =? 41) eqn:E1; [lia|]. destruct (code =? 46) eqn:E2; [lia|]. reflexivity.
Qed.
Theorem C26_message_code : forall c st m code info r, octets m -> proper_class st c ->
  code <> data_ind -> code <> data_con ->
  (st_medium st = Usb_hid /\ usb_cemi m = Some (code :: info :: r) \/
   st_medium st = Knxnet_ip /\ tunnelled m = Some (st_remote st, code :: info :: r)) ->
  decode_msg c m st = (Ok (reported st []), st).
Proof.
  intros c st m code info r O C N1 N2 [[Hm H]|[Hm H]]; unfold decode_msg, reported; unfold mbind at 1, mget at 1; rewrite Hm.
  - destruct (usb_some m _ st O H) as [_ ->]. apply other_code; assumption.
  - destruct C as [C| ->]; [congruence|]. destruct (tunnelled_some m _ _ st O H) as [_ ->].
    rewrite Z.eqb_refl, other_code by assumption. reflexivity.
Qed.
Print Assumptions C26_message_code.
Theorem C26_netip : forall c st m, octets m -> st_medium st = Knxnet_ip -> 4 <= zlen m ->
  (match ip_service m with None => True | Some (n, _) => known_service n = false end) ->
  decode_msg c m st = (Ok (RList []), st).
Proof.
  intros c st m O Hm L H. unfold decode_msg. unfold mbind at 1, mget at 1. rewrite Hm.
  destruct m as [|h [|v [|s1 [|s2 r]]]]; try (cbn in L; lia).
  rewrite !octets_cons in O. rewrite ip_header by tauto. cbn [ip_service] in H.
  destruct ((h =? 6) && (v =? 16)); [|reflexivity]. unfold known_service in H. cbn [existsb] in H.
  unfold services. unfold is_octet in O.
  destruct ((s1 =? 2) && (s2 =? 2)) eqn:E1; [lia|]. destruct ((s1 =? 2) && (s2 =? 10)) eqn:E2; [lia|].
  destruct ((s1 =? 2) && (s2 =? 6)) eqn:E3; [lia|]. destruct ((s1 =? 2) && (s2 =? 8)) eqn:E4; [lia|].
  destruct ((s1 =? 4) && (s2 =? 32)) eqn:E5; [lia|]. destruct ((s1 =? 4) && (s2 =? 33)) eqn:E6; [lia|]. reflexivity.
Qed.
Print Assumptions C26_netip.
Example C26_example :
  usb_cemi (ex_usb [0x11; 0x00; 0x96]) = Some [0x11; 0x00; 0x96] /\
  ip_service [0x06; 0x10; 0x03; 0x10; 0xFF] = Some (0x0310, [0xFF]) /\ known_service 0x0310 = false.
Proof. repeat split; reflexivity. Qed.

(** ** C27 *)

Theorem C27_padding : forall c st a b n rest pad, st_medium st = Usb_hid -> n <= zlen rest ->
  decode_msg c ((a :: b :: n :: rest) ++ pad) st = decode_msg c (a :: b :: n :: rest) st.
Proof.
  intros c st a b n rest pad Hm H. unfold decode_msg. unfold mbind at 1 2, mget at 1 2. rewrite Hm.
  apply usb_padding. assumption.
Qed.
Print Assumptions C27_padding.
(** A packet with octets behind the body means the same as the packet without
    them. *)
Theorem C27_body : forall c st info hi lo body extra, st_medium st = Usb_hid -> octets (hi :: lo :: body) ->
  zlen body = 4 + (256 * hi + lo) -> info mod 16 = 3 ->
  decode_msg c ([0x01; info; 4 + zlen body + zlen extra; 0x00; 0x08; hi; lo] ++ body ++ extra) st =
  decode_msg c ([0x01; info; 4 + zlen body; 0x00; 0x08; hi; lo] ++ body) st.
Proof.
  intros c st info hi lo body extra Hm O L I. unfold decode_msg. unfold mbind at 1 2, mget at 1 2. rewrite Hm.
  rewrite usb_inner by (assumption || lia).
  pose proof (usb_inner info hi lo body [] st O ltac:(lia) I) as X. change (zlen (@nil Z)) with 0 in X.
  rewrite app_nil_r, Z.add_0_r in X. rewrite X. reflexivity.
Qed.
Print Assumptions C27_body.
Example C27_example : exists a b n rest, ex_usb ex_frame = a :: b :: n :: rest /\ n <= zlen rest /\
  fst (decode_msg CUsbHid (ex_usb ex_frame ++ [1; 2; 3]) (ex_st Usb_hid)) =
  Ok (RList [MGroupValueWriteInd (mkasap 3 None) (mkdpt InfoClimaReport 0x02000081);
             MGroupValueWriteInd (mkasap 1 None) (mkdpt Switch 0x81)]).
Proof. do 4 eexists. split; [vm_compute; reflexivity|]. split; [vm_compute; discriminate|vm_compute; reflexivity]. Qed.

(** ** C28 *)

(** Why decoding may raise KeyError and ValueError. *)
Definition no_asap_for tb l h st (s : assoc_table) m : Prop :=
  exists k t, on_bus st m = Some (k, t) /\ group_telegram t /\
    In (t_dst t) (vals (at_addrs (as_table s))) /\ forall v, balance tb l h v (t_dst t) = 0.
Definition cannot_display tb l h st go m : Prop :=
  exists k t p rest, on_bus st m = Some (k, t) /\ group_telegram t /\
    receivers tb l h (t_dst t) go = p :: rest /\ undisplayable (snd p) (raw (snd p) t) = true.
Definition explained tb l h st s go m (e : exn) : Prop :=
  match e with
  | IndexError => True
  | KeyError => no_asap_for tb l h st s m
  | ValueError => cannot_display tb l h st go m
  | _ => False
  end.
Lemma group_errors tb l h s go k t : built tb l h s ->
  match group_outcome s go k t with
  | Ok _ => True
  | Err KeyError => In (t_dst t) (vals (at_addrs (as_table s))) /\ forall v, balance tb l h v (t_dst t) = 0
  | Err ValueError => exists p rest, receivers tb l h (t_dst t) go = p :: rest /\ undisplayable (snd p) (raw (snd p) t) = true
  | Err _ => False
  end.
Proof.
  intros B. unfold group_outcome. destruct (listed s (t_dst t)) eqn:L; [|exact I]. apply listed_In in L.
  destruct (group_service t) as [svc|]; [|exact I].
  pose proof (reached_balance tb l h s go (t_dst t) B (or_introl L)) as X.
  destruct (reached s go (t_dst t)) as [r|e].
  - destruct X as [-> _]. cbn [rbind]. change (filter _ go) with (receivers tb l h (t_dst t) go).
    destruct (receivers tb l h (t_dst t) go) as [|p rest]; [exact I|]. cbn [first_undisplayable].
    destruct (undisplayable (snd p) (raw (snd p) t)) eqn:U; [|exact I]. exists p, rest. auto.
  - destruct X as [-> X]. cbn [rbind]. auto.
Qed.
Lemma telegram_errors tb l h st s go c m k t : built tb l h s -> received st s go c m k t ->
  match fst (decode_msg c m st) with Ok _ => True | Err e => explained tb l h st s go m e end.
Proof.
  intros B R. destruct (group_addressed t) eqn:G.
  - destruct (t_dst t =? 0) eqn:D; [|destruct (plain t) eqn:P].
    + destruct R as (Ha & Hg & O & C & X). destruct (decode_telegram c m st s go k t Ha Hg O C X) as [_ ->].
      cbn [fst]. unfold telegram_outcome. rewrite G, D. exact I.
    + assert (T : group_telegram t) by (repeat split; [assumption|lia|assumption]).
      rewrite (group_decode st s go c m k t R T). destruct R as (Ha & Hg & O & C & X).
      pose proof (group_errors tb l h s go k t B) as Y. destruct (group_outcome s go k t) as [x|e]; [exact I|].
      destruct e; try contradiction; cbn [explained].
      * exists k, t. tauto.
      * destruct Y as (p & rest & Y). exists k, t, p, rest. tauto.
    + destruct R as (Ha & Hg & O & C & X). destruct (decode_telegram c m st s go k t Ha Hg O C X) as [_ ->].
      cbn [fst]. unfold telegram_outcome. rewrite G, D, P. destruct (st_medium st); exact I.
  - rewrite (individual_decode st s go c m k t R G). destruct (plain t && individual_accepts s k t); [|exact I].
    unfold property_outcome. destruct (property_service t); [|exact I]. destruct (4 <=? zlen (t_data t)); exact I.
Qed.

Theorem C28_usb : forall tb l h st s go c m,
  built tb l h s -> st_medium st = Usb_hid -> st_assoc st = Some s -> st_gobj st = Some go -> octets m ->
  match fst (decode_msg c m st) with
  | Ok _ => True
  | Err IndexError => True
  | Err KeyError => no_asap_for tb l h st s m
  | Err ValueError => cannot_display tb l h st go m
  | Err _ => False
  end.
Proof.
  intros tb l h st s go c m B Hm Ha Hg O.
  assert (W : match fst (decode_msg c m st) with Ok _ => True | Err e => explained tb l h st s go m e end);
    [|destruct (fst (decode_msg c m st)) as [r|[]]; exact W].
  destruct (on_bus st m) as [[k t]|] eqn:X.
  - apply (telegram_errors tb l h st s go c m k t B). repeat split; try assumption. left. assumption.
  - unfold on_bus in X. rewrite Hm in X. unfold decode_msg. unfold mbind at 1, mget at 1. rewrite Hm.
    destruct (usb_cemi m) as [cemi|] eqn:U.
    + destruct (usb_some m cemi st O U) as [_ ->]. destruct (msg_code_none cemi st X) as [-> | ->]; exact I.
    + destruct (usb_none m st O U) as [_ Q]. destruct (fst (d_report_identifier m st)) as [r|e]; [exact I|].
      subst e. exact I.
Qed.
Print Assumptions C28_usb.
Theorem C28_netip : forall tb l h st s go m,
  built tb l h s -> st_medium st = Knxnet_ip -> st_assoc st = Some s -> st_gobj st = Some go -> octets m ->
  match fst (decode_msg CNetIP m st) with
  | Ok _ => True
  | Err IndexError => True
  | Err KeyError => no_asap_for tb l h st s m
  | Err ValueError => cannot_display tb l h st go m \/ unknown_status m = true
  | Err TypeError => exists r, ip_service m = Some (0x0206, r) /\ zlen r < 12
  | Err _ => False
  end.
Proof.
  intros tb l h st s go m B Hm Ha Hg O.
  assert (W : match fst (decode_msg CNetIP m st) with Ok _ => True | Err e => explained tb l h st s go m e \/
    (e = ValueError /\ unknown_status m = true) \/ (e = TypeError /\ exists r, ip_service m = Some (0x0206, r) /\ zlen r < 12) end).
  2:{ destruct (fst (decode_msg CNetIP m st)) as [r|[]]; cbn [explained] in W; try exact I;
      destruct W as [W|[[E W]|[E W]]]; try discriminate E; try contradiction; auto. }
  destruct (on_bus st m) as [[k t]|] eqn:X.
  { pose proof (telegram_errors tb l h st s go CNetIP m k t B) as Y.
    destruct (fst (decode_msg CNetIP m st)); [exact I|]. left. apply Y. repeat split; try assumption. right. reflexivity. }
  unfold decode_msg. unfold mbind at 1, mget at 1. rewrite Hm.
  destruct (ip_cases m st O) as [[_ ->]|[[_ [_ ->]]|(n & r & S & Or & ->)]]; [left; exact I|exact I|].
  destruct (n =? 0x202) eqn:E1.
  { rewrite search_res_spec by assumption. cbn [fst].
    repeat match goal with |- context [match ?x with _ => _ end] => is_var x; destruct x; try (left; exact I) end. exact I. }
  destruct (n =? 0x20A) eqn:E2.
  { rewrite disconnect_res_spec by assumption.
    do 4 (destruct r as [|? r]; [left; exact I|]). destruct (_ =? 0); exact I. }
  destruct (n =? 0x206) eqn:E3.
  { destruct (Z.lt_ge_cases (zlen r) 12) as [L|L].
    - destruct (connect_res_short r st L) as [[-> _]| ->]; [left; exact I|]. right. right. split; [reflexivity|].
      exists r. apply Z.eqb_eq in E3. subst n. auto.
    - destruct r as [|l1 [|l2 [|ch [|sta r]]]]; try (cbn in L; lia).
      destruct (eight r) as (a & b & i1 & i2 & i3 & i4 & p1 & p2 & r' & ->); [rewrite !zlen_cons in L; lia|].
      rewrite !octets_cons in Or. rewrite connect_res_spec by (cbn [app]; rewrite !octets_cons; tauto).
      destruct (sta =? 0) eqn:Es.
      + do 4 (destruct r' as [|? r']; [left; exact I|]). exact I.
      + destruct (existsb (Z.eqb sta) [0; 34; 35; 36]) eqn:Ee; [exact I|]. right. left. split; [reflexivity|].
        unfold unknown_status. rewrite S, E3. cbn [nth_error]. rewrite Ee. reflexivity. }
  destruct (n =? 0x208) eqn:E4.
  { rewrite connectionstate_res_spec. cbn [fst]. destruct r as [|l1 [|l2 [|ch [|sta r]]]]; try (left; exact I).
    destruct (existsb (Z.eqb sta) [0; 33; 38; 39]) eqn:Ee; [exact I|]. right. left. split; [reflexivity|].
    unfold unknown_status. rewrite S, E3, E4. cbn [nth_error]. rewrite Ee. reflexivity. }
  destruct (n =? 0x420) eqn:E5.
  { destruct (Z.lt_ge_cases (zlen r) 6) as [L|L]; [rewrite tunneling_req_short by assumption; left; exact I|].
    destruct r as [|l1 [|l2 [|sz [|ch [|ct [|sta r]]]]]]; try (cbn in L; lia).
    assert (T : tunnelled m = Some (ct, r)).
    { destruct m as [|h0 [|v0 [|s1 [|s2 m]]]]; try discriminate S. cbn [ip_service] in S.
      destruct ((h0 =? 6) && (v0 =? 16)) eqn:Eh; [|discriminate S]. injection S as Sn ->.
      rewrite !octets_cons in O. unfold is_octet in O. cbn [tunnelled]. rewrite Eh.
      assert (s1 = 4 /\ s2 = 32) as [-> ->] by lia. reflexivity. }
    pose proof (tunnelled_some m ct r st O T) as [_ Y].
    destruct (ip_cases m st O) as [[Z _]|[[Z _]|(n' & r' & S' & _ & Z)]];
      [pose proof (service_length m _ S); lia|congruence|].
    rewrite S in S'. injection S' as <- <-. rewrite E1, E2, E3, E4, E5 in Z. rewrite <- Z, Y.
    unfold on_bus in X. rewrite Hm, T in X. rewrite (Z.eqb_sym (st_remote st)).
    destruct (ct =? st_remote st); [|destruct (st_remote st =? ct + 1); exact I].
    destruct (msg_code_none r st X) as [-> | ->]; cbn [behind_request fst]; [exact I|left; exact I]. }
  destruct (n =? 0x421) eqn:E6; [|exact I].
  rewrite tunneling_ack_spec by assumption. destruct r as [|l1 [|l2 [|sz [|ch [|ct [|sta r]]]]]]; try (left; exact I).
  cbv zeta. cbn [fst]. destruct (existsb (Z.eqb sta) [0; 1; 2; 3]) eqn:Ee; [exact I|]. right. left. split; [reflexivity|].
  unfold unknown_status. rewrite S, E3, E4, E6. cbn [nth_error]. rewrite Ee. reflexivity.
Qed.
Print Assumptions C28_netip.
(** Truncation is the only reason for IndexError: a telegram that is complete
    raises it only when it is a property telegram of fewer than four octets. *)
Theorem C28_complete : forall st s go c m k t,
  received st s go c m k t -> fst (decode_msg c m st) = Err IndexError ->
  group_addressed t = false /\ zlen (t_data t) < 4.
Proof.
  intros st s go c m k t R E. destruct (group_addressed t) eqn:G.
  - exfalso. destruct R as (Ha & Hg & O & C & X). destruct (decode_telegram c m st s go k t Ha Hg O C X) as [_ D].
    rewrite D in E. cbn [fst] in E. unfold telegram_outcome in E. rewrite G in E.
    destruct (t_dst t =? 0); [discriminate E|]. destruct (plain t); [|destruct (st_medium st); discriminate E].
    unfold group_outcome in E. destruct (listed s (t_dst t)) eqn:L; [|discriminate E].
    destruct (group_service t); [|discriminate E]. unfold reached, as_get_asaps_from_address, as_get_asaps in E.
    destruct (dget _ _ _); cbn [rbind] in E; [|discriminate E].
    destruct (first_undisplayable _ _); discriminate E.
  - split; [reflexivity|]. rewrite (individual_decode st s go c m k t R G) in E.
    destruct (plain t && individual_accepts s k t); [|discriminate E]. unfold property_outcome in E.
    destruct (property_service t); [|discriminate E]. destruct (4 <=? zlen (t_data t)) eqn:F; [discriminate E|lia].
Qed.
Print Assumptions C28_complete.
(** When every listed address has an ASAP, KeyError cannot occur. *)
Theorem C28_no_key_error : forall tb l h st s go c m,
  built tb l h s -> st_assoc st = Some s -> st_gobj st = Some go -> octets m -> proper_class st c ->
  (forall g, In g (vals (at_addrs (as_table s))) -> exists v, 0 < balance tb l h v g) ->
  fst (decode_msg c m st) <> Err KeyError.
Proof.
  intros tb l h st s go c m B Ha Hg O C A E.
  assert (N : ~ no_asap_for tb l h st s m).
  { intros (k & t & _ & _ & L & Z). destruct (A _ L) as [v V]. rewrite Z in V. lia. }
  destruct (st_medium st) eqn:Hm.
  - unfold decode_msg in E. unfold mbind in E. cbn in E. rewrite Hm in E. discriminate E.
  - pose proof (C28_usb tb l h st s go c m B Hm Ha Hg O) as X. rewrite E in X. contradiction.
  - destruct C as [C| ->]; [congruence|]. pose proof (C28_netip tb l h st s go m B Hm Ha Hg O) as X. rewrite E in X. contradiction.
Qed.
Print Assumptions C28_no_key_error.
Example C28_example :
  fst (decode_msg CUsbHid [0x01; 0x13; 0x09] (ex_st Usb_hid)) = Err IndexError /\
  fst (decode_msg CNetIP [0x06; 0x10; 0x02; 0x06; 0x00; 0x08; 0x00; 0x24] (ex_st Knxnet_ip)) = Err TypeError /\
  fst (decode_msg CNetIP [0x06; 0x10; 0x02; 0x08; 0x00; 0x08; 0x00; 0x24] (ex_st Knxnet_ip)) = Err ValueError /\
  fst (decode_msg CUsbHid (ex_usb [0x29; 0x00; 0xBC; 0xE0; 0x11; 0x02; 0x09; 0x00; 0x05; 0x00; 0x80; 0x09; 0x00; 0x00; 0x81]) (ex_st Usb_hid)) = Err ValueError.
Proof. repeat split; vm_compute; reflexivity. Qed.

(** ** C29 *)

Theorem C29_usb : forall c m st, octets m -> st_medium st = Usb_hid ->
  match fst (decode_msg c m st) with
  | Ok RNone => exists k t, on_bus st m = Some (k, t) /\ group_addressed t = true /\ t_dst t <> 0 /\ plain t = false
  | Ok (RAck _) => False
  | _ => True
  end.
Proof.
  intros c m st O Hm. unfold decode_msg, on_bus. unfold mbind at 1, mget at 1. rewrite Hm.
  destruct (usb_cemi m) as [cemi|] eqn:U.
  - destruct (usb_some m cemi st O U) as [Oc ->]. apply msg_code_shape. assumption.
  - destruct (usb_none m st O U) as [_ Q]. destruct (fst (d_report_identifier m st)) as [[]|e]; try exact I; contradiction.
Qed.
Print Assumptions C29_usb.
(** ... and those telegrams do yield None. *)
Theorem C29_none : forall st s go c m k t, received st s go c m k t -> st_medium st = Usb_hid ->
  group_addressed t = true -> t_dst t <> 0 -> plain t = false ->
  fst (decode_msg c m st) = Ok RNone.
Proof.
  intros st s go c m k t (Ha & Hg & O & C & X) Hm G D P.
  destruct (decode_telegram c m st s go k t Ha Hg O C X) as [_ ->]. cbn [fst]. unfold telegram_outcome.
  rewrite G, P, Hm. destruct (t_dst t =? 0) eqn:E; [lia|reflexivity].
Qed.
Print Assumptions C29_none.
Theorem C29_netip : forall m st, octets m -> st_medium st = Knxnet_ip ->
  match fst (decode_msg CNetIP m st) with
  | Ok RNone => False
  | Ok (RAck l) => exists r sta, ip_service m = Some (0x0421, r) /\ l = [MTunnelingAck (local_after m (st_local st)) sta]
  | Ok (RList _) => match ip_service m with Some (n, _) => n <> 0x0421 | None => True end
  | Err _ => True
  end.
Proof.
  intros m st O Hm. unfold decode_msg. unfold mbind at 1, mget at 1. rewrite Hm.
  destruct (ip_cases m st O) as [[_ ->]|[[S [_ ->]]|(n & r & S & Or & ->)]]; [exact I|cbn [fst]; rewrite S; exact I|].
  rewrite S.
  assert (L : forall x, (match x with Ok (RList _) | Err _ => True | _ => False end) -> n <> 0x421 ->
    match x with
    | Ok RNone => False
    | Ok (RAck l) => exists r0 sta, Some (n, r) = Some (0x421, r0) /\ l = [MTunnelingAck (local_after m (st_local st)) sta]
    | Ok (RList _) => n <> 0x421
    | Err _ => True
    end). { intros [[]|] H N; try exact I; try contradiction; exact N. }
  destruct (n =? 0x202) eqn:E1.
  { apply L; [|lia]. rewrite search_res_spec by assumption. cbn [fst].
    repeat match goal with |- context [match ?x with _ => _ end] => is_var x; destruct x; try exact I end. }
  destruct (n =? 0x20A) eqn:E2.
  { apply L; [|lia]. rewrite disconnect_res_spec by assumption.
    do 4 (destruct r as [|? r]; [exact I|]). destruct (_ =? 0); exact I. }
  destruct (n =? 0x206) eqn:E3.
  { apply L; [|lia]. destruct (Z.lt_ge_cases (zlen r) 12) as [W|W].
    - destruct (connect_res_short r st W) as [[-> _]| ->]; exact I.
    - destruct r as [|l1 [|l2 [|ch [|sta r]]]]; try (cbn in W; lia).
      destruct (eight r) as (a & b & i1 & i2 & i3 & i4 & p1 & p2 & r' & ->); [rewrite !zlen_cons in W; lia|].
      rewrite !octets_cons in Or. rewrite connect_res_spec by (cbn [app]; rewrite !octets_cons; tauto).
      destruct (sta =? 0).
      + do 4 (destruct r' as [|? r']; [exact I|]). exact I.
      + destruct (existsb (Z.eqb sta) [0; 34; 35; 36]); exact I. }
  destruct (n =? 0x208) eqn:E4.
  { apply L; [|lia]. rewrite connectionstate_res_spec. cbn [fst]. destruct r as [|l1 [|l2 [|ch [|sta r]]]]; try exact I.
    destruct (existsb (Z.eqb sta) [0; 33; 38; 39]); exact I. }
  destruct (n =? 0x420) eqn:E5.
  { apply L; [|lia]. apply request_shape. assumption. }
  destruct (n =? 0x421) eqn:E6; [|cbn [fst]; lia].
  rewrite tunneling_ack_spec by assumption. destruct r as [|l1 [|l2 [|sz [|ch [|ct [|sta r]]]]]]; try exact I.
  cbv zeta. cbn [fst]. destruct (existsb (Z.eqb sta) [0; 1; 2; 3]); [|exact I].
  apply Z.eqb_eq in E6. subst n. do 2 eexists. split; [reflexivity|]. unfold local_after. rewrite S. cbn [andb].
  destruct (ct =? st_local st); reflexivity.
Qed.
Print Assumptions C29_netip.
Example C29_example :
  fst (decode_msg CUsbHid (ex_usb [0x29; 0x00; 0xBC; 0xE0; 0x11; 0x02; 0x09; 0x00; 0x01; 0x40; 0x80]) (ex_st Usb_hid)) = Ok RNone /\
  fst (decode_msg CNetIP [0x06; 0x10; 0x04; 0x21; 0x00; 0x0A; 0x04; 0x07; 0x00; 0x00] (ex_st Knxnet_ip)) = Ok (RAck [MTunnelingAck 1 0]).
Proof. split; vm_compute; reflexivity. Qed.

(** ** C30 *)

Theorem C30_decode : forall c m s s', agree s s' ->
  fst (decode_msg c m s) = fst (decode_msg c m s') /\ agree (snd (decode_msg c m s)) (snd (decode_msg c m s')).
Proof. exact sim_decode. Qed.
Print Assumptions C30_decode.
Theorem C30_encode : forall m s s', agree s s' ->
  fst (encode_msg m s) = fst (encode_msg m s') /\ agree (snd (encode_msg m s)) (snd (encode_msg m s')).
Proof. exact sim_encode. Qed.
Print Assumptions C30_encode.
(** Whatever was encoded and decoded before, in whatever order. *)
Theorem C30_history : forall h s s', agree s s' ->
  fst (api_run s h) = fst (api_run s' h) /\ agree (snd (api_run s h)) (snd (api_run s' h)).
Proof.
  induction h as [|x h IH]; intros s s' A; [split; [reflexivity|exact A]|]. cbn [api_run].
  assert (X : fst (api_do s x) = fst (api_do s' x) /\ agree (snd (api_do s x)) (snd (api_do s' x))).
  { destruct x as [m|c m]; cbn [api_do fst snd].
    - destruct (C30_encode m s s' A) as [-> Y]. split; [reflexivity|exact Y].
    - destruct (C30_decode c m s s' A) as [-> Y]. split; [reflexivity|exact Y]. }
  destruct (api_do s x) as [o s1], (api_do s' x) as [o' s1']. cbn [fst snd] in X. destruct X as [<- A1].
  specialize (IH s1 s1' A1). destruct (api_run s1 h) as [os s2], (api_run s1' h) as [os' s2']. cbn [fst snd] in *.
  destruct IH as [-> A2]. split; [reflexivity|exact A2].
Qed.
Print Assumptions C30_history.
Theorem C30_fresh : forall h x s,
  fst (api_do (snd (api_run s h)) x) = fst (api_do (fresh (snd (api_run s h))) x).
Proof.
  intros h x s. set (u := snd (api_run s h)).
  assert (A : agree u (fresh u)) by (repeat split).
  destruct x as [m|c m]; cbn [api_do fst].
  - rewrite (proj1 (C30_encode m _ _ A)). reflexivity.
  - rewrite (proj1 (C30_decode c m _ _ A)). reflexivity.
Qed.
Print Assumptions C30_fresh.
(** Two states that differ in every attribute a call may leave behind. *)
Example C30_example : exists s s', agree s s' /\ st_ldata s <> st_ldata s' /\ st_asap s <> st_asap s' /\
  st_apci s <> st_apci s' /\ st_address_type s <> st_address_type s' /\
  fst (encode_msg (MGroupValueReadReq (mkasap 2 None)) s) = fst (encode_msg (MGroupValueReadReq (mkasap 2 None)) s').
Proof.
  exists (snd (decode_msg CUsbHid (ex_usb ex_frame) (snd (encode_msg (MPropertyValueReadReq (mkasap 4 None) 1 2 3 4) (ex_st Usb_hid))))), (ex_st Usb_hid).
  split; [repeat split|]. repeat split; vm_compute; congruence.
Qed.

(** ** C31 *)

Theorem C31_usb : forall c m st, st_medium st = Usb_hid ->
  agree st (snd (decode_msg c m st)).
Proof.
  intros c m st Hm. unfold decode_msg. unfold mbind at 1, mget at 1. rewrite Hm.
  destruct (calm_usb m st) as [-> |[l ->]]; repeat split; reflexivity.
Qed.
Print Assumptions C31_usb.
Theorem C31_netip : forall m st, octets m -> st_medium st = Knxnet_ip ->
  let st' := snd (decode_msg CNetIP m st) in
  same_tables st st' /\ st_remote st' = st_remote st /\
  st_local st' = local_after m (st_local st) /\ st_channel st' = channel_after m (st_channel st).
Proof.
  intros m st O Hm st'. subst st'.
  assert (decode_msg CNetIP m st = d_ip_header CNetIP m st) as ->.
  { unfold decode_msg. unfold mbind at 1, mget at 1. rewrite Hm. reflexivity. }
  assert (Y : ip_service m = None -> same_tables st st /\ st_remote st = st_remote st /\
      st_local st = local_after m (st_local st) /\ st_channel st = channel_after m (st_channel st)).
  { intros S. unfold local_after, channel_after. rewrite S. repeat split; reflexivity. }
  destruct (ip_cases m st O) as [[L ->]|[[S [_ ->]]|(n & r & S & Or & ->)]].
  - apply Y. destruct m as [|h [|v [|s1 [|s2 m]]]]; try reflexivity. rewrite !zlen_cons in L. pose proof (zlen_nonneg m). lia.
  - apply Y. assumption.
  - unfold local_after, channel_after. rewrite S.
    assert (N1 : (n =? 0x421) = false -> forall f : Z -> Z, match r with _ :: _ :: _ :: _ :: ct :: _ :: _ => if (n =? 0x421) && (ct =? st_local st) then f ct else st_local st | _ => st_local st end = st_local st).
    { intros -> f. destruct r as [|? [|? [|? [|? [|? [|? ?]]]]]]; reflexivity. }
    assert (N2 : (n =? 0x206) = false -> (n =? 0x20A) = false ->
      match r with _ :: _ :: ch :: sta :: r => if (n =? 0x206) && (sta =? 0) && (12 <=? zlen r) then Some ch
        else if (n =? 0x20A) && (sta =? 0) then Some 0 else st_channel st | _ => st_channel st end = st_channel st).
    { intros -> ->. destruct r as [|? [|? [|? [|? ?]]]]; reflexivity. }
    destruct (n =? 0x202) eqn:E1.
    { rewrite search_res_spec by assumption. cbn [snd]. rewrite N1, N2 by lia. repeat split; reflexivity. }
    destruct (n =? 0x20A) eqn:E2.
    { rewrite N1 by lia. rewrite disconnect_res_spec by assumption.
      destruct r as [|l1 [|l2 [|ch [|sta r]]]]; try (repeat split; reflexivity).
      destruct (n =? 0x206) eqn:E3; [lia|]. cbn [andb]. destruct (sta =? 0); repeat split; reflexivity. }
    destruct (n =? 0x206) eqn:E3.
    { rewrite N1 by lia. destruct (Z.lt_ge_cases (zlen r) 12) as [W|W].
      - assert (snd (d_connect_res CNetIP r st) = st) as -> by (destruct (connect_res_short r st W) as [[-> _]| ->]; reflexivity).
        repeat split. destruct r as [|l1 [|l2 [|ch [|sta r]]]]; try reflexivity. rewrite !zlen_cons in W.
        destruct (12 <=? zlen r) eqn:E12; [lia|]. rewrite andb_false_r. reflexivity.
      - destruct r as [|l1 [|l2 [|ch [|sta r]]]]; try (cbn in W; lia).
        destruct (eight r) as (a & b & i1 & i2 & i3 & i4 & p1 & p2 & r' & ->); [rewrite !zlen_cons in W; lia|].
        rewrite !octets_cons in Or. rewrite connect_res_spec by (cbn [app]; rewrite !octets_cons; tauto).
        rewrite !zlen_cons. cbn [andb]. destruct (sta =? 0) eqn:Es; cbn [andb].
        + pose proof (zlen_nonneg r'). destruct r' as [|x1 [|x2 [|x3 [|x4 r']]]]; cbn [snd].
          all: rewrite ?zlen_cons; change (zlen (@nil Z)) with 0.
          1-4: match goal with |- context [if ?b then _ else _] => destruct b eqn:Eb; [lia|] end; repeat split; reflexivity.
          pose proof (zlen_nonneg r').
          match goal with |- context [if ?b then _ else _] => destruct b eqn:Eb; [|lia] end. repeat split; reflexivity.
        + destruct (existsb (Z.eqb sta) [0; 34; 35; 36]); repeat split; reflexivity. }
    rewrite N2 by reflexivity.
    destruct (n =? 0x208) eqn:E4.
    { rewrite connectionstate_res_spec. cbn [snd]. rewrite N1 by lia. repeat split; reflexivity. }
    destruct (n =? 0x420) eqn:E5.
    { rewrite N1 by lia. destruct (calm_tunneling_req CNetIP r st) as [-> |[l ->]]; repeat split; reflexivity. }
    destruct (n =? 0x421) eqn:E6; [|rewrite N1 by reflexivity; repeat split; reflexivity].
    rewrite tunneling_ack_spec by assumption. destruct r as [|l1 [|l2 [|sz [|ch [|ct [|sta r]]]]]]; try (repeat split; reflexivity).
    cbv zeta. cbn [snd andb]. destruct (ct =? st_local st); repeat split; reflexivity.
Qed.
Print Assumptions C31_netip.
Example C31_example :
  local_after [0x06; 0x10; 0x04; 0x21; 0x00; 0x0A; 0x04; 0x07; 0xFF; 0x00] 0xFF = 0 /\
  local_after [0x06; 0x10; 0x04; 0x21; 0x00; 0x0A; 0x04; 0x07; 0xFE; 0x00] 0xFF = 0xFF /\
  st_channel (snd (decode_msg CNetIP ([0x06; 0x10; 0x02; 0x06; 0x00; 0x14; 0x15; 0x00; 0x08; 0x01; 192; 168; 0; 10; 0x0E; 0x57; 0x04; 0x04; 0x11; 0xFF]) (ex_st Knxnet_ip))) = Some 0x15.
Proof. repeat split; vm_compute; reflexivity. Qed.

(** ** C33 *)

Theorem C33_features : forall c st info plen hi lo service mf1 mf2 feature value rest,
  st_medium st = Usb_hid ->
  octets ([0x01; info; plen; 0x00; 0x08; hi; lo; 0x0F; service; mf1; mf2; feature; value] ++ rest) ->
  info mod 16 = 3 -> 10 <= plen -> 2 <= 256 * hi + lo ->
  decode_msg c ([0x01; info; plen; 0x00; 0x08; hi; lo; 0x0F; service; mf1; mf2; feature; value] ++ rest) st =
  (Ok (RList (feature_report service mf1 mf2 feature value)), st).
Proof. exact features_spec. Qed.
Print Assumptions C33_features.
Example C33_example :
  fst (decode_msg CUsbHid ([0x01; 0x13; 0x0A; 0x00; 0x08; 0x00; 0x02; 0x0F; 0x04; 0x00; 0x00; 0x03; 0x01] ++ repeat 0 51) (ex_st Usb_hid)) =
  Ok (RList [MConnectionStatus "Connected"]) /\
  feature_report 4 0 2 3 1 = [] /\ feature_report 2 0 0 5 3 = [MEMIType "cEMI"].
Proof. split; [vm_compute; reflexivity|]. split; reflexivity. Qed.

(** ** C59 *)

(** The names of the enumeration NSDU. *)
Definition nsdu_name (p : pdu) : option nsdu :=
  match p with
  | Broadcast => Some T_Data_Broadcast_PDU | GroupData => Some T_Data_Group_PDU
  | TagGroup => Some T_Data_Tag_Group_PDU | IndividualData => Some T_Data_Individual_PDU
  | Connected => Some T_Data_Connected_PDU | Ack => Some T_ACK_PDU | Nack => Some T_NACK_PDU
  | Other => None
  end.
Theorem C59_kind : forall c1 c2 s1 s2 d1 d2 len tpci apci data,
  octets (c1 :: c2 :: s1 :: s2 :: d1 :: d2 :: len :: tpci :: apci :: data) ->
  exists l body, ld_make_from (c1 :: c2 :: s1 :: s2 :: d1 :: d2 :: len :: tpci :: apci :: data) = Ok (l, body) /\
    ld_nsdu l = nsdu_name (pdu_kind (mktg c1 c2 (256 * s1 + s2) (256 * d1 + d2) len tpci apci data)).
Proof.
  intros c1 c2 s1 s2 d1 d2 len tpci apci data O. rewrite !octets_cons in O.
  do 2 eexists. split; [apply make_telegram; tauto|]. apply nsdu_kind. unfold proper. cbn. unfold is_octet in *.
  repeat split; try tauto; lia.
Qed.
Print Assumptions C59_kind.
(** Only address type, destination and TPCI octet matter. *)
Theorem C59_only : forall t t', (t_c2 t <? 128) = (t_c2 t' <? 128) -> t_dst t = t_dst t' -> t_tpci t = t_tpci t' ->
  pdu_kind t = pdu_kind t'.
Proof.
  intros t t' H1 H2 H3. unfold pdu_kind, group_addressed. rewrite H2, H3.
  assert ((128 <=? t_c2 t) = (128 <=? t_c2 t')) as -> by lia. reflexivity.
Qed.
Print Assumptions C59_only.
(** Connect and disconnect are never recognised. *)
Theorem C59_never : forall l, ld_nsdu l <> Some T_Connect_PDU /\ ld_nsdu l <> Some T_Disconnect_PDU.
Proof. exact nsdu_never. Qed.
Print Assumptions C59_never.
(** What is read back after setting a kind. *)
Theorem C59_set : forall l p, 0 <= ld_tpci l ->
  ld_nsdu (ld_set_nsdu l p) =
  if ld_address_type l =? AT_group then
    match p with
    | T_Data_Broadcast_PDU | T_Data_Group_PDU | T_Data_Individual_PDU =>
        if ld_destination l =? 0 then Some T_Data_Broadcast_PDU else Some T_Data_Group_PDU
    | T_Data_Tag_Group_PDU => Some T_Data_Tag_Group_PDU
    | _ => None
    end
  else
    match p with
    | T_Data_Broadcast_PDU | T_Data_Group_PDU | T_Data_Individual_PDU => Some T_Data_Individual_PDU
    | T_Data_Tag_Group_PDU => None
    | T_Data_Connected_PDU | T_Connect_PDU | T_Disconnect_PDU => Some T_Data_Connected_PDU
    | T_ACK_PDU => Some T_ACK_PDU
    | T_NACK_PDU => Some T_NACK_PDU
    end.
Proof. exact nsdu_set. Qed.
Print Assumptions C59_set.
Example C59_example : pdu_kind (mktg 0xBC 0x60 0x1001 0x1234 0 0x81 0 []) = Connected /\
  pdu_kind (mktg 0xBC 0x60 0x1001 0x1234 0 0xC6 0 []) = Ack /\ pdu_kind (mktg 0xBC 0xE0 0x1001 0x1234 0 4 0 []) = TagGroup.
Proof. repeat split; reflexivity. Qed.

(** ** C60 *)

Theorem C60_accepted : forall st l1 l2 ch a b i1 i2 i3 i4 p1 p2 x y ia1 ia2 rest, st_medium st = Knxnet_ip ->
  octets ([l1; l2; ch; a; b; i1; i2; i3; i4; p1; p2; x; y; ia1; ia2] ++ rest) ->
  decode_msg CNetIP ([0x06; 0x10; 0x02; 0x06; l1; l2; ch; 0x00; a; b; i1; i2; i3; i4; p1; p2; x; y; ia1; ia2] ++ rest) st =
  (Ok (RList [MConnectRes (dotted [i1; i2; i3; i4]) (256 * p1 + p2) (Some (256 * ia1 + ia2)) 0]), st_set_channel ch st).
Proof.
  intros st l1 l2 ch a b i1 i2 i3 i4 p1 p2 x y ia1 ia2 rest Hm O. cbn [app] in *. rewrite !octets_cons in O.
  rewrite connect_datagram by assumption. rewrite connect_res_spec by (cbn [app]; rewrite !octets_cons; tauto). reflexivity.
Qed.
Print Assumptions C60_accepted.
Theorem C60_refused : forall st l1 l2 ch sta a b i1 i2 i3 i4 p1 p2 rest, st_medium st = Knxnet_ip ->
  octets ([l1; l2; ch; sta; a; b; i1; i2; i3; i4; p1; p2] ++ rest) -> sta <> 0 ->
  decode_msg CNetIP ([0x06; 0x10; 0x02; 0x06; l1; l2; ch; sta; a; b; i1; i2; i3; i4; p1; p2] ++ rest) st =
  (if (0x22 <=? sta) && (sta <=? 0x24)
   then Ok (RList [MConnectRes (dotted [i1; i2; i3; i4]) (256 * p1 + p2) None sta])
   else Err ValueError, st).
Proof.
  intros st l1 l2 ch sta a b i1 i2 i3 i4 p1 p2 rest Hm O N. cbn [app] in *. rewrite !octets_cons in O.
  rewrite connect_datagram by assumption. rewrite connect_res_spec by (cbn [app]; rewrite !octets_cons; tauto).
  destruct (sta =? 0) eqn:E; [lia|]. cbn [existsb].
  destruct ((34 <=? sta) && (sta <=? 36)) eqn:E1.
  - assert (H : sta = 34 \/ sta = 35 \/ sta = 36) by lia. destruct H as [->|[->| ->]]; reflexivity.
  - rewrite E. destruct (sta =? 34) eqn:E2; [lia|]. destruct (sta =? 35) eqn:E3; [lia|]. destruct (sta =? 36) eqn:E4; [lia|]. reflexivity.
Qed.
Print Assumptions C60_refused.
Theorem C60_no_endpoint : forall st l1 l2 ch sta rest, st_medium st = Knxnet_ip -> zlen rest < 8 ->
  decode_msg CNetIP ([0x06; 0x10; 0x02; 0x06; l1; l2; ch; sta] ++ rest) st = (Err TypeError, st).
Proof.
  intros st l1 l2 ch sta rest Hm L. cbn [app]. rewrite connect_datagram by assumption.
  destruct (connect_res_short (l1 :: l2 :: ch :: sta :: rest) st) as [[_ H]|H]; [rewrite !zlen_cons; lia| |exact H].
  rewrite !zlen_cons in H. pose proof (zlen_nonneg rest). lia.
Qed.
Print Assumptions C60_no_endpoint.
Example C60_example :
  fst (decode_msg CNetIP ([0x06; 0x10; 0x02; 0x06; 0x00; 0x14; 0x15; 0x00; 0x08; 0x01; 192; 168; 0; 10; 0x0E; 0x57; 0x04; 0x04; 0x11; 0xFF]) (ex_st Knxnet_ip)) =
  Ok (RList [MConnectRes "192.168.0.10" 3671 (Some 0x11FF) 0]).
Proof. vm_compute. reflexivity. Qed.
