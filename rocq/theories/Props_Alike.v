(** C95: bytes tell what is asked for. *)
From Coq Require Import String ZArith NArith List Bool Lia ZifyBool.
From Verif Require Import Py Base Msg Address Dpt Tables LData State Encode.
From Verif Require Import SpecMsg SpecTables SpecWire SpecAlike AssocProofs EncodeProofs RoundProofs Props_Tables Props_Encode.
Import ListNotations.
Open Scope Z_scope.

(** ** Bytes as a function of the wish *)

Definition parcel_tpdu (p : parcel) : list Z :=
  match p with SixBits v => [0x00; 0x80 + v] | Whole n v => [0x00; 0x80] ++ be n v end.
Definition wish_bytes (st : state) (w : wish) : res (list Z) :=
  match w with
  | ToRead d => wire st (group_frame data_req d read_tpdu)
  | ToWrite d p => wire st (group_frame data_req d (parcel_tpdu p))
  | ToIndicate d p => Ok (usb_report (group_frame data_ind d (parcel_tpdu p)))
  | ToReadProperty d oi pid ne si => wire st (individual_frame data_req d (property_read_tpdu oi pid ne si))
  | ToWriteProperty d oi pid ne si data => wire st (individual_frame data_req d (property_write_tpdu oi pid ne si data))
  | ToConnect ip1 p1 ip2 p2 =>
      Ok ([0x06; 0x10; 0x02; 0x05; 0x00; 0x1A] ++ endpoint ip1 p1 ++ endpoint ip2 p2 ++ [0x04; 0x04; 0x02; 0x00])
  | ToKeep ch ip p => Ok ([0x06; 0x10; 0x02; 0x07; 0x00; 0x10; ch; 0x00] ++ endpoint ip p)
  | ToDisconnect ch ip p => Ok ([0x06; 0x10; 0x02; 0x09; 0x00; 0x10; ch; 0x00] ++ endpoint ip p)
  | ToSearch ip p => Ok ([0x06; 0x10; 0x02; 0x01; 0x00; 0x0E] ++ endpoint ip p)
  | ToAcknowledge ch n status => Ok [0x06; 0x10; 0x04; 0x21; 0x00; 0x0A; 0x04; ch; n; status]
  end.
(** Wishes whose numbers fit their fields. *)
Definition fits_parcel (p : parcel) : Prop :=
  match p with SixBits v => 0 <= v < 64 | Whole n v => n <> O /\ 0 <= v < 256 ^ Z.of_nat n end.
Definition wish_fits (w : wish) : Prop :=
  match w with
  | ToRead d => 0 <= d < 65536
  | ToWrite d p | ToIndicate d p => 0 <= d < 65536 /\ fits_parcel p
  | ToReadProperty d oi pid ne si | ToWriteProperty d oi pid ne si _ =>
      0 <= d < 65536 /\ 0 <= oi < 256 /\ 0 <= pid < 256 /\ 0 <= ne < 16 /\ 0 <= si < 4096
  | ToConnect ip1 p1 ip2 p2 => ipv4 ip1 /\ 0 <= p1 < 65536 /\ ipv4 ip2 /\ 0 <= p2 < 65536
  | ToKeep _ ip p | ToDisconnect _ ip p | ToSearch ip p => ipv4 ip /\ 0 <= p < 65536
  | ToAcknowledge _ _ _ => True
  end.

Lemma be_reduced n : forall v, be n (v mod 256 ^ Z.of_nat n) = be n v.
Proof.
  induction n as [|n IH]; intros v; [reflexivity|]. cbn [be]. f_equal.
  - rewrite <- (IH (v / 256)). f_equal. rewrite Nat2Z.inj_succ, Z.pow_succ_r by lia.
    rewrite Z.rem_mul_r by lia. rewrite Z.add_comm, Z.mul_comm, Z.div_add_l by lia.
    rewrite (Z.div_small (v mod 256)) by lia. lia.
  - f_equal. rewrite Nat2Z.inj_succ, Z.pow_succ_r by lia. rewrite Z.rem_mul_r by lia.
    rewrite (Z.mul_comm 256 (v / 256 mod _)), Z.mod_add by lia. apply Z.mod_mod. lia.
Qed.
Lemma be_same n a b : 0 <= a < 256 ^ Z.of_nat n -> 0 <= b < 256 ^ Z.of_nat n -> be n a = be n b -> a = b.
Proof.
  intros A B E. apply (f_equal big_endian) in E. rewrite !be_value in E. rewrite !Z.mod_small in E by assumption. exact E.
Qed.
Lemma be_2_reduced v : be 2 (v mod 65536) = be 2 v.
Proof. exact (be_reduced 2 v). Qed.
Lemma cemi_reduced code c2 d t : cemi_frame code c2 (d mod 65536) t = cemi_frame code c2 d t.
Proof. unfold cemi_frame. rewrite be_2_reduced. reflexivity. Qed.
Lemma endpoint_reduced ip p : endpoint ip (p mod 65536) = endpoint ip p.
Proof. unfold endpoint. rewrite be_2_reduced. reflexivity. Qed.
Lemma parcel_write c v : parcel_tpdu (parcel_of c v) = write_tpdu c v.
Proof.
  unfold parcel_of, write_tpdu, parcel_tpdu. destruct (wire_octets c) as [|n]; [reflexivity|].
  rewrite be_reduced. reflexivity.
Qed.
Lemma word_reduced oi pid ne si :
  property_word (oi mod 256) (pid mod 256) (ne mod 16) (si mod 4096) = property_word oi pid ne si.
Proof.
  unfold property_word. rewrite (be_reduced 1 oi : be 1 (oi mod 256) = _), (be_reduced 1 pid : be 1 (pid mod 256) = _).
  rewrite !Z.mod_mod by lia. reflexivity.
Qed.

Lemma asks_bytes st m w : asks st m w -> fst (encode_msg m st) = wish_bytes st w.
Proof.
  intros A. destruct A; cbn [wish_bytes]; unfold group_frame, individual_frame;
    rewrite ?cemi_reduced, ?parcel_write, ?endpoint_reduced.
  - rewrite (read_frame st s a) by assumption. rewrite H0. reflexivity.
  - rewrite (write_frame st s g a d c) by assumption. rewrite H2. reflexivity.
  - rewrite (write_ind_frame st s g a d c) by assumption. rewrite H2. reflexivity.
  - rewrite (property_read_frame st s) by assumption. cbn [fst]. unfold property_read_tpdu. rewrite word_reduced. reflexivity.
  - rewrite (property_write_frame st s a oi pid ne si text data) by assumption. cbn [fst].
    unfold property_write_tpdu. rewrite word_reduced. reflexivity.
  - rewrite connect_frame by assumption. reflexivity.
  - rewrite C17_connectionstate by assumption. rewrite H0. reflexivity.
  - rewrite C17_disconnect by assumption. rewrite H0. reflexivity.
  - rewrite search_frame by assumption. reflexivity.
  - rewrite ack_frame, H. reflexivity.
Qed.
Lemma parcel_of_fits c v : fits_parcel (parcel_of c v).
Proof.
  unfold parcel_of, fits_parcel. destruct (wire_octets c) as [|n]; [lia|].
  split; [lia|]. apply Z.mod_pos_bound. apply Z.pow_pos_nonneg; lia.
Qed.
Lemma asks_fits st m w : asks st m w -> wish_fits w.
Proof.
  intros A. destruct A; cbn [wish_fits]; repeat split; try assumption; try lia; try apply parcel_of_fits; try apply H; try apply H0.
Qed.

(** ** The bytes determine the wish *)

Lemma wire_same st st' c c' b : wire st (0x11 :: c) = Ok b -> wire st' (0x11 :: c') = Ok b -> c = c'.
Proof.
  unfold wire, usb_report, tunnelling_request. cbn [be app]. intros A B.
  destruct (st_medium st), (st_medium st'); try (destruct (st_channel st)); try (destruct (st_channel st')); try discriminate;
    rewrite <- A in B; try discriminate B; injection B; auto.
Qed.
Lemma cemi_same c2 c2' d d' t t' : 0 <= d < 65536 -> 0 <= d' < 65536 ->
  forall code code', cemi_frame code c2 d t = cemi_frame code' c2' d' t' -> code = code' /\ c2 = c2' /\ d = d' /\ t = t'.
Proof.
  intros D D' code code' E. unfold cemi_frame in E. cbn [be app] in E. injection E as -> -> E1 E2 _ E3.
  repeat split; try assumption. lia.
Qed.
Lemma parcel_same p p' : fits_parcel p -> fits_parcel p' -> parcel_tpdu p = parcel_tpdu p' -> p = p'.
Proof.
  intros F F' E. destruct p as [v|n v], p' as [v'|n' v']; cbn [parcel_tpdu fits_parcel app] in *.
  - injection E as E. f_equal. lia.
  - destruct F' as [N F']. destruct n' as [|n']; [lia|]. cbn [be] in E. injection E as _ E.
    destruct (be n' (v' / 256)); discriminate E.
  - destruct F as [N F]. destruct n as [|n]; [lia|]. cbn [be] in E. injection E as _ E.
    destruct (be n (v / 256)); discriminate E.
  - destruct F as [N F], F' as [N' F']. injection E as E.
    assert (L : zlen (be n v) = zlen (be n' v')) by (rewrite E; reflexivity). rewrite !zlen_be in L.
    apply Nat2Z.inj in L. subst n'. f_equal. exact (be_same n v v' F F' E).
Qed.
Lemma word_same oi pid ne si oi' pid' ne' si' t t' :
  0 <= oi < 256 /\ 0 <= pid < 256 /\ 0 <= ne < 16 /\ 0 <= si < 4096 ->
  0 <= oi' < 256 /\ 0 <= pid' < 256 /\ 0 <= ne' < 16 /\ 0 <= si' < 4096 ->
  property_word oi pid ne si ++ t = property_word oi' pid' ne' si' ++ t' ->
  oi = oi' /\ pid = pid' /\ ne = ne' /\ si = si' /\ t = t'.
Proof.
  intros F F' E. unfold property_word in E. cbn [be app] in E. injection E as E1 E2 E3 E4 E5.
  repeat split; try assumption; lia.
Qed.
Lemma endpoint_same ip p ip' p' t t' : ipv4 ip -> ipv4 ip' -> 0 <= p < 65536 -> 0 <= p' < 65536 ->
  endpoint ip p ++ t = endpoint ip' p' ++ t' -> ip = ip' /\ p = p' /\ t = t'.
Proof.
  intros I1 I2 P P' E. apply ipv4_four in I1, I2. destruct I1 as (a & b & c & d & -> & _), I2 as (a' & b' & c' & d' & -> & _).
  unfold endpoint in E. cbn [be app] in E. injection E as -> -> -> -> E1 E2 E3. repeat split; try assumption. lia.
Qed.

(** What goes out as a link-layer request. *)
Definition wish_cemi (w : wish) : option (list Z) :=
  match w with
  | ToRead d => Some (group_frame data_req d read_tpdu)
  | ToWrite d p => Some (group_frame data_req d (parcel_tpdu p))
  | ToReadProperty d oi pid ne si => Some (individual_frame data_req d (property_read_tpdu oi pid ne si))
  | ToWriteProperty d oi pid ne si data => Some (individual_frame data_req d (property_write_tpdu oi pid ne si data))
  | _ => None
  end.
Lemma wish_cemi_bytes st w c : wish_cemi w = Some c -> wish_bytes st w = wire st c.
Proof. destruct w; intros E; try discriminate E; injection E as <-; reflexivity. Qed.
Lemma wish_cemi_req w c : wish_cemi w = Some c -> exists r, c = 0x11 :: r.
Proof. destruct w; intros E; try discriminate E; injection E as <-; eexists; reflexivity. Qed.
Lemma some_same {A} (x y : A) : Some x = Some y -> x = y.
Proof. intros E. injection E. auto. Qed.
Lemma ok_same {A} (x y : A) : Ok x = Ok y -> x = y.
Proof. intros E. injection E. auto. Qed.
Lemma cemi_wish w w' c : wish_fits w -> wish_fits w' -> wish_cemi w = Some c -> wish_cemi w' = Some c -> w = w'.
Proof.
  intros F F' E E'.
  destruct w; try discriminate E; destruct w'; try discriminate E'; rewrite <- E' in E; clear E';
    cbn [wish_cemi wish_fits] in *;
    apply some_same in E;
    unfold group_frame, individual_frame in E;
    (apply cemi_same in E; [|tauto|tauto]); destruct E as (_ & K & -> & E); try discriminate K.
  - reflexivity.
  - destruct p; cbn in E; [cbn in F'; injection E; lia|discriminate E].
  - destruct p; cbn in E; [cbn in F; injection E; lia|discriminate E].
  - f_equal. apply parcel_same; tauto.
  - unfold property_read_tpdu in E. cbn [app] in E.
    assert (E1 : property_word obj pid count first ++ [] = property_word obj0 pid0 count0 first0 ++ [])
      by (rewrite !app_nil_r; exact (f_equal (skipn 2) E)).
    clear E. rename E1 into E. apply word_same in E; [|tauto|tauto].
    destruct E as (-> & -> & -> & -> & _). reflexivity.
  - unfold property_read_tpdu, property_write_tpdu in E. cbn [app] in E. discriminate E.
  - unfold property_read_tpdu, property_write_tpdu in E. cbn [app] in E. discriminate E.
  - unfold property_write_tpdu in E. cbn [app] in E. 
    assert (E1 : property_word obj pid count first ++ data = property_word obj0 pid0 count0 first0 ++ data0)
      by exact (f_equal (skipn 2) E).
    apply word_same in E1; [|tauto|tauto]. destruct E1 as (-> & -> & -> & -> & ->). reflexivity.
Qed.

Lemma bytes_wish st st' w w' b : wish_fits w -> wish_fits w' ->
  wish_bytes st w = Ok b -> wish_bytes st' w' = Ok b -> w = w'.
Proof.
  intros F F' E E'.
  destruct (wish_cemi w) as [c|] eqn:C, (wish_cemi w') as [c'|] eqn:C'.
  - rewrite (wish_cemi_bytes st w c C) in E. rewrite (wish_cemi_bytes st' w' c' C') in E'.
    destruct (wish_cemi_req w c C) as [r ->], (wish_cemi_req w' c' C') as [r' ->].
    rewrite (wire_same _ _ _ _ _ E E') in C. exact (cemi_wish w w' _ F F' C C').
  - exfalso. rewrite (wish_cemi_bytes st w c C) in E. destruct (wish_cemi_req w c C) as [r ->].
    unfold wire, usb_report, tunnelling_request in E.
    destruct w'; try discriminate C'; cbn [wish_bytes] in E'; injection E' as <-;
      destruct (st_medium st); try destruct (st_channel st); try discriminate E.
  - exfalso. rewrite (wish_cemi_bytes st' w' c' C') in E'. destruct (wish_cemi_req w' c' C') as [r ->].
    unfold wire, usb_report, tunnelling_request in E'.
    destruct w; try discriminate C; cbn [wish_bytes] in E; injection E as <-;
      destruct (st_medium st'); try destruct (st_channel st'); try discriminate E'.
  - destruct w; try discriminate C; destruct w'; try discriminate C'; clear C C';
      cbn [wish_bytes wish_fits] in *; rewrite <- E' in E; clear E'; try discriminate E; unfold group_frame in *.
    + assert (E1 : cemi_frame data_ind 0xE0 dest (parcel_tpdu p) = cemi_frame data_ind 0xE0 dest0 (parcel_tpdu p0))
        by (apply usb_report_inj; exact (ok_same _ _ E)).
      apply cemi_same in E1; [|tauto|tauto]. destruct E1 as (_ & _ & -> & E1). f_equal. apply parcel_same; tauto.
    + assert (E1 : endpoint ip1 port1 ++ endpoint ip2 port2 ++ [4; 4; 2; 0] = endpoint ip0 port0 ++ endpoint ip3 port3 ++ [4; 4; 2; 0])
        by exact (f_equal (skipn 6) (ok_same _ _ E)).
      apply endpoint_same in E1; try tauto. destruct E1 as (-> & -> & E1).
      apply endpoint_same in E1; try tauto. destruct E1 as (-> & -> & _). reflexivity.
    + assert (E1 : channel = channel0 /\ endpoint ip port ++ [] = endpoint ip0 port0 ++ []).
      { apply ok_same in E. rewrite !app_nil_r. split; [exact (f_equal (fun l => nth 6 l 0) E)|exact (f_equal (skipn 8) E)]. }
      destruct E1 as [-> E1]. apply endpoint_same in E1; try tauto. destruct E1 as (-> & -> & _). reflexivity.
    + assert (E1 : channel = channel0 /\ endpoint ip port ++ [] = endpoint ip0 port0 ++ []).
      { apply ok_same in E. rewrite !app_nil_r. split; [exact (f_equal (fun l => nth 6 l 0) E)|exact (f_equal (skipn 8) E)]. }
      destruct E1 as [-> E1]. apply endpoint_same in E1; try tauto. destruct E1 as (-> & -> & _). reflexivity.
    + assert (E1 : endpoint ip port ++ [] = endpoint ip0 port0 ++ [])
        by (rewrite !app_nil_r; exact (f_equal (skipn 6) (ok_same _ _ E))).
      apply endpoint_same in E1; try tauto. destruct E1 as (-> & -> & _). reflexivity.
    + injection E as -> -> ->. reflexivity.
Qed.

Lemma asks_medium md st m w : asks st m w -> asks (on_medium md st) m w.
Proof.
  intros A. destruct A;
    [apply (asks_read _ s a x rest)|apply (asks_write _ s g a d c x rest)|apply (asks_indicate _ s g a d c x rest)
    |apply (asks_property_read _ s)|apply (asks_property_write _ s)|apply asks_connect|apply asks_keep|apply asks_disconnect
    |apply asks_search|apply (asks_acknowledge (on_medium md st))]; assumption.
Qed.
Lemma asks_encoded st m w : asks st m w -> st_medium st <> Knxnet_ip \/ st_channel st <> None ->
  exists b, fst (encode_msg m st) = Ok b.
Proof.
  intros A K. rewrite (asks_bytes st m w A).
  assert (T : forall x, exists b, wire st x = Ok b).
  { intros x. unfold wire. destruct (st_medium st); [eauto|eauto|].
    destruct (st_channel st); [eauto|]. destruct K as [K|K]; contradiction K; reflexivity. }
  destruct w; cbn [wish_bytes]; eauto.
Qed.

(** ** C95 *)

(** Two messages, each with its own state and on whatever medium, that are
    encoded to the same bytes ask for the same thing. *)
Theorem C95_apart : forall st m w st' m' w' b, asks st m w -> asks st' m' w' ->
  fst (encode_msg m st) = Ok b -> fst (encode_msg m' st') = Ok b -> w = w'.
Proof.
  intros st m w st' m' w' b A A' E E'. rewrite (asks_bytes _ _ _ A) in E. rewrite (asks_bytes _ _ _ A') in E'.
  exact (bytes_wish st st' w w' b (asks_fits _ _ _ A) (asks_fits _ _ _ A') E E').
Qed.
Print Assumptions C95_apart.

(** And messages that ask for the same thing are encoded to the same bytes on
    the same medium, channel and counter. *)
Theorem C95_alike : forall st m w st' m', asks st m w -> asks st' m' w ->
  st_medium st' = st_medium st -> st_channel st' = st_channel st -> st_local st' = st_local st ->
  fst (encode_msg m st) = fst (encode_msg m' st').
Proof.
  intros st m w st' m' A A' M C L. rewrite (asks_bytes _ _ _ A), (asks_bytes _ _ _ A').
  destruct w; cbn [wish_bytes]; unfold wire; rewrite ?M, ?C, ?L; reflexivity.
Qed.
Print Assumptions C95_alike.

(** A message that asks for something is encoded, given a channel where the
    medium needs one, and asks for nothing else. *)
Theorem C95_asks : forall st m w, asks st m w ->
  (st_medium st <> Knxnet_ip \/ st_channel st <> None -> exists b, fst (encode_msg m st) = Ok b) /\
  (forall w', asks st m w' -> w' = w).
Proof.
  intros st m w A. split; [intros K; exact (asks_encoded st m w A K)|]. intros w' A'.
  apply (asks_medium Usb_hid) in A, A'.
  destruct (asks_encoded _ m w A) as [b B]; [left; discriminate|].
  exact (C95_apart _ m w' _ m w b A' A B B).
Qed.
Print Assumptions C95_asks.

(** The exception: a message that has no destination left asks for nothing, but
    is sent (C19).  Written with a type of four octets its bytes are those of a
    six-bit write to an address of its choice between 16/0/0 and 16/0/255, or of
    a read of it. *)
Theorem C95_stray : forall t l h s st g a c, built t l h s -> st_assoc st = Some s -> st_gobj st = Some g ->
  introduced t l h (asap_value a) = true -> (forall x, balance t l h (asap_value a) x = 0) ->
  type_of g (asap_value a) = Some c -> wire_octets c = 4%nat ->
  forall k v, 0 <= k < 256 -> 0 <= v < 64 ->
  fst (encode_msg (MGroupValueWriteReq a (mkdpt c (k * 16777216 + 0x010080 + v))) st) =
    wire st (group_frame data_req (0x8000 + k) [0x00; 0x80 + v]) /\
  fst (encode_msg (MGroupValueWriteReq a (mkdpt c (k * 16777216 + 0x010000))) st) =
    wire st (group_frame data_req (0x8000 + k) read_tpdu).
Proof.
  intros t l h s st g a c B Ha Hg I Z0 Ht W k v K V.
  destruct (C19_no_address_left t l h s st a B Ha I Z0) as [_ P].
  rewrite !(P g _ c Hg Ht). unfold write_tpdu. rewrite W. cbn [tl be app d_value].
  unfold group_frame, cemi_frame, data_req. cbn [be app].
  change (zlen [0; 128 + v]) with 2. change (zlen read_tpdu) with 2. unfold read_tpdu.
  split; f_equal; repeat (apply (f_equal2 (@cons Z)); [clear -K V; lia|]); reflexivity.
Qed.
Print Assumptions C95_stray.

(** So bytes alone do not tell: here is a message to nobody that switches on the
    light at 16/0/5. *)
Definition stray_table : address_table := at_new (mkaddr 1 0x1001) [] 255.
Definition stray_calls : list as_call :=
  [Associate (mkasap 1 None) [mkaddr 2 0x0905]; Associate (mkasap 2 None) [mkaddr 3 0x8005];
   Disassociate (mkasap 1 None) [mkaddr 2 0x0905]].
Definition stray_assoc : assoc_table :=
  match assoc_new stray_table [] with Ok s => snd (as_run s stray_calls) | Err _ => mkassoc stray_table [] [] end.
Definition stray_gobj : gobj_table := [(mkasap 1 None, Value_Power); (mkasap 2 None, Switch)].
Definition stray_state (m : medium) : state :=
  st_set_channel 7 (state_new m (Some stray_assoc) (Some stray_gobj)).
Theorem C95_all_refuted : exists st m m' w b, link_request m = true /\ (forall w', ~ asks st m w') /\ asks st m' w /\
  w = ToWrite 0x8005 (SixBits 1) /\ fst (encode_msg m st) = Ok b /\ fst (encode_msg m' st) = Ok b.
Proof.
  exists (stray_state Knxnet_ip), (MGroupValueWriteReq (mkasap 1 None) (mkdpt Value_Power 0x05010081)),
    (MGroupValueWriteReq (mkasap 2 None) (mkdpt Switch 1)), (ToWrite 0x8005 (SixBits 1)).
  eexists. split; [reflexivity|]. split.
  { intros w' A. inversion A; subst. injection H1 as <-.
    match goal with E : sends_to _ _ = _ |- _ => vm_compute in E; discriminate E end. }
  split.
  { change (ToWrite 0x8005 (SixBits 1)) with (ToWrite (a_val (mkaddr 3 0x8005) mod 65536) (parcel_of Switch (d_value (mkdpt Switch 1)))).
    eapply asks_write; vm_compute; reflexivity. }
  split; [reflexivity|]. split; vm_compute; reflexivity.
Qed.
Print Assumptions C95_all_refuted.

Example C95_example :
  (exists s, built stray_table [] stray_calls s /\ st_assoc (stray_state Usb_hid) = Some s) /\
  introduced stray_table [] stray_calls 1 = true /\ (forall x, balance stray_table [] stray_calls 1 x = 0) /\
  type_of stray_gobj 1 = Some Value_Power /\ wire_octets Value_Power = 4%nat /\
  asks (ex_state Knxnet_ip) (MGroupValueWriteReq (mkasap 2 None) (mkdpt Value_Temp 0x0C1A)) (ToWrite 0x0100 (Whole 2 0x0C1A)) /\
  asks (ex_state Usb_hid) (MGroupValueWriteReq (mkasap 2 None) (mkdpt Value_Temp 0x10C1A)) (ToWrite 0x0100 (Whole 2 0x0C1A)) /\
  asks (ex_state Usb_hid) (MConnectReq "10.0.0.7" 65536 "10.0.0.8" 3671) (ToConnect [10; 0; 0; 7] 0 [10; 0; 0; 8] 3671).
Proof.
  split.
  { exists stray_assoc. split; [|reflexivity].
    exists (match assoc_new stray_table [] with Ok s => s | Err _ => mkassoc stray_table [] [] end), [Ok tt; Ok tt; Ok tt].
    split; [vm_compute; reflexivity|]. split; [vm_compute; reflexivity|]. repeat constructor. }
  split; [reflexivity|]. split.
  { intros x. unfold balance. cbn -[Z.eqb occ].
    change (0 =? 1) with false. change (1 =? 1) with true. change (2 =? 1) with false.
    cbv iota. unfold occ. cbn [filter]. destruct (x =? 0x0905); reflexivity. }
  split; [reflexivity|]. split; [reflexivity|].
  split; [eapply (asks_write _ ex_assoc ex_gobj _ (mkdpt Value_Temp 0x0C1A) Value_Temp (mkaddr 6 0x0100)); vm_compute; reflexivity|].
  split; [eapply (asks_write _ ex_assoc ex_gobj _ (mkdpt Value_Temp 0x10C1A) Value_Temp (mkaddr 6 0x0100)); vm_compute; reflexivity|].
  change (asks (ex_state Usb_hid) (MConnectReq (dotted [10; 0; 0; 7]) 65536 (dotted [10; 0; 0; 8]) 3671)
    (ToConnect [10; 0; 0; 7] (65536 mod 65536) [10; 0; 0; 8] (3671 mod 65536))).
  apply asks_connect; (split; [reflexivity|repeat constructor; lia]).
Qed.
