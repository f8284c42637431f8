(** Proofs about the encoder (C13-C20). *)
From Coq Require Import String Ascii ZArith List Bool Lia ZifyBool Permutation.
From Verif Require Import Py Base Msg Address Dpt Tables LData Inet State Encode.
From Verif Require Import SpecMsg SpecTables SpecWire SpecInet MsgProofs TablesProofs AssocProofs InetProofs.
Import ListNotations.
Open Scope Z_scope.

(** ** Octets *)

Lemma be2 v : short_octects (Short v) = be 2 v.
Proof.
  unfold short_octects. destruct (short_parts (Short v)) as [-> ->]. cbn.
  unfold Short, cuint. change (2 ^ 16) with 65536. f_equal; [lia|]. f_equal. lia.
Qed.
Lemma be2' v : [short_MSB (Short v); short_LSB (Short v)] = be 2 v.
Proof. apply be2. Qed.
Lemma be4 v : long_octects (Long v) = be 4 v.
Proof.
  unfold long_octects. destruct (long_parts (Long v)) as (-> & -> & -> & ->). cbn.
  unfold Long, cuint. change (2 ^ 32) with 4294967296.
  f_equal; [lia|]. f_equal; [lia|]. f_equal; [lia|]. f_equal. lia.
Qed.
Lemma zlen_be n v : zlen (be n v) = Z.of_nat n.
Proof.
  revert v. induction n as [|n IH]; intros v; [reflexivity|].
  cbn [be]. rewrite zlen_app, IH. change (zlen [v mod 256]) with 1. lia.
Qed.
Lemma be_octets n v : octets (be n v).
Proof.
  revert v. induction n as [|n IH]; intros v; [constructor|].
  cbn [be]. apply octets_app. split; [apply IH|]. constructor; [|constructor].
  unfold is_octet. lia.
Qed.
Lemma zlen_2 (a b : Z) l : zlen (a :: b :: l) = zlen l + 2.
Proof. rewrite !zlen_cons. lia. Qed.

(** ** USB framing *)

Lemma usb_wrap cemi : e_emi_id cemi = usb_report cemi.
Proof.
  unfold e_emi_id, e_protocol_id, e_body_length, e_header_length, e_protocol_version,
    e_packet_info, e_report_identifier, usb_report.
  rewrite <- be2. change ([Octect 3; Octect 0; Octect 0] ++ cemi) with (3 :: 0 :: 0 :: cemi).
  change (octect_of_nibbles 1 3) with 0x13.
  change (Octect 1) with 1. change (Octect 0) with 0. change (Octect 8) with 8.
  cbn [app]. unfold short_octects. cbn [app].
  rewrite !zlen_cons. rewrite Octect_mod.
  replace (zlen cemi + 1 + 1 + 1 + 1 - 4) with (zlen cemi) by lia.
  replace (zlen cemi + 1 + 1 + 1 + 1 + 1 + 1 + 1 + 1) with (8 + zlen cemi) by lia.
  reflexivity.
Qed.

Lemma tunnelling_wrap m s : e_tunneling_req m s =
  (match st_channel s with
   | Some ch => Ok (tunnelling_request ch (st_local s) m)
   | None => Err AttributeError
   end, s).
Proof.
  unfold e_tunneling_req, e_connection_header, channel_id, mbind, mget, mlift, mret, need.
  destruct (st_channel s); [|reflexivity].
  unfold e_ip_header, tunnelling_request.
  change (short_octects (Short TUNNELING_REQUEST)) with [4; 0x20]. rewrite be2.
  change (Octect HEADER_SIZE_10) with 6. change (Octect KNXNETIP_VERSION_10) with 0x10.
  change (CONNECTION_HEADER_LEN + HEADER_SIZE_10 + zlen m) with (10 + zlen m).
  change (Octect CONNECTION_HEADER_LEN) with 4. change (Octect 0) with 0.
  rewrite !Octect_mod. reflexivity.
Qed.

Lemma cemi_req_wire m s : e_cemi_req m s = (wire s ([0x11; 0] ++ m), s).
Proof.
  unfold e_cemi_req, wire, mbind, mget, mret. change (Octect 0x11) with 0x11. change (Octect 0) with 0.
  destruct (st_medium s); [reflexivity|rewrite usb_wrap; reflexivity|apply tunnelling_wrap].
Qed.

Lemma ll_encode_group m s : st_address_type s = Some 1 ->
  ll_encode m s = (Ok ([0x96; 0xE0; 0; 0] ++ m), s).
Proof. intros H. unfold ll_encode, mbind, mget, mret. rewrite H. reflexivity. Qed.
Lemma ll_encode_individual m s : st_address_type s = Some 0 ->
  ll_encode m s = (Ok ([0x96; 0x60; 0; 0] ++ m), s).
Proof. intros H. unfold ll_encode, mbind, mget, mret. rewrite H. reflexivity. Qed.

(** ** Group frames *)

Lemma sends_to_tsaps s a addrs : sends_to s a = Ok addrs ->
  exists tsaps, as_get_tsaps s a = Ok tsaps /\ (tsaps = [] <-> addrs = []).
Proof.
  unfold sends_to. destruct (as_get_tsaps s a) as [ts|e]; [|discriminate]. cbn. intros H.
  exists ts. split; [reflexivity|]. unfold as_get_addresses in H.
  destruct ts as [|x r]; cbn in H.
  - injection H as <-. tauto.
  - destruct (at_get_address (as_table s) x); [|discriminate]. cbn in H.
    destruct (addresses_of (as_table s) r); [|discriminate]. injection H as <-. split; discriminate.
Qed.

Lemma get_addresses_sends st s a : st_assoc st = Some s -> st_asap st = Some a ->
  st_get_addresses st = sends_to s a.
Proof. intros H1 H2. unfold st_get_addresses, st_get_tsaps. rewrite H1, H2. reflexivity. Qed.
Lemma get_tsaps_asap st s a : st_assoc st = Some s -> st_asap st = Some a ->
  st_get_tsaps st = as_get_tsaps s a.
Proof. intros H1 H2. unfold st_get_tsaps. rewrite H1, H2. reflexivity. Qed.

(** The common tail of the group services, for requests and indications. *)
Lemma tdata_group_tail st s a v m (fin : msg -> E msg) : st_assoc st = Some s -> st_asap st = Some a ->
  st_address_type st = Some 1 -> st_apci st = Some v -> 0 <= v < 256 ->
  (act x <- tl_encode m; act y <- nl_encode x; act z <- ll_encode y; fin z) st =
  match sends_to s a with
  | Err e => (Err e, st)
  | Ok [] => fin ([0x96; 0xE0; 0; 0] ++ m) st
  | Ok (x :: _) => fin ([0x96; 0xE0; 0; 0] ++ be 2 (a_val x) ++ [zlen m mod 256] ++ 0 :: m) st
  end.
Proof.
  intros H1 H2 H3 H4 Hv. unfold mbind at 1. unfold tl_encode at 1. unfold mbind at 1, mget at 1.
  unfold mbind at 1, mlift at 1. rewrite (get_tsaps_asap _ _ _ H1 H2).
  assert (T : Octect (ld_tpci (ld_set_apci (ld_set_nsdu ld_new T_Data_Group_PDU) v)) = 0).
  { unfold ld_set_apci. rewrite Z.shiftr_div_pow2 by lia. change (2 ^ 8) with 256.
    rewrite Z.div_small by lia. reflexivity. }
  assert (N : forall m', (act y <- nl_encode m'; act z <- ll_encode y; fin z) st =
    match sends_to s a with
    | Err e => (Err e, st)
    | Ok [] => fin ([0x96; 0xE0; 0; 0] ++ m') st
    | Ok (x :: _) => fin ([0x96; 0xE0; 0; 0] ++ be 2 (a_val x) ++ [(zlen m' - 1) mod 256] ++ m') st
    end).
  { intros m'. unfold mbind at 1, nl_encode at 1. unfold mbind at 1, mget at 1.
    unfold mbind at 1, mlift at 1. rewrite (get_addresses_sends _ _ _ H1 H2).
    destruct (sends_to s a) as [[|x r]|e]; [| |reflexivity]; cbn [mret].
    - unfold mret, mbind. rewrite ll_encode_group by assumption. reflexivity.
    - unfold mret, mbind. rewrite ll_encode_group by assumption.
      rewrite Octect_mod. rewrite <- be2. reflexivity. }
  destruct (as_get_tsaps s a) as [ts|e] eqn:E.
  - destruct (sends_to s a) as [addrs|e2] eqn:E2.
    + destruct (sends_to_tsaps _ _ _ E2) as (ts' & Ht & Hn). rewrite E in Ht. injection Ht as <-.
      destruct ts as [|t0 ts].
      * unfold mret. rewrite N. rewrite (proj1 Hn eq_refl). reflexivity.
      * rewrite H4. unfold mret. rewrite T, N. destruct addrs as [|x r]; [discriminate (proj2 Hn eq_refl)|].
        rewrite zlen_cons. replace (zlen m + 1 - 1) with (zlen m) by lia. reflexivity.
    + destruct ts; [unfold mret; rewrite N; reflexivity|]. rewrite H4. unfold mret. rewrite N. reflexivity.
  - unfold sends_to. rewrite E. reflexivity.
Qed.

Lemma assoc_bind {A B C} (m : E A) (f : A -> E B) (g : B -> E C) s :
  (act y <- (act x <- m; f x); g y) s = (act x <- m; act y <- f x; g y) s.
Proof. unfold mbind. destruct (m s) as [[a|e] s']; reflexivity. Qed.

Definition req_fin (x : msg) : E msg := e_cemi_req x.
Lemma tdata_group_req_eq m st : e_tdata_group_req m st =
  (act x <- tl_encode m; act y <- nl_encode x; act z <- ll_encode y; e_cemi_req z) st.
Proof. reflexivity. Qed.
Lemma tdata_group_ind_eq m st : e_tdata_group_ind m st =
  (act x <- tl_encode m; act y <- nl_encode x; act z <- ll_encode y; e_cemi_ind z) st.
Proof. reflexivity. Qed.

(** The state a group service works in. *)
Definition group_prep (a : asap) (apci : Z) (st : state) : state :=
  mkstate (st_medium st) (st_assoc st) (st_gobj st) (st_ldata st) (Some a) (Some apci)
          (Some 1) (st_remote st) (st_local st) (st_channel st).
Lemma wire_prep a v st x : wire (group_prep a v st) x = wire st x.
Proof. reflexivity. Qed.

Lemma read_frame st s a : st_assoc st = Some s ->
  encode_msg (MGroupValueReadReq a) st =
  match sends_to s a with
  | Err e => (Err e, group_prep a 0 st)
  | Ok [] => (wire st [0x11; 0; 0x96; 0xE0; 0; 0; 0], group_prep a 0 st)
  | Ok (x :: _) => (wire st (group_frame data_req (a_val x) read_tpdu), group_prep a 0 st)
  end.
Proof.
  intros H. cbn [encode_msg]. unfold e_group_value_read. unfold mbind at 1 2 3, mmodify.
  change (Octect (ld_apci (ld_set_apci ld_new 0))) with 0.
  change (st_set_address_type AT_group (st_set_asap a (st_set_apci 0 st))) with (group_prep a 0 st).
  rewrite tdata_group_req_eq.
  rewrite (tdata_group_tail _ s a 0) by (cbn; auto; lia).
  destruct (sends_to s a) as [[|x r]|e]; [| |reflexivity]; rewrite cemi_req_wire, wire_prep; reflexivity.
Qed.

Lemma write_apci v : Octect (ld_full_apci (ld_set_data (ld_set_apci ld_new 0x80) v)) = 0x80 + v mod 64.
Proof.
  unfold ld_full_apci, ld_set_data, ld_set_apci, ld_with_apci, ld_with_tpci. cbn [ld_apci ld_tpci].
  change (cuint 8 128) with 128.
  change (Z.shiftl (tp_ack_nack (set (ld_tpci ld_new) 0 2 (Z.shiftr 128 8))) 8) with 0.
  rewrite set_arith by lia. rewrite Octect_mod. change (2 ^ 0) with 1. change (2 ^ 6) with 64.
  change (get 128 0 6) with 0. lia.
Qed.

Lemma al_encode_spec a d st c g : st_gobj st = Some g -> type_of g (asap_value a) = Some c ->
  al_encode a d st = (Ok (tl (write_tpdu c (d_value d))), group_prep a 0x80 st).
Proof.
  intros Hg Ht. unfold al_encode. unfold mbind at 1 2 3, mmodify.
  change (st_set_address_type AT_group (st_set_apci 0x80 (st_set_asap a st))) with (group_prep a 0x80 st).
  unfold mbind at 1, mget at 1. unfold mbind at 1, mlift at 1.
  assert (st_get_dpt (group_prep a 0x80 st) = Ok c) as ->.
  { unfold st_get_dpt, group_prep. cbn. rewrite Hg. cbn. rewrite type_of_dget in Ht.
    rewrite (dget_value g a (mkasap (asap_value a) None)) by reflexivity. rewrite Ht. reflexivity. }
  assert (W0 : Octect (ld_full_apci (ld_set_data (ld_set_apci ld_new 0x80) 0)) = 0x80) by reflexivity.
  cbv zeta. rewrite write_apci, W0.
  pose proof (be4 (d_value d)) as B4. unfold long_octects in B4.
  pose proof (be2 (d_value d)) as B2. unfold short_octects in B2.
  destruct c; cbn [dpt_small]; unfold mret; try reflexivity;
    cbn -[be Octect]; cbn [dpt_size Z.eqb]; cbn [Pos.eqb];
    unfold write_tpdu; cbn [wire_octets app tl]; rewrite ?B2, ?B4; try reflexivity;
    cbn [be app]; rewrite Octect_mod; reflexivity.
Qed.

Lemma tl_write c v : write_tpdu c v = 0 :: tl (write_tpdu c v).
Proof. unfold write_tpdu. destruct (wire_octets c); reflexivity. Qed.

Lemma write_frame st s g a d c : st_assoc st = Some s -> st_gobj st = Some g ->
  type_of g (asap_value a) = Some c ->
  encode_msg (MGroupValueWriteReq a d) st =
  match sends_to s a with
  | Err e => (Err e, group_prep a 0x80 st)
  | Ok [] => (wire st ([0x11; 0; 0x96; 0xE0; 0; 0] ++ tl (write_tpdu c (d_value d))), group_prep a 0x80 st)
  | Ok (x :: _) => (wire st (group_frame data_req (a_val x) (write_tpdu c (d_value d))), group_prep a 0x80 st)
  end.
Proof.
  intros H1 H2 H3. cbn [encode_msg]. unfold e_group_value_write_req. unfold mbind at 1.
  rewrite (al_encode_spec a d st c g H2 H3). rewrite tdata_group_req_eq.
  rewrite (tdata_group_tail _ s a 0x80) by (cbn; auto; lia).
  destruct (sends_to s a) as [[|x r]|e]; [| |reflexivity]; rewrite cemi_req_wire, wire_prep; [reflexivity|].
  unfold group_frame, cemi_frame. rewrite (tl_write c (d_value d)). rewrite zlen_cons. cbn [tl].
  replace (zlen (tl (write_tpdu c (d_value d))) + 1 - 1) with (zlen (tl (write_tpdu c (d_value d)))) by lia.
  reflexivity.
Qed.

Lemma write_ind_frame st s g a d c : st_assoc st = Some s -> st_gobj st = Some g ->
  type_of g (asap_value a) = Some c ->
  encode_msg (MGroupValueWriteInd a d) st =
  match sends_to s a with
  | Err e => (Err e, group_prep a 0x80 st)
  | Ok [] => (Ok (usb_report ([0x29; 0; 0x96; 0xE0; 0; 0] ++ tl (write_tpdu c (d_value d)))), group_prep a 0x80 st)
  | Ok (x :: _) => (Ok (usb_report (group_frame data_ind (a_val x) (write_tpdu c (d_value d)))), group_prep a 0x80 st)
  end.
Proof.
  intros H1 H2 H3. cbn [encode_msg]. unfold e_group_value_write_ind. unfold mbind at 1.
  rewrite (al_encode_spec a d st c g H2 H3). rewrite tdata_group_ind_eq.
  rewrite (tdata_group_tail _ s a 0x80) by (cbn; auto; lia).
  destruct (sends_to s a) as [[|x r]|e]; [| |reflexivity];
    unfold e_cemi_ind, mret; rewrite usb_wrap; change (Octect 0x29) with 0x29; change (Octect 0) with 0;
    [reflexivity|].
  unfold group_frame, cemi_frame. rewrite (tl_write c (d_value d)). rewrite zlen_cons. cbn [tl].
  replace (zlen (tl (write_tpdu c (d_value d))) + 1 - 1) with (zlen (tl (write_tpdu c (d_value d)))) by lia.
  reflexivity.
Qed.

(** An ASAP without datapoint type. *)
Lemma write_no_type st g a d : st_gobj st = Some g -> type_of g (asap_value a) = None ->
  encode_msg (MGroupValueWriteReq a d) st = (Err KeyError, group_prep a 0x80 st) /\
  encode_msg (MGroupValueWriteInd a d) st = (Err KeyError, group_prep a 0x80 st).
Proof.
  intros Hg Ht.
  assert (al_encode a d st = (Err KeyError, group_prep a 0x80 st)) as A.
  { unfold al_encode. unfold mbind at 1 2 3, mmodify.
    change (st_set_address_type AT_group (st_set_apci 0x80 (st_set_asap a st))) with (group_prep a 0x80 st).
    unfold mbind at 1, mget at 1. unfold mbind at 1, mlift at 1.
    assert (st_get_dpt (group_prep a 0x80 st) = Err KeyError) as ->; [|reflexivity].
    unfold st_get_dpt, group_prep. cbn. rewrite Hg. cbn. rewrite type_of_dget in Ht.
    rewrite (dget_value g a (mkasap (asap_value a) None)) by reflexivity. rewrite Ht. reflexivity. }
  cbn [encode_msg]. unfold e_group_value_write_req, e_group_value_write_ind, mbind. rewrite A. auto.
Qed.

(** ** Property frames *)

Definition property_prep (a : asap) (apci : Z) (st : state) : state :=
  mkstate (st_medium st) (st_assoc st) (st_gobj st) (st_ldata st) (Some a) (Some apci)
          (Some 0) (st_remote st) (st_local st) (st_channel st).

Lemma ph_make_word oi pid ne si : long_octects (Long (ph_make oi pid ne si)) = property_word oi pid ne si.
Proof.
  rewrite be4. unfold ph_make, property_word.
  assert (C : forall v o w x, 0 <= o -> 0 <= w -> v / 2 ^ o mod 2 ^ w = 0 ->
    set v o w x = v + (x mod 2 ^ w) * 2 ^ o).
  { intros v o w x Ho Hw Hv. rewrite set_arith, get_arith, Hv by assumption. lia. }
  rewrite (C 0 24 8) by (try lia; reflexivity).
  change (2 ^ 24) with 16777216. change (2 ^ 8) with 256.
  rewrite (C _ 16 8) by (try lia; change (2 ^ 16) with 65536; change (2 ^ 8) with 256; lia).
  change (2 ^ 16) with 65536. change (2 ^ 8) with 256.
  rewrite (C _ 12 4) by (try lia; change (2 ^ 12) with 4096; change (2 ^ 4) with 16; lia).
  change (2 ^ 12) with 4096. change (2 ^ 4) with 16.
  rewrite (C _ 0 12) by (try lia; change (2 ^ 12) with 4096; change (2 ^ 0) with 1; lia).
  change (2 ^ 12) with 4096. change (2 ^ 0) with 1.
  cbn [be app].
  f_equal; [lia|]. f_equal; [lia|]. f_equal; [lia|]. f_equal. lia.
Qed.

Lemma property_tail st s v m : st_assoc st = Some s -> st_address_type st = Some 0 ->
  st_apci st = Some v ->
  e_tdata_individual_req m st =
  (wire st (individual_frame 0x11 (a_val (as_individual_address s))
     (Octect (ld_tpci (ld_set_apci (ld_set_nsdu ld_new T_Data_Individual_PDU) v)) :: m)), st).
Proof.
  intros H1 H2 H3. unfold e_tdata_individual_req. unfold mbind at 1, mget at 1. rewrite H2.
  change (0 =? AT_individual) with true. cbv iota. rewrite H3.
  unfold e_ndata_individual_req. unfold mbind at 1, mget at 1. unfold mbind at 1, mlift at 1.
  unfold st_individual_address. rewrite H1. cbn [need rbind].
  unfold e_ldata_req. unfold mbind. rewrite ll_encode_individual by assumption.
  rewrite cemi_req_wire. unfold individual_frame, cemi_frame. rewrite <- be2, Octect_mod. reflexivity.
Qed.

Lemma property_read_frame st s a oi pid ne si : st_assoc st = Some s ->
  encode_msg (MPropertyValueReadReq a oi pid ne si) st =
  (wire st (individual_frame data_req (a_val (as_individual_address s)) (property_read_tpdu oi pid ne si)),
   property_prep a 0x3D5 st).
Proof.
  intros H. cbn [encode_msg]. unfold e_property_value_read. unfold mbind at 1 2 3, mmodify.
  change (st_set_address_type AT_individual (st_set_apci 0x3D5 (st_set_asap a st))) with (property_prep a 0x3D5 st).
  cbv zeta. rewrite (property_tail _ s 0x3D5) by (cbn; auto). rewrite ph_make_word. reflexivity.
Qed.
Lemma property_write_frame st s a oi pid ne si text data : st_assoc st = Some s ->
  stringtooctects text = Ok data ->
  encode_msg (MPropertyValueWriteReq a oi pid ne si text) st =
  (wire st (individual_frame data_req (a_val (as_individual_address s)) (property_write_tpdu oi pid ne si data)),
   property_prep a 0x3D7 st).
Proof.
  intros H Hd. cbn [encode_msg]. unfold e_property_value_write. unfold mbind at 1 2 3, mmodify.
  change (st_set_address_type AT_individual (st_set_apci 0x3D7 (st_set_asap a st))) with (property_prep a 0x3D7 st).
  cbv zeta. unfold mbind at 1, mlift. rewrite Hd.
  rewrite (property_tail _ s 0x3D7) by (cbn; auto). rewrite ph_make_word. reflexivity.
Qed.
Lemma property_write_bad st a oi pid ne si text e : stringtooctects text = Err e ->
  encode_msg (MPropertyValueWriteReq a oi pid ne si text) st = (Err e, property_prep a 0x3D7 st).
Proof.
  intros Hd. cbn [encode_msg]. unfold e_property_value_write. unfold mbind at 1 2 3, mmodify.
  cbv zeta. unfold mbind at 1, mlift. rewrite Hd. reflexivity.
Qed.

(** ** Core services *)

Definition dec_ok (n : Z) : bool :=
  let l := list_ascii_of_string (decimal n) in
  match l with c :: _ => is_digit_of 10 c | [] => false end &&
  match strtoul l with (m, []) => m =? n | _ => false end &&
  forallb (fun c => negb (Ascii.eqb c zero)) l &&
  String.eqb (decimal n) (string_of_list_ascii (dec3 n)).
Lemma dec_table : forallb dec_ok (map Z.of_nat (seq 0 256)) = true.
Proof. vm_compute. reflexivity. Qed.
Lemma dec_facts n : 0 <= n < 256 ->
  numeral (list_ascii_of_string (decimal n)) n /\
  ~ In zero (list_ascii_of_string (decimal n)) /\
  list_ascii_of_string (decimal n) = dec3 n.
Proof.
  intros H. pose proof (proj1 (forallb_forall _ _) dec_table n) as T.
  assert (In n (map Z.of_nat (seq 0 256))) as Hi.
  { apply in_map_iff. exists (Z.to_nat n). split; [lia|]. apply in_seq. lia. }
  specialize (T Hi). unfold dec_ok in T. apply andb_true_iff in T. destruct T as [T T4].
  apply andb_true_iff in T. destruct T as [T T3]. apply andb_true_iff in T. destruct T as [T1 T2]. split; [|split].
  - destruct (list_ascii_of_string (decimal n)) as [|c l]; [discriminate|].
    destruct (strtoul (c :: l)) as [m [|d r]] eqn:E; [|discriminate]. apply Z.eqb_eq in T2. subst m.
    destruct (strtoul_split c l n [] T1 E) as (text & -> & N & _). rewrite app_nil_r. exact N.
  - rewrite forallb_forall in T3. intros I. apply T3 in I. discriminate I.
  - apply String.eqb_eq in T4. rewrite T4. apply list_ascii_of_string_of_list_ascii.
Qed.

Lemma dotted_chars a b c d : list_ascii_of_string (dotted [a; b; c; d]) =
  list_ascii_of_string (decimal a) ++ dot :: list_ascii_of_string (decimal b) ++
  dot :: list_ascii_of_string (decimal c) ++ dot :: list_ascii_of_string (decimal d).
Proof.
  unfold dotted. cbn [map String.concat]. rewrite !list_ascii_app. reflexivity.
Qed.
Lemma ipv4_four ip : ipv4 ip -> exists a b c d, ip = [a; b; c; d] /\ 0 <= a < 256 /\ 0 <= b < 256 /\
  0 <= c < 256 /\ 0 <= d < 256.
Proof.
  intros [H1 H2]. destruct ip as [|a [|b [|c [|d [|]]]]]; try discriminate.
  inversion_clear H2 as [|? ? Ha H3]. inversion_clear H3 as [|? ? Hb H4].
  inversion_clear H4 as [|? ? Hc H5]. inversion_clear H5 as [|? ? Hd _]. eauto 10.
Qed.
Lemma aton_dotted ip : ipv4 ip -> inet_aton (dotted ip) = Ok ip.
Proof.
  intros H. pose proof H as [_ O]. apply ipv4_four in H. destruct H as (a & b & c & d & -> & Ha & Hb & Hc & Hd).
  destruct (dec_facts a Ha) as (A1 & A2 & _), (dec_facts b Hb) as (B1 & B2 & _),
    (dec_facts c Hc) as (C1 & C2 & _), (dec_facts d Hd) as (D1 & D2 & _).
  apply aton_spec.
  - rewrite dotted_chars. rewrite !in_app_iff. cbn [In]. rewrite !in_app_iff. cbn [In]. rewrite !in_app_iff. cbn [In].
    intuition discriminate.
  - exists (map (fun n => list_ascii_of_string (decimal n)) [a; b; c; d]), [a; b; c], [d], [].
    split; [rewrite app_nil_r, dotted_chars; reflexivity|]. split; [left; reflexivity|].
    split; [reflexivity|]. split; [exact O|]. split; [reflexivity|]. split; [discriminate|].
    constructor; [exact A1|]. constructor; [exact B1|]. constructor; [exact C1|]. constructor; [exact D1|]. constructor.
Qed.
Lemma ntoa_dotted a b c d : 0 <= a < 256 -> 0 <= b < 256 -> 0 <= c < 256 -> 0 <= d < 256 ->
  inet_ntoa a b c d = dotted [a; b; c; d].
Proof.
  intros Ha Hb Hc Hd. rewrite <- (string_of_list_ascii_of_string (dotted _)), dotted_chars.
  destruct (dec_facts a Ha) as (_ & _ & ->), (dec_facts b Hb) as (_ & _ & ->),
    (dec_facts c Hc) as (_ & _ & ->), (dec_facts d Hd) as (_ & _ & ->). reflexivity.
Qed.

Lemma hpai_endpoint ip port : ipv4 ip -> e_hpai ip port = endpoint ip port.
Proof.
  intros H. apply ipv4_four in H. destruct H as (a & b & c & d & -> & Ha & Hb & Hc & Hd).
  unfold e_hpai, endpoint. rewrite be2. cbn [map].
  rewrite (Octect_id a Ha), (Octect_id b Hb), (Octect_id c Hc), (Octect_id d Hd). reflexivity.
Qed.

Lemma connect_frame ip1 p1 ip2 p2 st : ipv4 ip1 -> ipv4 ip2 ->
  encode_msg (MConnectReq (dotted ip1) p1 (dotted ip2) p2) st =
  (Ok ([0x06; 0x10; 0x02; 0x05; 0x00; 0x1A] ++ endpoint ip1 p1 ++ endpoint ip2 p2 ++ [0x04; 0x04; 0x02; 0x00]), st).
Proof.
  intros H1 H2. cbn [encode_msg]. unfold e_connect_req, mbind, mlift, mret.
  rewrite !aton_dotted by assumption. rewrite !hpai_endpoint by assumption. reflexivity.
Qed.
Lemma channel_frame service ip p st : ipv4 ip ->
  e_channel_req service (dotted ip) p st =
  (match st_channel st with
   | Some ch => Ok ([0x06; 0x10] ++ be 2 service ++ [0x00; 0x10; ch mod 256; 0x00] ++ endpoint ip p)
   | None => Err AttributeError
   end, st).
Proof.
  intros H. unfold e_channel_req, channel_id, mbind, mlift, mret, mget. rewrite aton_dotted by assumption.
  destruct (st_channel st); [|reflexivity]. cbn [need]. rewrite hpai_endpoint, be2 by assumption.
  unfold e_ip_header. rewrite Octect_mod. reflexivity.
Qed.
Lemma search_frame ip p st : ipv4 ip ->
  encode_msg (MSearchReq (dotted ip) p) st =
  (Ok ([0x06; 0x10; 0x02; 0x01; 0x00; 0x0E] ++ endpoint ip p), st).
Proof.
  intros H. cbn [encode_msg]. unfold e_search_req, mbind, mlift, mret. rewrite aton_dotted by assumption.
  rewrite hpai_endpoint by assumption. reflexivity.
Qed.
Lemma ack_frame seq status st : encode_msg (MTunnelingAck seq status) st =
  match st_channel st with
  | None => (Err AttributeError, st)
  | Some ch => (Ok (tunnelling_ack ch (st_remote st) status),
                if seq =? st_remote st then st_set_remote (st_remote st + 1) st else st)
  end.
Proof.
  cbn [encode_msg]. unfold e_tunneling_ack, e_connection_header, channel_id, mbind, mlift, mret, mget, mmodify.
  destruct (st_channel st) as [ch|]; [|reflexivity]. cbn [need].
  unfold tunnelling_ack. rewrite !Octect_mod.
  destruct (seq =? st_remote st); reflexivity.
Qed.

(** ** What encoding may change *)

(** Everything but the scratch fields. *)
Definition core (s : state) := (st_medium s, st_assoc s, st_gobj s, st_ldata s, st_remote s, st_local s, st_channel s).
Definition keeps {A} (m : E A) : Prop := forall s, core (snd (m s)) = core s.

Lemma keeps_ret {A} (a : A) : keeps (mret a).
Proof. intros s. reflexivity. Qed.
Lemma keeps_raise {A} e : keeps (@mraise state A e).
Proof. intros s. reflexivity. Qed.
Lemma keeps_lift {A} (r : res A) : keeps (mlift r).
Proof. intros s. reflexivity. Qed.
Lemma keeps_get : keeps (@mget state).
Proof. intros s. reflexivity. Qed.
Lemma keeps_modify f : (forall s, core (f s) = core s) -> keeps (mmodify f).
Proof. intros H s. apply H. Qed.
Lemma keeps_bind {A B} (m : E A) (f : A -> E B) : keeps m -> (forall a, keeps (f a)) -> keeps (mbind m f).
Proof.
  intros Hm Hf s. unfold mbind. specialize (Hm s). destruct (m s) as [[a|e] s']; cbn in *; [|assumption].
  rewrite Hf. assumption.
Qed.
Ltac keeps_tac := repeat match goal with
  | |- keeps (mret _) => apply keeps_ret
  | |- keeps (mraise _) => apply keeps_raise
  | |- keeps (mlift _) => apply keeps_lift
  | |- keeps mget => apply keeps_get
  | |- keeps (mmodify _) => apply keeps_modify; intros; reflexivity
  | |- keeps (mbind _ _) => apply keeps_bind; [|intros]
  end.
Lemma keeps_conn_header a b : keeps (e_connection_header a b).
Proof. unfold e_connection_header, channel_id. keeps_tac. Qed.
Lemma keeps_cemi_req m : keeps (e_cemi_req m).
Proof. intros s. rewrite cemi_req_wire. reflexivity. Qed.
Lemma keeps_cemi_ind m : keeps (e_cemi_ind m).
Proof. unfold e_cemi_ind. keeps_tac. Qed.
Lemma keeps_ll m : keeps (ll_encode m).
Proof. unfold ll_encode. keeps_tac. destruct (st_address_type a); keeps_tac. Qed.
Lemma keeps_ldata_req m : keeps (e_ldata_req m).
Proof. unfold e_ldata_req. apply keeps_bind; [apply keeps_ll|intros; apply keeps_cemi_req]. Qed.
Lemma keeps_ldata_ind m : keeps (e_ldata_ind m).
Proof. unfold e_ldata_ind. apply keeps_bind; [apply keeps_ll|intros; apply keeps_cemi_ind]. Qed.
Lemma keeps_nl m : keeps (nl_encode m).
Proof. unfold nl_encode. keeps_tac. destruct a0; keeps_tac. Qed.
Lemma keeps_tl m : keeps (tl_encode m).
Proof. unfold tl_encode. keeps_tac. destruct a0; keeps_tac. destruct (st_apci a); keeps_tac. Qed.
Lemma keeps_tdata_group_req m : keeps (e_tdata_group_req m).
Proof.
  unfold e_tdata_group_req, e_ndata_group_req.
  apply keeps_bind; [apply keeps_tl|intros; apply keeps_bind; [apply keeps_nl|intros; apply keeps_ldata_req]].
Qed.
Lemma keeps_tdata_group_ind m : keeps (e_tdata_group_ind m).
Proof.
  unfold e_tdata_group_ind, e_ndata_group_ind.
  apply keeps_bind; [apply keeps_tl|intros; apply keeps_bind; [apply keeps_nl|intros; apply keeps_ldata_ind]].
Qed.
Lemma keeps_tdata_individual_req m : keeps (e_tdata_individual_req m).
Proof.
  unfold e_tdata_individual_req, e_ndata_individual_req. keeps_tac.
  destruct (match st_address_type a with Some v => v =? AT_individual | None => false end); [|keeps_tac].
  destruct (st_apci a); keeps_tac. apply keeps_ldata_req.
Qed.
Lemma keeps_al a d : keeps (al_encode a d).
Proof.
  unfold al_encode. keeps_tac. destruct (dpt_small _); keeps_tac.
  destruct (_ =? 1); keeps_tac. destruct (_ =? 2); keeps_tac. destruct (_ =? 4); keeps_tac.
Qed.

Lemma encode_keeps m : (forall seq status, m <> MTunnelingAck seq status) -> keeps (encode_msg m).
Proof.
  intros N. destruct m; cbn [encode_msg]; try apply keeps_raise.
  - unfold e_connect_req. keeps_tac.
  - unfold e_connectionstate_req, e_channel_req, channel_id. keeps_tac.
  - unfold e_disconnect_req, e_channel_req, channel_id. keeps_tac.
  - unfold e_search_req. keeps_tac.
  - elim (N seq status). reflexivity.
  - unfold e_group_value_read. keeps_tac. apply keeps_tdata_group_req.
  - unfold e_group_value_write_req. keeps_tac; [apply keeps_al|apply keeps_tdata_group_req].
  - unfold e_group_value_write_ind. keeps_tac; [apply keeps_al|apply keeps_tdata_group_ind].
  - unfold e_property_value_read. keeps_tac. apply keeps_tdata_individual_req.
  - unfold e_property_value_write. keeps_tac. apply keeps_tdata_individual_req.
Qed.

(** ** The same cEMI frame on every medium (C16) *)

Lemma group_no_assoc m st : st_assoc st = None ->
  e_tdata_group_req m st = (Err AttributeError, st).
Proof.
  intros H. unfold e_tdata_group_req, tl_encode, mbind, mget, mlift, st_get_tsaps. rewrite H. reflexivity.
Qed.
Lemma property_no_assoc m st v : st_assoc st = None -> st_address_type st = Some 0 -> st_apci st = Some v ->
  e_tdata_individual_req m st = (Err AttributeError, st).
Proof.
  intros H1 H2 H3. unfold e_tdata_individual_req. unfold mbind at 1, mget at 1. rewrite H2.
  change (0 =? AT_individual) with true. cbv iota. rewrite H3.
  unfold e_ndata_individual_req, mbind, mget, mlift, st_individual_address. rewrite H1. reflexivity.
Qed.
Lemma write_no_gobj a d st : st_gobj st = None -> exists s', al_encode a d st = (Err AttributeError, s').
Proof.
  intros H. eexists. unfold al_encode. unfold mbind, mmodify, mget, mlift, st_get_dpt.
  cbn [st_gobj st_set_address_type st_set_apci st_set_asap]. rewrite H. reflexivity.
Qed.

Lemma request_cemi m st : link_request m = true -> exists r : res (list Z),
  forall md, fst (encode_msg m (on_medium md st)) = (do c <- r; wire (on_medium md st) c).
Proof.
  intros L. destruct m; try discriminate L.
  - destruct (st_assoc st) as [s|] eqn:Ha.
    + exists (match sends_to s a with
              | Err e => Err e
              | Ok [] => Ok [0x11; 0; 0x96; 0xE0; 0; 0; 0]
              | Ok (x :: _) => Ok (group_frame data_req (a_val x) read_tpdu)
              end). intros md.
      rewrite (read_frame _ s) by exact Ha. destruct (sends_to s a) as [[|x r]|e]; reflexivity.
    + exists (Err AttributeError). intros md. cbn [encode_msg]. unfold e_group_value_read.
      unfold mbind at 1 2 3, mmodify. rewrite group_no_assoc by exact Ha. reflexivity.
  - destruct (st_gobj st) as [g|] eqn:Hg.
    + destruct (type_of g (asap_value a)) as [c|] eqn:Ht.
      * destruct (st_assoc st) as [s|] eqn:Ha.
        -- exists (match sends_to s a with
                   | Err e => Err e
                   | Ok [] => Ok ([0x11; 0; 0x96; 0xE0; 0; 0] ++ tl (write_tpdu c (d_value d)))
                   | Ok (x :: _) => Ok (group_frame data_req (a_val x) (write_tpdu c (d_value d)))
                   end). intros md.
           rewrite (write_frame _ s g _ _ c) by assumption. destruct (sends_to s a) as [[|x r]|e]; reflexivity.
        -- exists (Err AttributeError). intros md. cbn [encode_msg]. unfold e_group_value_write_req.
           unfold mbind at 1. rewrite (al_encode_spec a d _ c g) by assumption.
           rewrite group_no_assoc by exact Ha. reflexivity.
      * exists (Err KeyError). intros md.
        rewrite (proj1 (write_no_type (on_medium md st) g a d Hg Ht)). reflexivity.
    + exists (Err AttributeError). intros md. cbn [encode_msg]. unfold e_group_value_write_req, mbind.
      destruct (write_no_gobj a d (on_medium md st) Hg) as [s' ->]. reflexivity.
  - destruct (st_assoc st) as [s|] eqn:Ha.
    + eexists (Ok _). intros md. rewrite (property_read_frame _ s) by exact Ha. reflexivity.
    + exists (Err AttributeError). intros md. cbn [encode_msg]. unfold e_property_value_read.
      unfold mbind at 1 2 3, mmodify. cbv zeta. rewrite (property_no_assoc _ _ 0x3D5) by (try exact Ha; reflexivity). reflexivity.
  - destruct (stringtooctects data) as [bs|e] eqn:Hd.
    + destruct (st_assoc st) as [s|] eqn:Ha.
      * eexists (Ok _). intros md. rewrite (property_write_frame _ s _ _ _ _ _ _ bs) by assumption. reflexivity.
      * exists (Err AttributeError). intros md. cbn [encode_msg]. unfold e_property_value_write.
        unfold mbind at 1 2 3, mmodify. cbv zeta. unfold mbind at 1, mlift. rewrite Hd.
        rewrite (property_no_assoc _ _ 0x3D7) by (try exact Ha; reflexivity). reflexivity.
    + exists (Err e). intros md. rewrite (property_write_bad _ _ _ _ _ _ _ e Hd). reflexivity.
Qed.

Lemma usb_report_inj c1 c2 : usb_report c1 = usb_report c2 -> c1 = c2.
Proof.
  unfold usb_report. cbn [be app]. intros H. injection H. auto.
Qed.

Lemma same_cemi m st : link_request m = true ->
  match fst (encode_msg m (on_medium Usb_hid st)) with
  | Err e => fst (encode_msg m (on_medium Knxnet_ip st)) = Err e
  | Ok report => exists cemi, report = usb_report cemi /\
      fst (encode_msg m (on_medium Knxnet_ip st)) =
      match st_channel st with
      | Some ch => Ok (tunnelling_request ch (st_local st) cemi)
      | None => Err AttributeError
      end
  end.
Proof.
  intros L. destruct (request_cemi m st L) as [r R]. rewrite !R. destruct r as [c|e]; [|reflexivity].
  exists c. split; reflexivity.
Qed.

(** ** Sizes (C18) *)

Lemma zlen_tunnelling ch seq cemi : zlen (tunnelling_request ch seq cemi) = 10 + zlen cemi.
Proof. unfold tunnelling_request. rewrite !zlen_app, zlen_be, !zlen_cons, zlen_nil. lia. Qed.
Lemma zlen_usb cemi : zlen (usb_report cemi) = 11 + zlen cemi.
Proof. unfold usb_report. rewrite !zlen_app, zlen_be, !zlen_cons, zlen_nil. lia. Qed.
Lemma zlen_property_write oi pid ne si data : zlen (property_write_tpdu oi pid ne si data) = 6 + zlen data.
Proof. unfold property_write_tpdu, property_word. rewrite !zlen_app, !zlen_be, !zlen_cons, zlen_nil. lia. Qed.
Lemma zlen_cemi_frame code c2 d tpdu : zlen (cemi_frame code c2 d tpdu) = 9 + zlen tpdu.
Proof. unfold cemi_frame. rewrite !zlen_app, zlen_be, !zlen_cons, zlen_nil. lia. Qed.

(** ** ASAPs the tables do not know (C19) *)

Lemma first_uses_incl l : forall seen v, In v (first_uses seen l) -> In v l.
Proof.
  induction l as [|x r IH]; intros seen v H; cbn in *; [assumption|].
  destruct (existsb (Z.eqb x) seen); [right; eauto|]. destruct H as [->|H]; [left; reflexivity|right; eauto].
Qed.
Lemma first_uses_complete l : forall seen v, In v l -> ~ In v seen -> In v (first_uses seen l).
Proof.
  induction l as [|x r IH]; intros seen v H N; cbn in *; [destruct H|].
  destruct (existsb (Z.eqb x) seen) eqn:E.
  - apply existsb_exists in E. destruct E as (y & Hy & E). apply Z.eqb_eq in E. subst y.
    destruct H as [->|H]; [contradiction|]. apply IH; assumption.
  - destruct H as [->|H]; [left; reflexivity|]. destruct (Z.eq_dec x v) as [->|Nx]; [left; reflexivity|].
    right. apply IH; [assumption|]. intros [->|K]; [apply Nx; reflexivity|contradiction].
Qed.
Lemma introduced_values h v : existsb (introduced1 v) h = true <-> In v (assoc_values h).
Proof.
  rewrite existsb_exists. unfold assoc_values. rewrite in_flat_map. split.
  - intros (c & Hc & H). exists c. split; [assumption|]. destruct c; [|discriminate].
    left. apply Z.eqb_eq. exact H.
  - intros (c & Hc & H). exists c. split; [assumption|]. destruct c; [|destruct H].
    destruct H as [<-|[]]. cbn. apply Z.eqb_refl.
Qed.
Lemma introduced_key t l h s v : built t l h s ->
  introduced t l h v = true <-> In v (map asap_value (as_asaps s)).
Proof.
  intros (s0 & os & H1 & H2 & H3). rewrite (introduction _ _ _ _ _ _ H1 H2).
  rewrite (accepted_all _ _ _ _ H2 H3). unfold introduced. rewrite introduced_values. split.
  - intros H. apply first_uses_complete; [assumption|intros []].
  - apply first_uses_incl.
Qed.
Lemma dget_asaps s b : (exists l, dget asap_eqb b (as_addresses s) = Some l) <->
  In (asap_value b) (map asap_value (as_asaps s)).
Proof.
  unfold as_asaps. induction (as_addresses s) as [|[k x] r IH].
  - cbn. split; [intros [l H]; discriminate|tauto].
  - cbn [dget map fst In]. unfold asap_eqb at 1. destruct (asap_value k =? asap_value b) eqn:E.
    + apply Z.eqb_eq in E. split; [intros _; left; exact E|eauto].
    + rewrite IH. apply Z.eqb_neq in E. split; [tauto|]. intros [H|H]; [contradiction|assumption].
Qed.
Lemma never_associated t l h s b : built t l h s -> introduced t l h (asap_value b) = false ->
  sends_to s b = Err KeyError.
Proof.
  intros B H. rewrite sends_to_targets. destruct (dget asap_eqb b (as_addresses s)) as [x|] eqn:E; [|reflexivity].
  assert (K : In (asap_value b) (map asap_value (as_asaps s))) by (apply dget_asaps; eauto).
  apply (introduced_key _ _ _ _ _ B) in K. congruence.
Qed.
Lemma no_address_left t l h s b : built t l h s -> introduced t l h (asap_value b) = true ->
  (forall g, balance t l h (asap_value b) g = 0) -> sends_to s b = Ok [].
Proof.
  intros B H Z0. rewrite sends_to_targets. apply (introduced_key _ _ _ _ _ B) in H.
  apply dget_asaps in H. destruct H as [x E]. rewrite E.
  destruct (built_counts _ _ _ _ B) as [_ C].
  assert (x = []) as ->; [|reflexivity].
  destruct x as [|y r]; [reflexivity|]. specialize (C (asap_value b) (a_val y)). rewrite Z0 in C.
  unfold entry in C. rewrite (dget_value _ (mkasap (asap_value b) None) b) in C by reflexivity. rewrite E in C.
  unfold occ, vals in C. cbn [map filter] in C. rewrite Z.eqb_refl in C. rewrite zlen_cons in C. fold (vals r) in C.
  pose proof (zlen_nonneg (filter (Z.eqb (a_val y)) (vals r))). lia.
Qed.
