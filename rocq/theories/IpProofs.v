(** Proofs about KNXnet/IP datagrams other than tunnelling requests, and about
    USB reports in general (C26-C31, C33, C60). *)
From Coq Require Import String Ascii ZArith List Bool Lia ZifyBool.
From Verif Require Import Py Base Msg Address Dpt Tables LData Inet State Encode Decode.
From Verif Require Import SpecMsg SpecTables SpecWire SpecDecode.
From Verif Require Import MsgProofs TablesProofs AssocProofs EncodeProofs DecodeProofs SimProofs.
Import ListNotations.
Open Scope Z_scope.

(** ** Endpoint blocks *)
Lemma long_ip i1 i2 i3 i4 r : octets [i1; i2; i3; i4] ->
  long (i1 :: i2 :: i3 :: i4 :: r) = Ok (16777216 * i1 + 65536 * i2 + 256 * i3 + i4, r) /\
  let v := 16777216 * i1 + 65536 * i2 + 256 * i3 + i4 in
  inet_ntoa (get v 24 8) (get v 16 8) (get v 8 8) (get v 0 8) = dotted [i1; i2; i3; i4].
Proof.
  intros O. rewrite !octets_cons in O. destruct O as (O1 & O2 & O3 & O4 & _).
  split; [rewrite long_spec by assumption; f_equal; f_equal; lia|]. cbv zeta.
  rewrite !get_arith by lia. unfold is_octet in *.
  change (2 ^ 24) with 16777216. change (2 ^ 16) with 65536. change (2 ^ 8) with 256. change (2 ^ 0) with 1.
  rewrite ntoa_dotted by lia. f_equal. repeat (f_equal; [lia|]). f_equal. lia.
Qed.
Lemma HPAI_short m : zlen m < 8 -> HPAI CNetIP m = Err TypeError.
Proof. intros H. unfold HPAI. destruct (zlen m >=? 8) eqn:E; [lia|reflexivity]. Qed.
Lemma HPAI_long a b i1 i2 i3 i4 p1 p2 r : octets [i1; i2; i3; i4; p1; p2] ->
  HPAI CNetIP (a :: b :: i1 :: i2 :: i3 :: i4 :: p1 :: p2 :: r) =
  Ok (dotted [i1; i2; i3; i4], 256 * p1 + p2, r).
Proof.
  intros O. unfold HPAI. rewrite !zlen_cons. pose proof (zlen_nonneg r).
  match goal with |- (if ?b then _ else _) = _ => destruct b eqn:E; [|lia] end.
  unfold hpai_fields, octect. cbn [rbind]. rewrite !octets_cons in O.
  destruct (long_ip i1 i2 i3 i4 (p1 :: p2 :: r)) as [L N]; [repeat (apply octets_cons; split; [tauto|]); constructor|]. rewrite L. cbn [rbind].
  rewrite short_spec by tauto. cbn [rbind]. cbv zeta in N. rewrite N. reflexivity.
Qed.
Lemma eight (m : list Z) : 8 <= zlen m -> exists a b i1 i2 i3 i4 p1 p2 r,
  m = a :: b :: i1 :: i2 :: i3 :: i4 :: p1 :: p2 :: r.
Proof.
  intros H. unfold zlen in H.
  destruct m as [|a [|b [|i1 [|i2 [|i3 [|i4 [|p1 [|p2 r]]]]]]]]; cbn [length] in H; try lia. eauto 12.
Qed.

(** ** Services *)

Lemma connect_res_spec l1 l2 ch sta a b i1 i2 i3 i4 p1 p2 r st :
  octets (l1 :: l2 :: [i1; i2; i3; i4; p1; p2] ++ r) ->
  d_connect_res CNetIP (l1 :: l2 :: ch :: sta :: a :: b :: i1 :: i2 :: i3 :: i4 :: p1 :: p2 :: r) st =
  if sta =? 0 then
    match r with
    | _ :: _ :: x1 :: x2 :: _ =>
        (Ok (RList [MConnectRes (dotted [i1; i2; i3; i4]) (256 * p1 + p2) (Some (256 * x1 + x2)) 0]), st_set_channel ch st)
    | _ => (Err IndexError, st)
    end
  else if existsb (Z.eqb sta) [0; 0x22; 0x23; 0x24]
  then (Ok (RList [MConnectRes (dotted [i1; i2; i3; i4]) (256 * p1 + p2) None sta]), st)
  else (Err ValueError, st).
Proof.
  intros O. rewrite !octets_cons in O. destruct O as (O1 & O2 & O).
  assert (O' : octets [i1; i2; i3; i4; p1; p2]) by (apply octets_app in O; tauto).
  unfold d_connect_res, octect. unfold mbind at 1, mlift at 1. rewrite short_spec by assumption.
  unfold mbind at 1, mlift at 1. unfold mbind at 1, mlift at 1. unfold mbind at 1, mlift at 1.
  rewrite HPAI_long by assumption. unfold mbind at 1.
  destruct (sta =? 0) eqn:E.
  - apply Z.eqb_eq in E. subst sta. apply octets_app in O. destruct O as [_ O].
    destruct r as [|c1 [|c2 [|x1 [|x2 r]]]]; try reflexivity.
    unfold mbind at 1, mlift at 1. unfold CRD, octect. cbn [rbind]. rewrite !octets_cons in O.
    rewrite short_spec by tauto. reflexivity.
  - unfold mret at 1. unfold mbind, mlift, enum_check, connect_codes.
    destruct (existsb (Z.eqb sta) [0; 34; 35; 36]); reflexivity.
Qed.
Lemma connect_res_short m st : zlen m < 12 ->
  d_connect_res CNetIP m st = (Err IndexError, st) /\ zlen m < 4 \/ d_connect_res CNetIP m st = (Err TypeError, st).
Proof.
  intros H. unfold zlen in H. destruct m as [|l1 [|l2 [|ch [|sta r]]]]; try (left; split; [reflexivity|cbn; lia]).
  right. unfold d_connect_res, octect. unfold mbind at 1, mlift at 1. cbn [short].
  unfold mbind at 1, mlift at 1. unfold mbind at 1, mlift at 1. unfold mbind at 1, mlift at 1.
  rewrite HPAI_short; [reflexivity|]. unfold zlen. cbn [length] in H. lia.
Qed.

Lemma disconnect_res_spec m st : octets m ->
  d_disconnect_res m st =
  match m with
  | _ :: _ :: ch :: sta :: _ =>
      if sta =? 0 then (Ok (RList [MDisconnectRes ch 0]), st_set_channel 0 st) else (Ok (RList []), st)
  | _ => (Err IndexError, st)
  end.
Proof.
  intros O. destruct m as [|l1 [|l2 [|ch [|sta r]]]]; try reflexivity.
  unfold d_disconnect_res, octect. unfold mbind at 1, mlift at 1. cbn [short].
  unfold mbind at 1, mlift at 1. unfold mbind at 1, mlift at 1.
  destruct (sta =? 0) eqn:E; [|reflexivity]. apply Z.eqb_eq in E. subst sta. reflexivity.
Qed.
Lemma connectionstate_res_spec m st :
  d_connectionstate_res m st =
  (match m with
   | _ :: _ :: _ :: sta :: _ =>
       if existsb (Z.eqb sta) [0; 0x21; 0x26; 0x27] then Ok (RList [MConnectionstateRes sta]) else Err ValueError
   | _ => Err IndexError
   end, st).
Proof.
  destruct m as [|l1 [|l2 [|ch [|sta r]]]]; try reflexivity.
  unfold d_connectionstate_res, octect. unfold mbind, mlift. cbn [short].
  unfold enum_check, connectionstate_codes. destruct (existsb (Z.eqb sta) [0; 33; 38; 39]); reflexivity.
Qed.
Lemma search_res_spec m st : octets m ->
  d_search_res m st =
  (match m with
   | _ :: _ :: _ :: _ :: i1 :: i2 :: i3 :: i4 :: p1 :: p2 :: _ :: _ :: x1 :: x2 :: _ =>
       Ok (RList [MSearchRes (dotted [i1; i2; i3; i4]) (256 * p1 + p2) (256 * x1 + x2)])
   | _ => Err IndexError
   end, st).
Proof.
  intros O. destruct m as [|l1 [|l2 [|a [|b [|i1 [|i2 [|i3 [|i4 [|p1 [|p2 [|c [|d [|x1 [|x2 r]]]]]]]]]]]]]]; try reflexivity.
  rewrite !octets_cons in O. unfold d_search_res, octect. unfold mbind at 1, mlift at 1. rewrite short_spec by tauto.
  unfold mbind at 1, mlift at 1. unfold mbind at 1, mlift at 1. unfold mbind at 1, mlift at 1.
  destruct (long_ip i1 i2 i3 i4 (p1 :: p2 :: c :: d :: x1 :: x2 :: r)) as [L N]; [repeat (apply octets_cons; split; [tauto|]); constructor|].
  rewrite L. unfold mbind at 1, mlift at 1. rewrite short_spec by tauto.
  unfold mbind at 1, mlift at 1. unfold mbind at 1, mlift at 1. unfold mbind at 1, mlift at 1. rewrite short_spec by tauto.
  cbv zeta in N. unfold mret. rewrite N. reflexivity.
Qed.
Lemma tunneling_ack_spec m st : octets m ->
  d_tunneling_ack CNetIP m st =
  match m with
  | _ :: _ :: _ :: _ :: counter :: sta :: _ =>
      let local := if counter =? st_local st then (st_local st + 1) mod 256 else st_local st in
      (if existsb (Z.eqb sta) [0; 1; 2; 3] then Ok (RAck [MTunnelingAck local sta]) else Err ValueError,
       if counter =? st_local st then st_set_local (st_local st + 1) st else st)
  | _ => (Err IndexError, st)
  end.
Proof.
  intros O. destruct m as [|l1 [|l2 [|sz [|ch [|ct [|sta r]]]]]]; try reflexivity.
  unfold d_tunneling_ack, octect. unfold mbind at 1, mlift at 1. cbn [short].
  unfold mbind at 1, mlift at 1. unfold ip_conn_header, octect. cbn [rbind].
  unfold mbind at 1, mget at 1. unfold mbind at 1. rewrite (Z.eqb_sym ct).
  destruct (st_local st =? ct); unfold mmodify, mret; unfold mbind at 1, mget at 1;
    unfold mbind, mlift, enum_check, error_codes; destruct (existsb (Z.eqb sta) [0; 1; 2; 3]); reflexivity.
Qed.
Lemma tunneling_req_short m st : zlen m < 6 -> d_tunneling_req CNetIP m st = (Err IndexError, st).
Proof.
  intros H. unfold zlen in H. destruct m as [|l1 [|l2 [|sz [|ch [|ct [|sta r]]]]]]; try reflexivity. cbn [length] in H. lia.
Qed.

(** ** All datagrams *)
Lemma ip_cases m st : octets m ->
  zlen m < 4 /\ d_ip_header CNetIP m st = (Err IndexError, st) \/
  ip_service m = None /\ 4 <= zlen m /\ d_ip_header CNetIP m st = (Ok (RList []), st) \/
  exists n r, ip_service m = Some (n, r) /\ octets r /\
    d_ip_header CNetIP m st =
    if n =? 0x0202 then d_search_res r st
    else if n =? 0x020A then d_disconnect_res r st
    else if n =? 0x0206 then d_connect_res CNetIP r st
    else if n =? 0x0208 then d_connectionstate_res r st
    else if n =? 0x0420 then d_tunneling_req CNetIP r st
    else if n =? 0x0421 then d_tunneling_ack CNetIP r st
    else (Ok (RList []), st).
Proof.
  intros O. destruct m as [|h [|v [|s1 [|s2 r]]]]; try (left; split; [cbn; lia|reflexivity]).
  right. rewrite !octets_cons in O. cbn [ip_service]. rewrite ip_header by tauto.
  destruct ((h =? 6) && (v =? 16)).
  - right. exists (256 * s1 + s2), r. split; [reflexivity|]. split; [tauto|].
    unfold services. unfold is_octet in O.
    assert (X : forall n, 0 <= n < 65536 -> (256 * s1 + s2 =? n) = (s1 =? n / 256) && (s2 =? n mod 256)) by (intros; lia).
    rewrite !X by lia.
    change (514 / 256) with 2. change (514 mod 256) with 2. change (522 / 256) with 2. change (522 mod 256) with 10.
    change (518 / 256) with 2. change (518 mod 256) with 6. change (520 / 256) with 2. change (520 mod 256) with 8.
    change (1056 / 256) with 4. change (1056 mod 256) with 32. change (1057 / 256) with 4. change (1057 mod 256) with 33.
    repeat match goal with |- context [if ?b then _ else _] => destruct b; [reflexivity|] end. reflexivity.
  - left. split; [reflexivity|]. split; [|reflexivity]. rewrite !zlen_cons. pose proof (zlen_nonneg r). lia.
Qed.

(** ** USB reports *)
Lemma usb_padding a b n rest pad st : n <= zlen rest ->
  d_report_identifier ((a :: b :: n :: rest) ++ pad) st = d_report_identifier (a :: b :: n :: rest) st.
Proof.
  intros H. cbn [app]. unfold d_report_identifier, d_packet_info, octect. unfold mbind, mlift.
  destruct (a =? 1); [|reflexivity]. destruct (nibble_low b =? 3); [|reflexivity].
  rewrite !ztake_firstn, firstn_app. unfold zlen in H.
  replace (Z.to_nat n - length rest)%nat with 0%nat by lia. cbn [firstn]. rewrite app_nil_r. reflexivity.
Qed.
Lemma usb_inner info hi lo body extra st : octets (hi :: lo :: body) -> zlen body = 256 * hi + lo + 4 ->
  info mod 16 = 3 ->
  d_report_identifier ([0x01; info; 4 + zlen body + zlen extra; 0x00; 0x08; hi; lo] ++ body ++ extra) st =
  d_protocol_id body st.
Proof.
  intros O L I. rewrite !octets_cons in O. cbn [app]. unfold d_report_identifier, octect. unfold mbind at 1, mlift at 1.
  change (1 =? 1) with true. cbv iota. unfold d_packet_info, octect. unfold mbind at 1, mlift at 1.
  rewrite nibble_mod, I. change (3 =? 3) with true. cbv iota. unfold mbind at 1, mlift at 1.
  rewrite ztake_firstn. rewrite firstn_all2.
  2:{ unfold zlen. cbn [length]. rewrite app_length. lia. }
  unfold d_protocol_version, octect. unfold mbind at 1, mlift at 1. change (0 =? 0) with true. cbv iota.
  unfold d_header_length, octect. unfold mbind at 1, mlift at 1. change (8 =? 8) with true. cbv iota.
  unfold d_body_length. unfold mbind at 1, mlift at 1. rewrite short_spec by tauto.
  rewrite <- L. rewrite ztake_firstn, firstn_app. unfold zlen at 1 2. rewrite Nat2Z.id, firstn_all, Nat.sub_diag.
  cbn [firstn]. rewrite app_nil_r. reflexivity.
Qed.
Lemma service_length m x : ip_service m = Some x -> 4 <= zlen m.
Proof.
  intros H. destruct m as [|h [|v [|s1 [|s2 r]]]]; try discriminate H. rewrite !zlen_cons. pose proof (zlen_nonneg r). lia.
Qed.

(** ** The shape of results, whatever the tables *)
Lemma shape_bind (x : M state (list message)) st :
  match fst ((act r <- x; mret (RList r)) st) with Ok (RList _) | Err _ => True | _ => False end.
Proof. unfold mbind. destruct (x st) as [[r|e] s]; exact I. Qed.
Lemma ldata_shape k t st : st_ldata st = Some (ld_of t) -> proper t ->
  match fst (d_ldata k (payload t) st) with
  | Ok RNone => group_addressed t = true /\ t_dst t <> 0 /\ plain t = false
  | Ok (RAck _) => False
  | _ => True
  end.
Proof.
  intros Hl P. unfold d_ldata. unfold mbind at 1. unfold cur_ldata at 1. unfold mbind at 1, mget at 1, mlift at 1.
  rewrite Hl. cbn [need]. rewrite ld_address by assumption. cbn [ld_destination ld_of].
  change AT_individual with 0. change AT_group with 1.
  destruct (group_addressed t) eqn:G.
  - change (1 =? 0) with false. change (1 =? 1) with true. cbn [andb].
    destruct (t_dst t =? 0) eqn:D; cbn [negb].
    + unfold d_ndata_broadcast, d_todo. exact I.
    + unfold d_ndata_group. unfold mbind at 1. unfold cur_ldata at 1. unfold mbind at 1, mget at 1, mlift at 1.
      rewrite Hl. cbn [need]. rewrite nsdu_kind by assumption.
      pose proof (plain_kind t P G ltac:(lia)) as K.
      destruct (pdu_kind t); cbn [pdu_model fst mret]; try (repeat split; [lia|exact K]).
      pose proof (shape_bind (d_tdata_group k (payload t)) st) as X.
      destruct (fst _) as [[]|]; try exact I; contradiction.
  - change (0 =? 0) with true. cbv iota. unfold d_ndata_individual. unfold mbind at 1. unfold cur_ldata at 1.
    unfold mbind at 1, mget at 1, mlift at 1. rewrite Hl. cbn [need].
    match goal with |- context [fst (mbind ?x _ st)] => pose proof (shape_bind x st) as X end.
    destruct (fst _) as [[]|]; try exact I; contradiction.
Qed.
Lemma msg_code_shape cemi st : octets cemi ->
  match fst (d_msg_code cemi st) with
  | Ok RNone => exists k t, cemi_telegram cemi = Some (k, t) /\ group_addressed t = true /\ t_dst t <> 0 /\ plain t = false
  | Ok (RAck _) => False
  | _ => True
  end.
Proof.
  intros O. destruct (cemi_telegram cemi) as [[k t]|] eqn:E.
  - destruct (msg_code_ldata cemi st k t O E) as [P ->].
    pose proof (ldata_shape k t (st_set_ldata (ld_of t) st) eq_refl P) as X.
    destruct (fst _) as [[]|]; try exact I; [|contradiction]. exists k, t. auto.
  - destruct (msg_code_none cemi st E) as [-> | ->]; exact I.
Qed.
Lemma request_shape m st : octets m ->
  match fst (d_tunneling_req CNetIP m st) with Ok (RList _) | Err _ => True | _ => False end.
Proof.
  intros O. destruct (Z.lt_ge_cases (zlen m) 6) as [L|L]; [rewrite tunneling_req_short by assumption; exact I|].
  destruct m as [|l1 [|l2 [|sz [|ch [|ct [|sta r]]]]]]; try (cbn in L; lia).
  unfold d_tunneling_req. unfold mbind at 1, mlift at 1. cbn [short].
  unfold ip_conn_header, octect. cbn [rbind]. unfold mbind at 1, mlift at 1. unfold mbind at 1, mget at 1.
  destruct (st_remote st =? ct); [|destruct (st_remote st =? ct + 1); exact I].
  unfold mbind. destruct (d_msg_code r st) as [[[]|] ?]; exact I.
Qed.

Lemma connect_datagram st r : st_medium st = Knxnet_ip ->
  decode_msg CNetIP (0x06 :: 0x10 :: 0x02 :: 0x06 :: r) st = d_connect_res CNetIP r st.
Proof.
  intros Hm. unfold decode_msg. unfold mbind at 1, mget at 1. rewrite Hm.
  rewrite ip_header by (unfold is_octet; lia). reflexivity.
Qed.

Lemma ztake_cons {A} n (x : A) l : 0 < n -> ztake n (x :: l) = x :: ztake (n - 1) l.
Proof.
  intros H. rewrite !ztake_firstn. replace (Z.to_nat n) with (S (Z.to_nat (n - 1))) by lia. reflexivity.
Qed.
Lemma features_spec c st info plen hi lo service mf1 mf2 feature value rest :
  st_medium st = Usb_hid ->
  octets ([0x01; info; plen; 0x00; 0x08; hi; lo; 0x0F; service; mf1; mf2; feature; value] ++ rest) ->
  info mod 16 = 3 -> 10 <= plen -> 2 <= 256 * hi + lo ->
  decode_msg c ([0x01; info; plen; 0x00; 0x08; hi; lo; 0x0F; service; mf1; mf2; feature; value] ++ rest) st =
  (Ok (RList (feature_report service mf1 mf2 feature value)), st).
Proof.
  intros Hm O I L1 L2. unfold decode_msg. unfold mbind at 1, mget at 1. rewrite Hm. cbn [app] in *.
  rewrite !octets_cons in O. destruct O as (_ & _ & _ & _ & _ & O1 & O2 & _ & _ & O3 & O4 & _).
  unfold d_report_identifier, octect. unfold mbind at 1, mlift at 1. change (1 =? 1) with true. cbv iota.
  unfold d_packet_info, octect. unfold mbind at 1, mlift at 1. rewrite nibble_mod, I. change (3 =? 3) with true. cbv iota.
  unfold mbind at 1, mlift at 1. rewrite !(ztake_cons _ _ _) by lia.
  unfold d_protocol_version, octect. unfold mbind at 1, mlift at 1. change (0 =? 0) with true. cbv iota.
  unfold d_header_length, octect. unfold mbind at 1, mlift at 1. change (8 =? 8) with true. cbv iota.
  unfold d_body_length. unfold mbind at 1, mlift at 1. rewrite short_spec by assumption.
  rewrite !(ztake_cons (256 * hi + lo + 4)), !(ztake_cons (256 * hi + lo + 4 - 1)), !(ztake_cons (256 * hi + lo + 4 - 1 - 1)),
    !(ztake_cons (256 * hi + lo + 4 - 1 - 1 - 1)), !(ztake_cons (256 * hi + lo + 4 - 1 - 1 - 1 - 1)),
    !(ztake_cons (256 * hi + lo + 4 - 1 - 1 - 1 - 1 - 1)) by lia.
  match goal with |- context [value :: ?x] => generalize x; intros tail end.
  unfold d_protocol_id, octect. unfold mbind at 1, mlift at 1. change (15 =? 1) with false. change (15 =? 15) with true. cbv iota.
  unfold d_service_identifier, octect. unfold mbind at 1, mlift at 1.
  unfold feature_report. unfold mbind at 1.
  assert (F : d_feature_identifier (feature :: value :: tail) st = (Ok (RList (feature_report 2 0 0 feature value)), st)).
  { unfold d_feature_identifier, feature_report, octect. unfold mbind, mlift. cbn [andb orb].
    change (2 =? 2) with true. change (0 =? 0) with true. cbn [andb orb].
    destruct (feature =? 3); [destruct (value =? 0); [reflexivity|]; destruct (value =? 1); reflexivity|].
    destruct (feature =? 5); [|reflexivity].
    destruct (value =? 3) eqn:V3; [|destruct (value =? 1); [reflexivity|destruct (value =? 2); reflexivity]].
    apply Z.eqb_eq in V3. subst value. reflexivity. }
  assert (FR : feature_report 2 0 0 feature value = feature_report 4 0 0 feature value) by reflexivity.
  unfold feature_report in F.
  change (((2 =? 2) || (2 =? 4)) && (0 =? 0) && (0 =? 0)) with true in F. cbv iota in F.
  destruct (service =? 4) eqn:E4.
  - apply Z.eqb_eq in E4. subst service. change ((4 =? 2) || true) with true. cbn [andb].
    unfold mbind at 1, mlift at 1. rewrite short_spec by assumption. rewrite eqb_sum by assumption.
    destruct ((mf1 =? 0) && (mf2 =? 0)) eqn:E0.
    + unfold mbind at 1. rewrite F. unfold mret. assert (256 * mf1 + mf2 =? 2 = false) as -> by lia. reflexivity.
    + unfold mret at 1. destruct (256 * mf1 + mf2 =? 2) eqn:E2; [|reflexivity].
      unfold mbind, mlift. rewrite eqb_sum, E0 by assumption. reflexivity.
  - unfold mret at 1. rewrite orb_false_r. destruct (service =? 2) eqn:E2; [|reflexivity]. cbn [andb].
    unfold mbind, mlift. rewrite short_spec by assumption. rewrite eqb_sum by assumption.
    destruct ((mf1 =? 0) && (mf2 =? 0)); [exact F|reflexivity].
Qed.

(** ** PDU kinds *)
Lemma nsdu_never l : ld_nsdu l <> Some T_Connect_PDU /\ ld_nsdu l <> Some T_Disconnect_PDU.
Proof.
  unfold ld_nsdu.
  destruct ((ld_address_type l =? AT_individual) && (tp_control (ld_tpci l) =? 1) && (tp_numbered (ld_tpci l) =? 0)) eqn:C.
  - repeat match goal with |- context [if ?c then _ else _] => destruct c; [split; congruence|] end. split; congruence.
  - cbn [andb].
    repeat match goal with |- context [if ?c then _ else _] => destruct c; [split; congruence|] end. split; congruence.
Qed.
Lemma nsdu_set l p : 0 <= ld_tpci l ->
  ld_nsdu (ld_set_nsdu l p) =
  if ld_address_type l =? AT_group then
    match p with
    | T_Data_Broadcast_PDU | T_Data_Group_PDU | T_Data_Individual_PDU =>
        if ld_destination l =? 0 then Some T_Data_Broadcast_PDU else Some T_Data_Group_PDU
    | T_Data_Tag_Group_PDU => Some T_Data_Tag_Group_PDU
    | _ => None
    end
  else
    match p with
    | T_Data_Broadcast_PDU | T_Data_Group_PDU | T_Data_Individual_PDU => Some T_Data_Individual_PDU
    | T_Data_Tag_Group_PDU => None
    | T_Data_Connected_PDU | T_Connect_PDU | T_Disconnect_PDU => Some T_Data_Connected_PDU
    | T_ACK_PDU => Some T_ACK_PDU
    | T_NACK_PDU => Some T_NACK_PDU
    end.
Proof.
  intros H.
  assert (A : ld_address_type l = 0 \/ ld_address_type l = 1).
  { unfold ld_address_type. pose proof (get_range (ld_cntrl2 l) 7 1 ltac:(lia) ltac:(lia)). lia. }
  assert (E : forall q, ld_address_type (ld_with_tpci l q) = ld_address_type l) by reflexivity.
  unfold ld_nsdu, ld_set_nsdu. rewrite E. cbn [ld_tpci ld_destination ld_with_tpci].
  unfold tp_control, tp_numbered, tp_sequence, tp_ack_nack.
  destruct p; rewrite ?get_set_same, ?get_set_other by lia; rewrite ?get_set_same, ?get_set_other by lia;
    rewrite ?get_set_same, ?get_set_other by lia.
  all: destruct A as [-> | ->]; cbn -[get]; try reflexivity; try (destruct (ld_destination l =? 0); reflexivity).
Qed.
