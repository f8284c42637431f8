(** Proofs for C104. *)
From Coq Require Import String ZArith List Bool Lia.
From Verif Require Import Base Py Address Dpt Tables State Msg Encode Decode SpecTables SpecMsg SpecWire SpecDecode SpecMedia
  MsgProofs EncodeProofs DecodeProofs RoundProofs ClientProofs IpProofs Props_Encode Props_Decode.
Import ListNotations.
Open Scope Z_scope.

Lemma request_by_tables m st : link_request m = true -> exists r : res (list Z),
  forall st', st_assoc st' = st_assoc st -> st_gobj st' = st_gobj st ->
    fst (encode_msg m st') = (do c <- r; wire st' c).
Proof.
  intros L. destruct m; try discriminate L.
  - destruct (st_assoc st) as [s|] eqn:Ha.
    + exists (match sends_to s a with
              | Err e => Err e
              | Ok [] => Ok [0x11; 0; 0x96; 0xE0; 0; 0; 0]
              | Ok (x :: _) => Ok (group_frame data_req (a_val x) read_tpdu)
              end). intros st' A' G'.
      rewrite (read_frame _ s) by exact A'. destruct (sends_to s a) as [[|x r]|e]; reflexivity.
    + exists (Err AttributeError). intros st' A' G'. cbn [encode_msg]. unfold e_group_value_read.
      unfold mbind at 1 2 3, mmodify. rewrite group_no_assoc by exact A'. reflexivity.
  - destruct (st_gobj st) as [g|] eqn:Hg.
    + destruct (type_of g (asap_value a)) as [c|] eqn:Ht.
      * destruct (st_assoc st) as [s|] eqn:Ha.
        -- exists (match sends_to s a with
                   | Err e => Err e
                   | Ok [] => Ok ([0x11; 0; 0x96; 0xE0; 0; 0] ++ tl (write_tpdu c (d_value d)))
                   | Ok (x :: _) => Ok (group_frame data_req (a_val x) (write_tpdu c (d_value d)))
                   end). intros st' A' G'.
           rewrite (write_frame _ s g _ _ c) by assumption. destruct (sends_to s a) as [[|x r]|e]; reflexivity.
        -- exists (Err AttributeError). intros st' A' G'. cbn [encode_msg]. unfold e_group_value_write_req.
           unfold mbind at 1. rewrite (al_encode_spec a d _ c g) by assumption.
           rewrite group_no_assoc by exact A'. reflexivity.
      * exists (Err KeyError). intros st' A' G'.
        rewrite (proj1 (write_no_type st' g a d G' Ht)). reflexivity.
    + exists (Err AttributeError). intros st' A' G'. cbn [encode_msg]. unfold e_group_value_write_req, mbind.
      destruct (write_no_gobj a d st' G') as [s' ->]. reflexivity.
  - destruct (st_assoc st) as [s|] eqn:Ha.
    + eexists (Ok _). intros st' A' G'. rewrite (property_read_frame _ s) by exact A'. reflexivity.
    + exists (Err AttributeError). intros st' A' G'. cbn [encode_msg]. unfold e_property_value_read.
      unfold mbind at 1 2 3, mmodify. cbv zeta. rewrite (property_no_assoc _ _ 0x3D5) by (try exact A'; reflexivity). reflexivity.
  - destruct (stringtooctects data) as [bs|e] eqn:Hd.
    + destruct (st_assoc st) as [s|] eqn:Ha.
      * eexists (Ok _). intros st' A' G'. rewrite (property_write_frame _ s _ _ _ _ _ _ bs) by assumption. reflexivity.
      * exists (Err AttributeError). intros st' A' G'. cbn [encode_msg]. unfold e_property_value_write.
        unfold mbind at 1 2 3, mmodify. cbv zeta. unfold mbind at 1, mlift. rewrite Hd.
        rewrite (property_no_assoc _ _ 0x3D7) by (try exact A'; reflexivity). reflexivity.
    + exists (Err e). intros st' A' G'. rewrite (property_write_bad _ _ _ _ _ _ _ e Hd). reflexivity.
Qed.

Lemma octets_usb_report cemi : octets cemi -> octets (usb_report cemi).
Proof.
  intros O. unfold usb_report. cbn [app be]. rewrite !octets_cons. unfold is_octet.
  repeat match goal with |- _ /\ _ => split end; try lia; exact O.
Qed.
Lemma octets_tunnelling ch n cemi : octets cemi -> octets (tunnelling_request ch n cemi).
Proof.
  intros O. unfold tunnelling_request. cbn [app be]. rewrite !octets_cons. unfold is_octet.
  repeat match goal with |- _ /\ _ => split end; try lia; exact O.
Qed.
Lemma listen_usb cemi st : octets cemi -> zlen cemi <= 247 -> st_medium st = Usb_hid ->
  decode_msg CUsbHid (usb_report cemi) st = d_msg_code cemi st.
Proof.
  intros O Z H. unfold decode_msg. unfold mbind at 1, mget at 1. rewrite H.
  pose proof (usb_back cemi [] Z) as U. rewrite app_nil_r in U.
  exact (proj2 (usb_some _ cemi st (octets_usb_report _ O) U)).
Qed.
Lemma listen_ip ch n cemi st : octets cemi -> 0 <= n < 256 -> st_medium st = Knxnet_ip -> st_remote st = n ->
  decode_msg CNetIP (tunnelling_request ch n cemi) st =
  (behind_request n (fst (d_msg_code cemi st)), snd (d_msg_code cemi st)).
Proof.
  intros O N H R. unfold decode_msg. unfold mbind at 1, mget at 1. rewrite H.
  pose proof (tunnelled_back ch n cemi) as T. rewrite Z.mod_small in T by lia.
  rewrite (proj2 (tunnelled_some _ n cemi st (octets_tunnelling ch n _ O) T)).
  rewrite R, Z.eqb_refl. reflexivity.
Qed.

(** The two applications: same tables, and the one on KNXnet/IP connected. *)
Record paired (ch n : Z) (u i : state) : Prop := {
  p_mu : st_medium u = Usb_hid;
  p_mi : st_medium i = Knxnet_ip;
  p_a : st_assoc i = st_assoc u;
  p_g : st_gobj i = st_gobj u;
  p_sa : st_assoc u <> None;
  p_sg : st_gobj u <> None;
  p_ch : st_channel i = Some ch;
  p_n : st_remote i = n;
  p_oct : 0 <= n < 256
}.

Lemma media_same ts : forall ch n u i, Forall ordinary ts -> paired ch n u i -> over_ip ch n i ts = over_usb u ts.
Proof.
  induction ts as [|t ts IH]; intros ch n u i F P; [reflexivity|]. inversion F as [|t' ts' T F']; subst t' ts'.
  destruct P as [Mu Mi A G Sa Sg C N Oc]. destruct t as [m|cemi]; cbn [over_ip over_usb].
  - cbn [ordinary] in T. destruct (request_by_tables m u T) as [r R].
    pose proof (R u eq_refl eq_refl) as Ru. pose proof (R i A G) as Ri.
    pose proof (C20_preserved m u _ eq_refl) as (U1 & U2 & U3 & _).
    pose proof (C20_preserved m i _ eq_refl) as (I1 & I2 & I3 & _ & I5 & I6 & I7).
    assert (I7' : st_remote (snd (encode_msg m i)) = st_remote i) by (destruct m; try discriminate T; exact I7). clear I7.
    rewrite Ru, Ri. destruct r as [c|e]; cbn [rbind].
    + unfold wire. rewrite Mu, Mi, C. f_equal. apply IH; [exact F'|].
      set (b8 := nth 8 _ 0). 
      pose proof (C31_netip (tunnelling_ack ch b8 0) (snd (encode_msg m i)) (ack_octets _ _ _) ltac:(congruence)) as (S1 & S2 & _ & S4).
      destruct S1 as (S0 & SA & SG).
      constructor; try congruence.
      rewrite S4. unfold tunnelling_ack. cbn [channel_after ip_service app]. rewrite I6. exact C.
    + f_equal. apply IH; [exact F'|]. constructor; try congruence.
  - destruct T as [O Z]. rewrite listen_usb, (listen_ip ch n) by assumption. cbn [fst snd].
    assert (E : fst (d_msg_code cemi i) = fst (d_msg_code cemi u)) by (apply msg_code_tables; assumption).
    assert (Ku : st_medium (snd (d_msg_code cemi u)) = st_medium u /\ st_assoc (snd (d_msg_code cemi u)) = st_assoc u /\ st_gobj (snd (d_msg_code cemi u)) = st_gobj u).
    { pose proof (C31_usb CUsbHid (usb_report cemi) u Mu) as K. rewrite listen_usb in K by assumption. destruct K as ((K1 & K2 & K3) & _). auto. }
    pose proof (C31_netip (tunnelling_request ch n cemi) i (octets_tunnelling _ _ _ O) Mi) as K.
    cbv zeta in K. rewrite (listen_ip ch n) in K by assumption. cbn [snd] in K. destruct K as ((K1 & K2 & K3) & K4 & _ & K6).
    assert (K6' : st_channel (snd (d_msg_code cemi i)) = Some ch).
    { rewrite K6. unfold tunnelling_request. cbn [channel_after ip_service app]. exact C. }
    set (j := snd (d_msg_code cemi i)) in *. set (w := snd (d_msg_code cemi u)) in *. rewrite E.
    assert (Next : forall q, q = n -> paired ch ((n + 1) mod 256) w (snd (encode_msg (MTunnelingAck q 0) j)) /\
       fst (encode_msg (MTunnelingAck q 0) j) = Ok (tunnelling_ack ch n 0)).
    { intros q ->. pose proof (C20_preserved (MTunnelingAck n 0) j _ eq_refl) as (J1 & J2 & J3 & _ & _ & J6 & J7).
      rewrite K4, N, Z.eqb_refl, K6' in J7. split; [|].
      - destruct Ku as (V1 & V2 & V3). constructor; try congruence. lia.
      - rewrite ack_frame, K6', K4, N. reflexivity. }
    pose proof (msg_code_shape cemi u O) as Sh.
    destruct (fst (d_msg_code cemi u)) as [[l| |l]|e]; cbn [behind_request].
    + destruct (Next n eq_refl) as [P Q]. rewrite Q. f_equal. cbn [nth tunnelling_ack].
      rewrite Z.mod_small, Z.eqb_refl by lia. apply IH; assumption.
    + destruct (Next n eq_refl) as [P Q]. rewrite Q. f_equal. cbn [nth tunnelling_ack].
      rewrite Z.mod_small, Z.eqb_refl by lia. apply IH; assumption.
    + contradiction.
    + reflexivity.
Qed.
