(** Lemmas for C21-C23: what was encoded, decoded again. *)
From Coq Require Import String ZArith NArith List Bool Lia ZifyBool.
From Verif Require Import Py Base Msg Address Dpt Tables LData Inet State Encode Decode.
From Verif Require Import SpecMsg SpecTables SpecWire SpecDecode.
From Verif Require Import MsgProofs TablesProofs AssocProofs EncodeProofs DecodeProofs Props_Decode.
Import ListNotations.
Open Scope Z_scope.

Lemma be_value n v : big_endian (be n v) = v mod 256 ^ Z.of_nat n.
Proof.
  revert v. induction n as [|n IH]; intros v; [cbn; rewrite Z.mod_1_r; reflexivity|].
  cbn [be]. rewrite big_endian_app, IH. change (zlen [v mod 256]) with 1. change (256 ^ 1) with 256.
  unfold big_endian. cbn [fold_left]. rewrite Nat2Z.inj_succ, Z.pow_succ_r by lia.
  rewrite Z.rem_mul_r by lia. lia.
Qed.
Lemma be_2 v : be 2 v = [v / 256 mod 256; v mod 256].
Proof. reflexivity. Qed.

(** A frame with control octet 1 and message code left open. *)
Definition framed (code c1 c2 dest : Z) (tpdu : list Z) : list Z :=
  [code; 0x00; c1; c2; 0x00; 0x00] ++ be 2 dest ++ [(zlen tpdu - 1) mod 256] ++ tpdu.
Lemma cemi_framed code c2 d tpdu : cemi_frame code c2 d tpdu = framed code 0x96 c2 d tpdu.
Proof. reflexivity. Qed.
Lemma confirmation_framed code c2 d tpdu f :
  confirmation f (cemi_frame code c2 d tpdu) = framed data_con (0x96 + f) c2 d tpdu.
Proof. reflexivity. Qed.
Lemma framed_telegram k c1 c2 d tpci apci data : 0 <= d < 65536 ->
  cemi_telegram (framed (match k with Ind => data_ind | Con => data_con end) c1 c2 d (tpci :: apci :: data)) =
  Some (k, mktg c1 c2 0 d ((zlen (tpci :: apci :: data) - 1) mod 256) tpci apci data).
Proof.
  intros H. unfold framed. rewrite be_2. cbn [app]. unfold cemi_telegram. rewrite zdrop_0. cbv zeta.
  destruct k; cbn [Z.eqb Pos.eqb]; (replace (256 * (d / 256 mod 256) + d mod 256) with d by lia); reflexivity.
Qed.
Lemma framed_octets code c1 c2 d tpdu : is_octet code -> is_octet c1 -> is_octet c2 -> octets tpdu ->
  octets (framed code c1 c2 d tpdu).
Proof.
  intros. unfold framed. rewrite !octets_app. repeat split.
  - repeat (apply octets_cons; split; [unfold is_octet in *; lia|]). constructor.
  - apply be_octets.
  - apply octets_cons. split; [unfold is_octet; lia|constructor].
  - assumption.
Qed.
Lemma zlen_framed code c1 c2 d tpdu : zlen (framed code c1 c2 d tpdu) = 9 + zlen tpdu.
Proof. unfold framed. rewrite !zlen_app, zlen_be, !zlen_cons, zlen_nil. lia. Qed.

Lemma usb_back cemi pad : zlen cemi <= 247 -> usb_cemi (usb_report cemi ++ pad) = Some cemi.
Proof.
  intros H. pose proof (zlen_nonneg cemi). unfold usb_report. rewrite be_2. cbn [app].
  unfold usb_cemi. cbn [Z.eqb Pos.eqb andb]. change (0x13 mod 16 =? 3) with true. cbn [andb].
  replace ((8 + zlen cemi) mod 256) with (8 + zlen cemi) by lia.
  rewrite (ztake_app_exact (0 :: 8 :: zlen cemi / 256 mod 256 :: zlen cemi mod 256 :: 1 :: 3 :: 0 :: 0 :: cemi) pad)
    by (rewrite !zlen_cons; lia).
  cbn [Z.eqb Pos.eqb andb]. rewrite ztake_ge by (rewrite !zlen_cons; lia).
  reflexivity.
Qed.
Lemma tunnelled_back ch n cemi : tunnelled (tunnelling_request ch n cemi) = Some (n mod 256, cemi).
Proof. unfold tunnelling_request. rewrite be_2. reflexivity. Qed.

(** The hypotheses under which a frame gets through: a medium with framing, a
    counter in range, room in the length octet of a report. *)
Definition passes (st : state) (cemi : list Z) : Prop :=
  match st_medium st with
  | Usb_hid => zlen cemi <= 247
  | Knxnet_ip => 0 <= st_remote st < 256
  | Tp => False
  end.
Lemma delivered_on_bus st ch pad cemi : passes st cemi -> on_bus st (delivered st ch pad cemi) = cemi_telegram cemi.
Proof.
  unfold passes, on_bus, delivered. destruct (st_medium st); intros H.
  - elim H.
  - rewrite usb_back by assumption. reflexivity.
  - rewrite tunnelled_back. replace (st_remote st mod 256 =? st_remote st) with true by lia. reflexivity.
Qed.
Lemma delivered_octets st ch pad cemi : octets pad -> octets cemi -> octets (delivered st ch pad cemi).
Proof.
  intros P C. unfold delivered.
  assert (octets (usb_report cemi ++ pad)).
  { unfold usb_report. rewrite !octets_app. repeat split; try assumption; try apply be_octets;
      repeat (apply octets_cons; split; [unfold is_octet; lia|]); constructor. }
  destruct (st_medium st); try assumption.
  unfold tunnelling_request. rewrite !octets_app. repeat split; try assumption; try apply be_octets;
    repeat (apply octets_cons; split; [unfold is_octet; lia|]); constructor.
Qed.

(** The first address an ASAP sends to is associated with it. *)
Lemma sends_balance tb l h s a x rest : built tb l h s -> sends_to s a = Ok (x :: rest) ->
  0 < balance tb l h (asap_value a) (a_val x).
Proof.
  intros B S. rewrite sends_to_targets in S. destruct (dget asap_eqb a (as_addresses s)) as [L|] eqn:E; [|discriminate].
  destruct (targets_known _ _ (targets_ok_known _ _ _ S)) as (L' & H1 & H2). rewrite S in H1. inversion H1; subst L'.
  destruct (built_counts _ _ _ _ B) as [_ C]. rewrite <- C. apply occ_In.
  rewrite (dget_entry _ _ _ E). rewrite <- H2. left. reflexivity.
Qed.

Lemma write_tpdu_shape c v : exists apci data, write_tpdu c v = 0 :: apci :: data /\ 0x80 <= apci <= 0xBF /\ octets data /\
  zlen data <= 4 /\ big_endian (match data with [] => [apci] | _ => data end) = sent c v.
Proof.
  unfold write_tpdu, sent. destruct (wire_octets c) as [|n] eqn:E.
  - exists (128 + v mod 64), []. split; [reflexivity|]. split; [lia|]. split; [constructor|]. split; [cbn; lia|].
    unfold big_endian. cbn [fold_left]. lia.
  - exists 0x80, (be (S n) v). split; [reflexivity|]. split; [lia|]. split; [apply be_octets|].
    assert (S n <= 4)%nat by (destruct c; inversion E; lia).
    split; [rewrite zlen_be; lia|]. rewrite <- be_value.
    destruct (be (S n) v) eqn:F; [|reflexivity]. apply (f_equal zlen) in F. rewrite zlen_be, zlen_nil in F. lia.
Qed.

Lemma raw_sent c v r c1 c2 src d len tpci apci data :
  big_endian (match data with [] => [apci] | _ => data end) = sent c v ->
  raw r (mktg c1 c2 src d len tpci apci data) = sent c v mod 256 ^ value_octets r.
Proof. intros <-. unfold raw, payload. cbn [t_data t_apci]. destruct data; reflexivity. Qed.

Lemma write_service c1 c2 src d len apci data : 0x80 <= apci <= 0xBF ->
  group_service (mktg c1 c2 src d len 0 apci data) = Some Write.
Proof.
  intros A. unfold group_service. assert (apci10 (mktg c1 c2 src d len 0 apci data) = apci) as -> by reflexivity.
  destruct (apci =? 0) eqn:E0; [lia|]. destruct ((0x40 <=? apci) && (apci <=? 0x7F)) eqn:E1; [lia|].
  destruct ((0x80 <=? apci) && (apci <=? 0xBF)) eqn:E2; [reflexivity|lia].
Qed.

(** Decoding a delivered group write or read frame. *)
Lemma group_round tb l h st s go cl ch pad k c1 d apci data svc :
  built tb l h s -> st_assoc st = Some s -> st_gobj st = Some go -> proper_class st cl -> octets pad ->
  is_octet c1 -> 0 < d < 65536 -> is_octet apci -> octets data -> zlen data <= 4 ->
  (st_medium st = Knxnet_ip -> 0 <= st_remote st < 256) -> st_medium st <> Tp ->
  let t := mktg c1 0xE0 0 d ((zlen (0 :: apci :: data) - 1) mod 256) 0 apci data in
  group_service t = Some svc ->
  In d (vals (at_addrs (as_table s))) -> (exists v, 0 < balance tb l h v d) ->
  first_displayable t (receivers tb l h d go) ->
  fst (decode_msg cl (delivered st ch pad
     (framed (match k with Ind => data_ind | Con => data_con end) c1 0xE0 d (0 :: apci :: data))) st) =
  Ok (reported st (group_messages k svc t (receivers tb l h d go))).
Proof.
  intros B Ha Hg C P O1 D O2 O3 Z R N t S L V F.
  apply (group_decode_listed tb l h st s go); try assumption.
  - repeat split; try assumption.
    + apply delivered_octets; [assumption|]. apply framed_octets; try assumption;
        try (destruct k; unfold is_octet, data_ind, data_con; lia); try (unfold is_octet; lia).
      apply octets_cons. split; [unfold is_octet; lia|]. apply octets_cons. auto.
    + rewrite delivered_on_bus.
      * rewrite framed_telegram by lia. reflexivity.
      * unfold passes. destruct (st_medium st); [congruence|rewrite zlen_framed, !zlen_cons; lia|auto].
  - repeat split. cbn. lia.
Qed.

Lemma stringtooctects_octets text data : stringtooctects text = Ok data -> octets data.
Proof.
  unfold stringtooctects. destruct (hexvals (evens _)) as [hs|]; [|discriminate].
  destruct (hexvals (odds _)) as [ls|]; [|discriminate]. cbn [rbind]. intros E. inversion E. clear.
  revert ls. induction hs as [|x hs IH]; intros ls; [constructor|]. destruct ls as [|y ls]; [constructor|].
  cbn [zipmap]. apply octets_cons. split; [|apply IH]. rewrite octect_of_nibbles_arith. unfold is_octet. lia.
Qed.

Lemma property_word_shape oi pid ne si : length (property_word oi pid ne si) = 4%nat /\ octets (property_word oi pid ne si).
Proof.
  split; [reflexivity|]. unfold property_word. rewrite !octets_app. repeat split; apply be_octets.
Qed.
Lemma property_word_fields oi pid ne si : let w := big_endian (property_word oi pid ne si) in
  w / 16777216 = oi mod 256 /\ w / 65536 mod 256 = pid mod 256 /\ w / 4096 mod 16 = ne mod 16 /\ w mod 4096 = si mod 4096.
Proof.
  unfold property_word. rewrite !big_endian_app, !be_value, !zlen_be, zlen_app, !zlen_be.
  change (Z.of_nat 1 + Z.of_nat 2) with 3. change (Z.of_nat 2) with 2. change (Z.of_nat 1) with 1.
  change (256 ^ 3) with 16777216. change (256 ^ 2) with 65536. change (256 ^ 1) with 256. cbv zeta. lia.
Qed.

Lemma property_round st s go cl ch pad f d apci oi pid ne si data svc :
  st_assoc st = Some s -> st_gobj st = Some go -> proper_class st cl -> octets pad -> octets data ->
  f = 0 \/ f = 1 -> is_octet apci -> d = a_val (at_ia (as_table s)) -> 0 <= d < 65536 ->
  passes st (framed data_con (0x96 + f) 0x60 d (3 :: apci :: property_word oi pid ne si ++ data)) ->
  let t := mktg (0x96 + f) 0x60 0 d ((zlen (3 :: apci :: property_word oi pid ne si ++ data) - 1) mod 256) 3 apci
                (property_word oi pid ne si ++ data) in
  property_service t = Some svc ->
  fst (decode_msg cl (delivered st ch pad
     (framed data_con (0x96 + f) 0x60 d (3 :: apci :: property_word oi pid ne si ++ data))) st) =
  Ok (reported st (if existsb (Z.eqb d) (vals (at_addrs (as_table s))) then [] else [property_message Con svc t])) /\
  status t = f.
Proof.
  intros Ha Hg C P O F Oa Ed D Ps t S.
  destruct (property_word_shape oi pid ne si) as [W1 W2].
  assert (R : received st s go cl (delivered st ch pad
     (framed data_con (0x96 + f) 0x60 d (3 :: apci :: property_word oi pid ne si ++ data))) Con t).
  { repeat split; try assumption.
    - apply delivered_octets; [assumption|]. apply framed_octets; try (unfold is_octet, data_con; lia).
      apply octets_cons. split; [unfold is_octet; lia|]. apply octets_cons. split; [assumption|].
      apply octets_app. auto.
    - rewrite delivered_on_bus by assumption. apply (framed_telegram Con). assumption. }
  split; [|unfold status, t; cbn [t_c1]; lia].
  destruct (C32_accepted _ _ _ _ _ _ _ R eq_refl) as [A1 A2].
  assert (Ex : existsb (Z.eqb d) (vals (at_addrs (as_table s))) = true <-> In d (vals (at_addrs (as_table s)))).
  { rewrite existsb_exists. split; [intros (x & I & E); apply Z.eqb_eq in E; subst; assumption|].
    intros I. exists d. split; [assumption|apply Z.eqb_refl]. }
  destruct (existsb (Z.eqb d) (vals (at_addrs (as_table s)))).
  - apply A2. intros (_ & _ & _ & N). apply N, Ex. reflexivity.
  - apply A1; [|assumption|].
    + split; [reflexivity|]. split; [reflexivity|]. split; [exact Ed|]. intros I. apply Ex in I. discriminate.
    + unfold t. cbn [t_data]. rewrite zlen_app. unfold zlen at 1. rewrite W1. pose proof (zlen_nonneg data). lia.
Qed.
Lemma property_fields k svc c1 c2 src d len tpci apci oi pid ne si data :
  property_message k svc (mktg c1 c2 src d len tpci apci (property_word oi pid ne si ++ data)) =
  let a := mkasap 0 None in
  let oi' := oi mod 256 in let pid' := pid mod 256 in let ne' := ne mod 16 in let si' := si mod 4096 in
  match k, svc with
  | Ind, Read => MPropertyValueReadInd a oi' pid' ne' si'
  | Ind, Response => MPropertyValueResponseInd a oi' pid' ne' si' data
  | Ind, Write => MPropertyValueWriteInd a oi' pid' ne' si' data
  | Con, Read => MPropertyValueReadCon a oi' pid' ne' si' (c1 mod 2)
  | Con, Response => MPropertyValueResponseCon a oi' pid' ne' si' data (c1 mod 2)
  | Con, Write => MPropertyValueWriteCon a oi' pid' ne' si' data (c1 mod 2)
  end.
Proof.
  unfold property_message. cbn [t_data].
  replace (firstn 4 (property_word oi pid ne si ++ data)) with (property_word oi pid ne si) by reflexivity.
  replace (skipn 4 (property_word oi pid ne si ++ data)) with data by reflexivity.
  destruct (property_word_fields oi pid ne si) as (-> & -> & -> & ->). reflexivity.
Qed.
