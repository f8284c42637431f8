(** C21-C23: frames that come back. *)
From Coq Require Import String ZArith NArith List Bool Lia ZifyBool.
From Verif Require Import Py Base Msg Address Dpt Tables LData Inet State Encode Decode.
From Verif Require Import SpecMsg SpecTables SpecWire SpecDecode.
From Verif Require Import MsgProofs TablesProofs AssocProofs EncodeProofs DecodeProofs Props_Tables Props_Encode Props_Decode RoundProofs.
Import ListNotations.
Open Scope Z_scope.

(** A state that can send for ASAP [a]: tables built by a history, class [c] for
    [a], first address [x] of [a] a listed group address. *)
Definition sender (tb : address_table) l h (st : state) (s : assoc_table) (go : gobj_table) (a : asap) (c : dpt_class) (x : Z) : Prop :=
  built tb l h s /\ st_assoc st = Some s /\ st_gobj st = Some go /\ type_of go (asap_value a) = Some c /\
  (exists x0 rest, sends_to s a = Ok (x0 :: rest) /\ a_val x0 = x) /\
  0 < x < 65536 /\ In x (vals (at_addrs (as_table s))).
(** The first receiver's value has a textual form (C24 tells what happens
    otherwise). *)
Definition shows (n : Z) (l : list (asap * dpt_class)) : Prop :=
  match l with [] => True | p :: _ => undisplayable (snd p) (d_value (as_class (snd p) n)) = false end.

(** ** C21 *)

Theorem C21_roundtrip : forall tb l h st s go a c d x cl pad,
  sender tb l h st s go a c x -> st_medium st = Usb_hid -> octets pad ->
  shows (sent c (d_value d)) (receivers tb l h x go) ->
  exists report st1, encode_msg (MGroupValueWriteInd a d) st = (Ok report, st1) /\
    fst (decode_msg cl (report ++ pad) st1) =
    Ok (RList (map (fun p => MGroupValueWriteInd (fst p) (as_class (snd p) (sent c (d_value d))))
                   (receivers tb l h x go))) /\
    (exists p, In p (receivers tb l h x go) /\ asap_value (fst p) = asap_value a).
Proof.
  intros tb l h st s go a c d x cl pad (B & Ha & Hg & Hc & (x0 & rest & S & Ex) & X & L) M P Sh.
  pose proof (sends_balance tb l h s a x0 rest B S) as V. rewrite Ex in V.
  exists (usb_report (group_frame data_ind x (write_tpdu c (d_value d)))), (group_prep a 0x80 st).
  split; [rewrite (write_ind_frame st s go a d c Ha Hg Hc), S, Ex; reflexivity|].
  split.
  - destruct (write_tpdu_shape c (d_value d)) as (apci & data & Et & A & O & Zd & Bv).
    pose proof (group_round tb l h (group_prep a 0x80 st) s go cl 0 pad Ind 0x96 x apci data Write) as T.
    cbv zeta in T. unfold delivered in T. change (st_medium (group_prep a 0x80 st)) with (st_medium st) in T. rewrite M in T.
    rewrite <- Et in T. unfold group_frame. rewrite cemi_framed. rewrite T.
    + unfold reported. change (st_medium (group_prep a 0x80 st)) with (st_medium st). rewrite M.
      do 2 f_equal. unfold group_messages. apply map_ext. intros p. unfold group_message, as_class. do 2 f_equal.
      rewrite (raw_sent c (d_value d)) by assumption. reflexivity.
    + assumption.
    + assumption.
    + assumption.
    + left. assumption.
    + assumption.
    + unfold is_octet. lia.
    + assumption.
    + unfold is_octet. lia.
    + assumption.
    + assumption.
    + discriminate.
    + discriminate.
    + apply write_service. assumption.
    + assumption.
    + eauto.
    + unfold first_displayable. unfold shows in Sh. destruct (receivers tb l h x go) as [|p r]; [exact I|].
      rewrite <- Sh. rewrite (raw_sent c (d_value d)) by assumption. reflexivity.
  - rewrite type_of_dget in Hc. destruct (dget_In _ _ _ _ Hc) as (b & Eb & Ib).
    unfold asap_eqb in Eb. cbn [asap_value] in Eb. apply Z.eqb_eq in Eb.
    exists (b, c). split; [|exact Eb]. apply filter_In. split; [assumption|]. cbn [fst]. rewrite Eb. lia.
Qed.
Print Assumptions C21_roundtrip.

(** For a receiver of the sender's own class every field reads as it was sent
    (the fields are C43's layouts); for classes of a full octet or more the
    whole raw value is the same. *)
Theorem C21_same_class : forall c v,
  (forall name, bits_get (as_class c (sent c v)) name = bits_get (mkdpt c v) name) /\
  (wire_octets c <> 0%nat -> 0 <= v < 256 ^ value_octets c -> as_class c (sent c v) = mkdpt c v).
Proof.
  intros c v. split.
  - intros name. unfold as_class, sent, bits_get. cbn [d_class d_value].
    assert (G : forall o w, In (o, w) (map (fun p => (snd (fst p), snd p)) (layout c)) ->
      get (match wire_octets c with O => 128 + v mod 64 | S n => v mod 256 ^ Z.of_nat (S n) end mod 256 ^ value_octets c) o w = get v o w).
    { intros o w I. unfold value_octets. destruct c; cbn [wire_octets layout map fst snd In] in *;
        repeat (destruct I as [I|I]; [inversion I; subst; rewrite !get_arith by lia;
          cbn [Z.of_nat Pos.of_succ_nat Pos.succ]; repeat match goal with |- context [?a ^ ?b] => let r := eval vm_compute in (a ^ b) in change (a ^ b) with r end; lia|]); elim I. }
    destruct (find_field name (layout c)) as [[o w]|] eqn:E; [|reflexivity]. f_equal. apply G.
    revert E. clear. induction (layout c) as [|[[n o'] w'] r IH]; [discriminate|]. cbn.
    destruct (String.eqb n name); [intros E; inversion E; auto|auto].
  - intros N V. unfold as_class, sent, value_octets in *. destruct (wire_octets c) as [|n]; [congruence|].
    f_equal. rewrite Z.mod_mod by lia. apply Z.mod_small. assumption.
Qed.
Print Assumptions C21_same_class.

Example C21_example : let st := ex_st Usb_hid in let a := mkasap 3 None in
  sender ex_table [] ex_calls st ex_assoc ex_go a InfoClimaReport 0x0900 /\
  receivers ex_table [] ex_calls 0x0900 ex_go = [(mkasap 3 None, InfoClimaReport); (mkasap 1 None, Switch)] /\
  shows (sent InfoClimaReport 0x02000081) (receivers ex_table [] ex_calls 0x0900 ex_go) /\
  map (fun p => as_class (snd p) (sent InfoClimaReport 0x02000081)) (receivers ex_table [] ex_calls 0x0900 ex_go) =
  [mkdpt InfoClimaReport 0x02000081; mkdpt Switch 0x81].
Proof.
  cbv zeta. split; [|split; [reflexivity|split; reflexivity]].
  split; [exact ex_assoc_built|]. split; [reflexivity|]. split; [reflexivity|]. split; [reflexivity|].
  split; [eexists; eexists; split; vm_compute; reflexivity|]. split; [lia|]. vm_compute. auto.
Qed.

(** ** C22 *)

(** The interface and the state: USB, or KNXnet/IP with a counter in range. *)
Definition connected (st : state) : Prop :=
  st_medium st = Usb_hid \/ (st_medium st = Knxnet_ip /\ 0 <= st_remote st < 256).

Theorem C22_write : forall tb l h st s go a c d x cl ch pad f,
  sender tb l h st s go a c x -> connected st -> proper_class st cl -> octets pad -> f = 0 \/ f = 1 ->
  shows (sent c (d_value d)) (receivers tb l h x go) ->
  exists cemi st1, encode_msg (MGroupValueWriteReq a d) st = (wire st cemi, st1) /\
    fst (decode_msg cl (delivered st ch pad (confirmation f cemi)) st1) =
    Ok (reported st (map (fun p => MGroupValueWriteCon (fst p) (as_class (snd p) (sent c (d_value d))) f)
                         (receivers tb l h x go))).
Proof.
  intros tb l h st s go a c d x cl ch pad f (B & Ha & Hg & Hc & (x0 & rest & S & Ex) & X & L) M C P F Sh.
  pose proof (sends_balance tb l h s a x0 rest B S) as V. rewrite Ex in V.
  exists (group_frame data_req x (write_tpdu c (d_value d))), (group_prep a 0x80 st).
  split; [rewrite (write_frame st s go a d c Ha Hg Hc), S, Ex; reflexivity|].
  destruct (write_tpdu_shape c (d_value d)) as (apci & data & Et & A & O & Zd & Bv).
  pose proof (group_round tb l h (group_prep a 0x80 st) s go cl ch pad Con (0x96 + f) x apci data Write) as T.
  cbv zeta in T. rewrite <- Et in T. unfold group_frame. rewrite confirmation_framed.
  change (delivered st) with (delivered (group_prep a 0x80 st)). rewrite T.
  - change (reported (group_prep a 0x80 st)) with (reported st).
    do 2 f_equal. unfold group_messages. apply map_ext. intros p. unfold group_message, as_class. do 2 f_equal.
    + rewrite (raw_sent c (d_value d)) by assumption. reflexivity.
    + unfold status. cbn [t_c1]. lia.
  - assumption.
  - assumption.
  - assumption.
  - assumption.
  - assumption.
  - unfold is_octet. lia.
  - assumption.
  - unfold is_octet. lia.
  - assumption.
  - assumption.
  - change (st_medium (group_prep a 0x80 st)) with (st_medium st). change (st_remote (group_prep a 0x80 st)) with (st_remote st).
    destruct M as [M|[M R]]; rewrite M; [discriminate|auto].
  - change (st_medium (group_prep a 0x80 st)) with (st_medium st). destruct M as [M|[M R]]; rewrite M; discriminate.
  - apply write_service. assumption.
  - assumption.
  - eauto.
  - unfold first_displayable. unfold shows in Sh. destruct (receivers tb l h x go) as [|p r]; [exact I|].
    rewrite <- Sh. rewrite (raw_sent c (d_value d)) by assumption. reflexivity.
Qed.
Print Assumptions C22_write.

Theorem C22_read : forall tb l h st s go a c x cl ch pad f,
  sender tb l h st s go a c x -> connected st -> proper_class st cl -> octets pad -> f = 0 \/ f = 1 ->
  exists cemi st1, encode_msg (MGroupValueReadReq a) st = (wire st cemi, st1) /\
    fst (decode_msg cl (delivered st ch pad (confirmation f cemi)) st1) =
    Ok (reported st (map (fun p => MGroupValueReadCon (fst p) (dpt_new (snd p)) f) (receivers tb l h x go))).
Proof.
  intros tb l h st s go a c x cl ch pad f (B & Ha & Hg & Hc & (x0 & rest & S & Ex) & X & L) M C P F.
  pose proof (sends_balance tb l h s a x0 rest B S) as V. rewrite Ex in V.
  exists (group_frame data_req x read_tpdu), (group_prep a 0 st).
  split; [rewrite (read_frame st s a Ha), S, Ex; reflexivity|].
  pose proof (group_round tb l h (group_prep a 0 st) s go cl ch pad Con (0x96 + f) x 0 [] Read) as T.
  cbv zeta in T. unfold group_frame. rewrite confirmation_framed.
  change (delivered st) with (delivered (group_prep a 0 st)). unfold read_tpdu. rewrite T.
  - change (reported (group_prep a 0 st)) with (reported st).
    do 2 f_equal. unfold group_messages. apply map_ext. intros p. unfold group_message, dpt_new. do 2 f_equal.
    unfold status. cbn [t_c1]. lia.
  - assumption.
  - assumption.
  - assumption.
  - assumption.
  - assumption.
  - unfold is_octet. lia.
  - assumption.
  - unfold is_octet. lia.
  - constructor.
  - cbn. lia.
  - change (st_medium (group_prep a 0 st)) with (st_medium st). change (st_remote (group_prep a 0 st)) with (st_remote st).
    destruct M as [M|[M R]]; rewrite M; [discriminate|auto].
  - change (st_medium (group_prep a 0 st)) with (st_medium st). destruct M as [M|[M R]]; rewrite M; discriminate.
  - reflexivity.
  - assumption.
  - eauto.
  - unfold first_displayable. destruct (receivers tb l h x go) as [|p r]; [exact I|].
    unfold raw, payload. cbn [t_data t_apci]. destruct (snd p); reflexivity.
Qed.
Print Assumptions C22_read.

Example C22_example : connected (ex_st Knxnet_ip) /\ proper_class (ex_st Knxnet_ip) CNetIP /\
  sender ex_table [] ex_calls (ex_st Knxnet_ip) ex_assoc ex_go (mkasap 1 None) Switch 0x0900 /\
  exists cemi, fst (encode_msg (MGroupValueWriteReq (mkasap 1 None) (mkdpt Switch 1)) (ex_st Knxnet_ip)) = wire (ex_st Knxnet_ip) cemi /\
  confirmation 1 cemi = [0x2E; 0x00; 0x97; 0xE0; 0x00; 0x00; 0x09; 0x00; 0x01; 0x00; 0x81] /\
  fst (decode_msg CNetIP (delivered (ex_st Knxnet_ip) 99 [] (confirmation 1 cemi)) (ex_st Knxnet_ip)) =
  Ok (RList [MTunnelingReq 9 0;
             MGroupValueWriteCon (mkasap 3 None) (mkdpt InfoClimaReport 0x81) 1;
             MGroupValueWriteCon (mkasap 1 None) (mkdpt Switch 0x81) 1]).
Proof.
  split; [right; split; [reflexivity|cbn; lia]|]. split; [right; reflexivity|].
  split.
  - split; [exact ex_assoc_built|]. split; [reflexivity|]. split; [reflexivity|]. split; [reflexivity|].
    split; [eexists; eexists; split; vm_compute; reflexivity|]. split; [lia|]. vm_compute. auto.
  - exists [0x11; 0x00; 0x96; 0xE0; 0x00; 0x00; 0x09; 0x00; 0x01; 0x00; 0x81].
    split; [vm_compute; reflexivity|]. split; vm_compute; reflexivity.
Qed.

(** ** C23 *)

(** Reported unless the individual address is also listed as a group address. *)
Definition unless_listed (s : assoc_table) (m : message) : list message :=
  if existsb (Z.eqb (a_val (at_ia (as_table s)))) (vals (at_addrs (as_table s))) then [] else [m].

Theorem C23_read : forall st s go a oi pid ne si cl ch pad f,
  st_assoc st = Some s -> st_gobj st = Some go -> 0 <= a_val (at_ia (as_table s)) < 65536 ->
  connected st -> proper_class st cl -> octets pad -> f = 0 \/ f = 1 ->
  exists cemi st1, encode_msg (MPropertyValueReadReq a oi pid ne si) st = (wire st cemi, st1) /\
    fst (decode_msg cl (delivered st ch pad (confirmation f cemi)) st1) =
    Ok (reported st (unless_listed s
         (MPropertyValueReadCon (mkasap 0 None) (oi mod 256) (pid mod 256) (ne mod 16) (si mod 4096) f))).
Proof.
  intros st s go a oi pid ne si cl ch pad f Ha Hg D M C P F.
  exists (individual_frame data_req (a_val (at_ia (as_table s))) (property_read_tpdu oi pid ne si)), (property_prep a 0x3D5 st).
  split; [apply property_read_frame; assumption|].
  unfold individual_frame. rewrite confirmation_framed.
  change (delivered st) with (delivered (property_prep a 0x3D5 st)).
  change (reported st) with (reported (property_prep a 0x3D5 st)).
  change (property_read_tpdu oi pid ne si) with (3 :: 0xD5 :: property_word oi pid ne si).
  rewrite <- (app_nil_r (property_word oi pid ne si)).
  destruct (property_round (property_prep a 0x3D5 st) s go cl ch pad f (a_val (at_ia (as_table s))) 0xD5 oi pid ne si [] Read) as [-> _];
    try assumption; try reflexivity; try constructor; try lia.
  - unfold passes. change (st_medium (property_prep a 0x3D5 st)) with (st_medium st).
    change (st_remote (property_prep a 0x3D5 st)) with (st_remote st).
    destruct M as [M|[M R]]; rewrite M; [|assumption]. rewrite zlen_framed, app_nil_r. cbn. lia.
  - rewrite property_fields. cbv zeta. replace ((0x96 + f) mod 2) with f by lia. reflexivity.
Qed.
Print Assumptions C23_read.

Theorem C23_write : forall st s go a oi pid ne si text data cl ch pad f,
  st_assoc st = Some s -> st_gobj st = Some go -> 0 <= a_val (at_ia (as_table s)) < 65536 ->
  connected st -> proper_class st cl -> octets pad -> f = 0 \/ f = 1 ->
  stringtooctects text = Ok data -> (st_medium st = Usb_hid -> zlen data <= 232) ->
  exists cemi st1, encode_msg (MPropertyValueWriteReq a oi pid ne si text) st = (wire st cemi, st1) /\
    fst (decode_msg cl (delivered st ch pad (confirmation f cemi)) st1) =
    Ok (reported st (unless_listed s
         (MPropertyValueWriteCon (mkasap 0 None) (oi mod 256) (pid mod 256) (ne mod 16) (si mod 4096) data f))).
Proof.
  intros st s go a oi pid ne si text data cl ch pad f Ha Hg D M C P F Hd Z.
  exists (individual_frame data_req (a_val (at_ia (as_table s))) (property_write_tpdu oi pid ne si data)), (property_prep a 0x3D7 st).
  split; [apply property_write_frame; assumption|].
  unfold individual_frame. rewrite confirmation_framed.
  change (delivered st) with (delivered (property_prep a 0x3D7 st)).
  change (reported st) with (reported (property_prep a 0x3D7 st)).
  change (property_write_tpdu oi pid ne si data) with (3 :: 0xD7 :: property_word oi pid ne si ++ data).
  destruct (property_round (property_prep a 0x3D7 st) s go cl ch pad f (a_val (at_ia (as_table s))) 0xD7 oi pid ne si data Write) as [-> _];
    try assumption; try reflexivity; try (unfold is_octet; lia); try (apply (stringtooctects_octets text); assumption).
  - unfold passes. change (st_medium (property_prep a 0x3D7 st)) with (st_medium st).
    change (st_remote (property_prep a 0x3D7 st)) with (st_remote st).
    destruct M as [M|[M R]]; rewrite M; [|assumption]. specialize (Z M).
    rewrite zlen_framed, !zlen_cons, zlen_app. change (zlen (property_word oi pid ne si)) with 4. lia.
  - rewrite property_fields. cbv zeta. replace ((0x96 + f) mod 2) with f by lia. reflexivity.
Qed.
Print Assumptions C23_write.

(** The individual address 1001h is not listed in the example's table; with
    [ex_listed] it is, and the confirmation is dropped. *)
Definition ex_listed : address_table := at_new ex_ia [mkaddr 2 0x1001] 4.
Example C23_example : connected (ex_st Usb_hid) /\ 0 <= a_val (at_ia (as_table ex_assoc)) < 65536 /\
  stringtooctects "0A1b" = Ok [0x0A; 0x1B] /\
  unless_listed ex_assoc (MPropertyValueReadCon (mkasap 0 None) 1 2 3 4 0) = [MPropertyValueReadCon (mkasap 0 None) 1 2 3 4 0] /\
  exists s, assoc_new ex_listed [] = Ok s /\ unless_listed s (MPropertyValueReadCon (mkasap 0 None) 1 2 3 4 0) = [].
Proof.
  split; [left; reflexivity|]. split; [vm_compute; split; [discriminate|reflexivity]|].
  split; [reflexivity|]. split; [reflexivity|]. eexists. split; vm_compute; reflexivity.
Qed.
