(** C90: from a tunnelling client over the bus to a USB client. *)
From Coq Require Import String Ascii ZArith List Bool Lia ZifyBool.
From Verif Require Import Py Base Msg Address Dpt Tables LData Inet State Encode Decode Client ClientTime ClientMain ClientStream Daemon.
From Verif Require Import SpecMsg SpecTables SpecWire SpecDecode SpecClient SpecSystem SpecAcross SpecTime SpecMain SpecDaemon SpecStream SpecWhole.
From Verif Require Import MsgProofs IpProofs OctetsProofs RoundProofs EncodeProofs DecodeProofs ClientProofs DeliveryProofs SystemProofs AcrossProofs TimeProofs StreamProofs.
From Verif Require Import Props_Tables Props_Encode Props_Decode Props_Client Props_System Props_Across Props_Time Props_Main Props_Daemon Props_Stream.
Import ListNotations.
Open Scope Z_scope.

Lemma frame_said s0 s1 go1 m w f : st_medium s0 = Knxnet_ip -> st_assoc s0 = Some s1 -> st_gobj s0 = Some go1 -> said s1 go1 m = Some w ->
  frame_of s0 m f -> f = said_frame s1 go1 m.
Proof.
  intros M A G Sd (s & b & n & (Ms & As & Gs) & E & T). rewrite (said_encode s s1 go1 m w) in E by congruence. unfold wire in E.
  rewrite Ms, M in E. destruct (st_channel s) as [ch|]; [|discriminate E].
  assert (b = tunnelling_request ch (st_local s) (said_frame s1 go1 m)) as -> by congruence. rewrite request_tunnelled in T. congruence.
Qed.
Lemma picked_heard st2 tb l h s2 go2 s1 go1 m w data : st_medium st2 = Usb_hid -> built tb l h s2 -> st_assoc st2 = Some s2 -> st_gobj st2 = Some go2 ->
  said s1 go1 m = Some w -> shown tb l h s2 go2 w -> picked_up (said_frame s1 go1 m) data -> octets data -> zlen data <= 56 ->
  packet_result st2 data = Ok (RList (heard tb l h s2 go2 w)).
Proof.
  intros M B A G Sd [Au Sh] (ind & pad & C & ->) O L. destruct (said_says s1 go1 m w ind Sd (proj1 Au) C) as (Oi & t & Et & Sy).
  assert (Op : octets pad) by (apply octets_app in O; apply O).
  assert (Lf : zlen (usb_report ind) = 11 + zlen ind) by (unfold usb_report; rewrite !zlen_app; cbn; lia).
  assert (Li : zlen ind <= 247) by (rewrite zlen_app, Lf in L; pose proof (zlen_nonneg pad); lia).
  assert (D : delivered st2 0 pad ind = usb_report ind ++ pad) by (unfold delivered; rewrite M; reflexivity).
  assert (E : fst (decode_msg CPlain (usb_report ind ++ pad) st2) = Ok (reported st2 (heard tb l h s2 go2 w))).
  { rewrite <- D. apply (says_heard tb l h st2 s2 go2 CPlain _ t w); try assumption. split; [exact A|]. split; [exact G|].
    split; [apply delivered_octets; assumption|]. split; [left; exact M|]. rewrite delivered_on_bus; [exact Et|unfold passes; rewrite M; exact Li]. }
  unfold packet_result. rewrite E. unfold reported. rewrite M. rewrite Sh. reflexivity.
Qed.
(** A tunnelling client sends its messages over a network that loses nothing and
    needs less than 1.5 s per datagram; a USB interface on the same bus picks the
    frames up; its daemon hands them to a client over TCP.  When the tunnelling
    client has stopped its loop and everything has arrived and been looked at,
    the USB client has reported every message, once and in order, with its own
    group objects. *)
Theorem C90_heard : forall ip c0 msgs es0 ch frame d t0 hs s1 go1 scan packet ds0 fd ds1 st2 msgs2 es tb l h s2 go2 n,
  linked ip c0 msgs es0 ch -> sendable frame -> st_local (c_state (after c0 es0)) = 0 -> 2 * d < 3000 -> writer_sent (trace c0 es0) = [] ->
  st_assoc (c_state c0) = Some s1 -> st_gobj (c_state c0) = Some go1 ->
  timely d frame (ti_start (after c0 es0) ch t0) hs ->
  let first := ti_sys (ti_run frame (ti_start (after c0 es0) ch t0) hs) in
  c_writer (sy_client first) = WStopped ->
  c_scanner scan -> octets packet -> zlen packet = 56 ->
  possible [] (ds0 ++ DAccept fd :: ds1) -> zlen (registered ds0) < 64 -> Forall (fun e => leaves e <> Some fd) ds1 ->
  Forall2 picked_up (gw_bus (sy_gw first)) (packets ds1) ->
  st_medium st2 = Usb_hid -> Forall (fun m => is_ack_message m = false) msgs2 ->
  built tb l h s2 -> st_assoc st2 = Some s2 -> st_gobj st2 = Some go2 ->
  Forall (fun m => exists w, said s1 go1 m = Some w /\ shown tb l h s2 go2 w) msgs ->
  open_still es -> bytes_in es = text_to fd (concat (snd (daemon_run scan (dafter scan packet (ds0 ++ [DAccept fd])) ds1))) ->
  (length msgs < n)%nat ->
  usb_reads (snd (sd_run (sd_new st2 msgs2) (es ++ repeat SvRead n))) = map (fun m => Ok (RList (to_other s1 go1 tb l h s2 go2 m))) msgs.
Proof.
  intros ip c0 msgs es0 ch frame d t0 hs s1 go1 scan packet ds0 fd ds1 st2 msgs2 es tb l h s2 go2 n
    L Mf El Hd Ws A1 G1 Ti first St CS O Lp P R F Pk M2 N2 B A2 G2 Al Op E Ln.
  assert (Lk : Forall (fun m => link_request m = true) msgs).
  { eapply Forall_impl; [|exact Al]. intros m (w & Sd & _). destruct m; try discriminate Sd; reflexivity. }
  pose proof (C87_messages ip c0 msgs es0 ch frame d t0 hs L Mf El Hd Lk Ws Ti St) as Fb. fold first in Fb.
  assert (M1 : st_medium (c_state c0) = Knxnet_ip).
  { destruct L as ((port & s & -> & Q) & _). apply Q. }
  assert (Od : Forall (fun x => octets x /\ zlen x <= 56) (packets ds1)) by (exact (packets_octets _ _ _ _ P)).
  assert (X : map (packet_result st2) (packets ds1) = map (fun m => Ok (RList (to_other s1 go1 tb l h s2 go2 m))) msgs).
  { clear -Fb Pk Al M1 M2 A1 G1 A2 G2 B Od. revert Pk Od. generalize (packets ds1) as ps. induction Fb as [|m f ms fs H Fb IH]; intros ps Pk Od.
    - inversion Pk. reflexivity.
    - inversion Pk as [|? p ? ps' Hp Pk']; subst. inversion Al as [|? ? (w & Sd & Sh) Al']; subst. inversion Od as [|? ? [Oa Ob] Od']; subst.
      cbn [map]. rewrite (IH Al' ps' Pk' Od'). f_equal. rewrite (frame_said _ s1 go1 m w f M1 A1 G1 Sd H) in Hp.
      rewrite (picked_heard st2 tb l h s2 go2 s1 go1 m w p M2 B A2 G2 Sd Sh Hp Oa Ob). unfold to_other. rewrite Sd. reflexivity. }
  assert (Lm : length (packets ds1) = length msgs) by (apply (f_equal (@length _)) in X; rewrite !map_length in X; exact X).
  destruct (C89_bus scan packet ds0 fd ds1 st2 msgs2 es [] CS O Lp P R F M2 N2 Op) as [_ Y]; [rewrite app_nil_r; exact E|].
  rewrite (Y n eq_refl) by (rewrite Lm; exact Ln). rewrite X. apply until_all. clear. induction msgs; [reflexivity|assumption].
Qed.
Print Assumptions C90_heard.

(** ** The programs of knx_stack/client *)
Definition usb_history_calls : list as_call := [Associate usb_device [mkaddr 2 0x1029]; Associate usb_command [mkaddr 3 0x0F81]].
Lemma usb_built table : usb_table = Ok table -> built (at_new (mkaddr 1 0x100A) [] 255) [] usb_history_calls table.
Proof.
  intros T. vm_compute in T. injection T as <-. eexists. exists [Ok tt; Ok tt]. split; [vm_compute; reflexivity|]. split; [vm_compute; reflexivity|]. repeat constructor.
Qed.
Lemma tunnel_said table on : tunnel_table = Ok table ->
  said table [(tunnel_command, Switch)] (MGroupValueWriteReq tunnel_command (switch (if on : bool then 1 else 0))) = Some (0x0F81, Some (if on then 0x81 else 0x80)).
Proof. intros T. vm_compute in T. injection T as <-. destruct on; vm_compute; reflexivity. Qed.
Lemma usb_shown table on : usb_table = Ok table ->
  let w := (0x0F81, Some (if on : bool then 0x81 else 0x80)) in
  shown (at_new (mkaddr 1 0x100A) [] 255) [] usb_history_calls table [(usb_command, Switch)] w /\
  heard (at_new (mkaddr 1 0x100A) [] 255) [] usb_history_calls table [(usb_command, Switch)] w =
    [MGroupValueWriteInd usb_command (mkdpt Switch (if on then 0x81 else 0x80))].
Proof.
  intros T. vm_compute in T. injection T as <-. cbv zeta. destruct on; (split; [|vm_compute; reflexivity]); (split; [|vm_compute; reflexivity]);
    (split; [cbn; lia|]); intros _; (split; [exists 2; vm_compute; reflexivity|vm_compute; reflexivity]).
Qed.
(** The tunnelling program switches the light; a client with the tables of the
    USB program, at the interface of another line, reports on and off. *)
Theorem C90_programs : forall table table2 es0 ch frame d t0 hs scan packet ds0 fd ds1 msgs2 es n,
  tunnel_table = Ok table -> usb_table = Ok table2 ->
  linked [172; 31; 10; 111] (tunnel_client table) tunnel_msgs es0 ch -> sendable frame ->
  st_local (c_state (after (tunnel_client table) es0)) = 0 -> answered es0 = true -> ~ In EvWriter es0 -> 2 * d < 3000 ->
  timely d frame (ti_start (after (tunnel_client table) es0) ch t0) hs -> (3 <= how_often (map snd hs))%nat ->
  c_scanner scan -> octets packet -> zlen packet = 56 ->
  possible [] (ds0 ++ DAccept fd :: ds1) -> zlen (registered ds0) < 64 -> Forall (fun e => leaves e <> Some fd) ds1 ->
  Forall2 picked_up (gw_bus (sy_gw (ti_sys (ti_run frame (ti_start (after (tunnel_client table) es0) ch t0) hs)))) (packets ds1) ->
  Forall (fun m => is_ack_message m = false) msgs2 ->
  open_still es -> bytes_in es = text_to fd (concat (snd (daemon_run scan (dafter scan packet (ds0 ++ [DAccept fd])) ds1))) -> (3 <= n)%nat ->
  usb_reads (snd (sd_run (sd_new (usb_main_state table2) msgs2) (es ++ repeat SvRead n))) =
  [Ok (RList [MGroupValueWriteInd usb_command (mkdpt Switch 0x81)]); Ok (RList [MGroupValueWriteInd usb_command (mkdpt Switch 0x80)])].
Proof.
  intros table table2 es0 ch frame d t0 hs scan packet ds0 fd ds1 msgs2 es n T T2 L Mf El An Nw Hd Ti Ln CS O Lp P R F Pk N2 Op E Hn.
  destruct (C88_tunnel table es0 ch frame d t0 hs T L Mf El An Nw Hd Ti Ln) as [St _].
  assert (Sh : Forall (fun m => exists w, said table [(tunnel_command, Switch)] m = Some w /\
    shown (at_new (mkaddr 1 0x100A) [] 255) [] usb_history_calls table2 [(usb_command, Switch)] w) tunnel_msgs).
  { constructor; [|constructor; [|constructor]].
    - exists (0x0F81, Some 0x81). split; [exact (tunnel_said table true T)|exact (proj1 (usb_shown table2 true T2))].
    - exists (0x0F81, Some 0x80). split; [exact (tunnel_said table false T)|exact (proj1 (usb_shown table2 false T2))]. }
  rewrite (C90_heard [172; 31; 10; 111] (tunnel_client table) tunnel_msgs es0 ch frame d t0 hs table [(tunnel_command, Switch)] scan packet ds0 fd ds1
    (usb_main_state table2) msgs2 es (at_new (mkaddr 1 0x100A) [] 255) [] usb_history_calls table2 [(usb_command, Switch)] n
    L Mf El Hd (no_turn_nothing _ _ Nw) eq_refl eq_refl Ti St CS O Lp P R F Pk eq_refl N2 (usb_built table2 T2) eq_refl eq_refl Sh Op E) by (cbn; lia).
  unfold tunnel_msgs. cbn [map]. unfold to_other.
  rewrite (tunnel_said table true T), (tunnel_said table false T). cbv iota.
  rewrite (proj2 (usb_shown table2 true T2)), (proj2 (usb_shown table2 false T2)). reflexivity.
Qed.
Print Assumptions C90_programs.
(** Such a run: the interface adds information to the second frame and pads its
    reports. *)
Definition ex_up1 : list Z := usb_report [0x29; 0; 0xBC; 0xE0; 0x10; 0x04; 0x0F; 0x81; 1; 0; 0x81] ++ repeat 0 34.
Definition ex_up2 : list Z := usb_report [0x29; 2; 3; 0; 0xBC; 0xE0; 0x10; 0x04; 0x0F; 0x81; 1; 0; 0x80] ++ [0].
Definition ex_ups : list devent := [DBus ex_up1; DAccept 10; DBus ex_up2].
Definition ex_whole : list stream_event :=
  [SvData (firstn 7 (lower_line ex_up1)); SvRead; SvData (skipn 7 (lower_line ex_up1) ++ firstn 20 (lower_line ex_up2)); SvRead; SvData (skipn 20 (lower_line ex_up2))].
Example C90_example :
  Forall2 picked_up (gw_bus (sy_gw (ti_sys (ti_run ex_frames (ti_start (after (tunnel_client ex_tunnel) [EvMade; EvData ex_accept]) 0x15 0) ex_tunnel_timed)))) (packets ex_ups) /\
  possible [] (ex_history ++ DAccept 9 :: ex_ups) /\ zlen (registered ex_history) < 64 /\ Forall (fun e => leaves e <> Some 9) ex_ups /\
  open_still ex_whole /\
  bytes_in ex_whole = text_to 9 (concat (snd (daemon_run ex_scan (dafter ex_scan ex_packet (ex_history ++ [DAccept 9])) ex_ups))) /\
  usb_reads (snd (sd_run (sd_new (usb_main_state ex_usb) usb_msgs) (ex_whole ++ repeat SvRead 3))) =
  [Ok (RList [MGroupValueWriteInd usb_command (mkdpt Switch 0x81)]); Ok (RList [MGroupValueWriteInd usb_command (mkdpt Switch 0x80)])].
Proof.
  split.
  { vm_compute gw_bus. constructor; [|constructor; [|constructor]].
    - exists [0x29; 0; 0xBC; 0xE0; 0x10; 0x04; 0x0F; 0x81; 1; 0; 0x81], (repeat 0 34). split; [|reflexivity].
      exists 0x96, 0xE0, 0, 0, [0x0F; 0x81; 1; 0; 0x81], [], 0xBC, 0xE0, 0x10, 0x04. repeat split; try (vm_compute; octets_tac).
    - exists [0x29; 2; 3; 0; 0xBC; 0xE0; 0x10; 0x04; 0x0F; 0x81; 1; 0; 0x80], [0]. split; [|reflexivity].
      exists 0x96, 0xE0, 0, 0, [0x0F; 0x81; 1; 0; 0x80], [3; 0], 0xBC, 0xE0, 0x10, 0x04. repeat split; try (vm_compute; octets_tac). }
  split. { cbn. repeat split; try lia; try (octs; fail); try (intros []; fail). }
  split; [vm_compute; reflexivity|]. split; [repeat constructor; discriminate|]. split; [intros H; cbn in H; repeat (destruct H as [H|H]; [discriminate H|]); exact H|].
  split; vm_compute; reflexivity.
Qed.
