(** C91: from USB clients over the bus to a tunnelling client. *)
From Coq Require Import String Ascii ZArith List Bool Lia ZifyBool.
From Verif Require Import Py Base Msg Address Dpt Tables LData Inet State Encode Decode Client ClientMain Daemon.
From Verif Require Import SpecMsg SpecTables SpecWire SpecDecode SpecClient SpecSystem SpecAcross SpecMain SpecDaemon SpecPieces SpecWhole SpecBack.
From Verif Require Import MsgProofs IpProofs OctetsProofs RoundProofs EncodeProofs DecodeProofs ClientProofs DeliveryProofs SystemProofs AcrossProofs DaemonProofs.
From Verif Require Import Props_Tables Props_Encode Props_Decode Props_Client Props_System Props_Across Props_Main Props_Daemon Props_Site Props_Pieces Props_Stream Props_Whole.
Import ListNotations.
Open Scope Z_scope.

Lemma said_short s go m w : said s go m = Some w -> zlen (said_frame s go m) <= 45.
Proof.
  intros Sd. destruct m; try discriminate Sd; cbn [said said_frame] in *.
  - destruct (sends_to s _) as [[|x r]|]; try discriminate Sd. cbn. lia.
  - destruct (sends_to s _) as [[|x r]|]; try discriminate Sd. destruct (type_of go _) as [c|]; [|discriminate Sd].
    destruct (write_tpdu_shape c (d_value d)) as (apci & data & -> & _ & _ & Zd & _).
    unfold group_frame, cemi_frame. rewrite !zlen_app, !zlen_cons. cbn. lia.
Qed.
Lemma bus_packets_app a b : bus_packets (a ++ b) = bus_packets a ++ bus_packets b.
Proof. apply flat_map_app. Qed.
(** What the daemon writes to the bus. *)
Lemma said_packets scan packet : c_scanner scan -> octets packet -> zlen packet = 56 ->
  forall ds xs, possible [] ds -> Forall2 line_for xs (deliveries ds) ->
  Forall (fun x => said (r_assoc x) (r_gobj x) (r_message x) <> None) xs ->
  Forall2 (fun x p => usb_cemi p = Some (said_frame (r_assoc x) (r_gobj x) (r_message x))) xs (bus_packets (snd (daemon_run scan (daemon_new packet) ds))).
Proof.
  intros CS O L ds. induction ds as [|e ds IH] using rev_ind; intros xs P F Al.
  - inversion F. constructor.
  - pose proof P as P0. apply possible_snoc in P0. destruct P0 as [P1 P2]. rewrite daemon_run_snoc, bus_packets_app.
    change (snd (daemon_step scan (fst (daemon_run scan (daemon_new packet) ds)) e)) with (answers scan packet ds e).
    unfold deliveries in F. rewrite filter_app in F. apply Forall2_app_inv_r in F. destruct F as (xs1 & xs2 & F1 & F2 & ->).
    apply Forall_app in Al. destruct Al as [Al1 Al2]. apply Forall2_app; [apply IH; assumption|].
    unfold bus_packets. cbn [flat_map]. rewrite app_nil_r. cbn [filter] in F2.
    destruct e as [fd|data|fd [|z zs] u].
    + inversion F2. constructor.
    + inversion F2. unfold answers. rewrite bus_step by apply P2. generalize (live (dm_slots (dafter scan packet ds))). intros l.
      induction l as [|y l Hl]; [constructor|exact Hl].
    + inversion F2. constructor.
    + inversion F2 as [|x ? xs2' ? (fd' & u' & st & b & Ee & M & A & G & E) F3]; subst. inversion F3; subst.
      inversion Al2 as [|? ? Sd _]; subst. destruct (said (r_assoc x) (r_gobj x) (r_message x)) as [w|] eqn:Sw; [|contradiction].
      rewrite (said_encode st _ _ _ w A G Sw) in E. unfold wire in E. rewrite M in E. injection E as <-. 
      rewrite Ee in P |- *.
      destruct (framed_line scan packet ds fd' u' (r_message x) st _ CS O L M ltac:(destruct (r_message x); try discriminate Sw; reflexivity)
        ltac:(rewrite (said_encode st _ _ _ w A G Sw); unfold wire; rewrite M; reflexivity) (said_short _ _ _ w Sw) P) as (p & Ep & _ & Cp).
      unfold line_of in Ep. rewrite Ep. cbn. constructor; [exact Cp|constructor].
Qed.

(** The telegrams of a gateway that overhears such packets. *)
Lemma overheard_meaning st tb l h s go xs ps frame k x : fits st -> built tb l h s -> st_assoc st = Some s -> st_gobj st = Some go ->
  Forall2 (fun x p => usb_cemi p = Some (said_frame (r_assoc x) (r_gobj x) (r_message x))) xs ps -> overhears ps frame ->
  Forall (fun x => exists w, said (r_assoc x) (r_gobj x) (r_message x) = Some w /\ audible tb l h s go w) xs ->
  nth_error xs k = Some x -> meaning st (frame (Z.of_nat k)) = Ok (to_listener tb l h s go x).
Proof.
  intros F B Ha Hg Fp R Al Ex. rewrite Forall_forall in Al. destruct (Al x (nth_error_In _ _ Ex)) as (w & Ew & Au).
  assert (exists p, nth_error ps k = Some p /\ usb_cemi p = Some (said_frame (r_assoc x) (r_gobj x) (r_message x))) as (p & Ep & Cp).
  { clear -Fp Ex. revert k Ex. induction Fp as [|y p ys ps H Fp IH]; intros [|k] Ex; try discriminate Ex; cbn in *; [injection Ex as ->; eauto|eauto]. }
  destruct (R k p Ep) as (rq & Er & C). rewrite Cp in Er. injection Er as <-.
  assert (R1 : relays [said_frame (r_assoc x) (r_gobj x) (r_message x)] (fun _ => frame (Z.of_nat k))).
  { intros [|[|i]] f E; try discriminate E. injection E as <-. exact C. }
  destruct (relayed_meaning st tb l h s go (r_assoc x) (r_gobj x) [r_message x] (fun _ => frame (Z.of_nat k)) 0 (r_message x) F B Ha Hg
    ltac:(constructor; [eauto|constructor]) R1 eq_refl) as (w' & Ew' & M).
  unfold to_listener, to_other. rewrite Ew'. exact M.
Qed.
Lemma overheard_meanings st tb l h s go xs ps frame n : fits st -> built tb l h s -> st_assoc st = Some s -> st_gobj st = Some go ->
  Forall2 (fun x p => usb_cemi p = Some (said_frame (r_assoc x) (r_gobj x) (r_message x))) xs ps -> overhears ps frame ->
  Forall (fun x => exists w, said (r_assoc x) (r_gobj x) (r_message x) = Some w /\ audible tb l h s go w) xs ->
  0 <= n <= zlen xs -> meanings st frame n = flat_map (to_listener tb l h s go) (firstn (Z.to_nat n) xs).
Proof.
  intros F B Ha Hg Fp R Al N. unfold meanings. rewrite <- (Z2Nat.id n) by lia. set (k := Z.to_nat n).
  assert (Hk : (k <= length xs)%nat) by (unfold k, zlen in *; lia). rewrite Nat2Z.id. clearbody k. clear N n.
  induction k as [|k IH]; [reflexivity|].
  rewrite Nat2Z.inj_succ, <- Z.add_1_r, upto_S by lia. rewrite flat_map_app, IH by lia. cbn [flat_map]. rewrite app_nil_r.
  destruct (nth_error xs k) as [x|] eqn:Ex; [|apply nth_error_None in Ex; lia].
  assert (firstn (S k) xs = firstn k xs ++ [x]) as ->.
  { clear -Ex. revert k Ex. induction xs as [|y t IHl]; intros [|k] E; try discriminate E.
    - injection E as ->. reflexivity.
    - change (y :: firstn (S k) t = y :: (firstn k t ++ [x])). f_equal. apply IHl. exact E. }
  rewrite flat_map_app. cbn [flat_map]. rewrite app_nil_r. f_equal.
  rewrite (overheard_meaning st tb l h s go xs ps frame k x F B Ha Hg Fp R Al Ex). reflexivity.
Qed.

(** Any number of USB clients at one daemon write lines; the gateway of a
    tunnelling client on the same bus hears the interface.  Whatever the tunnel
    loses, repeats or reorders, the tunnelling client has reported the first so
    many of the remarks, in the order of the lines, with its own group objects. *)
Theorem C91_heard : forall scan packet ds xs ip c2 msgs2 es2 ch frame hs tb l h s2 go2,
  c_scanner scan -> octets packet -> zlen packet = 56 -> possible [] ds -> Forall2 line_for xs (deliveries ds) ->
  linked ip c2 msgs2 es2 ch -> sendable frame ->
  built tb l h s2 -> st_assoc (c_state c2) = Some s2 -> st_gobj (c_state c2) = Some go2 ->
  Forall (fun x => exists w, said (r_assoc x) (r_gobj x) (r_message x) = Some w /\ audible tb l h s2 go2 w) xs ->
  overhears (bus_packets (snd (daemon_run scan (daemon_new packet) ds))) frame ->
  let second := sy_run frame (sy_start (after c2 es2) ch) hs in
  client_taken second <= zlen xs ->
  reports second = flat_map (to_listener tb l h s2 go2) (firstn (Z.to_nat (client_taken second)) xs).
Proof.
  intros scan packet ds xs ip c2 msgs2 es2 ch frame hs tb l h s2 go2 CS O L P F L2 Mf B A2 G2 Al R second K.
  assert (Fp := said_packets scan packet CS O L ds xs P F
    ltac:(eapply Forall_impl; [|exact Al]; intros x (w & E & _); congruence)).
  destruct (C64_in_order ip c2 msgs2 es2 ch frame hs L2 Mf) as [Rp _]. cbv zeta in Rp. fold second in Rp.
  pose proof (taken_nonneg ip c2 msgs2 es2 ch frame hs L2 Mf) as N. fold second in N. rewrite Rp.
  destruct (well_made_start ip c2 msgs2 (proj1 L2)) as (_ & _ & _ & _ & F2).
  eapply overheard_meanings; try eassumption. lia.
Qed.
Print Assumptions C91_heard.
(** Without losses everything arrives: one round of the tunnel for each line. *)
Theorem C91_complete : forall scan packet ds xs ip c2 msgs2 es2 ch frame tb l h s2 go2,
  c_scanner scan -> octets packet -> zlen packet = 56 -> possible [] ds -> Forall2 line_for xs (deliveries ds) ->
  linked ip c2 msgs2 es2 ch -> sendable frame ->
  built tb l h s2 -> st_assoc (c_state c2) = Some s2 -> st_gobj (c_state c2) = Some go2 ->
  Forall (fun x => exists w, said (r_assoc x) (r_gobj x) (r_message x) = Some w /\ audible tb l h s2 go2 w) xs ->
  overhears (bus_packets (snd (daemon_run scan (daemon_new packet) ds))) frame ->
  reports (sy_run frame (sy_start (after c2 es2) ch) (concat (repeat [Transmit; Arrive_down; Arrive_up] (length xs)))) =
  flat_map (to_listener tb l h s2 go2) xs.
Proof.
  intros scan packet ds xs ip c2 msgs2 es2 ch frame tb l h s2 go2 CS O L P F L2 Mf B A2 G2 Al R.
  assert (Fp := said_packets scan packet CS O L ds xs P F
    ltac:(eapply Forall_impl; [|exact Al]; intros x (w & E & _); congruence)).
  destruct (well_made_start ip c2 msgs2 (proj1 L2)) as (_ & _ & _ & _ & F2).
  assert (Hl : forall i, 0 <= i < 0 + Z.of_nat (length xs) -> exists m, meaning (c_state c2) (frame i) = Ok m).
  { intros i Hi. destruct (nth_error xs (Z.to_nat i)) as [x|] eqn:Ex; [|apply nth_error_None in Ex; lia].
    pose proof (overheard_meaning (c_state c2) tb l h s2 go2 xs _ frame _ x F2 B A2 G2 Fp R Al Ex) as M. rewrite Z2Nat.id in M by lia. eauto. }
  destruct (C64_rounds ip c2 msgs2 es2 ch frame [] (length xs) L2 Mf eq_refl eq_refl eq_refl Hl) as (_ & _ & _ & _ & Rp).
  change (sy_run frame (sy_start (after c2 es2) ch) []) with (sy_start (after c2 es2) ch) in Rp. change (client_taken (sy_start (after c2 es2) ch)) with 0 in Rp. rewrite Rp.
  rewrite (overheard_meanings (c_state c2) tb l h s2 go2 xs _ frame _ F2 B A2 G2 Fp R Al) by (unfold zlen; lia).
  f_equal. replace (Z.to_nat (0 + Z.of_nat (length xs))) with (length xs) by lia. apply firstn_all.
Qed.
Print Assumptions C91_complete.

(** ** One client *)
Lemma lines_for s1 go1 st1 : st_medium st1 = Usb_hid -> st_assoc st1 = Some s1 -> st_gobj st1 = Some go1 ->
  forall msgs k es, texts es = map bytes_of (firstn k (lines_of st1 msgs)) ->
  exists j, (length (texts es) = j)%nat /\ Forall2 line_for (map (mkremark s1 go1) (firstn j msgs)) (deliveries es).
Proof.
  intros M A G msgs k es E. exists (length (texts es)). split; [reflexivity|]. revert msgs k E.
  induction es as [|e es IH]; intros msgs k E; [constructor|].
  destruct e as [fd|data|fd [|z zs] u]; [exact (IH msgs k E)..|].
  cbn [texts flat_map app length deliveries filter] in *.
  destruct msgs as [|m msgs]; [destruct k; discriminate E|]. destruct k as [|k]; [discriminate E|]. cbn [lines_of] in E.
  destruct (fst (encode_msg m st1)) as [b|x] eqn:Em; [|discriminate E].
  change (firstn (S k) (?a :: ?r)) with (a :: firstn k r) in E. cbn [map] in E. injection E as E1 E2.
  cbn [firstn map]. constructor.
  - exists fd, u, st1, b. split; [|split; [exact M|split; [exact A|split; [exact G|exact Em]]]]. f_equal. exact E1.
  - destruct (displayable m); [apply (IH msgs k E2)|]. assert (texts es = []) as Q.
    { unfold texts. rewrite E2. destruct k; reflexivity. }
    specialize (IH [] 0%nat Q). unfold texts in Q. rewrite Q. cbn [length firstn map]. rewrite firstn_nil in IH. exact IH.
Qed.
(** What one USB client has written so far arrives line by line at the daemon,
    with other traffic between: the tunnelling client reports its first messages
    in order. *)
Theorem C91_client : forall scan packet ds st1 s1 go1 msgs us ip c2 msgs2 es2 ch frame hs tb l h s2 go2,
  c_scanner scan -> octets packet -> zlen packet = 56 -> possible [] ds ->
  st_medium st1 = Usb_hid -> st_assoc st1 = Some s1 -> st_gobj st1 = Some go1 ->
  texts ds = map bytes_of (usb_writes (snd (usb_run (usb_new st1 msgs) us))) ->
  linked ip c2 msgs2 es2 ch -> sendable frame ->
  built tb l h s2 -> st_assoc (c_state c2) = Some s2 -> st_gobj (c_state c2) = Some go2 ->
  Forall (fun m => exists w, said s1 go1 m = Some w /\ audible tb l h s2 go2 w) msgs ->
  overhears (bus_packets (snd (daemon_run scan (daemon_new packet) ds))) frame ->
  let second := sy_run frame (sy_start (after c2 es2) ch) hs in
  client_taken second <= zlen (texts ds) ->
  reports second = flat_map (to_other s1 go1 tb l h s2 go2) (firstn (Z.to_nat (client_taken second)) msgs).
Proof.
  intros scan packet ds st1 s1 go1 msgs us ip c2 msgs2 es2 ch frame hs tb l h s2 go2 CS O L P M1 A1 G1 T L2 Mf B A2 G2 Al R second K.
  rewrite C53_writes in T; [|exact M1|eapply Forall_impl; [|exact Al]; intros m (w & Sd & _); destruct m; try discriminate Sd; reflexivity].
  destruct (lines_for s1 go1 st1 M1 A1 G1 msgs _ ds T) as (j & Lj & F).
  assert (Lm : (j <= length msgs)%nat).
  { subst j. rewrite T, map_length, firstn_length. assert (length (lines_of st1 msgs) <= length msgs)%nat; [|lia].
    clear. induction msgs as [|m msgs IH]; [reflexivity|]. cbn [lines_of]. destruct (fst (encode_msg m st1)); [|cbn; lia].
    destruct (displayable m); cbn; lia. }
  unfold second. rewrite (C91_heard scan packet ds (map (mkremark s1 go1) (firstn j msgs)) ip c2 msgs2 es2 ch frame hs tb l h s2 go2
    CS O L P F L2 Mf B A2 G2); [| |exact R|fold second; unfold zlen in *; rewrite map_length, firstn_length; lia].
  - fold second. unfold zlen in K. rewrite (firstn_map (mkremark s1 go1)), flat_map_concat_map, map_map, <- flat_map_concat_map, firstn_firstn.
    replace (Nat.min _ j) with (Z.to_nat (client_taken second)) by lia. reflexivity.
  - apply Forall_map. apply Forall_forall. intros m Im. rewrite Forall_forall in Al. apply (Al m). 
    rewrite <- (firstn_skipn j msgs). apply in_or_app. left. exact Im.
Qed.
Print Assumptions C91_client.

(** ** The programs of knx_stack/client *)
Definition tunnel_history_calls : list as_call := [Associate tunnel_command [mkaddr 2 0x0F81]].
Lemma tunnel_built table : tunnel_table = Ok table -> built (at_new (mkaddr 1 0x1004) [] 255) [] tunnel_history_calls table.
Proof.
  intros T. vm_compute in T. injection T as <-. eexists. exists [Ok tt]. split; [vm_compute; reflexivity|]. split; [vm_compute; reflexivity|]. repeat constructor.
Qed.
Lemma usb_said table on : usb_table = Ok table ->
  said table [(usb_command, Switch)] (MGroupValueWriteReq usb_command (switch (if on : bool then 1 else 0))) = Some (0x0F81, Some (if on then 0x81 else 0x80)).
Proof. intros T. vm_compute in T. injection T as <-. destruct on; vm_compute; reflexivity. Qed.
Lemma tunnel_audible table on : tunnel_table = Ok table ->
  let w := (0x0F81, Some (if on : bool then 0x81 else 0x80)) in
  audible (at_new (mkaddr 1 0x1004) [] 255) [] tunnel_history_calls table [(tunnel_command, Switch)] w /\
  heard (at_new (mkaddr 1 0x1004) [] 255) [] tunnel_history_calls table [(tunnel_command, Switch)] w =
    [MGroupValueWriteInd tunnel_command (mkdpt Switch (if on then 0x81 else 0x80))].
Proof.
  intros T. vm_compute in T. injection T as <-. cbv zeta. destruct on; (split; [|vm_compute; reflexivity]);
    (split; [cbn; lia|]); intros _; (split; [exists 1; vm_compute; reflexivity|vm_compute; reflexivity]).
Qed.
(** The USB program switches the light before its third message kills its
    writer; the tunnelling program, at another line, reports on and off. *)
Theorem C91_programs : forall table table2 us scan packet ds es2 ch frame hs,
  usb_table = Ok table -> tunnel_table = Ok table2 ->
  c_scanner scan -> octets packet -> zlen packet = 56 -> possible [] ds ->
  texts ds = map bytes_of (usb_writes (snd (usb_main_run (usb_new (usb_main_state table) usb_msgs) us))) ->
  linked [172; 31; 10; 111] (tunnel_client table2) tunnel_msgs es2 ch -> sendable frame ->
  overhears (bus_packets (snd (daemon_run scan (daemon_new packet) ds))) frame ->
  let second := sy_run frame (sy_start (after (tunnel_client table2) es2) ch) hs in
  client_taken second <= zlen (texts ds) ->
  reports second = firstn (Z.to_nat (client_taken second))
    [MGroupValueWriteInd tunnel_command (mkdpt Switch 0x81); MGroupValueWriteInd tunnel_command (mkdpt Switch 0x80)].
Proof.
  intros table table2 us scan packet ds es2 ch frame hs T T2 CS O L P Tx L2 Mf R second K.
  destruct (C88_usb table us T) as [W _]. rewrite W in Tx.
  assert (N : Forall (fun m => is_ack_message m = false) usb_msgs) by (repeat constructor).
  pose proof (C53_writes (usb_main_state table) usb_msgs us eq_refl N) as W2.
  assert (Lo : lines_of (usb_main_state table) usb_msgs = [light_line true; light_line false]).
  { clear -T. vm_compute in T. injection T as <-. vm_compute. reflexivity. }
  rewrite Lo in W2. rewrite <- W2 in Tx.
  assert (Al : Forall (fun m => exists w, said table [(usb_command, Switch)] m = Some w /\
    audible (at_new (mkaddr 1 0x1004) [] 255) [] tunnel_history_calls table2 [(tunnel_command, Switch)] w) usb_msgs).
  { constructor; [|constructor; [|constructor]].
    - exists (0x0F81, Some 0x81). split; [exact (usb_said table true T)|exact (proj1 (tunnel_audible table2 true T2))].
    - exists (0x0F81, Some 0x80). split; [exact (usb_said table false T)|exact (proj1 (tunnel_audible table2 false T2))]. }
  unfold second. rewrite (C91_client scan packet ds (usb_main_state table) table [(usb_command, Switch)] usb_msgs us [172; 31; 10; 111] (tunnel_client table2)
    tunnel_msgs es2 ch frame hs _ _ _ table2 [(tunnel_command, Switch)] CS O L P eq_refl eq_refl eq_refl Tx L2 Mf (tunnel_built table2 T2) eq_refl eq_refl Al R K).
  fold second. generalize (Z.to_nat (client_taken second)). intros k.
  assert (X : forall on, to_other table [(usb_command, Switch)] (at_new (mkaddr 1 0x1004) [] 255) [] tunnel_history_calls table2 [(tunnel_command, Switch)]
    (MGroupValueWriteReq usb_command (switch (if on : bool then 1 else 0))) = [MGroupValueWriteInd tunnel_command (mkdpt Switch (if on then 0x81 else 0x80))]).
  { intros on. unfold to_other. rewrite (usb_said table on T). exact (proj2 (tunnel_audible table2 on T2)). }
  pose proof (X true) as X1. pose proof (X false) as X0. cbv iota in X1, X0.
  destruct k as [|[|k]]; cbn [firstn usb_msgs flat_map]; [reflexivity|rewrite X1; reflexivity|].
  rewrite X1, X0. destruct k; reflexivity.
Qed.
Print Assumptions C91_programs.

(** Clients 7 and 8 with different tables, a packet from the bus between their
    lines; the listener does not know the address of the second line. *)
Definition ex_remarks : list remark :=
  [mkremark ex_assoc ex_go Props_Across.ex_write;
   mkremark ex_usb [(usb_command, Switch)] (MGroupValueWriteReq usb_command (switch 1));
   mkremark ex_assoc ex_go (MGroupValueReadReq (mkasap 1 None))].
Definition ex_state7 : state := state_new Usb_hid (Some ex_assoc) (Some ex_go).
Definition ex_octets (m : message) (st : state) : list Z := match fst (encode_msg m st) with Ok b => b | Err _ => [] end.
Definition ex_text (m : message) (st : state) : list Z := bytes_of (String.append (msg_str (ex_octets m st)) newline).
Definition ex_said : list devent :=
  [DAccept 7; DAccept 8; DClient 7 (ex_text Props_Across.ex_write ex_state7) ex_around;
   DBus [0x01; 0x13; 0xFF]; DClient 8 (ex_text (MGroupValueWriteReq usb_command (switch 1)) (usb_main_state ex_usb)) ex_around;
   DClient 8 [] ex_around; DClient 7 (ex_text (MGroupValueReadReq (mkasap 1 None)) ex_state7) ex_around].
Definition ex_frames3 (i : Z) : list Z :=
  if i =? 0 then ex_indication
  else if i =? 1 then [0x29; 0x00; 0xBC; 0xD0; 0x11; 0x02; 0x0F; 0x81; 0x01; 0x00; 0x81]
  else [0x29; 0x00; 0xBC; 0xD0; 0x11; 0x01; 0x09; 0x00; 0x01; 0x00; 0x00].
Example C91_example :
  possible [] ex_said /\ Forall2 line_for ex_remarks (deliveries ex_said) /\
  linked ex_ip ex_client2 [] ex_start 0x15 /\ sendable ex_frames3 /\
  Forall (fun x => exists w, said (r_assoc x) (r_gobj x) (r_message x) = Some w /\ audible ex_table2 [] ex_calls2 ex_assoc2 ex_go2 w) ex_remarks /\
  overhears (bus_packets (snd (daemon_run ex_scan (daemon_new ex_packet) ex_said))) ex_frames3 /\
  let second := sy_run ex_frames3 (sy_start (after ex_client2 ex_start) 0x15)
    [Transmit; Repeat_down 0; Arrive_down; Arrive_down; Arrive_up; Transmit; Arrive_down; Arrive_up; Arrive_up; Transmit; Arrive_down] in
  client_taken second = 3 /\
  reports second = ex_heard2 ++ [MGroupValueReadInd (mkasap 4 None) (mkdpt Switch 0); MGroupValueReadInd (mkasap 5 None) (mkdpt Brightness 0)].
Proof.
  split. { let v := eval vm_compute in ex_said in change ex_said with v. cbn [possible possible1 connect1].
    repeat split; first [lia|solve [octs]|solve [vm_compute; discriminate]|solve [cbn; intros []; lia]|solve [cbn; lia]|solve [left; reflexivity|right; left; reflexivity]|solve [apply Forall_forall; intros x Ix; cbn in Ix; unfold is_octet; lia]]. }
  split.
  { constructor; [|constructor; [|constructor; [|constructor]]].
    - exists 7, ex_around, ex_state7, (ex_octets Props_Across.ex_write ex_state7). repeat split; vm_compute; reflexivity.
    - exists 8, ex_around, (usb_main_state ex_usb), (ex_octets (MGroupValueWriteReq usb_command (switch 1)) (usb_main_state ex_usb)). repeat split; vm_compute; reflexivity.
    - exists 7, ex_around, ex_state7, (ex_octets (MGroupValueReadReq (mkasap 1 None)) ex_state7). repeat split; vm_compute; reflexivity. }
  split; [exact ex_linked2|].
  split. { intros i. unfold ex_frames3, ex_indication. destruct (i =? 0); [|destruct (i =? 1)]; octets_tac. }
  split. { constructor; [|constructor; [|constructor; [|constructor]]].
    - exists (0x0900, Some 0x81). split; [vm_compute; reflexivity|exact ex_audible].
    - exists (0x0F81, Some 0x81). split; [vm_compute; reflexivity|]. split; [cbn; lia|]. intros X. exfalso. revert X. vm_compute. intuition discriminate.
    - exists (0x0900, None). split; [vm_compute; reflexivity|]. split; [cbn; lia|]. intros _. split; [exists 4; vm_compute; reflexivity|exact I]. }
  split.
  { set (b := bus_packets _). vm_compute in b. subst b. intros i p E. destruct i as [|[|[|[|i]]]]; cbn in E; try discriminate E; injection E as <-; (eexists; split; [vm_compute; reflexivity|]).
    - exact ex_carried.
    - exists 0x96, 0xE0, 0, 0, [0x0F; 0x81; 0x01; 0x00; 0x81], [], 0xBC, 0xD0, 0x11, 0x02.
      split; [reflexivity|]. split; [reflexivity|]. split; [reflexivity|]. split; [constructor|]. split; [octets_tac|reflexivity].
    - exists 0x96, 0xE0, 0, 0, [0x09; 0x00; 0x01; 0x00; 0x00], [], 0xBC, 0xD0, 0x11, 0x01.
      split; [reflexivity|]. split; [reflexivity|]. split; [reflexivity|]. split; [constructor|]. split; [octets_tac|reflexivity]. }
  split; vm_compute; reflexivity.
Qed.
