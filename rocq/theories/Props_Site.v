(** C70: USB clients and the daemon together. *)
From Coq Require Import String Ascii ZArith List Bool Lia ZifyBool Permutation.
From Verif Require Import Py Base Msg Address Dpt Tables LData Inet State Encode Decode Client Daemon.
From Verif Require Import SpecMsg SpecTables SpecWire SpecDecode SpecClient SpecDaemon.
From Verif Require Import MsgProofs TablesProofs AssocProofs EncodeProofs DecodeProofs IpProofs OctetsProofs ClientProofs DeliveryProofs RoundProofs DaemonProofs.
From Verif Require Import Props_Tables Props_Encode Props_Decode Props_Roundtrip Props_Daemon.
Import ListNotations.
Open Scope Z_scope.

(** A client's state whose tables list group address [x] and associate it. *)
Definition listener (tb : address_table) l h (st : state) (s : assoc_table) (go : gobj_table) (x : Z) : Prop :=
  built tb l h s /\ st_medium st = Usb_hid /\ st_assoc st = Some s /\ st_gobj st = Some go /\
  In x (vals (at_addrs (as_table s))) /\ (exists v, 0 < balance tb l h v x).
(** Every receiver's value has a textual form. *)
Definition all_show (n : Z) (l : list (asap * dpt_class)) : Prop :=
  Forall (fun p => undisplayable (snd p) (d_value (as_class (snd p) n)) = false) l.
(** The line of a frame. *)
Definition line_of (frame : list Z) : string := String.append (msg_str frame) newline.

Lemma answered_line scan packet es data fd : c_scanner scan -> octets packet -> zlen packet = 56 ->
  possible [] (es ++ [DBus data]) -> In fd (registered es) ->
  In (ToClient fd (lower_line data)) (answers scan packet es (DBus data)).
Proof.
  intros CS O L P R. eapply Permutation_in; [symmetry; apply C56_broadcast; eassumption|].
  apply in_map_iff. exists fd. split; [reflexivity|exact R].
Qed.
Lemma decoded_line st data line l : octets data -> st_medium st = Usb_hid -> bytes_of line = lower_line data ->
  fst (decode_msg CPlain data st) = Ok (reported st l) -> forallb displayable l = true -> line_result st line = Ok (RList l).
Proof. intros O M E D F. apply (C56_client st data line l O E); [|exact F]. rewrite D. unfold reported. rewrite M. reflexivity. Qed.

Lemma confirmed_line tb l h st s go x f pad apci data svc : listener tb l h st s go x -> f = 0 \/ f = 1 -> octets pad ->
  0 < x < 65536 -> is_octet apci -> octets data -> zlen data <= 4 ->
  let t := mktg (0x96 + f) 0xE0 0 x ((zlen (0 :: apci :: data) - 1) mod 256) 0 apci data in
  group_service t = Some svc -> Forall (fun p => undisplayable (snd p) (raw (snd p) t) = false) (receivers tb l h x go) ->
  let answer := usb_report (confirmation f (group_frame data_req x (0 :: apci :: data))) ++ pad in
  octets answer /\ fst (decode_msg CPlain answer st) = Ok (reported st (group_messages Con svc t (receivers tb l h x go))).
Proof.
  intros (B & M & Ha & Hg & L & V) F P X O1 O2 Z t S U answer.
  pose proof (group_round tb l h st s go CPlain 0 pad Con (0x96 + f) x apci data svc B Ha Hg) as R. cbv zeta in R. fold t in R.
  unfold delivered in R. rewrite M in R. unfold answer, group_frame. rewrite confirmation_framed. split.
  - pose proof (delivered_octets st 0 pad (framed data_con (0x96 + f) 0xE0 x (0 :: apci :: data)) P) as D. unfold delivered in D. rewrite M in D.
    apply D. apply framed_octets; try (unfold is_octet, data_con; lia). apply octets_cons. split; [unfold is_octet; lia|]. apply octets_cons. auto.
  - apply R; try assumption; try (unfold is_octet; lia); try discriminate; try (left; exact M).
    unfold first_displayable. destruct (receivers tb l h x go) as [|p r]; [exact I|]. exact (Forall_inv U).
Qed.
Lemma framed_line scan packet es fd u m st cemi : c_scanner scan -> octets packet -> zlen packet = 56 ->
  st_medium st = Usb_hid -> link_request m = true -> fst (encode_msg m st) = Ok (usb_report cemi) -> zlen cemi <= 45 ->
  possible [] (es ++ [DClient fd (bytes_of (line_of (usb_report cemi))) u]) ->
  exists p, answers scan packet es (DClient fd (bytes_of (line_of (usb_report cemi))) u) = [ToBus p] /\ zlen p = 56 /\ usb_cemi p = Some cemi.
Proof.
  intros CS O L M Lr E Lc P.
  assert (Lf : zlen (usb_report cemi) = 11 + zlen cemi) by (unfold usb_report; rewrite !zlen_app; cbn; lia).
  destruct (C57_client scan packet es fd u m st (usb_report cemi) _ CS O L M Lr E ltac:(lia) eq_refl P) as (p & A & Lp & Fp & _).
  exists p. split; [exact A|]. split; [exact Lp|]. rewrite <- (firstn_skipn (length (usb_report cemi)) p), Fp. apply usb_back. lia.
Qed.

(** A group write of one client: the daemon puts the frame on the bus; when the
    interface answers with the confirmation of that frame, every registered
    client, with tables of its own, reports it for exactly its own group objects
    of that address. *)
Theorem C70_write : forall scan packet es fd u tb l h st s go a c d x f pad,
  c_scanner scan -> octets packet -> zlen packet = 56 ->
  sender tb l h st s go a c x -> st_medium st = Usb_hid -> f = 0 \/ f = 1 -> octets pad ->
  exists cemi, fst (encode_msg (MGroupValueWriteReq a d) st) = Ok (usb_report cemi) /\
  let line := line_of (usb_report cemi) in
  let answer := usb_report (confirmation f cemi) ++ pad in
  let es1 := es ++ [DClient fd (bytes_of line) u] in
  (possible [] es1 ->
   exists p, answers scan packet es (DClient fd (bytes_of line) u) = [ToBus p] /\ zlen p = 56 /\ usb_cemi p = Some cemi) /\
  (possible [] (es1 ++ [DBus answer]) ->
   forall fd', In fd' (registered es1) -> In (ToClient fd' (lower_line answer)) (answers scan packet es1 (DBus answer))) /\
  (forall tb' l' h' st' s' go' line', listener tb' l' h' st' s' go' x -> bytes_of line' = lower_line answer ->
   all_show (sent c (d_value d)) (receivers tb' l' h' x go') ->
   line_result st' line' =
     Ok (RList (map (fun p => MGroupValueWriteCon (fst p) (as_class (snd p) (sent c (d_value d))) f) (receivers tb' l' h' x go')))).
Proof.
  intros scan packet es fd u tb l h st s go a c d x f pad CS O L (B & Ha & Hg & Hc & (x0 & rest & S & Ex) & X & Li) M F P.
  exists (group_frame data_req x (write_tpdu c (d_value d))).
  assert (E : fst (encode_msg (MGroupValueWriteReq a d) st) = Ok (usb_report (group_frame data_req x (write_tpdu c (d_value d))))).
  { rewrite (write_frame st s go a d c Ha Hg Hc), S, Ex. unfold wire. rewrite M. reflexivity. }
  split; [exact E|]. destruct (write_tpdu_shape c (d_value d)) as (apci & data & Et & A & Od & Zd & Bv).
  cbv zeta. split; [|split].
  - intros Po. eapply framed_line; try eassumption; [reflexivity|]. rewrite Et. unfold group_frame, cemi_frame. rewrite !zlen_app, !zlen_cons. cbn. lia.
  - intros Po fd' R. apply answered_line; assumption.
  - intros tb' l' h' st' s' go' line' Ls El Sh. rewrite Et in *.
    destruct (confirmed_line tb' l' h' st' s' go' x f pad apci data Write Ls F P X ltac:(unfold is_octet; lia) Od Zd) as [Oa D].
    + apply write_service. assumption.
    + unfold all_show in Sh. eapply Forall_impl; [|exact Sh]. intros p Hp. rewrite (raw_sent c (d_value d)) by assumption. exact Hp.
    + eapply decoded_line; try eassumption; [apply Ls| |].
      * rewrite D. do 2 f_equal. unfold group_messages. apply map_ext. intros p. unfold group_message, as_class. do 2 f_equal.
        -- rewrite (raw_sent c (d_value d)) by assumption. reflexivity.
        -- unfold status. cbn [t_c1]. lia.
      * apply forallb_forall. intros m Im. apply in_map_iff in Im. destruct Im as (p & <- & Ip). cbn [displayable].
        unfold all_show in Sh. rewrite Forall_forall in Sh. unfold as_class at 1. cbn [d_class]. rewrite (Sh p Ip). reflexivity.
Qed.
Print Assumptions C70_write.
(** The same for a read request. *)
Theorem C70_read : forall scan packet es fd u tb l h st s go a c x f pad,
  c_scanner scan -> octets packet -> zlen packet = 56 ->
  sender tb l h st s go a c x -> st_medium st = Usb_hid -> f = 0 \/ f = 1 -> octets pad ->
  exists cemi, fst (encode_msg (MGroupValueReadReq a) st) = Ok (usb_report cemi) /\
  let line := line_of (usb_report cemi) in
  let answer := usb_report (confirmation f cemi) ++ pad in
  let es1 := es ++ [DClient fd (bytes_of line) u] in
  (possible [] es1 ->
   exists p, answers scan packet es (DClient fd (bytes_of line) u) = [ToBus p] /\ zlen p = 56 /\ usb_cemi p = Some cemi) /\
  (possible [] (es1 ++ [DBus answer]) ->
   forall fd', In fd' (registered es1) -> In (ToClient fd' (lower_line answer)) (answers scan packet es1 (DBus answer))) /\
  (forall tb' l' h' st' s' go' line', listener tb' l' h' st' s' go' x -> bytes_of line' = lower_line answer ->
   line_result st' line' =
     Ok (RList (map (fun p => MGroupValueReadCon (fst p) (dpt_new (snd p)) f) (receivers tb' l' h' x go')))).
Proof.
  intros scan packet es fd u tb l h st s go a c x f pad CS O L (B & Ha & Hg & Hc & (x0 & rest & S & Ex) & X & Li) M F P.
  exists (group_frame data_req x read_tpdu).
  assert (E : fst (encode_msg (MGroupValueReadReq a) st) = Ok (usb_report (group_frame data_req x read_tpdu))).
  { rewrite (read_frame st s a Ha), S, Ex. unfold wire. rewrite M. reflexivity. }
  split; [exact E|]. cbv zeta. split; [|split].
  - intros Po. eapply framed_line; try eassumption; [reflexivity|]. cbn. lia.
  - intros Po fd' R. apply answered_line; assumption.
  - intros tb' l' h' st' s' go' line' Ls El.
    destruct (confirmed_line tb' l' h' st' s' go' x f pad 0 [] Read Ls F P X ltac:(unfold is_octet; lia) ltac:(constructor) ltac:(cbn; lia)) as [Oa D].
    + reflexivity.
    + apply Forall_forall. intros p _. unfold raw, payload. cbn [t_data t_apci]. destruct (snd p); reflexivity.
    + eapply decoded_line; try eassumption; [apply Ls| |].
      * unfold read_tpdu. rewrite D. do 2 f_equal. unfold group_messages. apply map_ext. intros p. unfold group_message, dpt_new. do 2 f_equal.
        unfold status. cbn [t_c1]. lia.
      * apply forallb_forall. intros m Im. apply in_map_iff in Im. destruct Im as (p & <- & Ip). cbn [displayable]. unfold dpt_new. cbn [d_class d_value].
        destruct (snd p); reflexivity.
Qed.
Print Assumptions C70_read.
(** A line of more than 56 octets arrives in two pieces; for both of them the
    daemon sends the previous packet once more, and nothing of the line. *)
Theorem C70_long : forall scan packet es fd text o u1 u2, c_scanner scan -> octets packet -> zlen packet = 56 ->
  let first := DClient fd (ztake 113 (text ++ [10])) u1 in
  let second := DClient fd (zdrop 113 (text ++ [10])) u2 in
  possible [] (es ++ [first; second]) -> denotes text o -> 56 < zlen o ->
  let before := dm_packet (dafter scan packet es) in
  answers scan packet es first = [ToBus before] /\ answers scan packet (es ++ [first]) second = [ToBus before] /\
  dm_packet (dafter scan packet (es ++ [first; second])) = before.
Proof.
  intros scan packet es fd text o u1 u2 CS O L first second P D Lo before.
  pose proof (denotes_len _ _ D) as Lt.
  assert (Hx : forall y, In y text -> ~ line_end y).
  { clear -D. induction D as [|c1 c2 h l text o H1 H2 D IH]; intros y I; [destruct I|].
    destruct I as [<-|[<-|I]]; [| |apply IH; exact I]; intros X; apply eol_spec in X;
      [rewrite (hex_not_eol _ _ H1) in X|rewrite (hex_not_eol _ _ H2) in X]; discriminate. }
  assert (E1 : ztake 113 (text ++ [10]) = ztake 113 text).
  { rewrite !ztake_firstn, firstn_app. replace (Z.to_nat 113 - length text)%nat with 0%nat by (unfold zlen in *; lia). apply app_nil_r. }
  assert (E2 : zdrop 113 (text ++ [10]) = zdrop 113 text ++ [10]).
  { rewrite !zdrop_skipn, skipn_app. replace (Z.to_nat 113 - length text)%nat with 0%nat by (unfold zlen in *; lia). reflexivity. }
  change (es ++ [first; second]) with (es ++ [first] ++ [second]) in *. rewrite app_assoc in *.
  pose proof P as P'. apply possible_snoc in P'. destruct P' as [P1 _].
  assert (L1 : zlen (ztake 113 text) = 113) by (rewrite zlen_ztake; lia).
  assert (T1 : ztake 113 text <> []) by (intros X; rewrite X in L1; discriminate L1).
  destruct (exists_last T1) as (t1 & x1 & Et1).
  assert (L2 : Z.odd (zlen (zdrop 113 text)) = true).
  { assert (Y : zlen (zdrop 113 text) = 1 + 2 * (zlen o - 57)) by (rewrite zdrop_skipn; unfold zlen in *; rewrite skipn_length; lia).
    rewrite Y, Z.odd_add, Z.odd_mul. reflexivity. }
  assert (T2 : zdrop 113 text <> []) by (intros X; rewrite X in L2; discriminate L2).
  destruct (exists_last T2) as (t2 & x2 & Et2).
  assert (N1 : ~ line_end x1).
  { apply Hx. rewrite <- (ztake_zdrop 113 text), Et1. apply in_or_app. left. apply in_or_app. right. left. reflexivity. }
  assert (N2 : ~ line_end x2).
  { apply Hx. rewrite <- (ztake_zdrop 113 text), Et2. apply in_or_app. right. apply in_or_app. right. left. reflexivity. }
  assert (A : answers scan packet es first = [ToBus before] /\ dm_packet (dafter scan packet (es ++ [first])) = before).
  { unfold first in *. rewrite E1, Et1 in *. replace (t1 ++ [x1]) with ((t1 ++ [x1]) ++ []) in * by apply app_nil_r.
    apply (C57_odd scan packet es fd t1 x1 [] u1 CS O L P1 N1); [constructor|discriminate|]. rewrite app_nil_r in L1. rewrite L1. reflexivity. }
  destruct A as [A1 A2]. split; [exact A1|]. rewrite <- A2.
  unfold second in *. rewrite E2, Et2 in *.
  apply (C57_odd scan packet (es ++ [first]) fd t2 x2 [10] u2 CS O L P N2); [repeat constructor|discriminate|exact L2].
Qed.
Print Assumptions C70_long.
Lemma line_denotes frame : octets frame -> bytes_of (line_of frame) = bytes_of (msg_str frame) ++ [10] /\ denotes (bytes_of (msg_str frame)) frame.
Proof.
  intros Of. split.
  - unfold bytes_of, line_of. rewrite list_ascii_app, map_app. reflexivity.
  - induction Of as [|x frame X Of IH]; [constructor|].
    destruct (nibbles _ X) as (A & C & E).
    change (bytes_of (msg_str (x :: frame))) with
      (Z.of_N (N_of_ascii (hexdigit (x / 16))) :: Z.of_N (N_of_ascii (hexdigit (x mod 16))) :: bytes_of (msg_str frame)).
    rewrite E at 3. constructor; [| |exact IH].
    + unfold hexdigit, hex_code. destruct (x / 16 <? 10) eqn:Y; rewrite N_ascii_embedding by lia; lia.
    + unfold hexdigit, hex_code. destruct (x mod 16 <? 10) eqn:Y; rewrite N_ascii_embedding by lia; lia.
Qed.
(** So the daemon passes on property writes of up to 30 octets of data and
    replaces longer ones by repetitions of the previous packet. *)
Theorem C70_property : forall scan packet es fd u u' st s a oi pid ne si text data,
  c_scanner scan -> octets packet -> zlen packet = 56 ->
  st_medium st = Usb_hid -> st_assoc st = Some s -> stringtooctects text = Ok data ->
  exists frame, fst (encode_msg (MPropertyValueWriteReq a oi pid ne si text) st) = Ok frame /\ zlen frame = 26 + zlen data /\
  let bytes := bytes_of (line_of frame) in
  (zlen data <= 30 -> possible [] (es ++ [DClient fd bytes u]) ->
   exists p, answers scan packet es (DClient fd bytes u) = [ToBus p] /\ firstn (length frame) p = frame) /\
  (30 < zlen data -> possible [] (es ++ [DClient fd (ztake 113 bytes) u; DClient fd (zdrop 113 bytes) u']) ->
   let before := dm_packet (dafter scan packet es) in
   answers scan packet es (DClient fd (ztake 113 bytes) u) = [ToBus before] /\
   answers scan packet (es ++ [DClient fd (ztake 113 bytes) u]) (DClient fd (zdrop 113 bytes) u') = [ToBus before]).
Proof.
  intros scan packet es fd u u' st s a oi pid ne si text data CS O L M Ha Hd.
  pose proof (property_write_frame st s a oi pid ne si text data Ha Hd) as E. unfold wire in E. rewrite M in E.
  apply (f_equal fst) in E. cbn [fst] in E.
  eexists. split; [exact E|]. split.
  { unfold usb_report, individual_frame, cemi_frame, property_write_tpdu, property_word. rewrite !zlen_app, ?zlen_cons. cbn [be app]. rewrite ?zlen_cons. cbn. lia. }
  set (frame := usb_report _) in *.
  assert (Lf : zlen frame = 26 + zlen data).
  { unfold frame, usb_report, individual_frame, cemi_frame, property_write_tpdu, property_word. rewrite !zlen_app, ?zlen_cons. cbn [be app]. rewrite ?zlen_cons. cbn. lia. }
  clearbody frame. pose proof (encoded_octets _ _ _ E) as Of. destruct (line_denotes frame Of) as [Eb D].
  cbv zeta. split.
  - intros S P. destruct (C57_client scan packet es fd u (MPropertyValueWriteReq a oi pid ne si text) st frame (line_of frame) CS O L M eq_refl E ltac:(lia) eq_refl P) as (p & A & _ & F & _).
    exists p. split; assumption.
  - intros S P. rewrite Eb in *.
    destruct (C70_long scan packet es fd _ frame u u' CS O L P D ltac:(lia)) as (A & B & _). split; assumption.
Qed.
Print Assumptions C70_property.
(** Client 7 writes; client 8, on tables of its own with one of the two objects,
    hears of the confirmation.  And a property write of 31 octets. *)
Definition ex_table8 := at_new (mkaddr 1 0x1002) [mkaddr 2 0x0900] 4.
Definition ex_calls8 : list as_call := [Associate (mkasap 4 None) [mkaddr 3 0x0900]].
Definition ex_assoc8 : assoc_table :=
  match assoc_new ex_table8 [] with Ok s => snd (as_run s ex_calls8) | Err _ => mkassoc ex_table8 [] [] end.
Definition ex_go8 : gobj_table := [(mkasap 4 None, Switch)].
Definition ex_st8 : state := state_new Usb_hid (Some ex_assoc8) (Some ex_go8).
Definition ex_cemi : list Z := [0x11; 0x00; 0x96; 0xE0; 0x00; 0x00; 0x09; 0x00; 0x01; 0x00; 0x81].
Definition ex_step : devent := DClient 7 (bytes_of (line_of (usb_report ex_cemi))) ex_around.
Definition ex_answer : list Z := usb_report (confirmation 0 ex_cemi) ++ repeat 0 34.
Definition ex_heard : string := String.append "0113130008000b010300002e0096e00000090001008100000000000000000000000000000000000000000000000000000000000000000000" newline.
Definition ex_property : string := "000102030405060708090A0B0C0D0E0F101112131415161718191A1B1C1D1E".
Example C70_ex :
  sender ex_table [] ex_calls (ex_st Usb_hid) ex_assoc ex_go (mkasap 1 None) Switch 0x0900 /\
  listener ex_table8 [] ex_calls8 ex_st8 ex_assoc8 ex_go8 0x0900 /\
  all_show (sent Switch 1) (receivers ex_table8 [] ex_calls8 0x0900 ex_go8) /\
  fst (encode_msg (MGroupValueWriteReq (mkasap 1 None) (mkdpt Switch 1)) (ex_st Usb_hid)) = Ok (usb_report ex_cemi) /\
  possible [] (ex_history ++ [ex_step; DBus ex_answer]) /\ registered (ex_history ++ [ex_step]) = [8; 7] /\
  bytes_of ex_heard = lower_line ex_answer /\
  line_result ex_st8 ex_heard = Ok (RList [MGroupValueWriteCon (mkasap 4 None) (mkdpt Switch 0x81) 0]) /\
  exists data frame, stringtooctects ex_property = Ok data /\ zlen data = 31 /\
    fst (encode_msg (MPropertyValueWriteReq (mkasap 0 None) 1 2 1 1 ex_property) (ex_st Usb_hid)) = Ok frame /\
    answers ex_scan ex_packet ex_history (DClient 7 (ztake 113 (bytes_of (line_of frame))) ex_around) = [ToBus ([0x01; 0x13; 0xFF] ++ repeat 0xEE 53)] /\
    zdrop 113 (bytes_of (line_of frame)) = bytes_of "E" ++ [10].
Proof.
  split. { split; [exact ex_assoc_built|]. split; [reflexivity|]. split; [reflexivity|]. split; [reflexivity|].
    split; [eexists; eexists; split; vm_compute; reflexivity|]. split; [lia|]. vm_compute. auto. }
  split. { split.
    - eexists. exists [Ok tt]. split; [vm_compute; reflexivity|]. split; [vm_compute; reflexivity|]. repeat constructor.
    - split; [reflexivity|]. split; [reflexivity|]. split; [reflexivity|]. split; [vm_compute; auto|]. exists 4. vm_compute. reflexivity. }
  split. { apply Forall_forall. intros p I. vm_compute in I. destruct I as [<-|[]]. reflexivity. }
  split; [vm_compute; reflexivity|].
  split. { change [ex_step; DBus ex_answer] with ([ex_step] ++ [DBus ex_answer]). rewrite app_assoc. apply possible_snoc. split.
    - apply possible_snoc. split; [exact ex_possible|]. vm_compute. repeat split; try (octs; fail); try discriminate.
    - cbn [possible1]. split; [|vm_compute; discriminate]. vm_compute. octs. }
  split; [reflexivity|]. split; [vm_compute; reflexivity|]. split; [vm_compute; reflexivity|].
  eexists. eexists. split; [vm_compute; reflexivity|]. split; [reflexivity|]. split; [vm_compute; reflexivity|].
  split; vm_compute; reflexivity.
Qed.
