(** C88: the programs of knx_stack/client/. *)
From Coq Require Import String Ascii ZArith List Bool Lia ZifyBool.
From Verif Require Import Py Base Msg Address Dpt Tables LData Inet State Encode Decode Client ClientTime ClientMain.
From Verif Require Import SpecMsg SpecTables SpecWire SpecDecode SpecClient SpecSystem SpecTime SpecMain.
From Verif Require Import EncodeProofs ClientProofs DeliveryProofs SystemProofs TimeProofs.
From Verif Require Import Props_Tables Props_Encode Props_Decode Props_Client Props_System Props_Time.
Import ListNotations.
Open Scope Z_scope.

(** ** The tunnelling program *)
Lemma tunnel_encode s table (on : bool) : tunnel_table = Ok table -> same_tables (c_state (tunnel_client table)) s ->
  fst (encode_msg (MGroupValueWriteReq tunnel_command (switch (if on then 1 else 0))) s) = wire s (light on).
Proof.
  intros T (M & A & G). vm_compute in T. injection T as <-. erewrite write_frame; [|exact A|exact G|reflexivity].
  destruct on; reflexivity.
Qed.
Lemma tunnel_transmissible table : tunnel_table = Ok table -> Forall (transmissible (c_state (tunnel_client table))) tunnel_msgs.
Proof.
  intros T. assert (X : forall on : bool, transmissible (c_state (tunnel_client table)) (MGroupValueWriteReq tunnel_command (switch (if on then 1 else 0)))).
  { intros on. split; [destruct on; reflexivity|]. intros s St C. rewrite (tunnel_encode s table on T St).
    destruct St as (M & _). unfold wire. rewrite M. change (st_medium (c_state (tunnel_client table))) with Knxnet_ip. cbv iota.
    destruct (st_channel s); [eexists; reflexivity|congruence]. }
  constructor; [exact (X true)|]. constructor; [exact (X false)|constructor].
Qed.
Lemma tunnel_frame table (on : bool) f : tunnel_table = Ok table ->
  frame_of (c_state (tunnel_client table)) (MGroupValueWriteReq tunnel_command (switch (if on then 1 else 0))) f -> f = light on.
Proof.
  intros T (s & b & n & St & E & Tn). rewrite (tunnel_encode s table on T St) in E. destruct St as (M & _). unfold wire in E. rewrite M in E.
  change (st_medium (c_state (tunnel_client table))) with Knxnet_ip in E. cbv iota in E. destruct (st_channel s) as [ch|]; [|discriminate E].
  assert (b = tunnelling_request ch (st_local s) (light on)) as -> by congruence.
  rewrite request_tunnelled in Tn. congruence.
Qed.

(** The program builds its tables. *)
Theorem C88_tables : exists t u, tunnel_table = Ok t /\ usb_table = Ok u.
Proof. do 2 eexists. split; vm_compute; reflexivity. Qed.
Print Assumptions C88_tables.
(** The program is one of the clients of C35-C40, and the first thing it sends is
    a connect request that names the address 172.31.10.111 and the port 5544. *)
Theorem C88_connects : forall table, well_made [172; 31; 10; 111] (tunnel_client table) tunnel_msgs /\
  o_sent (shown (tunnel_client table) [] EvMade) = [connect_request [172; 31; 10; 111] 5544].
Proof.
  intros table. split; [|vm_compute; reflexivity].
  exists 5544, (netip_state_new Knxnet_ip (Some table) (Some [(tunnel_command, Switch)])). split; [reflexivity|].
  split; [split; [reflexivity|]; repeat constructor; discriminate|]. repeat split; try discriminate. repeat constructor.
Qed.
Print Assumptions C88_connects.
(** Once a gateway has accepted the tunnelling program, three turns of its writer
    are all it takes: it stops its loop, and if the network loses nothing and
    needs less than 1.5 s for a datagram, the light has been switched on and then
    off, and nothing else has been put on the bus. *)
Theorem C88_tunnel : forall table es0 ch frame d t0 es, tunnel_table = Ok table ->
  linked [172; 31; 10; 111] (tunnel_client table) tunnel_msgs es0 ch -> sendable frame ->
  st_local (c_state (after (tunnel_client table) es0)) = 0 -> answered es0 = true -> ~ In EvWriter es0 -> 2 * d < 3000 ->
  timely d frame (ti_start (after (tunnel_client table) es0) ch t0) es -> (3 <= how_often (map snd es))%nat ->
  let s := ti_sys (ti_run frame (ti_start (after (tunnel_client table) es0) ch t0) es) in
  c_writer (sy_client s) = WStopped /\ gw_bus (sy_gw s) = [light true; light false].
Proof.
  intros table es0 ch frame d t0 es T L Mf El An Nw Hd P Ln s.
  assert (St : c_writer (sy_client s) = WStopped).
  { unfold s. rewrite ti_run_sys. apply (C87_stops [172; 31; 10; 111] _ tunnel_msgs es0 ch frame (map snd es) L Mf (tunnel_transmissible table T) An Nw). cbn. lia. }
  split; [exact St|].
  assert (Lk : Forall (fun m => link_request m = true) tunnel_msgs) by (repeat constructor).
  pose proof (C87_messages _ _ _ es0 ch frame d t0 es L Mf El Hd Lk (no_turn_nothing _ _ Nw) P St) as F. fold s in F.
  unfold tunnel_msgs in F. inversion F as [|m1 f1 r1 l1 F1 R1]; subst. inversion R1 as [|m2 f2 r2 l2 F2 R2]; subst. inversion R2; subst.
  rewrite (tunnel_frame table true f1 T F1), (tunnel_frame table false f2 T F2). reflexivity.
Qed.
Print Assumptions C88_tunnel.

(** ** The USB program *)
Definition stage (n : nat) : writer :=
  match n with
  | 0%nat => WSend usb_msgs
  | 1%nat => WSend (tl usb_msgs)
  | 2%nat => WSend []
  | _ => WDead AttributeError
  end.
Lemma usb_main_snoc e : forall es u, usb_main_run u (es ++ [e]) =
  (fst (usb_main_step (fst (usb_main_run u es)) e), snd (usb_main_run u es) ++ [snd (usb_main_step (fst (usb_main_run u es)) e)]).
Proof.
  induction es as [|x es IH]; intros u.
  - cbn [app usb_main_run fst snd]. destruct (usb_main_step u e). reflexivity.
  - cbn [app usb_main_run]. destruct (usb_main_step u x) as [u1 o]. rewrite IH. destruct (usb_main_run u1 es). reflexivity.
Qed.
Lemma usb_light s table (on : bool) : usb_table = Ok table -> agree (usb_main_state table) s ->
  fst (usb_write (MGroupValueWriteReq usb_command (switch (if on then 1 else 0))) s) = Ok (light_line on) /\
  agree (usb_main_state table) (snd (usb_write (MGroupValueWriteReq usb_command (switch (if on then 1 else 0))) s)).
Proof.
  intros T A. set (m := MGroupValueWriteReq usb_command (switch (if on then 1 else 0))).
  pose proof (encode_agree m s eq_refl) as A1. pose proof A as ((M & Ta & G) & _).
  assert (E : fst (encode_msg m s) = wire s (light on)).
  { vm_compute in T. injection T as <-. unfold m. erewrite write_frame; [|exact Ta|exact G|reflexivity]. destruct on; reflexivity. }
  unfold wire in E. rewrite M in E. change (st_medium (usb_main_state table)) with Usb_hid in E. cbv iota in E.
  unfold usb_write, mbind, mret. destruct (encode_msg m s) as [r s1]. cbn [fst] in E. subst r. cbn [fst snd] in *.
  split; [destruct on; vm_compute; reflexivity|]. exact (agree_trans _ _ _ A A1).
Qed.
Lemma usb_main_history table : usb_table = Ok table -> forall es,
  let r := usb_main_run (usb_new (usb_main_state table) usb_msgs) es in
  agree (usb_main_state table) (u_state (fst r)) /\ u_writer (fst r) = stage (usb_turns es) /\
  usb_writes (snd r) = firstn (usb_turns es) [light_line true; light_line false].
Proof.
  intros T es. induction es as [|e es IH] using rev_ind; cbv zeta.
  - cbn. split; [apply agree_refl|]. split; reflexivity.
  - rewrite usb_main_snoc. cbn [fst snd]. cbv zeta in IH. destruct (usb_main_run (usb_new (usb_main_state table) usb_msgs) es) as [u os].
    cbn [fst snd] in *. destruct IH as (A & W & O).
    unfold usb_writes, usb_turns in *. rewrite flat_map_app, filter_app, app_length. cbn [flat_map filter].
    set (n := length (filter _ es)) in *. rewrite O, app_nil_r. destruct e as [line|].
    + cbn [length]. rewrite Nat.add_0_r.
      assert (Q : agree (usb_main_state table) (u_state (fst (usb_step u (UvLine line)))) /\ u_writer (fst (usb_step u (UvLine line))) = u_writer u /\
                  uo_written (snd (usb_step u (UvLine line))) = []).
      { cbn [usb_step]. destruct (u_reader u); [auto|]. destruct (usb_read_spec (usb_main_state table) (u_state u) line eq_refl A) as [_ Q2].
        destruct (usb_read line (u_state u)) as [r s1]. cbn [fst snd u_state u_writer uo_written] in *. auto. }
      destruct Q as (Q1 & Q2 & Q3). unfold usb_main_step. rewrite Q3, Q2, app_nil_r. auto.
    + cbn [length]. rewrite Nat.add_comm. cbn [Nat.add]. unfold usb_main_step. rewrite W.
      destruct (usb_light (u_state u) table true T A) as [Ea Aa]. destruct (usb_light (u_state u) table false T A) as [Eb Ab]. cbv iota in Ea, Aa, Eb, Ab.
      destruct n as [|[|[|n]]]; cbn [stage].
      * cbn [usb_step]. rewrite W. cbn [stage usb_msgs]. destruct (usb_write _ (u_state u)) as [r s1]. cbn [fst snd] in *. subst r.
        cbn [fst snd u_state u_writer uo_written]. auto.
      * cbn [usb_step]. rewrite W. cbn [stage usb_msgs tl]. destruct (usb_write (MGroupValueWriteReq usb_command (switch 0)) (u_state u)) as [r s1]. cbn [fst snd] in *. subst r.
        cbn [fst snd u_state u_writer uo_written]. auto.
      * cbn [fst snd u_state u_writer uo_written]. split; [exact A|]. split; [|reflexivity]. destruct A as ((_ & Ta & _) & _). rewrite Ta.
        vm_compute in T. injection T as <-. reflexivity.
      * cbn [usb_step]. rewrite W. cbn. auto.
Qed.
(** The USB program, whatever lines come in: it switches the light on and off,
    and then the third message ends its writer with AttributeError.  So it never
    stops its loop, and the property request is never written. *)
Theorem C88_usb : forall table es, usb_table = Ok table ->
  let r := usb_main_run (usb_new (usb_main_state table) usb_msgs) es in
  usb_writes (snd r) = firstn (usb_turns es) [light_line true; light_line false] /\
  u_writer (fst r) <> WStopped /\
  ((3 <= usb_turns es)%nat -> u_writer (fst r) = WDead AttributeError).
Proof.
  intros table es T. destruct (usb_main_history table T es) as (_ & W & O). cbv zeta. split; [exact O|]. rewrite W.
  split; [destruct (usb_turns es) as [|[|[|n]]]; discriminate|]. intros H. destruct (usb_turns es) as [|[|[|n]]]; [lia..|reflexivity].
Qed.
Print Assumptions C88_usb.

(** ** The discovery program *)

(** Its own name is no address: if the name does not begin with a digit, the
    program raises ValueError (a null character in the name) or OSError before
    it has sent anything. *)
Theorem C88_discovery : forall c name st, no_digit c ->
  fst (discovery_main (String c name) st) =
  Err (if existsb (Ascii.eqb zero) (list_ascii_of_string (String c name)) then ValueError else OSError).
Proof.
  intros c name st D.
  assert (E : inet_aton (String c name) = Err (if existsb (Ascii.eqb zero) (list_ascii_of_string (String c name)) then ValueError else OSError)).
  { unfold inet_aton. cbv zeta. destruct (existsb _ _); [reflexivity|].
    cbn [list_ascii_of_string aton_parts].
    assert (X : is_digit_of 10 c = false).
    { unfold no_digit, nat_of_ascii in D. unfold is_digit_of, digit_value. cbv zeta. set (n := N_of_ascii c) in *.
      destruct ((48 <=? Z.of_N n) && (Z.of_N n <=? 57)) eqn:B; [lia|]. destruct ((65 <=? Z.of_N n) && (Z.of_N n <=? 70)) eqn:B1; [lia|].
      destruct ((97 <=? Z.of_N n) && (Z.of_N n <=? 102)) eqn:B2; [lia|]. reflexivity. }
    rewrite X. reflexivity. }
  unfold discovery_main, discovery_made. cbn [encode_msg]. unfold e_search_req, mbind, mlift. rewrite E. destruct (existsb _ _); reflexivity.
Qed.
Print Assumptions C88_discovery.

(** ** Cases *)
Definition ex_tunnel : assoc_table := match tunnel_table with Ok t => t | Err _ => ex_assoc end.
Definition ex_usb : assoc_table := match usb_table with Ok t => t | Err _ => ex_assoc end.
Definition ex_tunnel_timed : list (Z * happening) :=
  [(0, Turn); (700, Arrive_up); (1400, Arrive_down); (3001, Turn); (3002, Transmit); (4000, Arrive_up); (4100, Arrive_down); (4200, Arrive_down); (5000, Arrive_up); (6002, Turn)].
Example C88_example :
  let c := tunnel_client ex_tunnel in
  tunnel_table = Ok ex_tunnel /\ usb_table = Ok ex_usb /\
  linked [172; 31; 10; 111] c tunnel_msgs [EvMade; EvData ex_accept] 0x15 /\ sendable ex_frames /\
  st_local (c_state (after c [EvMade; EvData ex_accept])) = 0 /\ answered [EvMade; EvData ex_accept] = true /\
  ~ In EvWriter [EvMade; EvData ex_accept] /\
  timely 1400 ex_frames (ti_start (after c [EvMade; EvData ex_accept]) 0x15 0) ex_tunnel_timed /\
  how_often (map snd ex_tunnel_timed) = 3%nat /\
  (let r := usb_main_run (usb_new (usb_main_state ex_usb) usb_msgs) [UvWriter; UvLine "0113"; UvWriter; UvWriter; UvWriter] in
   usb_writes (snd r) = [light_line true; light_line false] /\ u_writer (fst r) = WDead AttributeError) /\
  no_digit "k" /\ fst (discovery_main "knxnet_ip_discovery.py" discovery_state) = Err OSError.
Proof.
  cbv zeta. split; [vm_compute; reflexivity|]. split; [vm_compute; reflexivity|].
  split. { split; [|split; [orderly_tac|]; split; [vm_compute; reflexivity|]; split; [vm_compute; reflexivity|]; split; [lia|vm_compute; reflexivity]].
    exists 5544, (netip_state_new Knxnet_ip (Some ex_tunnel) (Some [(tunnel_command, Switch)])). split; [reflexivity|]. split; [split; [reflexivity|]; repeat constructor; discriminate|]. repeat split; try discriminate. repeat constructor. }
  split; [exact (meaningful_sendable _ _ ex_meaningful)|]. split; [vm_compute; reflexivity|]. split; [vm_compute; reflexivity|].
  split; [intros [A|[A|[]]]; discriminate A|]. split; [timely_tac|]. split; [reflexivity|]. split; [vm_compute; split; reflexivity|].
  split; [right; vm_compute; repeat constructor|]. vm_compute. reflexivity.
Qed.
