(** C117: the client and a gateway over a network that loses, repeats and reorders
    datagrams. *)
From Coq Require Import String Ascii ZArith List Bool Lia ZifyBool.
From Verif Require Import Py Base Msg Address Dpt Tables LData Inet State Encode Decode Client.
From Verif Require Import SpecMsg SpecTables SpecWire SpecDecode SpecClient SpecSystem SpecReorder.
From Verif Require Import ClientProofs DeliveryProofs SystemProofs ReorderProofs.
From Verif Require Import Props_Tables Props_Encode Props_Decode Props_Client Props_System.
Import ListNotations.
Open Scope Z_scope.

(** As long as the gateway counts at most 254 telegrams as delivered, the client has
    reported the first telegrams of the gateway, each once and in order, and their
    number differs by at most one from the gateway's count, in whatever order the
    datagrams arrive. *)
Theorem C117_in_order : forall ip c0 msgs es0 ch frame ts, linked ip c0 msgs es0 ch -> sendable frame ->
  let s := ry_run frame (sy_start (after c0 es0) ch) ts in
  gw_sent (sy_gw s) <= 254 ->
  reports s = meanings (c_state c0) frame (client_taken s) /\
  gw_sent (sy_gw s) - 1 <= client_taken s <= gw_sent (sy_gw s) + 1.
Proof.
  intros ip c0 msgs es0 ch frame ts L Mf s G. pose proof (local_range ip c0 msgs es0 ch L) as R.
  destruct (sim_start ip c0 msgs es0 ch frame (st_local (c_state (after c0 es0))) L ltac:(lia)) as (S & F & Hch).
  destruct (ry_inv early ip ch (c_state c0) frame ts Hch F Mf (fun x a h _ => early_step x a h) early_down early_up _ _ S (early_start _)) as (a & Sa & Ia).
  fold s in Sa. rewrite (m_g _ _ _ _ _ _ Sa) in *. specialize (Ia G).
  rewrite (m_dlv _ _ _ _ _ _ Sa), (m_taken _ _ _ _ _ _ Sa). split; [|apply Ia]. rewrite (q_dlv _ Ia). reflexivity.
Qed.
Print Assumptions C117_in_order.

(** With 255 this is no longer so: an old copy of the first telegram is taken for
    the telegram number 256. *)
Definition ex_late : list turbulence :=
  map Usual [Transmit; Repeat_down 0; Arrive_down; Arrive_up] ++
  concat (repeat [Usual Transmit; Overtake_down 1; Usual Arrive_down; Usual Arrive_up] 254) ++
  [Usual Transmit; Overtake_down 1; Usual Arrive_down; Usual Arrive_down].
Theorem C117_in_order_refuted : exists ip c0 msgs es0 ch frame ts, linked ip c0 msgs es0 ch /\ meaningful (c_state c0) frame /\
  let s := ry_run frame (sy_start (after c0 es0) ch) ts in
  gw_sent (sy_gw s) = 255 /\ client_taken s = 257 /\
  exists m, reports s = meanings (c_state c0) frame 256 ++ m /\ meaning (c_state c0) (frame 0) = Ok m /\ m <> [].
Proof.
  exists ex_ip, ex_client, ex_msgs, [EvMade; EvData ex_accept], 0x15, ex_frames, ex_late.
  split; [exact ex_linked|]. split; [exact ex_meaningful|]. cbv zeta. split; [vm_compute; reflexivity|]. split; [vm_compute; reflexivity|].
  exists ex_delivered. split; [vm_compute; reflexivity|]. split; [vm_compute; reflexivity|discriminate].
Qed.
Print Assumptions C117_in_order_refuted.

(** As long as the writer has sent at most 255 requests, what reaches the bus is some
    of what it wrote, in order, nothing twice. *)
Theorem C117_part : forall ip c0 msgs es0 ch frame ts, linked ip c0 msgs es0 ch -> sendable frame ->
  st_local (c_state (after c0 es0)) = 0 ->
  let s := ry_run frame (sy_start (after c0 es0) ch) ts in
  zlen (written s) <= 255 -> part_of (gw_bus (sy_gw s)) (written s).
Proof.
  intros ip c0 msgs es0 ch frame ts L Mf El s H.
  destruct (sim_start ip c0 msgs es0 ch frame 0 L El) as (S & F & Hch).
  destruct (ry_inv few ip ch (c_state c0) frame ts Hch F Mf (fun x a h _ => few_step x a h) few_down few_up _ _ S few_start) as (a & Sa & Ia).
  fold s in Sa. rewrite (m_wr _ _ _ _ _ _ Sa) in *. rewrite (m_bus _ _ _ _ _ _ Sa). apply bus_picked, Ia.
  unfold zlen in *. rewrite map_length in H. exact H.
Qed.
Print Assumptions C117_part.

(** If it waits for the acknowledgement before each turn, everything reaches the bus
    except possibly the last message, and that too once it has been acknowledged. *)
Theorem C117_paced : forall ip c0 msgs es0 ch frame ts, linked ip c0 msgs es0 ch -> sendable frame ->
  st_local (c_state (after c0 es0)) = 0 -> ry_paced frame (sy_start (after c0 es0) ch) ts ->
  let s := ry_run frame (sy_start (after c0 es0) ch) ts in
  zlen (written s) <= 255 ->
  exists rest, written s = gw_bus (sy_gw s) ++ rest /\ zlen rest <= 1 /\
  (st_local (c_state (sy_client s)) = zlen (written s) -> rest = []).
Proof.
  intros ip c0 msgs es0 ch frame ts L Mf El Pc s H.
  destruct (sim_start ip c0 msgs es0 ch frame 0 L El) as (S & F & Hch).
  destruct (ry_in_turn ip ch (c_state c0) frame ts Hch F Mf _ _ S in_turn_start Pc) as (a & Sa & Ia).
  fold s in Sa. rewrite (m_wr _ _ _ _ _ _ Sa) in *. rewrite (m_bus _ _ _ _ _ _ Sa), (m_l _ _ _ _ _ _ Sa).
  assert (Lw : zlen (map snd (a_wr a)) = zlen (a_wr a)) by (unfold zlen; rewrite map_length; reflexivity). rewrite Lw in *.
  rewrite (in_turn_bus a Ia H). destruct (Ia H) as ([] & Hl & _).
  exists (skipn (Z.to_nat (a_r a)) (map snd (a_wr a))). split; [symmetry; apply firstn_skipn|]. split.
  - unfold zlen in *. rewrite skipn_length. lia.
  - intros E. apply skipn_all2. unfold zlen in *. lia.
Qed.
Print Assumptions C117_paced.

(** With 256 requests the last claims fail, even when the writer waits: an old copy of
    the first request is put on the bus again. *)
Definition ex_chatty : list message := repeat (MGroupValueReadReq (mkasap 1 None)) 256.
Definition ex_talker : client := client_new (dotted ex_ip) 3671 ex_cst ex_chatty.
Definition ex_copy : list turbulence :=
  map Usual [Turn; Repeat_up 0; Arrive_up; Arrive_down] ++
  concat (repeat [Usual Turn; Overtake_up 1; Usual Arrive_up; Usual Arrive_down] 255) ++ [Usual Arrive_up].
Theorem C117_part_refuted : exists ip c0 msgs es0 ch frame ts, linked ip c0 msgs es0 ch /\ meaningful (c_state c0) frame /\
  st_local (c_state (after c0 es0)) = 0 /\ ry_paced frame (sy_start (after c0 es0) ch) ts /\
  let s := ry_run frame (sy_start (after c0 es0) ch) ts in
  zlen (written s) = 256 /\ exists x, gw_bus (sy_gw s) = written s ++ [x].
Proof.
  exists ex_ip, ex_talker, ex_chatty, [EvMade; EvData ex_accept], 0x15, ex_frames, ex_copy.
  split.
  { split; [|split; [orderly_tac|split; [vm_compute; reflexivity|split; [vm_compute; reflexivity|split; [lia|vm_compute; reflexivity]]]]].
    exists 3671, ex_cst. split; [reflexivity|]. split; [exact ex_ip_ok|]. repeat split; try discriminate.
    apply Forall_forall. intros m Im. apply repeat_spec in Im. subst m. reflexivity. }
  split; [exact ex_meaningful|]. split; [vm_compute; reflexivity|]. split.
  { apply pacedb_sound. vm_compute. reflexivity. }
  cbv zeta. split; [vm_compute; reflexivity|]. eexists. vm_compute. reflexivity.
Qed.
Print Assumptions C117_part_refuted.

(** The second telegram overtakes two copies of the first, one of which arrives after
    it; requests overtake acknowledgements and acknowledgements requests. *)
Definition ex_turbulent : list turbulence :=
  [Usual Transmit; Usual (Repeat_down 0); Usual (Repeat_down 0); Usual Arrive_down; Usual Turn; Overtake_up 1; Usual Arrive_up; Usual Arrive_up;
   Usual Transmit; Overtake_down 3; Usual Arrive_down; Overtake_down 2; Usual Arrive_down; Usual Turn; Usual (Repeat_up 1);
   Overtake_up 2; Usual Arrive_up; Overtake_down 2; Usual Arrive_down; Usual Arrive_up; Usual Arrive_down; Usual Arrive_up].
Example C117_example : linked ex_ip ex_client ex_msgs [EvMade; EvData ex_accept] 0x15 /\ meaningful (c_state ex_client) ex_frames /\
  st_local (c_state (after ex_client [EvMade; EvData ex_accept])) = 0 /\ ry_paced ex_frames ex_sys ex_turbulent /\
  let s := ry_run ex_frames ex_sys ex_turbulent in
  gw_sent (sy_gw s) = 2 /\ client_taken s = 2 /\ reports s = ex_delivered ++ ex_delivered /\
  length (written s) = 2%nat /\ gw_bus (sy_gw s) = written s /\ st_local (c_state (sy_client s)) = 2 /\ length (sy_down s) = 2%nat.
Proof.
  split; [exact ex_linked|]. split; [exact ex_meaningful|]. split; [vm_compute; reflexivity|].
  split; [apply pacedb_sound; vm_compute; reflexivity|]. cbv zeta. repeat split; vm_compute; reflexivity.
Qed.
