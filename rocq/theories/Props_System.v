(** C64-C67: the client and a gateway over a network that loses and repeats
    datagrams. *)
From Coq Require Import String Ascii ZArith List Bool Lia ZifyBool.
From Verif Require Import Py Base Msg Address Dpt Tables LData Inet State Encode Decode Client.
From Verif Require Import SpecMsg SpecTables SpecWire SpecDecode SpecClient SpecSystem.
From Verif Require Import ClientProofs DeliveryProofs SystemProofs.
From Verif Require Import Props_Tables Props_Encode Props_Decode Props_Client.
Import ListNotations.
Open Scope Z_scope.

(** The client of the examples for C35, just accepted; every telegram of the
    gateway is the write of the examples for C24. *)
Definition ex_sys : system := sy_start (after ex_client [EvMade; EvData ex_accept]) 0x15.
Definition ex_frames (_ : Z) : list Z := ex_frame.
Lemma ex_linked : linked ex_ip ex_client ex_msgs [EvMade; EvData ex_accept] 0x15.
Proof.
  split; [exact ex_well_made|]. split; [orderly_tac|]. split; [vm_compute; reflexivity|]. split; [vm_compute; reflexivity|].
  split; [lia|]. vm_compute. reflexivity.
Qed.
Lemma ex_meaningful : meaningful (c_state ex_client) ex_frames.
Proof. intros i. split; [vm_compute; octets_tac|]. exists ex_delivered. vm_compute. reflexivity. Qed.

(** ** C64 *)

(** Whatever the network loses or repeats: the client has reported the first
    telegrams of the gateway, each once and in order, and their number differs
    by at most one from what the gateway counts as delivered. *)
Theorem C64_in_order : forall ip c0 msgs es0 ch frame hs, linked ip c0 msgs es0 ch -> sendable frame ->
  let s := sy_run frame (sy_start (after c0 es0) ch) hs in
  reports s = meanings (c_state c0) frame (client_taken s) /\
  gw_sent (sy_gw s) - 1 <= client_taken s <= gw_sent (sy_gw s) + 1.
Proof.
  intros ip c0 msgs es0 ch frame hs L Mf s. pose proof (local_range ip c0 msgs es0 ch L) as R.
  destruct (sim_start ip c0 msgs es0 ch frame (st_local (c_state (after c0 es0))) L ltac:(lia)) as (S & F & Hch).
  destruct (sim_inv inb ip ch (c_state c0) frame hs Hch F Mf (fun x a h _ => inb_step x a h) _ _ S (inb_start _)) as (a & Sa & Ia).
  fold s in Sa. rewrite (m_dlv _ _ _ _ _ _ Sa), (m_taken _ _ _ _ _ _ Sa), (m_g _ _ _ _ _ _ Sa). split; [|apply Ia].
  rewrite (i_dlv _ Ia). reflexivity.
Qed.
Print Assumptions C64_in_order.
(** While nothing is lost each round delivers one telegram: from a state in which
    nothing is under way and both ends agree, [n] rounds deliver the next [n]. *)
Theorem C64_rounds : forall ip c0 msgs es0 ch frame hs n, linked ip c0 msgs es0 ch -> sendable frame ->
  let s := sy_run frame (sy_start (after c0 es0) ch) hs in
  sy_down s = [] -> sy_up s = [] -> client_taken s = gw_sent (sy_gw s) ->
  (forall i, client_taken s <= i < client_taken s + Z.of_nat n -> exists m, meaning (c_state c0) (frame i) = Ok m) ->
  let s' := sy_run frame s (concat (repeat [Transmit; Arrive_down; Arrive_up] n)) in
  sy_down s' = [] /\ sy_up s' = [] /\
  client_taken s' = client_taken s + Z.of_nat n /\ gw_sent (sy_gw s') = gw_sent (sy_gw s) + Z.of_nat n /\
  reports s' = meanings (c_state c0) frame (client_taken s + Z.of_nat n).
Proof.
  intros ip c0 msgs es0 ch frame hs n L Mf s D U K Hl s'. pose proof (local_range ip c0 msgs es0 ch L) as R.
  destruct (sim_start ip c0 msgs es0 ch frame (st_local (c_state (after c0 es0))) L ltac:(lia)) as (S & F & Hch).
  destruct (sim_inv inb ip ch (c_state c0) frame hs Hch F Mf (fun x a h _ => inb_step x a h) _ _ S (inb_start _)) as (a & Sa & Ia).
  fold s in Sa. pose proof Sa as []. rewrite D in m_down. rewrite U in m_up. symmetry in m_down, m_up. apply map_nil in m_down, m_up.
  destruct (rounds_down ip ch (c_state c0) frame n Hch F Mf s a Sa m_down m_up ltac:(congruence) ltac:(intros i Hi; apply Hl; lia)) as (a' & Sa' & D' & U' & K' & G'). fold s' in Sa'.
  assert (Ta : client_taken s' = client_taken s + Z.of_nat n).
  { rewrite (SystemProofs.m_taken _ _ _ _ _ _ Sa'). rewrite K', m_taken. reflexivity. }
  split; [rewrite (SystemProofs.m_down _ _ _ _ _ _ Sa'), D'; reflexivity|].
  split; [rewrite (SystemProofs.m_up _ _ _ _ _ _ Sa'), U'; reflexivity|].
  split; [exact Ta|]. split; [rewrite (SystemProofs.m_g _ _ _ _ _ _ Sa'), m_g; exact G'|].
  pose proof (C64_in_order ip c0 msgs es0 ch frame (hs ++ concat (repeat [Transmit; Arrive_down; Arrive_up] n)) L Mf) as [X _].
  assert (E : sy_run frame (sy_start (after c0 es0) ch) (hs ++ concat (repeat [Transmit; Arrive_down; Arrive_up] n)) = s').
  { unfold s', s, sy_run. apply fold_left_app. }
  cbv zeta in X. rewrite E in X. rewrite X, Ta. reflexivity.
Qed.
Print Assumptions C64_rounds.
(** Requests transmitted twice, repeated by the network and lost: three telegrams
    reported, each once. *)
Definition ex_rough : list happening :=
  [Transmit; Lose_down 0; Transmit; Arrive_down; Arrive_up;
   Transmit; Repeat_down 0; Arrive_down; Lose_down 0; Arrive_up;
   Transmit; Arrive_down; Repeat_up 0; Arrive_up; Arrive_up].
Example C64_example : linked ex_ip ex_client ex_msgs [EvMade; EvData ex_accept] 0x15 /\ meaningful (c_state ex_client) ex_frames /\
  let s := sy_run ex_frames ex_sys ex_rough in
  client_taken s = 3 /\ gw_sent (sy_gw s) = 3 /\ sy_down s = [] /\ sy_up s = [] /\
  reports s = ex_delivered ++ ex_delivered ++ ex_delivered.
Proof. split; [exact ex_linked|]. split; [exact ex_meaningful|]. repeat split; vm_compute; reflexivity. Qed.

(** ** C65 *)

(** When the client has taken a request and the acknowledgement is lost, the
    tunnel is blocked for good: whatever happens, repetitions included, the
    gateway's count does not move and nothing more is delivered. *)
Theorem C65_lost_ack : forall ip c0 msgs es0 ch frame hs, linked ip c0 msgs es0 ch -> sendable frame ->
  let s := sy_run frame (sy_start (after c0 es0) ch) hs in
  client_taken s = gw_sent (sy_gw s) + 1 -> ~ acks_with (gw_sent (sy_gw s) mod 256) (sy_up s) ->
  forall more, let s' := sy_run frame s more in
  gw_sent (sy_gw s') = gw_sent (sy_gw s) /\ client_taken s' = client_taken s /\ reports s' = reports s.
Proof.
  intros ip c0 msgs es0 ch frame hs L Mf s K N more s'. pose proof (local_range ip c0 msgs es0 ch L) as R.
  destruct (sim_start ip c0 msgs es0 ch frame (st_local (c_state (after c0 es0))) L ltac:(lia)) as (S & F & Hch).
  destruct (sim_inv inb ip ch (c_state c0) frame hs Hch F Mf (fun x a h _ => inb_step x a h) _ _ S (inb_start _)) as (a & Sa & Ia).
  fold s in Sa. assert (St : stuck (a_g a) a).
  { constructor; [exact Ia|reflexivity| |].
    - rewrite <- (m_taken _ _ _ _ _ _ Sa), <- (m_g _ _ _ _ _ _ Sa). exact K.
    - apply Forall_forall. intros [p j c|v|d] Iv; try exact I. intros ->. apply N.
      exists (tunnelling_ack ch (a_g a) 0), 0, 10, 4, (ch mod 256), [0]. split.
      + rewrite (m_up _ _ _ _ _ _ Sa). apply (in_map (up_dgram ch)) in Iv. exact Iv.
      + rewrite (m_g _ _ _ _ _ _ Sa). reflexivity. }
  destruct (sim_inv (stuck (a_g a)) ip ch (c_state c0) frame more Hch F Mf (fun x b h _ => stuck_step (a_g a) x b h) _ _ Sa St) as (a' & Sa' & St').
  fold s' in Sa'. rewrite (m_g _ _ _ _ _ _ Sa), (m_g _ _ _ _ _ _ Sa'), (m_taken _ _ _ _ _ _ Sa), (m_taken _ _ _ _ _ _ Sa'), (m_dlv _ _ _ _ _ _ Sa), (m_dlv _ _ _ _ _ _ Sa').
  destruct St, St'. rewrite (i_dlv _ Ia), (i_dlv _ t_inb0). repeat split; congruence.
Qed.
Print Assumptions C65_lost_ack.
(** What the gateway counts as delivered need not have arrived: the client
    answers a repeated request with the counter of the next one, which the
    gateway takes as the acknowledgement of a request that was lost. *)
Theorem C65_counted_refuted : exists ip c0 msgs es0 ch frame hs, linked ip c0 msgs es0 ch /\ meaningful (c_state c0) frame /\
  let s := sy_run frame (sy_start (after c0 es0) ch) hs in
  client_taken s < gw_sent (sy_gw s) /\ sy_down s = [] /\ sy_up s = [].
Proof.
  exists ex_ip, ex_client, ex_msgs, [EvMade; EvData ex_accept], 0x15, ex_frames,
    [Transmit; Repeat_down 0; Arrive_down; Arrive_down; Arrive_up; Transmit; Lose_down 0; Arrive_up].
  split; [exact ex_linked|]. split; [exact ex_meaningful|]. vm_compute. repeat split.
Qed.
Print Assumptions C65_counted_refuted.
(** Then, unless the lost request is still under way, the tunnel is blocked for
    good as well. *)
Theorem C65_ahead : forall ip c0 msgs es0 ch frame hs, linked ip c0 msgs es0 ch -> sendable frame ->
  let s := sy_run frame (sy_start (after c0 es0) ch) hs in
  client_taken s < gw_sent (sy_gw s) -> ~ requests_with (client_taken s mod 256) (sy_down s) ->
  forall more, let s' := sy_run frame s more in
  gw_sent (sy_gw s') = gw_sent (sy_gw s) /\ client_taken s' = client_taken s /\ reports s' = reports s.
Proof.
  intros ip c0 msgs es0 ch frame hs L Mf s K N more s'. pose proof (local_range ip c0 msgs es0 ch L) as R.
  destruct (sim_start ip c0 msgs es0 ch frame (st_local (c_state (after c0 es0))) L ltac:(lia)) as (S & F & Hch).
  destruct (sim_inv inb ip ch (c_state c0) frame hs Hch F Mf (fun x a h _ => inb_step x a h) _ _ S (inb_start _)) as (a & Sa & Ia).
  fold s in Sa. rewrite (m_taken _ _ _ _ _ _ Sa), (m_g _ _ _ _ _ _ Sa) in *. pose proof (i_gk _ Ia).
  assert (St : ahead (a_g a) a).
  { constructor; [exact Ia|reflexivity|lia|].
    apply Forall_forall. intros [i|j] Iv; try exact I. intros ->. apply N.
    exists (tunnelling_request ch (a_g a - 1) (frame (a_g a - 1))), (frame (a_g a - 1)). split.
    - rewrite (m_down _ _ _ _ _ _ Sa). apply (in_map (down_dgram ch frame)) in Iv. exact Iv.
    - rewrite request_tunnelled. replace (a_g a - 1) with (a_k a) by lia. reflexivity. }
  destruct (sim_inv (ahead (a_g a)) ip ch (c_state c0) frame more Hch F Mf (fun x b h _ => ahead_step (a_g a) x b h) _ _ Sa St) as (a' & Sa' & St').
  fold s' in Sa'. rewrite (m_g _ _ _ _ _ _ Sa'), (m_taken _ _ _ _ _ _ Sa'), (m_dlv _ _ _ _ _ _ Sa), (m_dlv _ _ _ _ _ _ Sa').
  destruct St, St'. rewrite (i_dlv _ Ia), (i_dlv _ h_inb0). repeat split; congruence.
Qed.
Print Assumptions C65_ahead.
(** A lost acknowledgement; the gateway repeats the request and the client
    answers 1 where 0 is awaited. *)
Example C65_example :
  let s := sy_run ex_frames ex_sys [Transmit; Arrive_down; Lose_up 0] in
  let s' := sy_run ex_frames s [Transmit; Arrive_down] in
  client_taken s = 1 /\ gw_sent (sy_gw s) = 0 /\ sy_up s = [] /\ sy_up s' = [ex_ack 1] /\
  gw_sent (sy_gw (sy_run ex_frames s' [Arrive_up; Transmit; Arrive_down; Arrive_up])) = 0.
Proof. repeat split; vm_compute; reflexivity. Qed.

(** ** C66 *)

(** What reaches the bus is some of what the writer wrote, in order, nothing
    twice. *)
Theorem C66_part : forall ip c0 msgs es0 ch frame hs, linked ip c0 msgs es0 ch -> sendable frame ->
  st_local (c_state (after c0 es0)) = 0 ->
  let s := sy_run frame (sy_start (after c0 es0) ch) hs in
  part_of (gw_bus (sy_gw s)) (written s).
Proof.
  intros ip c0 msgs es0 ch frame hs L Mf El s.
  destruct (sim_start ip c0 msgs es0 ch frame 0 L El) as (S & F & Hch).
  destruct (sim_inv outb ip ch (c_state c0) frame hs Hch F Mf (fun x a h _ => outb_step x a h) _ _ S (outb_start 0 ltac:(lia))) as (a & Sa & Ia).
  fold s in Sa. rewrite (m_bus _ _ _ _ _ _ Sa), (m_wr _ _ _ _ _ _ Sa). apply bus_part. exact Ia.
Qed.
Print Assumptions C66_part.
(** When the writer waits for the acknowledgement before each turn, everything
    reaches the bus except possibly the last message, and that too once it has
    been acknowledged. *)
Theorem C66_paced : forall ip c0 msgs es0 ch frame hs, linked ip c0 msgs es0 ch -> sendable frame ->
  st_local (c_state (after c0 es0)) = 0 -> paced frame 0 (sy_start (after c0 es0) ch) hs ->
  let s := sy_run frame (sy_start (after c0 es0) ch) hs in
  exists rest, written s = gw_bus (sy_gw s) ++ rest /\ zlen rest <= 1 /\
  (st_local (c_state (sy_client s)) = zlen (written s) mod 256 -> rest = []).
Proof.
  intros ip c0 msgs es0 ch frame hs L Mf El Pc s.
  destruct (sim_start ip c0 msgs es0 ch frame 0 L El) as (S & F & Hch).
  assert (P0 : pinv 0 (mkabs 0 0 0 0 [] [] [] [] [])).
  { constructor; [apply outb_start; lia|reflexivity|cbn; lia|cbn; lia|constructor]. }
  destruct (sim_paced 0 ip ch (c_state c0) frame hs ltac:(lia) Hch F Mf _ _ S P0 Pc) as (a & Sa & Ia).
  fold s in Sa. rewrite (m_bus _ _ _ _ _ _ Sa), (m_wr _ _ _ _ _ _ Sa), (m_l _ _ _ _ _ _ Sa), (paced_bus 0 a ltac:(lia) Ia).
  change (Z.to_nat (- 0)) with O. cbn [skipn]. set (w := map snd (a_wr a)). assert (Lw : zlen (a_wr a) = zlen w) by (unfold w, zlen; rewrite map_length; reflexivity).
  exists (skipn (Z.to_nat (a_r a)) w). split; [symmetry; apply firstn_skipn|].
  pose proof (p_len _ _ Ia). pose proof (b_lr _ (p_outb _ _ Ia)). rewrite Lw in *. split.
  - unfold zlen in *. rewrite skipn_length. lia.
  - intros E. apply skipn_all2. unfold zlen in *. lia.
Qed.
Print Assumptions C66_paced.
(** One turn on a quiet tunnel with agreeing counters: the request is put on the
    bus, the acknowledgement comes back. *)
Theorem C66_round : forall ip c0 msgs es0 ch frame hs d n cemi, linked ip c0 msgs es0 ch -> sendable frame ->
  let s := sy_run frame (sy_start (after c0 es0) ch) hs in
  sy_down s = [] -> sy_up s = [] -> st_local (c_state (sy_client s)) = gw_taken (sy_gw s) mod 256 ->
  sy_up (sy_step frame s Turn) = [d] -> tunnelled d = Some (n, cemi) ->
  let s' := sy_run frame s [Turn; Arrive_up; Arrive_down] in
  gw_bus (sy_gw s') = gw_bus (sy_gw s) ++ [cemi] /\ sy_down s' = [] /\ sy_up s' = [] /\
  gw_taken (sy_gw s') = gw_taken (sy_gw s) + 1 /\ st_local (c_state (sy_client s')) = gw_taken (sy_gw s') mod 256.
Proof.
  intros ip c0 msgs es0 ch frame hs d n cemi L Mf s D U El Ed Td s'. pose proof (local_range ip c0 msgs es0 ch L) as R.
  destruct (sim_start ip c0 msgs es0 ch frame (st_local (c_state (after c0 es0))) L ltac:(lia)) as (S & F & Hch).
  destruct (sim_inv (fun _ => True) ip ch (c_state c0) frame hs Hch F Mf (fun _ _ _ _ _ => I) _ _ S I) as (a & Sa & _).
  fold s in Sa. pose proof Sa as []. rewrite D in m_down. rewrite U in m_up. symmetry in m_down, m_up. apply map_nil in m_down, m_up.
  destruct (turn_up ip ch (c_state c0) frame s a d n cemi Hch F Mf Sa) as (x & S1); [rewrite U; exact Ed|exact Td|].
  pose proof (sim_step_fixed ip ch (c_state c0) frame _ _ Arrive_up Hch F Mf S1 ltac:(discriminate) (no_arrival _ _ _ Arrive_up ltac:(discriminate))) as S2.
  assert (Ao : acks_only a) by (unfold acks_only; rewrite m_down; constructor).
  pose proof (acks_only_takes (c_state c0) frame _ Arrive_down (acks_only_step None _ Arrive_up ltac:(discriminate) (acks_only_step (Some (Some cemi, x)) a Turn ltac:(discriminate) Ao))) as T2.
  pose proof (sim_step_fixed ip ch (c_state c0) frame _ _ Arrive_down Hch F Mf S2 ltac:(discriminate) T2) as S3.
  change (sy_step frame (sy_step frame (sy_step frame s Turn) Arrive_up) Arrive_down) with s' in S3.
  unfold astep at 1 in S3. cbn [astep a_up a_down items_of] in S3. rewrite m_down, m_up in S3.
  cbn [app a_down a_up a_k a_g a_r a_l a_dlv a_wr a_bp] in S3. rewrite m_l, m_r in El.
  rewrite El, Z.eqb_refl in S3. cbn [app a_down a_up a_k a_g a_r a_l a_dlv a_wr a_bp] in S3. rewrite El, Z.eqb_refl in S3.
  destruct S3. cbn [app a_down a_up a_k a_g a_r a_l a_dlv a_wr a_bp] in *.
  split; [|repeat split; try assumption; try congruence].
  - rewrite m_bus0, m_bus, map_app. f_equal.
    + apply map_ext_in. intros p Ip. apply frame_at_app. rewrite Forall_forall in m_bp. auto.
    + cbn. unfold frame_at. rewrite app_nth2 by lia. rewrite Nat.sub_diag. reflexivity.
  - rewrite m_l0, m_r0. lia.
Qed.
Print Assumptions C66_round.
(** Two turns without an acknowledgement between them: both requests carry the
    same counter, the gateway takes the second for a repetition of the first; it
    never reaches the bus, although nothing is lost. *)
Theorem C66_unpaced : forall ip c0 msgs es0 ch frame hs d1 n1 cemi1 d2 n2 cemi2, linked ip c0 msgs es0 ch -> sendable frame ->
  let s := sy_run frame (sy_start (after c0 es0) ch) hs in
  sy_down s = [] -> sy_up s = [] -> st_local (c_state (sy_client s)) = gw_taken (sy_gw s) mod 256 ->
  sy_up (sy_step frame s Turn) = [d1] -> tunnelled d1 = Some (n1, cemi1) ->
  sy_up (sy_run frame s [Turn; Turn]) = [d1; d2] -> tunnelled d2 = Some (n2, cemi2) ->
  let s' := sy_run frame s [Turn; Turn; Arrive_up; Arrive_up; Arrive_down; Arrive_down] in
  written s' = written s ++ [cemi1; cemi2] /\ gw_bus (sy_gw s') = gw_bus (sy_gw s) ++ [cemi1] /\
  sy_down s' = [] /\ sy_up s' = [] /\ st_local (c_state (sy_client s')) = gw_taken (sy_gw s') mod 256.
Proof.
  intros ip c0 msgs es0 ch frame hs d1 n1 cemi1 d2 n2 cemi2 L Mf s D U El Ed1 Td1 Ed2 Td2 s'. pose proof (local_range ip c0 msgs es0 ch L) as R.
  destruct (sim_start ip c0 msgs es0 ch frame (st_local (c_state (after c0 es0))) L ltac:(lia)) as (S & F & Hch).
  destruct (sim_inv (fun _ => True) ip ch (c_state c0) frame hs Hch F Mf (fun _ _ _ _ _ => I) _ _ S I) as (a & Sa & _).
  fold s in Sa. pose proof Sa as []. rewrite D in m_down. rewrite U in m_up. symmetry in m_down, m_up. apply map_nil in m_down, m_up.
  destruct (turn_up ip ch (c_state c0) frame s a d1 n1 cemi1 Hch F Mf Sa) as (x1 & S1); [rewrite U; exact Ed1|exact Td1|].
  destruct (turn_up ip ch (c_state c0) frame _ _ d2 n2 cemi2 Hch F Mf S1) as (x2 & S2); [rewrite Ed1; exact Ed2|exact Td2|].
  pose proof (sim_step_fixed ip ch (c_state c0) frame _ _ Arrive_up Hch F Mf S2 ltac:(discriminate) (no_arrival _ _ _ Arrive_up ltac:(discriminate))) as S3.
  pose proof (sim_step_fixed ip ch (c_state c0) frame _ _ Arrive_up Hch F Mf S3 ltac:(discriminate) (no_arrival _ _ _ Arrive_up ltac:(discriminate))) as S4.
  rewrite m_l, m_r in El. destruct a as [g r k l dn up dl wr bp]. cbn [a_down a_up a_k a_g a_r a_l a_dlv a_wr a_bp] in *. subst dn up.
  pose proof (acks_only_step None _ Arrive_up ltac:(discriminate) (acks_only_step None _ Arrive_up ltac:(discriminate)
    (acks_only_step (Some (Some cemi2, x2)) _ Turn ltac:(discriminate) (acks_only_step (Some (Some cemi1, x1)) (mkabs g r k l [] [] dl wr bp) Turn ltac:(discriminate) (Forall_nil _))))) as T4.
  pose proof (sim_step_fixed ip ch (c_state c0) frame _ _ Arrive_down Hch F Mf S4 ltac:(discriminate) (acks_only_takes _ _ _ _ T4)) as S5.
  pose proof (sim_step_fixed ip ch (c_state c0) frame _ _ Arrive_down Hch F Mf S5 ltac:(discriminate) (acks_only_takes _ _ _ _ (acks_only_step None _ Arrive_down ltac:(discriminate) T4))) as S6.
  clear S1 S2 S3 S4 S5 T4.
  change (sy_step frame (sy_step frame (sy_step frame (sy_step frame (sy_step frame (sy_step frame s Turn) Turn) Arrive_up) Arrive_up) Arrive_down) Arrive_down) with s' in S6.
  unfold astep at 5 6 in S6. cbn [items_of app a_down a_up a_k a_g a_r a_l a_dlv a_wr a_bp] in S6.
  unfold astep at 4 in S6. cbn [app a_down a_up a_k a_g a_r a_l a_dlv a_wr a_bp] in S6. rewrite El, Z.eqb_refl in S6.
  unfold astep at 3 in S6. cbn [app a_down a_up a_k a_g a_r a_l a_dlv a_wr a_bp] in S6.
  replace (l mod 256 =? (r + 1) mod 256) with false in S6 by lia. replace (l mod 256 =? (r + 1 - 1) mod 256) with true in S6 by lia.
  unfold astep at 2 in S6. cbn [app a_down a_up a_k a_g a_r a_l a_dlv a_wr a_bp] in S6. replace (r mod 256 =? l mod 256) with true in S6 by lia.
  unfold astep in S6. cbn [app a_down a_up a_k a_g a_r a_l a_dlv a_wr a_bp] in S6. replace ((r + 1 - 1) mod 256 =? (l + 1) mod 256) with false in S6 by lia.
  destruct S6. cbn [app a_down a_up a_k a_g a_r a_l a_dlv a_wr a_bp] in *.
  split; [rewrite m_wr0, m_wr, !map_app, <- app_assoc; reflexivity|]. split; [|repeat split; try assumption; try congruence].
  - rewrite m_bus0, m_bus, map_app. f_equal.
    + apply map_ext_in. intros p Ip. rewrite <- app_assoc. apply frame_at_app. rewrite Forall_forall in m_bp. auto.
    + cbn. rewrite <- app_assoc. unfold frame_at. rewrite app_nth2 by lia. rewrite Nat.sub_diag. reflexivity.
  - rewrite m_l0, m_r0. lia.
Qed.
Print Assumptions C66_unpaced.
(** So what the writer writes need not reach the bus, even when nothing is lost. *)
Theorem C66_complete_refuted : exists ip c0 msgs es0 ch frame hs, linked ip c0 msgs es0 ch /\ meaningful (c_state c0) frame /\
  st_local (c_state (after c0 es0)) = 0 /\ (forall h, In h hs -> h = Turn \/ h = Arrive_up \/ h = Arrive_down) /\
  let s := sy_run frame (sy_start (after c0 es0) ch) hs in
  sy_down s = [] /\ sy_up s = [] /\ length (written s) = 2%nat /\ length (gw_bus (sy_gw s)) = 1%nat.
Proof.
  exists ex_ip, ex_client, ex_msgs, [EvMade; EvData ex_accept], 0x15, ex_frames, [Turn; Turn; Arrive_up; Arrive_up; Arrive_down; Arrive_down].
  split; [exact ex_linked|]. split; [exact ex_meaningful|]. split; [vm_compute; reflexivity|].
  split; [intros h [<-|[<-|[<-|[<-|[<-|[<-|[]]]]]]]; auto|]. repeat split; vm_compute; reflexivity.
Qed.
Print Assumptions C66_complete_refuted.
(** The first request is lost, and its repetition by the network arrives; both
    messages reach the bus when the second turn waits. *)
Example C66_example :
  let hs := [Turn; Repeat_up 0; Lose_up 0; Arrive_up; Arrive_down; Turn; Arrive_up; Arrive_down] in
  let s := sy_run ex_frames ex_sys hs in
  paced ex_frames 0 ex_sys hs /\ st_local (c_state (after ex_client [EvMade; EvData ex_accept])) = 0 /\
  sy_up (sy_run ex_frames ex_sys [Turn; Turn]) = map (tunnelling_request 0x15 0) (written s) /\
  written s = gw_bus (sy_gw s) /\ length (written s) = 2%nat.
Proof. cbv zeta. split; [|repeat split; vm_compute; reflexivity]. cbn [paced]. repeat split; try discriminate; intros _; vm_compute; reflexivity. Qed.

(** ** C67 *)

(** The outgoing counter survives a new connection (C39).  A gateway that has
    just accepted the client expects 0: with a counter from 1 to 254 nothing the
    writer sends ever reaches the bus, or is acknowledged. *)
Theorem C67_deaf : forall ip c0 msgs es0 ch frame hs, linked ip c0 msgs es0 ch -> sendable frame ->
  1 <= st_local (c_state (after c0 es0)) <= 254 ->
  let s := sy_run frame (sy_start (after c0 es0) ch) hs in
  gw_bus (sy_gw s) = [] /\ gw_taken (sy_gw s) = 0 /\
  st_local (c_state (sy_client s)) = st_local (c_state (after c0 es0)).
Proof.
  intros ip c0 msgs es0 ch frame hs L Mf Hl s. set (l := st_local (c_state (after c0 es0))) in *.
  destruct (sim_start ip c0 msgs es0 ch frame l L ltac:(fold l; lia)) as (S & F & Hch).
  assert (D0 : deaf l (mkabs 0 0 0 l [] [] [] [] [])) by (constructor; try reflexivity; constructor).
  destruct (sim_inv (deaf l) ip ch (c_state c0) frame hs Hch F Mf (fun x a h _ => deaf_step l x a h Hl) _ _ S D0) as (a & Sa & []).
  fold s in Sa. rewrite (m_bus _ _ _ _ _ _ Sa), (m_r _ _ _ _ _ _ Sa), (m_l _ _ _ _ _ _ Sa), e_bp, e_l, e_r.
  repeat split. lia.
Qed.
Print Assumptions C67_deaf.
(** With 255 the first message is taken for a repetition and swallowed, although
    it is acknowledged; with paced turns the others arrive. *)
Theorem C67_swallowed : forall ip c0 msgs es0 ch frame hs, linked ip c0 msgs es0 ch -> sendable frame ->
  st_local (c_state (after c0 es0)) = 255 -> paced frame (-1) (sy_start (after c0 es0) ch) hs ->
  let s := sy_run frame (sy_start (after c0 es0) ch) hs in
  exists rest, tl (written s) = gw_bus (sy_gw s) ++ rest /\ zlen rest <= 1.
Proof.
  intros ip c0 msgs es0 ch frame hs L Mf El Pc s.
  destruct (sim_start ip c0 msgs es0 ch frame (-1) L El) as (S & F & Hch).
  assert (P0 : pinv (-1) (mkabs 0 0 0 (-1) [] [] [] [] [])).
  { constructor; [apply outb_start; lia|reflexivity|cbn; lia|cbn; lia|constructor]. }
  destruct (sim_paced (-1) ip ch (c_state c0) frame hs ltac:(lia) Hch F Mf _ _ S P0 Pc) as (a & Sa & Ia).
  fold s in Sa. rewrite (m_bus _ _ _ _ _ _ Sa), (m_wr _ _ _ _ _ _ Sa), (paced_bus (-1) a ltac:(lia) Ia).
  change (Z.to_nat (- -1)) with 1%nat. set (w := map snd (a_wr a)). assert (Lw : zlen (a_wr a) = zlen w) by (unfold w, zlen; rewrite map_length; reflexivity).
  replace (skipn 1 w) with (tl w) by (destruct w; reflexivity).
  exists (skipn (Z.to_nat (a_r a)) (tl w)). split; [symmetry; apply firstn_skipn|].
  pose proof (p_len _ _ Ia). pose proof (b_lr _ (p_outb _ _ Ia)). rewrite Lw in *.
  unfold zlen in *. rewrite skipn_length. destruct w; cbn [tl length] in *; lia.
Qed.
Print Assumptions C67_swallowed.
(** A client that had one message acknowledged before it reconnected; one that
    had 255 acknowledgements. *)
Definition ex_again (n : nat) : list event :=
  [EvMade; EvData ex_accept] ++ map (fun i => EvData (ex_ack (Z.of_nat i))) (seq 0 n) ++ [EvLost; EvMade; EvData ex_accept].
Example C67_example : linked ex_ip ex_client ex_msgs (ex_again 1) 0x15 /\
  st_local (c_state (after ex_client (ex_again 1))) = 1 /\
  (let s := sy_run ex_frames (sy_start (after ex_client (ex_again 1)) 0x15) [Turn; Arrive_up; Arrive_down; Turn; Arrive_up; Arrive_down] in
   length (written s) = 2%nat /\ gw_bus (sy_gw s) = []) /\
  linked ex_ip ex_client ex_msgs (ex_again 255) 0x15 /\ st_local (c_state (after ex_client (ex_again 255))) = 255 /\
  (let hs := [Turn; Arrive_up; Arrive_down; Turn; Arrive_up; Arrive_down] in
   let s := sy_run ex_frames (sy_start (after ex_client (ex_again 255)) 0x15) hs in
   paced ex_frames (-1) (sy_start (after ex_client (ex_again 255)) 0x15) hs /\
   length (written s) = 2%nat /\ gw_bus (sy_gw s) = tl (written s)).
Proof.
  assert (X : forall n, orderly false (ex_again n)).
  { intros n. unfold ex_again. cbn [app orderly]. split; [reflexivity|]. split; [vm_compute; octets_tac|].
    generalize (seq 0 n). induction l as [|i l IH]; cbn [map app orderly].
    - repeat split. vm_compute. octets_tac.
    - split; [reflexivity|]. split; [apply ack_octets|exact IH]. }
  split; [split; [exact ex_well_made|]; split; [apply X|]; repeat split; vm_compute; reflexivity || discriminate|].
  split; [vm_compute; reflexivity|]. split; [split; vm_compute; reflexivity|].
  split; [split; [exact ex_well_made|]; split; [apply X|]; repeat split; vm_compute; reflexivity || discriminate|].
  split; [vm_compute; reflexivity|]. cbv zeta. split; [|split; vm_compute; reflexivity].
  cbn [paced]. split; [intros _; vm_compute; reflexivity|]. do 2 (split; [intros X1; discriminate X1|]).
  split; [intros _; vm_compute; reflexivity|]. do 2 (split; [intros X1; discriminate X1|]). exact I.
Qed.
