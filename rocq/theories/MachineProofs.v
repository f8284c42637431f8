(** C112: the client and the machine go in step. *)
From Coq Require Import String ZArith List Bool Lia ZifyBool.
From Verif Require Import Py Base Msg Address Dpt Tables LData Inet State Encode Decode Client.
From Verif Require Import SpecMsg SpecTables SpecWire SpecDecode SpecClient SpecMachine.
From Verif Require Import MsgProofs EncodeProofs DecodeProofs SimProofs IpProofs OctetsProofs ClientProofs DeliveryProofs Props_Encode Props_Decode.
Import ListNotations.
Open Scope Z_scope.

Definition phase_of (w : writer) : phase :=
  match w with WWait l => Waiting l | WSend l => Sending l | WStopped => Finished | WDead e => Broken e end.

(** The client [c] is where the machine [k] is. *)
Record together (ip : list Z) (port : Z) (st : state) (c : client) (k : machine) : Prop := mktog {
  tg_addr : c_laddr c = dotted ip;
  tg_port : c_lport c = port;
  tg_out : c_out c = [];
  tg_up : c_transport c = k_up k;
  tg_ans : c_connected c = k_answered k;
  tg_phase : phase_of (c_writer c) = k_phase k;
  tg_state : agree (numbers st k) (c_state c);
  tg_exp : 0 <= k_expected k < 256;
  tg_num : 0 <= k_number k < 256
}.

Lemma agree_sym a b : agree a b -> agree b a.
Proof. intros ((A & B & C) & D & E & F). repeat split; congruence. Qed.
Lemma agree_trans a b c : agree a b -> agree b c -> agree a c.
Proof. intros ((A & B & C) & D & E & F) ((A' & B' & C') & D' & E' & F'). repeat split; congruence. Qed.

Lemma tg_fits ip port st ch c k : startable st ch -> together ip port st c k -> fits (c_state c).
Proof.
  intros (M & A & G & _) [_ _ _ _ _ _ ((M' & A' & G') & R & L & C) E N]. cbn in *.
  unfold fits. rewrite M', A', G', R, L, C. cbn. repeat split; try assumption; try lia. discriminate.
Qed.
Lemma start_fits st ch : startable st ch -> fits st.
Proof. intros (M & A & G & C & R & L). unfold fits. rewrite C. repeat split; try assumption; try lia. discriminate. Qed.

Lemma no_out c : c_out c = [] -> c_with_out [] c = c.
Proof. intros H. destruct c. cbn in H. subst. reflexivity. Qed.
Lemma received_spec d c : octets d ->
  datagram_received d c =
  (let '(r, s1) := decode_msg CNetIP d (c_state c) in
   match r with
   | Err e => (Err e, c_with_state s1 c)
   | Ok x =>
       match (match x with RList l => handle_responses l | RNone => mraise TypeError | RAck _ => mret tt end) (c_with_state s1 c) with
       | (Ok _, c2) => (Ok x, c2)
       | (Err e, c2) => (Err e, c2)
       end
   end).
Proof.
  intros O. unfold datagram_received. unfold mbind at 1, mlift at 1. rewrite bytes_hex_parse by exact O.
  unfold mbind, on_state. destruct (decode_msg CNetIP d (c_state c)) as [[[l| |l]|e] s1]; reflexivity.
Qed.

Lemma channel_some d ch : exists c, channel_after d (Some ch) = Some c.
Proof.
  unfold channel_after. destruct (ip_service d) as [[s r]|]; [|eauto].
  destruct r as [|? [|? [|x [|y r]]]]; eauto.
  destruct (_ && _); [eauto|]. destruct (_ && _); eauto.
Qed.
Lemma local_octet d n : 0 <= n < 256 -> 0 <= local_after d n < 256.
Proof.
  intros H. unfold local_after. destruct (ip_service d) as [[s r]|]; [|lia].
  destruct r as [|? [|? [|? [|? [|x [|y r]]]]]]; try lia. destruct (_ && _); lia.
Qed.
(** A tunnelling request moves neither the channel nor the own number. *)
Lemma request_still d n cemi ch num : tunnelled d = Some (n, cemi) ->
  octets d -> channel_after d ch = ch /\ local_after d num = num /\ 0 <= n < 256.
Proof.
  intros T O. destruct d as [|h [|v [|s1 [|s2 [|l1 [|l2 [|sz [|c [|ct [|sta r]]]]]]]]]]; try discriminate T.
  cbn [tunnelled] in T. unfold channel_after, local_after. cbn [ip_service].
  destruct ((h =? 6) && (v =? 16)) eqn:E; [|discriminate T]. cbn [andb] in T.
  destruct ((s1 =? 4) && (s2 =? 32)) eqn:F; [|discriminate T].
  destruct (256 * s1 + s2 =? 518) eqn:X1; [lia|]. destruct (256 * s1 + s2 =? 522) eqn:X2; [lia|].
  destruct (256 * s1 + s2 =? 1057) eqn:X3; [lia|]. cbn [andb]. injection T as <- <-.
  repeat split; try reflexivity; unfold octets in O; rewrite Forall_forall in O; specialize (O ct ltac:(cbn; tauto)); unfold is_octet in O; lia.
Qed.

Lemma data_step ip port st ch c k d : ipv4 ip -> startable st ch -> together ip port st c k -> octets d ->
  together ip port st (fst (client_step c (EvData d))) (fst (k_data ip port st k d)) /\
  visible (snd (client_step c (EvData d))) = snd (k_data ip port st k d).
Proof.
  intros Ip St Tg O. pose proof (tg_fits _ _ _ _ _ _ St Tg) as F. pose proof (start_fits _ _ St) as F0.
  destruct Tg as [La Lp Ho Up An Ph ((M' & A' & G') & R & L & C) Ex Nu]. cbn in M', A', G', R, L, C.
  pose proof (C31_netip d (c_state c) O (proj1 F)) as ((Mx & Ax & Gx) & Rx & Lx & Cx).
  rewrite C in Cx. rewrite L in Lx. rewrite R in Rx.
  unfold client_step. cbv zeta. rewrite (no_out c Ho). rewrite (received_spec d c O). unfold k_data. cbv zeta.
  destruct (channel_some d (k_channel k)) as (ch' & Ec'). rewrite Ec'. rewrite Ec' in Cx.
  pose proof (local_octet d (k_number k) Nu) as Nu'.
  destruct (connect_answer d) eqn:Ans.
  - destruct (decode_answer d (c_state c) O F Ans) as (_ & a & p & x & sta & D).
    rewrite (surjective_pairing (decode_msg CNetIP d (c_state c))). rewrite D.
    set (s1 := snd (decode_msg CNetIP d (c_state c))) in *. clearbody s1.
    cbn [handle_responses handle_response]. unfold mbind, on_state, mmodify, mget.
    cbn [c_with_state c_laddr c_lport c_state encode_msg]. rewrite La. unfold e_connectionstate_req.
    rewrite channel_frame by assumption. cbn [st_channel st_set_remote]. rewrite Cx.
    change ([6; 16] ++ be 2 CONNECTIONSTATE_REQUEST ++ [0; 16; ch' mod 256; 0] ++ endpoint ip (c_lport c))
      with (connectionstate_request ch' ip (c_lport c)).
    destruct (k_up k) eqn:Ku.
    + rewrite c_send_up by (assumption || (apply connectionstate_octets; assumption)).
      cbn [mret fst snd c_with_out c_with_connected c_with_state c_out c_laddr c_lport c_state c_transport c_connected c_writer].
      rewrite Ho, Lp. split; [|reflexivity]. constructor; cbn; try assumption; try congruence; try lia.
      repeat split; cbn; congruence.
    + rewrite c_send_down by exact Up.
      cbn [mret fst snd c_with_out c_with_connected c_with_state c_out c_laddr c_lport c_state c_transport c_connected c_writer].
      rewrite Ho. split; [|reflexivity]. constructor; cbn; try assumption; try congruence; try lia.
      { rewrite orb_false_r. exact An. }
      repeat split; cbn; congruence.
  - destruct (tunnelled d) as [[n cemi]|] eqn:Tun.
    + destruct (request_still d n cemi (Some (k_channel k)) (k_number k) Tun O) as (Ech & Enum & On).
      rewrite Ech in Ec'. injection Ec' as <-. rewrite Enum in *.
      destruct (decode_request d n cemi (c_state c) O F Tun) as [_ D]. rewrite R in D.
      destruct (n =? k_expected k) eqn:En.
      * assert (n = k_expected k) by lia. subst n. rewrite Z.eqb_refl in D.
        assert (S : same_tables st (c_state c)) by (repeat split; congruence).
        pose proof (decode_meaning d _ cemi st (c_state c) O Tun F0 F S (eq_sym R)) as Dm.
        pose proof (fun l => meaning_bus st cemi l (proj1 (tunnelled_some d _ cemi (c_state c) O Tun)) F0) as Mb.
        rewrite (surjective_pairing (decode_msg CNetIP d (c_state c))). rewrite Dm.
        set (s1 := snd (decode_msg CNetIP d (c_state c))) in *. clearbody s1.
        destruct (meaning st cemi) as [l|e]; cbn [rbind].
        -- specialize (Mb l eq_refl). cbn [handle_responses handle_response]. change (0 =? 0) with true. cbv iota.
           unfold mbind, on_state. cbn [c_with_state c_state]. rewrite ack_frame, Cx, Rx, Z.eqb_refl.
           destruct (k_up k) eqn:Ku.
           ++ rewrite c_send_up by (apply ack_octets || exact Up).
              rewrite quiet_responses by (apply bus_quiet; assumption).
              cbn [fst snd c_with_out c_with_state c_out c_laddr c_lport c_state c_transport c_connected c_writer].
              rewrite Ho. split.
              ** constructor; cbn; try assumption; try congruence; try lia. repeat split; cbn; congruence.
              ** unfold visible, deliveries. cbn [o_sent o_result filter bus_message app].
                 f_equal. apply filter_bus. exact Mb.
           ++ rewrite c_send_down by exact Up.
              cbn [fst snd c_with_out c_with_state c_out c_laddr c_lport c_state c_transport c_connected c_writer].
              rewrite Ho. split; [|reflexivity].
              constructor; cbn; try assumption; try congruence; try lia. repeat split; cbn; congruence.
        -- cbn [fst snd c_with_out c_with_state c_out c_laddr c_lport c_state c_transport c_connected c_writer].
           rewrite Ho. split; [|reflexivity]. constructor; cbn; try assumption; try congruence; try lia. repeat split; cbn; congruence.
      * destruct (k_expected k =? n) eqn:En'; [lia|]. destruct D as [D1 D2].
        rewrite (surjective_pairing (decode_msg CNetIP d (c_state c))). rewrite D1, D2.
        replace (n + 1 =? k_expected k) with (k_expected k =? n + 1) by lia.
        assert (X : together ip port st c k).
        { constructor; try assumption. repeat split; cbn; congruence. }
        assert (Y : c_with_out [] (c_with_state (c_state c) c) = c) by (destruct c; cbn in *; subst; reflexivity).
        destruct (k_expected k =? n + 1).
        -- cbn [handle_responses handle_response]. change (0 =? 0) with true. cbv iota.
           unfold mbind, on_state. cbn [c_with_state c_state]. rewrite ack_frame, C, R, En. cbn [andb].
           destruct (k_up k) eqn:Ku.
           ++ rewrite c_send_up by (apply ack_octets || exact Up). cbn [mret fst snd]. split.
              ** match goal with |- together _ _ _ ?x _ => replace x with c by (destruct c; cbn in *; subst; reflexivity) end. exact X.
              ** unfold visible, deliveries. cbn. rewrite Ho. reflexivity.
           ++ rewrite c_send_down by exact Up. cbn [mret fst snd]. split.
              ** match goal with |- together _ _ _ ?x _ => replace x with c by (destruct c; cbn in *; subst; reflexivity) end. exact X.
              ** unfold visible, deliveries. cbn. rewrite Ho. reflexivity.
        -- cbn [handle_responses handle_response]. change (3 =? 0) with false. cbv iota. unfold mbind. cbn [mret fst snd andb]. split.
           ++ rewrite Y. exact X.
           ++ unfold visible, deliveries. cbn. rewrite Ho. reflexivity.
    + pose proof (decode_other d (c_state c) O F Ans Tun) as P.
      rewrite (surjective_pairing (decode_msg CNetIP d (c_state c))).
      set (s1 := snd (decode_msg CNetIP d (c_state c))) in *. clearbody s1.
      assert (T1 : together ip port st (c_with_out [] (c_with_state s1 c))
        (mkmachine (k_up k) (k_answered k) ch' (k_expected k) (local_after d (k_number k)) (k_phase k))).
      { constructor; cbn; try assumption; try congruence; try lia. repeat split; cbn; congruence. }
      destruct (fst (decode_msg CNetIP d (c_state c))) as [[l| |l]|e]; cbn [plain_result] in P.
      * rewrite quiet_responses by (revert P; apply Forall_impl; intros m H; destruct m; try exact I; contradiction).
        cbn [fst snd]. split; [exact T1|]. unfold visible, deliveries. cbn [o_sent o_result c_with_state c_out]. rewrite Ho.
        unfold silent. f_equal. induction P as [|m l Hm P IH]; [reflexivity|]. cbn [filter].
        replace (bus_message m) with false by (destruct m; try reflexivity; try contradiction; discriminate Hm). exact IH.
      * contradiction.
      * cbn [mret fst snd]. split; [exact T1|]. unfold visible, deliveries. cbn. rewrite Ho. reflexivity.
      * cbn [fst snd]. split; [exact T1|]. unfold visible, deliveries. cbn. rewrite Ho. reflexivity.
Qed.

Lemma turn_step ip port st ch c k l : startable st ch -> together ip port st c k ->
  exists r c1, match writer_send l c with (Err e, c') => (Err e, c_with_writer (WDead e) c') | r => r end = (r, c1) /\
  together ip port st (c_with_out [] c1) (fst (k_turn st k l)) /\
  (c_out c1, @nil message) = snd (k_turn st k l).
Proof.
  intros St Tg. destruct Tg as [La Lp Ho Up An Ph Ag Ex Nu]. destruct l as [|m rest]; cbn [writer_send k_turn].
  - do 2 eexists. split; [reflexivity|]. cbn. rewrite Ho. split; [|reflexivity]. constructor; cbn; try assumption; reflexivity.
  - unfold mbind at 1, mlift. rewrite repr_displayable. destruct (displayable m).
    2: { do 2 eexists. split; [reflexivity|]. cbn. rewrite Ho. split; [|reflexivity]. constructor; cbn; try assumption; reflexivity. }
    destruct (C30_encode m _ _ Ag) as [Ef As]. rewrite Ef.
    destruct (C20_preserved m (numbers st k) _ eq_refl) as (Mp & Ap & Gp & _ & Lp' & Cp & Rp).
    unfold mbind at 1, on_state. pose proof (encoded_octets m (c_state c)) as B.
    destruct (encode_msg m (c_state c)) as [[b|e] s1]; cbn [fst snd] in *.
    + specialize (B b eq_refl). unfold mbind.
      destruct As as ((Mq & Aq & Gq) & Rq & Lq & Cq).
      set (s2 := snd (encode_msg m (numbers st k))) in *. clearbody s2. cbn in Mp, Ap, Gp, Lp', Cp, Rp.
      set (expected := match m with
                       | MTunnelingAck seq _ => if seq =? k_expected k then (k_expected k + 1) mod 256 else k_expected k
                       | _ => k_expected k
                       end) in *.
      assert (Oe : 0 <= expected < 256) by (unfold expected; destruct m; try lia; destruct (_ =? _); lia).
      destruct (k_up k) eqn:Ku.
      * rewrite c_send_up by (assumption || exact Up). unfold mmodify. do 2 eexists. split; [reflexivity|]. cbn. rewrite Ho. split; [|reflexivity].
        constructor; cbn; try assumption; try reflexivity. repeat split; cbn; congruence.
      * rewrite c_send_down by exact Up. do 2 eexists. split; [reflexivity|]. cbn. rewrite Ho. split; [|reflexivity].
        constructor; cbn; try assumption; try reflexivity. repeat split; cbn; congruence.
    + do 2 eexists. split; [reflexivity|]. cbn. rewrite Ho. split; [|reflexivity]. constructor; cbn; try assumption; try reflexivity.
      apply (agree_trans _ (snd (encode_msg m (numbers st k)))); [|exact As].
      repeat split; try assumption. rewrite Rp. destruct m; try reflexivity.
      exfalso. rewrite ack_frame in Ef. cbn in Ef. discriminate Ef.
Qed.

Lemma event_step ip port st ch c k e : ipv4 ip -> startable st ch -> together ip port st c k ->
  (forall d, e = EvData d -> octets d) ->
  together ip port st (fst (client_step c e)) (fst (k_step ip port st k e)) /\
  visible (snd (client_step c e)) = snd (k_step ip port st k e).
Proof.
  intros Ip St Tg O. destruct e as [| |d|].
  - destruct Tg as [La Lp Ho Up An Ph Ag Ex Nu]. unfold client_step. cbv zeta. rewrite (no_out c Ho).
    unfold connection_made, mbind, mmodify, mget, on_state. cbn [c_with_transport c_laddr c_lport c_state encode_msg].
    rewrite La. cbn [k_step].
    pose proof (C17_connect ip (c_lport c) ip (c_lport c) (c_state c) Ip Ip) as E. cbn [encode_msg] in E. rewrite E. clear E.
    change ([6; 16; 2; 5; 0; 26] ++ endpoint ip (c_lport c) ++ endpoint ip (c_lport c) ++ [4; 4; 2; 0]) with (connect_request ip (c_lport c)).
    rewrite c_send_up by (reflexivity || (apply connect_octets; exact Ip)). cbn. rewrite Ho, Lp. split; [|reflexivity].
    constructor; cbn; try assumption; reflexivity.
  - destruct Tg as [La Lp Ho Up An Ph Ag Ex Nu]. rewrite step_lost. cbn. split; [|reflexivity].
    constructor; cbn; try assumption; reflexivity.
  - cbn [k_step]. apply (data_step ip port st ch); auto.
  - pose proof Tg as [La Lp Ho Up An Ph Ag Ex Nu]. unfold client_step. cbv zeta. rewrite (no_out c Ho).
    cbn [k_step]. rewrite <- Ph, <- An. unfold writer_step.
    destruct (c_writer c) as [l|l| |x] eqn:W; cbn [phase_of].
    + destruct (c_connected c) eqn:Cn.
      * destruct (turn_step ip port st ch c k l St Tg) as (r & c1 & -> & T & E). split; [exact T|]. exact E.
      * cbn [fst snd]. rewrite (no_out c Ho). split; [exact Tg|]. unfold visible, deliveries. cbn. rewrite Ho. reflexivity.
    + destruct (turn_step ip port st ch c k l St Tg) as (r & c1 & -> & T & E). split; [exact T|]. exact E.
    + cbn [fst snd]. rewrite (no_out c Ho). split; [exact Tg|]. unfold visible, deliveries. cbn. rewrite Ho. reflexivity.
    + cbn [fst snd]. rewrite (no_out c Ho). split; [exact Tg|]. unfold visible, deliveries. cbn. rewrite Ho. reflexivity.
Qed.

Lemma run_together ip port st ch : ipv4 ip -> startable st ch -> forall es c k, together ip port st c k -> octet_events es ->
  together ip port st (after c es) (fst (k_run ip port st k es)) /\
  map visible (observations c es) = snd (k_run ip port st k es).
Proof.
  intros Ip St. unfold after, observations. induction es as [|e es IH]; intros c k Tg O; cbn [client_run k_run]; [auto|].
  destruct (event_step ip port st ch c k e Ip St Tg) as [T1 E1]; [intros d ->; apply O; left; reflexivity|].
  destruct (client_step c e) as [c1 o]. destruct (k_step ip port st k e) as [k1 x]. cbn [fst snd] in T1, E1.
  destruct (IH c1 k1 T1) as [T2 E2]; [intros d I; apply O; right; exact I|].
  destruct (client_run c1 es) as [c2 os]. destruct (k_run ip port st k1 es) as [k2 xs]. cbn [fst snd map] in *.
  split; [exact T2|]. congruence.
Qed.
Lemma start_together ip port st ch msgs : startable st ch ->
  together ip port st (client_new (dotted ip) port st msgs) (k_start ch (st_remote st) (st_local st) msgs).
Proof.
  intros (M & A & G & C & R & L). constructor; cbn; try reflexivity; try lia. repeat split; cbn. exact C.
Qed.
