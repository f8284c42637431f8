(** Proofs for C83. *)
From Coq Require Import String ZArith List Bool Lia ZifyBool.
From Verif Require Import Py Base Msg Address Dpt Tables LData Inet State Encode Decode Client.
From Verif Require Import SpecMsg SpecTables SpecWire SpecDecode SpecFail SpecListen.
From Verif Require Import MsgProofs EncodeProofs DecodeProofs SimProofs IpProofs ClientProofs Props_Decode FailProofs.
Import ListNotations.
Open Scope Z_scope.

(** ** Telegrams *)
Lemma ldata_bare k t st : st_assoc st = None -> st_ldata st = Some (ld_of t) -> proper t ->
  exists r, d_ldata k (payload t) st = (r, st) /\
    (concerns t /\ r = Err AttributeError \/ ~ concerns t /\ (r = Ok (RList []) \/ r = Ok RNone)).
Proof.
  intros Ha Hl P. unfold d_ldata. unfold mbind at 1. unfold cur_ldata at 1.
  unfold mbind at 1, mget at 1, mlift at 1.
  rewrite Hl. cbn [need]. rewrite ld_address by assumption. cbn [ld_destination ld_of].
  change AT_individual with 0. change AT_group with 1. unfold concerns.
  destruct (group_addressed t) eqn:G.
  - change (1 =? 0) with false. change (1 =? 1) with true. cbn [andb].
    destruct (t_dst t =? 0) eqn:D; cbn [negb].
    + eexists. split; [reflexivity|]. right. split; [intros [_ X]; specialize (X eq_refl); lia|]. left. reflexivity.
    + unfold d_ndata_group. unfold mbind at 1. unfold cur_ldata at 1.
      unfold mbind at 1, mget at 1, mlift at 1.
      rewrite Hl. cbn [need]. rewrite nsdu_kind by assumption.
      pose proof (plain_kind t P G ltac:(lia)) as K.
      destruct (pdu_kind t); cbn [pdu_model];
        try (eexists; split; [reflexivity|]; right; split; [intros [X _]; congruence|]; right; reflexivity).
      eexists. split; [|left; split; [split; [exact K|intros; lia]|reflexivity]].
      unfold mbind at 1, d_tdata_group. unfold mbind at 1, mget at 1. unfold mbind at 1, mlift at 1.
      unfold st_get_tsap. rewrite Ha. reflexivity.
  - change (0 =? 0) with true. cbv iota. unfold d_ndata_individual. unfold mbind at 1. unfold cur_ldata at 1.
    unfold mbind at 1, mget at 1, mlift at 1. rewrite Hl. cbn [need]. rewrite nsdu_kind by assumption.
    pose proof (plain_kind_individual t P G) as K.
    destruct (pdu_kind t); cbn [pdu_model];
      try (eexists; split; [reflexivity|]; right; split; [intros [X _]; congruence|]; left; reflexivity).
    eexists. split; [|left; split; [split; [exact K|discriminate]|reflexivity]].
    destruct k; cbn [d_tdata_individual]; unfold mbind at 1.
    + unfold d_tdata_individual_ind. unfold mbind at 1, cur_ldata at 1. unfold mbind at 1, mget at 1, mlift at 1.
      rewrite Hl. cbn [need]. unfold mbind at 1, mget at 1. unfold mbind at 1, mlift at 1.
      unfold st_individual_address. rewrite Ha. reflexivity.
    + unfold d_tdata_individual_con. unfold mbind at 1, mget at 1. unfold mbind at 1, mlift at 1.
      unfold st_get_tsap. rewrite Ha. reflexivity.
Qed.

Lemma cemi_bare st cemi : st_assoc st = None -> octets cemi ->
  (forall e, fst (d_msg_code cemi st) = Err e <-> unheard_cemi cemi e) /\
  match fst (d_msg_code cemi st) with Ok r => reported r = [] | Err _ => True end.
Proof.
  intros Ha O. destruct (cemi_telegram cemi) as [[k t]|] eqn:T.
  - destruct (msg_code_ldata cemi st k t O T) as [P ->].
    destruct (ldata_bare k t (st_set_ldata (ld_of t) st) Ha eq_refl P) as (r & -> & C). cbn [fst].
    assert (I : forall e, unheard_cemi cemi e -> e = AttributeError /\ concerns t).
    { intros e U. destruct U as [cemi H|code info q D H|cemi k' t' T' C'].
      - exfalso. destruct cemi as [|? [|? q]]; try discriminate T. rewrite !zlen_cons in H. pose proof (zlen_nonneg q). lia.
      - exfalso. cbn [cemi_telegram] in T. apply zlen_short9 in H.
        destruct (zdrop info q) as [|c1 [|c2 [|s1 [|s2 [|d1 [|d2 [|len [|tpci [|apci data]]]]]]]]]; try discriminate T. exact H.
      - rewrite T in T'. injection T' as <- <-. auto. }
    split.
    + intros e. split.
      * intros ->. destruct C as [[C X]|[_ [X|X]]]; try discriminate X. injection X as ->. exact (Uh_table cemi k t T C).
      * intros U. destruct (I e U) as [-> C']. destruct C as [[_ ->]|[C _]]; [reflexivity|contradiction].
    + destruct C as [[_ ->]|[_ [-> | ->]]]; reflexivity || exact Logic.I.
  - split.
    2:{ destruct (msg_code_none cemi st T) as [-> | ->]; [reflexivity|exact I]. }
    intros e. destruct cemi as [|code [|info r]].
    + split; [intros X; injection X as <-; apply Uh_code; reflexivity|]. intros U. inversion U; try reflexivity. subst. discriminate.
    + split; [intros X; injection X as <-; apply Uh_code; reflexivity|]. intros U. inversion U; try reflexivity. subst. discriminate.
    + unfold d_msg_code, octect. unfold mbind at 1, mlift at 1. unfold mbind at 1, mlift at 1. cbv zeta.
      cbn [cemi_telegram] in T. split.
      * intros E. assert (e = IndexError /\ (code = data_ind \/ code = data_con) /\ zlen (zdrop info r) < 9) as (-> & A & B).
        { unfold data_ind, data_con in *.
          destruct (code =? 0x29) eqn:E1; [|destruct (code =? 0x2E) eqn:E2; [|discriminate E]];
          destruct (zdrop info r) as [|c1 [|c2 [|s1 [|s2 [|d1 [|d2 [|len [|tpci [|apci data]]]]]]]]];
            try discriminate T; (split; [injection E as <-; reflexivity|]); (split; [lia|reflexivity]). }
        apply Uh_telegram; assumption.
      * intros U. inversion U as [x H|c0 i0 r0 D H|x k' t' T' C]; subst.
        -- exfalso. rewrite !zlen_cons in H. pose proof (zlen_nonneg r). lia.
        -- apply zlen_short9 in H.
           destruct D as [-> | ->]; unfold data_ind, data_con; [change (41 =? 41) with true|change (46 =? 41) with false; change (46 =? 46) with true]; cbv iota;
             destruct (zdrop info r) as [|c1 [|c2 [|s1 [|s2 [|d1 [|d2 [|len [|tpci [|apci data]]]]]]]]]; try reflexivity; contradiction.
        -- exfalso. cbn [cemi_telegram] in T'. congruence.
Qed.

(** ** The listener *)
Lemma listen_decode d st : octets d -> st_medium st = Knxnet_ip -> listen_received d st = d_ip_header CNetIP d st.
Proof.
  intros O M. unfold listen_received, mbind, mlift. rewrite bytes_hex_parse by exact O. apply decode_ip. exact M.
Qed.
Definition bare (st : state) : Prop :=
  st_medium st = Knxnet_ip /\ st_assoc st = None /\ st_gobj st = None /\ st_remote st = 0.
Lemma bare_step d st : octets d -> bare st -> bare (snd (listen_received d st)).
Proof.
  intros O (M & A & G & R). rewrite listen_decode by assumption. rewrite <- decode_ip by assumption.
  pose proof (C31_netip d st O M) as ((M' & A' & G') & R' & _). unfold bare. rewrite M', A', G', R'. auto.
Qed.
Lemma heard_bare ds : Forall octets ds -> bare (heard ds).
Proof.
  unfold heard. assert (B : bare discovery_state) by (repeat split). revert B. generalize discovery_state.
  induction ds as [|d ds IH]; intros st B F; [exact B|]. inversion F; subst. cbn [fold_left]. apply IH; [|assumption].
  apply bare_step; assumption.
Qed.

Lemma tunnelled_octets d c cemi : octets d -> tunnelled d = Some (c, cemi) -> octets cemi.
Proof.
  intros O H. destruct d as [|h [|v [|s1 [|s2 [|l1 [|l2 [|sz [|ch [|ct [|sta r]]]]]]]]]]; try discriminate H.
  cbn [tunnelled] in H. destruct (_ && _); [|discriminate H]. injection H as _ <-. rewrite !octets_cons in O. tauto.
Qed.
Lemma listen_fails st d e : bare st -> octets d -> (fst (listen_received d st) = Err e <-> listen_failure d e).
Proof.
  intros (M & A & G & R) O. rewrite listen_decode by assumption. rewrite datagram_index by assumption. split.
  - intros D. inversion D as [X|n' r' X Y|l1 l2 ch r' X Y|n' r' X Y Z|r' X Y|cemi e' X Y]; subst.
    + apply Lf_header; assumption.
    + eapply Lf_short; eassumption.
    + eapply Lf_connect; eassumption.
    + eapply Lf_status; eassumption.
    + eapply Lf_endpoint; eassumption.
    + rewrite R in X. eapply Lf_tunnelled; [eassumption|].
      apply (cemi_bare st cemi A (tunnelled_octets d _ _ O X)). exact Y.
  - intros D. inversion D as [X|n' r' X Y|l1 l2 ch r' X Y|n' r' X Y Z|r' X Y|cemi e' X Y]; subst.
    + apply D_ip; assumption.
    + eapply D_body; eassumption.
    + eapply D_connect; eassumption.
    + eapply D_status; eassumption.
    + eapply D_endpoint; eassumption.
    + eapply D_frame; [rewrite R; eassumption|].
      apply (cemi_bare st cemi A (tunnelled_octets d _ _ O X)). exact Y.
Qed.

(** What is reported: the messages, service by service. *)
Lemma listen_reports st d r : bare st -> octets d -> fst (listen_received d st) = Ok r ->
  match ip_service d with
  | None => r = RList []
  | Some (n, b) =>
      if n =? 0x0202 then
        match b with
        | _ :: _ :: _ :: _ :: i1 :: i2 :: i3 :: i4 :: p1 :: p2 :: _ :: _ :: x1 :: x2 :: _ =>
            r = RList [MSearchRes (dotted [i1; i2; i3; i4]) (256 * p1 + p2) (256 * x1 + x2)]
        | _ => False
        end
      else if n =? 0x020A then r = RList [] \/ exists ch, r = RList [MDisconnectRes ch 0]
      else if n =? 0x0206 then exists ip p ia sta, r = RList [MConnectRes ip p ia sta]
      else if n =? 0x0208 then exists sta, r = RList [MConnectionstateRes sta]
      else if n =? 0x0420 then
        match b with
        | _ :: _ :: _ :: _ :: ct :: _ => r = RList [MTunnelingReq ct (if ct =? 0 then 0 else 3)]
        | _ => False
        end
      else if n =? 0x0421 then exists ct sta, r = RAck [MTunnelingAck ct sta]
      else r = RList []
  end.
Proof.
  intros (M & A & G & R) O. rewrite listen_decode by assumption.
  destruct (ip_cases d st O) as [[L ->]|[(N & L & ->)|(n & b & S & Ob & ->)]].
  - discriminate.
  - rewrite N. intros E. injection E as <-. reflexivity.
  - rewrite S. destruct (n =? 0x202).
    { rewrite search_res_spec by assumption. cbn [fst].
      destruct b as [|? [|? [|? [|? [|? [|? [|? [|? [|? [|? [|? [|? [|? [|? b]]]]]]]]]]]]]]; try discriminate.
      intros E. injection E as <-. reflexivity. }
    destruct (n =? 0x20A).
    { rewrite disconnect_res_spec by assumption. destruct b as [|? [|? [|ch [|sta b]]]]; try discriminate.
      destruct (sta =? 0); intros E; injection E as <-; eauto. }
    destruct (n =? 0x206).
    { destruct (Z.lt_ge_cases (zlen b) 12) as [W|W].
      - destruct (connect_res_short b st W) as [[-> _]| ->]; discriminate.
      - destruct b as [|l1 [|l2 [|ch [|sta b]]]]; try (cbn in W; lia).
        destruct (eight b) as (s & t & i1 & i2 & i3 & i4 & p1 & p2 & r' & ->); [rewrite !zlen_cons in W; lia|].
        rewrite !octets_cons in Ob. rewrite connect_res_spec by (cbn [app]; rewrite !octets_cons; tauto).
        destruct (sta =? 0).
        + destruct r' as [|? [|? [|? [|? r']]]]; try discriminate. cbn [fst]. intros E. injection E as <-. eauto 6.
        + destruct (existsb _ _); try discriminate. cbn [fst]. intros E. injection E as <-. eauto 6. }
    destruct (n =? 0x208).
    { rewrite connectionstate_res_spec. cbn [fst]. destruct b as [|? [|? [|ch [|sta b]]]]; try discriminate.
      destruct (existsb _ _); try discriminate. intros E. injection E as <-. eauto. }
    destruct (n =? 0x420).
    { destruct (Z.lt_ge_cases (zlen b) 6) as [L|L]; [rewrite tunneling_req_short by assumption; discriminate|].
      destruct b as [|l1 [|l2 [|sz [|ch [|ct [|sta b]]]]]]; try (cbn in L; lia).
      assert (Oc : is_octet ct) by (rewrite !octets_cons in Ob; tauto).
      assert (Oq : octets b) by (rewrite !octets_cons in Ob; tauto).
      unfold d_tunneling_req. unfold mbind at 1, mlift at 1. cbn [short].
      unfold ip_conn_header, octect. cbn [rbind]. unfold mbind at 1, mlift at 1. unfold mbind at 1, mget at 1.
      rewrite R. rewrite (Z.eqb_sym 0). destruct (ct =? 0) eqn:Ec.
      - unfold mbind. destruct (cemi_bare st b A Oq) as [_ X]. destruct (d_msg_code b st) as [[q|] ?]; [|discriminate].
        cbn [fst] in X. intros E. injection E as <-. cbn [reported] in X. unfold reported in X.
        destruct q; rewrite ?X; reflexivity.
      - unfold is_octet in Oc. destruct (0 =? ct + 1) eqn:E1; [lia|]. intros E. injection E as <-. reflexivity. }
    destruct (n =? 0x421).
    { rewrite tunneling_ack_spec by assumption. destruct b as [|l1 [|l2 [|sz [|ch [|ct [|sta b]]]]]]; try discriminate.
      cbv zeta. cbn [fst]. destruct (existsb _ _); try discriminate. intros E. injection E as <-. eauto. }
    intros E. injection E as <-. reflexivity.
Qed.
