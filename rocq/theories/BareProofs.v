(** Proofs for C108. *)
From Coq Require Import String ZArith List Bool Lia ZifyBool.
From Verif Require Import Py Base Msg Address Dpt Tables LData Inet State Encode Decode Client.
From Verif Require Import SpecMsg SpecTables SpecWire SpecDecode SpecFail SpecListen SpecBare.
From Verif Require Import MsgProofs EncodeProofs DecodeProofs SimProofs IpProofs ClientProofs Props_Decode FailProofs ListenProofs.
Import ListNotations.
Open Scope Z_scope.

(** ** Octets without a telegram *)
Definition any (s s' : state) : Prop := True.
Ltac deaf_tac := repeat match goal with
  | |- sim _ (mret _) => apply sim_ret
  | |- sim _ (mraise _) => apply sim_raise
  | |- sim _ (mlift _) => apply sim_lift
  | |- sim _ (mmodify _) => apply sim_modify; intros; exact Logic.I
  | |- sim _ (mbind _ _) => apply sim_bind; [|intros]
  | |- sim _ (match ?x with _ => _ end) => destruct x
  | |- sim _ (let '(_, _) := ?x in _) => destruct x
  end.
Lemma deaf_feature m : sim any (d_feature_identifier m).
Proof. unfold d_feature_identifier. deaf_tac. Qed.
Lemma deaf_service m : sim any (d_service_identifier m).
Proof. unfold d_service_identifier. deaf_tac; apply deaf_feature. Qed.
Lemma service_fixed m : exists r, forall st, d_service_identifier m st = (r, st).
Proof.
  exists (fst (d_service_identifier m discovery_state)). intros st.
  rewrite (surjective_pairing (d_service_identifier m st)). f_equal.
  - apply (deaf_service m st discovery_state Logic.I).
  - apply service_quiet.
Qed.
Ltac fixed := eexists; intros; reflexivity.
Lemma usb_fixed m : octets m -> usb_cemi m = None -> exists r, forall st, d_report_identifier m st = (r, st).
Proof.
  intros O H. unfold d_report_identifier. unfold mbind at 1, mlift at 1.
  destruct m as [|id m]; [fixed|]. cbn [octect].
  destruct (id =? 1) eqn:E1; [|fixed].
  unfold d_packet_info, octect. destruct m as [|info m]; [fixed|]. unfold mbind at 1, mlift at 1.
  rewrite nibble_mod. destruct (info mod 16 =? 3) eqn:Ei; [|fixed].
  destruct m as [|plen r]; [fixed|]. unfold mbind at 1, mlift at 1.
  cbn [usb_cemi] in H. rewrite E1, Ei in H. cbn [andb] in H.
  rewrite !octets_cons in O. destruct O as (_ & _ & _ & O). apply (octets_ztake plen) in O.
  unfold d_protocol_version, octect. unfold mbind at 1, mlift at 1.
  destruct (ztake plen r) as [|v q]; [fixed|]. destruct (v =? 0) eqn:Ev; [|fixed].
  unfold d_header_length, octect. unfold mbind at 1, mlift at 1.
  destruct q as [|h q]; [fixed|]. destruct (h =? 8) eqn:Eh; [|fixed].
  unfold d_body_length. unfold mbind at 1, mlift at 1.
  destruct q as [|hi [|lo r2]]; [fixed|fixed|].
  rewrite octets_cons in O. destruct O as (_ & O). rewrite octets_cons in O. destruct O as (_ & O).
  rewrite octets_short by assumption. cbn [andb] in H.
  rewrite !octets_cons in O. destruct O as (_ & _ & O). apply (octets_ztake (256 * hi + lo + 4)) in O.
  unfold d_protocol_id, octect. unfold mbind at 1, mlift at 1.
  destruct (ztake (256 * hi + lo + 4) r2) as [|p q]; [fixed|].
  destruct (p =? 1) eqn:Ep.
  2: { destruct (p =? 15); [apply service_fixed|fixed]. }
  unfold d_emi_id, octect. unfold mbind at 1, mlift at 1. destruct q as [|e q]; [fixed|].
  destruct (e =? 3) eqn:Ee; [|fixed]. unfold mbind at 1, mlift at 1.
  destruct q as [|m1 [|m2 q]]; [fixed|fixed|].
  rewrite octets_cons in O. destruct O as (_ & O). rewrite octets_cons in O. destruct O as (_ & O).
  rewrite octets_short by assumption. rewrite !octets_cons in O. destruct O as (O1 & O2 & _).
  rewrite eqb_sum by assumption. cbn [andb] in H. destruct ((m1 =? 0) && (m2 =? 0)); [discriminate H|fixed].
Qed.
Lemma cemi_fixed cemi : cemi_telegram cemi = None -> exists r, forall st, d_msg_code cemi st = (r, st).
Proof.
  intros H. destruct cemi as [|code [|info r]]; [fixed|fixed|].
  cbn [cemi_telegram] in H. unfold d_msg_code, octect. unfold mbind at 1, mlift at 1.
  unfold mbind at 1, mlift at 1. cbv zeta. unfold data_ind, data_con in H.
  destruct (code =? 0x29) eqn:E1; [|destruct (code =? 0x2E) eqn:E2; [|fixed]];
    destruct (zdrop info r) as [|c1 [|c2 [|s1 [|s2 [|d1 [|d2 [|len [|tpci [|apci data]]]]]]]]];
    try discriminate H; fixed.
Qed.

(** ** What of a state matters for octets without a telegram *)
Definition lines (s s' : state) : Prop :=
  st_medium s' = st_medium s /\ st_remote s' = st_remote s /\ st_local s' = st_local s /\ st_channel s' = st_channel s.
Ltac line_tac := repeat match goal with
  | |- sim _ (mret _) => apply sim_ret
  | |- sim _ (mraise _) => apply sim_raise
  | |- sim _ (mlift _) => apply sim_lift
  | |- sim _ (mmodify _) => apply sim_modify; intros ? ? (? & ? & ? & ?); repeat split; cbn; congruence
  | |- sim _ (mbind mget _) => apply sim_get; [intros ? ? (E1 & E2 & E3 & E4); rewrite ?E1, ?E2, ?E3, ?E4; reflexivity|intros]
  | |- sim _ (mbind _ _) => apply sim_bind; [|intros]
  | |- sim _ (match ?x with _ => _ end) => destruct x
  | |- sim _ (let '(_, _) := ?x in _) => destruct x
  end.
Lemma line_search m : sim lines (d_search_res m).
Proof. unfold d_search_res. line_tac. Qed.
Lemma line_disconnect m : sim lines (d_disconnect_res m).
Proof. unfold d_disconnect_res. line_tac. Qed.
Lemma line_connect c m : sim lines (d_connect_res c m).
Proof. unfold d_connect_res. line_tac. Qed.
Lemma line_connectionstate m : sim lines (d_connectionstate_res m).
Proof. unfold d_connectionstate_res. line_tac. Qed.
Lemma line_ack c m : sim lines (d_tunneling_ack c m).
Proof. unfold d_tunneling_ack. line_tac. Qed.

Lemma lines_bus s s' m : lines s s' -> on_bus s' m = on_bus s m.
Proof. intros (E1 & E2 & _). unfold on_bus. rewrite E1, E2. reflexivity. Qed.

Lemma silent_same c m s s' : octets m -> proper_class s c -> lines s s' -> on_bus s m = None ->
  fst (decode_msg c m s) = fst (decode_msg c m s').
Proof.
  intros O C L B. pose proof L as (E1 & E2 & E3 & E4). unfold on_bus in B.
  destruct (st_medium s) eqn:M.
  - unfold decode_msg, mbind, mget. rewrite E1, M. reflexivity.
  - assert (D : forall x, st_medium x = Usb_hid -> decode_msg c m x = d_report_identifier m x).
    { intros x X. unfold decode_msg, mbind, mget. rewrite X. reflexivity. }
    rewrite !D by congruence. destruct (usb_cemi m) as [cemi|] eqn:U.
    + destruct (cemi_fixed cemi B) as [r F].
      destruct (usb_some m cemi s O U) as [_ ->]. destruct (usb_some m cemi s' O U) as [_ ->]. rewrite !F. reflexivity.
    + destruct (usb_fixed m O U) as [r F]. rewrite !F. reflexivity.
  - assert (c = CNetIP) as -> by (destruct C; [congruence|assumption]).
    rewrite !decode_ip by congruence.
    destruct (tunnelled m) as [[ct cemi]|] eqn:T.
    + destruct (tunnelled_some m ct cemi s O T) as [_ ->]. destruct (tunnelled_some m ct cemi s' O T) as [_ ->].
      rewrite E2. rewrite Z.eqb_sym in B. destruct (st_remote s =? ct).
      * destruct (cemi_fixed cemi B) as [r F]. rewrite !F. reflexivity.
      * destruct (st_remote s =? ct + 1); reflexivity.
    + destruct (ip_cases m s O) as [[L1 ->]|[(N & L1 & ->)|(n & r & S & Or & ->)]].
      * rewrite ip_short by assumption. reflexivity.
      * destruct (ip_cases m s' O) as [[L2 ->]|[(_ & _ & ->)|(n & r & S & _)]]; [lia|reflexivity|congruence].
      * destruct (ip_cases m s' O) as [[L2 _]|[(N & _)|(n' & r' & S' & _ & ->)]].
        { exfalso. destruct m as [|? [|? [|? [|? q]]]]; try discriminate S. rewrite !zlen_cons in L2. pose proof (zlen_nonneg q). lia. }
        { congruence. }
        rewrite S in S'. injection S' as <- <-.
        destruct (n =? 0x202); [apply line_search; exact L|]. destruct (n =? 0x20A); [apply line_disconnect; exact L|].
        destruct (n =? 0x206); [apply line_connect; exact L|]. destruct (n =? 0x208); [apply line_connectionstate; exact L|].
        destruct (n =? 0x420) eqn:E5.
        { destruct (Z.lt_ge_cases (zlen r) 6) as [L6|L6]; [rewrite !tunneling_req_short by assumption; reflexivity|].
          exfalso. pose proof (tunnelled_service m n r O S ltac:(lia)) as X.
          destruct r as [|l1 [|l2 [|sz [|ch [|ct [|sta r]]]]]]; try (cbn in L6; lia). congruence. }
        destruct (n =? 0x421); [apply line_ack; exact L|reflexivity].
Qed.

(** ** Octets with a telegram *)
Definition wrapped (st : state) (r : res dres) : res dres :=
  match st_medium st with Knxnet_ip => behind_request (st_remote st) r | _ => r end.
Lemma decode_ldata c m st k t : octets m -> proper_class st c -> on_bus st m = Some (k, t) ->
  proper t /\ fst (decode_msg c m st) = wrapped st (fst (d_ldata k (payload t) (st_set_ldata (ld_of t) st))).
Proof.
  intros O C B. unfold on_bus in B. unfold wrapped. destruct (st_medium st) eqn:M; [discriminate B| |].
  - destruct (usb_cemi m) as [cemi|] eqn:U; [|discriminate B].
    destruct (usb_some m cemi st O U) as [Oc X].
    destruct (msg_code_ldata cemi st k t Oc B) as [P Y]. split; [exact P|].
    unfold decode_msg, mbind at 1, mget. rewrite M, X, Y. reflexivity.
  - assert (c = CNetIP) as -> by (destruct C; [congruence|assumption]).
    destruct (tunnelled m) as [[ct cemi]|] eqn:T; [|discriminate B].
    destruct (ct =? st_remote st) eqn:E; [|discriminate B]. assert (ct = st_remote st) as -> by lia.
    destruct (tunnelled_some m _ cemi st O T) as [Oc X].
    destruct (msg_code_ldata cemi st k t Oc B) as [P Y]. split; [exact P|].
    rewrite decode_ip by assumption. rewrite X, Z.eqb_refl, Y. reflexivity.
Qed.

(** ** Telegrams nobody has to be looked up for *)
Lemma ldata_unneeded k t st st' : ~ concerns t -> st_ldata st = Some (ld_of t) -> st_ldata st' = Some (ld_of t) -> proper t ->
  fst (d_ldata k (payload t) st) = fst (d_ldata k (payload t) st').
Proof.
  intros N Hl Hl' P.
  assert (D : exists r, forall x, st_ldata x = Some (ld_of t) -> d_ldata k (payload t) x = (r, x)).
  { unfold concerns in N. destruct (group_addressed t) eqn:G.
    - destruct (t_dst t =? 0) eqn:D.
      + exists (Ok (RList [])). intros x Hx. unfold d_ldata. unfold mbind at 1. unfold cur_ldata at 1.
        unfold mbind at 1, mget at 1, mlift at 1. rewrite Hx. cbn [need]. rewrite ld_address by assumption. cbn [ld_destination ld_of].
        change AT_individual with 0. change AT_group with 1. rewrite G, D. reflexivity.
      + exists (Ok RNone). intros x Hx. unfold d_ldata. unfold mbind at 1. unfold cur_ldata at 1.
        unfold mbind at 1, mget at 1, mlift at 1. rewrite Hx. cbn [need]. rewrite ld_address by assumption. cbn [ld_destination ld_of].
        change AT_individual with 0. change AT_group with 1. rewrite G, D. change (1 =? 0) with false. change (1 =? 1) with true. cbn [andb negb].
        unfold d_ndata_group. unfold mbind at 1. unfold cur_ldata at 1.
        unfold mbind at 1, mget at 1, mlift at 1. rewrite Hx. cbn [need]. rewrite nsdu_kind by assumption.
        pose proof (plain_kind t P G ltac:(lia)) as K.
        destruct (pdu_kind t); cbn [pdu_model]; try reflexivity. exfalso. apply N. split; [exact K|intros; lia].
    - exists (Ok (RList [])). intros x Hx. unfold d_ldata. unfold mbind at 1. unfold cur_ldata at 1.
      unfold mbind at 1, mget at 1, mlift at 1. rewrite Hx. cbn [need]. rewrite ld_address by assumption.
      rewrite G. change AT_individual with 0. change (0 =? 0) with true. cbv iota.
      unfold d_ndata_individual. unfold mbind at 1. unfold cur_ldata at 1.
      unfold mbind at 1, mget at 1, mlift at 1. rewrite Hx. cbn [need]. rewrite nsdu_kind by assumption.
      pose proof (plain_kind_individual t P G) as K.
      destruct (pdu_kind t); cbn [pdu_model]; try reflexivity. exfalso. apply N. split; [exact K|discriminate]. }
  destruct D as [r F]. rewrite !F by assumption. reflexivity.
Qed.

Lemma decode_unneeded c m s s' : octets m -> proper_class s c -> lines s s' ->
  (forall k t, on_bus s m = Some (k, t) -> ~ concerns t) -> fst (decode_msg c m s) = fst (decode_msg c m s').
Proof.
  intros O C L N. destruct (on_bus s m) as [[k t]|] eqn:B; [|apply silent_same; assumption].
  pose proof L as (E1 & E2 & _).
  destruct (decode_ldata c m s k t O C B) as [P ->].
  assert (C' : proper_class s' c) by (unfold proper_class in *; rewrite E1; exact C).
  assert (B' : on_bus s' m = Some (k, t)) by (rewrite (lines_bus s s' m L); exact B).
  destruct (decode_ldata c m s' k t O C' B') as [_ ->].
  unfold wrapped. rewrite E1, E2.
  rewrite (ldata_unneeded k t _ (st_set_ldata (ld_of t) s') (N k t eq_refl)) by (reflexivity || assumption). reflexivity.
Qed.

Lemma decode_unheard c m s k t : octets m -> proper_class s c -> st_assoc s = None -> on_bus s m = Some (k, t) -> concerns t ->
  fst (decode_msg c m s) = Err AttributeError.
Proof.
  intros O C A B N. destruct (decode_ldata c m s k t O C B) as [P ->].
  destruct (ldata_bare k t (st_set_ldata (ld_of t) s) A eq_refl P) as (r & -> & [[_ ->]|[X _]]); [|contradiction].
  unfold wrapped. destruct (st_medium s); reflexivity.
Qed.

(** ** No datapoint types *)
Definition typeless_outcome (s : assoc_table) (t : telegram) : res (list message) :=
  if listed s (t_dst t) then
    match group_service t with
    | None => Ok []
    | Some _ => do _ <- reached s [] (t_dst t); Err AttributeError
    end
  else Ok [].
Lemma tdata_typeless k t st s : st_assoc st = Some s -> st_gobj st = None ->
  st_ldata st = Some (ld_of t) -> proper t ->
  d_tdata_group k (payload t) st = (typeless_outcome s t, st).
Proof.
  intros Ha Hg Hl P. unfold d_tdata_group. unfold mbind at 1, mget at 1. unfold mbind at 1, mlift at 1.
  rewrite (st_tsap st s t Ha Hl P). unfold mbind at 1. unfold cur_ldata at 1. unfold mbind at 1, mget at 1, mlift at 1.
  rewrite Hl. cbn [need].
  pose proof (tsap_listed s (mkaddr 0 (t_dst t))) as T. cbn [a_val] in T. unfold typeless_outcome.
  destruct (at_get_tsap (as_table s) (mkaddr 0 (t_dst t))) as [n|].
  2: { destruct T as [-> _]. reflexivity. }
  destruct T as [-> _]. destruct (listed s (t_dst t)); [|reflexivity].
  rewrite ld_apci10, ld_low. unfold group_service.
  pose proof P as (_ & _ & _ & _ & _ & Ht & Hp & _). unfold is_octet in *.
  assert (A : forall mk mkc,
    (act result <- d_group mk mkc k (payload t); act _ <- mlift (debug_first result); mret result) st =
    (do _ <- reached s [] (t_dst t); Err AttributeError, st)).
  { intros mk mkc. unfold mbind at 1. unfold d_group, d_group_value. unfold mbind at 1 2, mget at 1.
    unfold mbind at 1, mlift at 1. unfold st_get_asaps_and_dpts, st_get_asaps.
    rewrite (st_tsap st s t Ha Hl P). cbn [rbind]. rewrite Ha, Hg. cbn [need rbind].
    unfold reached, as_get_asaps_from_address.
    destruct (as_get_asaps s (at_get_tsap (as_table s) (mkaddr 0 (t_dst t)))) as [asaps|e]; reflexivity. }
  assert (X : forall z, 0 <= z < 1024 -> z mod 256 = t_apci t -> 
     (z - t_apci t mod 64 =? 0x40) = ((0x40 <=? z) && (z <=? 0x7F)) /\
     (z - t_apci t mod 64 =? 0x80) = ((0x80 <=? z) && (z <=? 0xBF))) by (intros; split; lia).
  destruct (X (apci10 t)) as [-> ->]; [unfold apci10; lia|unfold apci10; lia|].
  destruct (apci10 t =? 0). { apply (A MGroupValueReadInd MGroupValueReadCon). }
  destruct ((0x40 <=? apci10 t) && (apci10 t <=? 0x7F)). { apply (A MGroupValueResponseInd MGroupValueResponseCon). }
  destruct ((0x80 <=? apci10 t) && (apci10 t <=? 0xBF)). { apply (A MGroupValueWriteInd MGroupValueWriteCon). }
  reflexivity.
Qed.

Lemma ldata_typeless k t st s : st_assoc st = Some s -> st_gobj st = None ->
  st_ldata st = Some (ld_of t) -> proper t ->
  d_ldata k (payload t) st =
  (if group_addressed t then
     if t_dst t =? 0 then Ok (RList [])
     else if plain t then do l <- typeless_outcome s t; Ok (RList l)
     else Ok RNone
   else telegram_outcome s [] k t, st).
Proof.
  intros Ha Hg Hl P. unfold d_ldata. unfold mbind at 1. unfold cur_ldata at 1. unfold mbind at 1, mget at 1, mlift at 1.
  rewrite Hl. cbn [need]. rewrite ld_address by assumption. cbn [ld_destination ld_of].
  change AT_individual with 0. change AT_group with 1. unfold telegram_outcome.
  destruct (group_addressed t) eqn:G.
  - change (1 =? 0) with false. change (1 =? 1) with true. cbn [andb]. cbv iota.
    destruct (t_dst t =? 0) eqn:E0; cbn [negb]; [reflexivity|].
    unfold d_ndata_group. unfold mbind at 1. unfold cur_ldata at 1. unfold mbind at 1, mget at 1, mlift at 1.
    rewrite Hl. cbn [need]. rewrite nsdu_kind by assumption.
    pose proof (plain_kind t P G ltac:(lia)) as K.
    destruct (pdu_kind t); rewrite K; cbn [pdu_model]; try reflexivity.
    unfold mbind. rewrite (tdata_typeless k t st s Ha Hg Hl P). destruct (typeless_outcome s t); reflexivity.
  - change (0 =? 0) with true. cbv iota. unfold d_ndata_individual. unfold mbind at 1. unfold cur_ldata at 1.
    unfold mbind at 1, mget at 1, mlift at 1. rewrite Hl. cbn [need]. rewrite nsdu_kind by assumption.
    pose proof (plain_kind_individual t P G) as K.
    destruct (pdu_kind t); rewrite K; cbn [pdu_model andb]; try reflexivity.
    unfold mbind. rewrite (tdata_individual k t st s Ha Hl P).
    destruct (individual_accepts s k t); [|reflexivity]. destruct (property_outcome k t); reflexivity.
Qed.

Lemma typeless_unneeded k t st st' s go : st_assoc st = Some s -> st_gobj st = None -> st_assoc st' = Some s -> st_gobj st' = Some go ->
  st_ldata st = Some (ld_of t) -> st_ldata st' = Some (ld_of t) -> proper t -> ~ looks_up s t ->
  fst (d_ldata k (payload t) st) = fst (d_ldata k (payload t) st').
Proof.
  intros A G A' G' L L' P N. rewrite (ldata_typeless k t st s A G L P), (ldata_spec k t st' s go A' G' L' P). cbn [fst].
  unfold telegram_outcome. destruct (group_addressed t) eqn:Ga; [|reflexivity].
  destruct (t_dst t =? 0) eqn:E0; [reflexivity|]. destruct (plain t) eqn:Pl; [|reflexivity].
  unfold typeless_outcome, group_outcome. destruct (listed s (t_dst t)) eqn:Li; [|reflexivity].
  destruct (group_service t) eqn:Sv; [|reflexivity]. exfalso. apply N. repeat split; try assumption; try lia; [|congruence].
  apply listed_In. exact Li.
Qed.

Lemma decode_typeless c m st s go : octets m -> proper_class st c -> st_assoc st = Some s ->
  (forall k t, on_bus st m = Some (k, t) -> ~ looks_up s t) ->
  fst (decode_msg c m (supplied (Some s) None st)) = fst (decode_msg c m (supplied (Some s) (Some go) st)).
Proof.
  intros O C A N. destruct (on_bus st m) as [[k t]|] eqn:B.
  2:{ apply silent_same; try assumption. repeat split. }
  destruct (decode_ldata c m (supplied (Some s) None st) k t O C B) as [P ->].
  destruct (decode_ldata c m (supplied (Some s) (Some go) st) k t O C B) as [_ ->].
  unfold wrapped. cbn [st_medium st_remote supplied].
  rewrite (typeless_unneeded k t _ (st_set_ldata (ld_of t) (supplied (Some s) (Some go) st)) s go) by
    (reflexivity || assumption || (apply (N k t eq_refl))). reflexivity.
Qed.

Lemma decode_lookup tb l h c m st s k t : built tb l h s -> octets m -> proper_class st c -> st_assoc st = Some s -> st_gobj st = None ->
  on_bus st m = Some (k, t) -> looks_up s t ->
  fst (decode_msg c m st) = Err KeyError /\ (forall v, balance tb l h v (t_dst t) = 0) \/
  fst (decode_msg c m st) = Err AttributeError /\ (exists v, 0 < balance tb l h v (t_dst t)).
Proof.
  intros B O C A G Bu ((Ga & D & Pl) & Li & Sv). destruct (decode_ldata c m st k t O C Bu) as [P ->].
  rewrite (ldata_typeless k t (st_set_ldata (ld_of t) st) s A G eq_refl P). cbn [fst]. rewrite Ga, Pl.
  assert (t_dst t =? 0 = false) as -> by lia. unfold typeless_outcome.
  assert (listed s (t_dst t) = true) as -> by (apply listed_In; exact Li).
  destruct (group_service t); [|congruence].
  pose proof (reached_balance tb l h s [] (t_dst t) B (or_introl Li)) as R.
  destruct (reached s [] (t_dst t)) as [x|e].
  - right. split; [unfold wrapped; destruct (st_medium st); reflexivity|]. apply R.
  - destruct R as [-> R]. left. split; [unfold wrapped; destruct (st_medium st); reflexivity|exact R].
Qed.
