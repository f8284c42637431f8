(** Proofs for C78. *)
From Coq Require Import String ZArith NArith List Bool Lia ZifyBool.
From Verif Require Import Py Base Msg Address Dpt Tables LData Inet State Encode Decode.
From Verif Require Import SpecMsg SpecTables SpecWire SpecDecode.
From Verif Require Import MsgProofs TablesProofs AssocProofs EncodeProofs DecodeProofs SimProofs IpProofs Props_Tables Props_Encode Props_Decode SpecFail.
Import ListNotations.
Open Scope Z_scope.

Lemma short_list (l : list Z) : zlen l < 2 -> short l = Err IndexError.
Proof. intros H. destruct l as [|a [|b r]]; [reflexivity|reflexivity|]. rewrite !zlen_cons in H. pose proof (zlen_nonneg r). lia. Qed.
Lemma short_error (l : list Z) e : short l = Err e -> zlen l < 2.
Proof. intros H. destruct l as [|a [|b r]]; [reflexivity|reflexivity|discriminate H]. Qed.

(** ** cEMI *)
Lemma telegram_index s go k t :
  telegram_outcome s go k t = Err IndexError <->
  accepted_individual s k t /\ (exists svc, property_service t = Some svc) /\ zlen (t_data t) < 4.
Proof.
  unfold telegram_outcome. destruct (group_addressed t) eqn:G.
  - split.
    + intros E. exfalso. destruct (t_dst t =? 0); [discriminate E|]. destruct (plain t); [|discriminate E].
      unfold group_outcome in E. destruct (listed s (t_dst t)); [|discriminate E].
      destruct (group_service t); [|discriminate E]. unfold reached, as_get_asaps_from_address, as_get_asaps in E.
      destruct (dget _ _ _); cbn [rbind] in E; [|discriminate E]. destruct (first_undisplayable _ _); discriminate E.
    + intros (A & _). unfold accepted_individual in A. destruct A as [A _]. congruence.
  - rewrite (accepts_iff s k t G). destruct (plain t && individual_accepts s k t).
    + unfold property_outcome. destruct (property_service t) as [svc|].
      * destruct (4 <=? zlen (t_data t)) eqn:L; cbn [rbind]; split; try discriminate; try lia; [intros _|reflexivity].
        split; [reflexivity|]. split; [exists svc; reflexivity|lia].
      * split; [discriminate|]. intros (_ & [svc X] & _). discriminate X.
    + split; [discriminate|]. intros [X _]. discriminate X.
Qed.
Lemma zlen_short9 {A} (l : list A) : zlen l < 9 ->
  match l with _ :: _ :: _ :: _ :: _ :: _ :: _ :: _ :: _ :: _ => False | _ => True end.
Proof.
  intros H. destruct l as [|c1 [|c2 [|s1 [|s2 [|d1 [|d2 [|len [|tpci [|apci data]]]]]]]]]; try exact I.
  rewrite !zlen_cons in H. pose proof (zlen_nonneg data). lia.
Qed.
Lemma cemi_index st s go cemi : st_assoc st = Some s -> st_gobj st = Some go -> octets cemi ->
  (fst (d_msg_code cemi st) = Err IndexError <-> cut_cemi s cemi).
Proof.
  intros Ha Hg O. destruct (cemi_telegram cemi) as [[k t]|] eqn:T.
  - destruct (msg_code_some cemi st s go k t Ha Hg O T) as [_ ->]. cbn [fst]. rewrite telegram_index. split.
    + intros (A & [svc P] & L). exact (cut_property s cemi k t svc T A P L).
    + intros C. destruct C as [cemi H|code info r D H|cemi k' t' svc T' A P L].
      * exfalso. destruct cemi as [|? [|? q]]; try discriminate T. rewrite !zlen_cons in H. pose proof (zlen_nonneg q). lia.
      * exfalso. cbn [cemi_telegram] in T. apply zlen_short9 in H.
        destruct (zdrop info r) as [|c1 [|c2 [|s1 [|s2 [|d1 [|d2 [|len [|tpci [|apci data]]]]]]]]]; try discriminate T. exact H.
      * rewrite T in T'. injection T' as <- <-. split; [exact A|]. split; [exists svc; exact P|exact L].
  - destruct cemi as [|code [|info r]]; [split; intros _; [apply cut_code|]; reflexivity|split; intros _; [apply cut_code|]; reflexivity|].
    unfold d_msg_code, octect. unfold mbind at 1, mlift at 1. unfold mbind at 1, mlift at 1. cbv zeta.
    cbn [cemi_telegram] in T. split.
    + intros E. apply cut_telegram.
      * destruct (code =? 0x29) eqn:E1; [left; unfold data_ind; lia|]. destruct (code =? 0x2E) eqn:E2; [right; unfold data_con; lia|discriminate E].
      * destruct (code =? 0x29) eqn:E1; [|destruct (code =? 0x2E) eqn:E2; [|discriminate E]]; unfold data_ind, data_con in T;
        destruct (zdrop info r) as [|c1 [|c2 [|s1 [|s2 [|d1 [|d2 [|len [|tpci [|apci data]]]]]]]]]; try reflexivity;
          rewrite E1 in T; try rewrite E2 in T; discriminate T.
    + intros C. inversion C as [x H|c0 i0 r0 D H|x k' t' svc T' A P L]; subst.
      * exfalso. rewrite !zlen_cons in H. pose proof (zlen_nonneg r). lia.
      * apply zlen_short9 in H.
        destruct D as [-> | ->]; unfold data_ind, data_con; [change (41 =? 41) with true|change (46 =? 41) with false; change (46 =? 46) with true]; cbv iota;
          destruct (zdrop info r) as [|c1 [|c2 [|s1 [|s2 [|d1 [|d2 [|len [|tpci [|apci data]]]]]]]]]; try reflexivity; contradiction.
      * exfalso. cbn [cemi_telegram] in T'. congruence.
Qed.

(** ** USB *)
Lemma feature_index m st : octets m -> (fst (d_service_identifier m st) = Err IndexError <-> cut_feature m).
Proof.
  intros O. unfold d_service_identifier. unfold mbind at 1, mlift at 1.
  destruct m as [|service m]; [split; intros _; [constructor|reflexivity]|]. cbn [octect]. unfold mbind at 1.
  assert (F : forall body, fst (d_feature_identifier body st) = Err IndexError <->
    body = [] \/ exists f, body = [f] /\ (f = 3 \/ f = 5)).
  { intros body. unfold d_feature_identifier. unfold mbind at 1, mlift at 1.
    destruct body as [|f [|v r]]; cbn [octect].
    - split; [left; reflexivity|reflexivity].
    - split.
      + intros E. right. exists f. split; [reflexivity|]. destruct (f =? 3) eqn:E3; [left; lia|].
        destruct (f =? 5) eqn:E5; [right; lia|discriminate E].
      + intros [X|(f' & X & D)]; [discriminate X|]. injection X as <-. destruct D as [-> | ->]; reflexivity.
    - split.
      + unfold mbind, mlift. cbn [octect].
        repeat match goal with |- context [if ?b then _ else _] => destruct b end; discriminate.
      + intros [X|(f' & X & D)]; discriminate X. }
  assert (W : service = 4 \/ service = 2 -> forall x : D,
     (forall h2 body, short m = Ok (h2, body) -> fst (x st) = if h2 =? 0 then fst (d_feature_identifier body st) else Ok (RList [])) ->
     (forall e, short m = Err e -> fst (x st) = Err IndexError) ->
     (fst (x st) = Err IndexError <-> cut_feature (service :: m))).
  { intros D x X1 X2. apply octets_cons in O. destruct O as [_ O].
    assert (D' : service = 2 \/ service = 4) by tauto.
    destruct m as [|a [|b r]].
    - rewrite (X2 IndexError eq_refl). split; [intros _|reflexivity]. apply cut_maker; [assumption|reflexivity].
    - rewrite (X2 IndexError eq_refl). split; [intros _|reflexivity]. apply cut_maker; [assumption|reflexivity].
    - rewrite (X1 _ _ (octets_short a b r O)). rewrite !octets_cons in O. destruct O as (Oa & Ob & O).
      rewrite eqb_sum by assumption. split.
      + intros E. destruct (a =? 0) eqn:Ea; [|discriminate E]. destruct (b =? 0) eqn:Eb; [|discriminate E]. cbn [andb] in E.
        assert (a = 0) by lia. assert (b = 0) by lia. subst a b. apply F in E. destruct E as [-> |(f & -> & Df)].
        * apply cut_number. assumption.
        * apply cut_value; assumption.
      + intros C. inversion C as [|s0 r0 D0 H|s0 D0|s0 f D0 Df]; subst; cbn [Z.eqb andb].
        * exfalso. rewrite !zlen_cons in H. pose proof (zlen_nonneg r). lia.
        * reflexivity.
        * apply F. right. exists f. auto. }
  destruct (service =? 4) eqn:E4.
  - assert (service = 4) by lia.
    specialize (W (or_introl H)).
    match goal with |- fst ?x = _ <-> _ => specialize (W (fun _ => x)) end. cbv beta in W. apply W.
    + intros h2 body E. unfold mbind at 1, mlift at 1. rewrite E. destruct (h2 =? 0) eqn:E0.
      * unfold mbind at 1. pose proof (feature_quiet body st) as [Q1 Q2]. destruct (d_feature_identifier body st) as [[r|e] st'] eqn:EF; [|reflexivity].
        cbn in Q1, Q2. unfold mret at 1. destruct (h2 =? 2) eqn:E2; [lia|]. reflexivity.
      * unfold mret at 1. destruct (h2 =? 2); [|reflexivity]. unfold mbind, mlift. rewrite E0. reflexivity.
    + intros e E. pose proof (short_error _ _ E) as L. rewrite (short_list _ L) in E. unfold mbind at 1, mlift at 1. rewrite (short_list _ L). reflexivity.
  - unfold mret at 1. destruct (service =? 2) eqn:E2.
    + assert (service = 2) by lia. specialize (W (or_intror H)).
      match goal with |- fst ?x = _ <-> _ => specialize (W (fun _ => x)) end. cbv beta in W. apply W.
      * intros h2 body E. unfold mbind at 1, mlift at 1. rewrite E. destruct (h2 =? 0); reflexivity.
      * intros e E. pose proof (short_error _ _ E) as L. unfold mbind at 1, mlift at 1. rewrite (short_list _ L). reflexivity.
    + split; [discriminate|]. intros C. exfalso. inversion C; subst; lia.
Qed.
Lemma body_index st s go m : st_assoc st = Some s -> st_gobj st = Some go -> octets m ->
  (fst (d_protocol_id m st) = Err IndexError <-> cut_body s m).
Proof.
  intros Ha Hg O. unfold d_protocol_id. unfold mbind at 1, mlift at 1.
  destruct m as [|p m]; [split; intros _; [constructor|reflexivity]|]. cbn [octect].
  apply octets_cons in O. destruct O as [_ O].
  destruct (p =? 1) eqn:E1.
  - assert (p = 1) by lia. subst p. unfold d_emi_id. unfold mbind at 1, mlift at 1.
    destruct m as [|emi m]; [split; intros _; [constructor|reflexivity]|]. cbn [octect].
    apply octets_cons in O. destruct O as [_ O].
    destruct (emi =? 3) eqn:E3; [|split; [discriminate|intros C; inversion C; subst; lia]].
    assert (emi = 3) by lia. subst emi. unfold mbind at 1, mlift at 1.
    destruct m as [|a [|b cemi]]; [split; intros _; [apply cut_manufacturer|]; reflexivity..|].
    rewrite octets_short by assumption. rewrite !octets_cons in O. destruct O as (Oa & Ob & O).
    rewrite eqb_sum by assumption. split.
    + intros E. destruct (a =? 0) eqn:Ea; [|discriminate E]. destruct (b =? 0) eqn:Eb; [|discriminate E]. cbn [andb] in E.
      assert (a = 0) by lia. assert (b = 0) by lia. subst a b. apply cut_frame. apply (cemi_index st s go cemi Ha Hg O). exact E.
    + intros C. inversion C as [| |r0 H|c0 H|]; subst.
      * exfalso. rewrite !zlen_cons in H. pose proof (zlen_nonneg cemi). lia.
      * apply (cemi_index st s go cemi Ha Hg O) in H. exact H.
  - destruct (p =? 15) eqn:E15.
    + assert (p = 15) by lia. subst p. rewrite (feature_index m st O). split; [apply cut_features|].
      intros C. inversion C; subst; assumption.
    + split; [discriminate|]. intros C. exfalso. inversion C; subst; lia.
Qed.
Lemma packet_index st s go m : st_assoc st = Some s -> st_gobj st = Some go -> octets m ->
  (fst (d_protocol_version m st) = Err IndexError <-> cut_packet s m).
Proof.
  intros Ha Hg O. unfold d_protocol_version. unfold mbind at 1, mlift at 1.
  destruct m as [|v m]; [split; intros _; [constructor|reflexivity]|]. cbn [octect].
  apply octets_cons in O. destruct O as [_ O].
  destruct (v =? 0) eqn:Ev; [|split; [discriminate|intros C; exfalso; inversion C; subst; lia]].
  assert (v = 0) by lia. subst v. unfold d_header_length. unfold mbind at 1, mlift at 1.
  destruct m as [|h m]; [split; intros _; [constructor|reflexivity]|]. cbn [octect].
  apply octets_cons in O. destruct O as [_ O].
  destruct (h =? 8) eqn:Eh; [|split; [discriminate|intros C; exfalso; inversion C; subst; lia]].
  assert (h = 8) by lia. subst h. unfold d_body_length. unfold mbind at 1, mlift at 1.
  destruct m as [|hi [|lo r]]; [split; intros _; [apply cut_length|]; reflexivity..|].
  rewrite octets_short by assumption. rewrite !octets_cons in O. destruct O as (_ & _ & O).
  rewrite (body_index st s go _ Ha Hg (octets_ztake _ _ O)). split; [apply cut_content|].
  intros C. inversion C as [| |r0 H|]; subst; [|assumption]. exfalso. rewrite !zlen_cons in H. pose proof (zlen_nonneg r). lia.
Qed.
Lemma report_index st s go m : st_assoc st = Some s -> st_gobj st = Some go -> octets m ->
  (fst (d_report_identifier m st) = Err IndexError <-> cut_report s m).
Proof.
  intros Ha Hg O. unfold d_report_identifier. unfold mbind at 1, mlift at 1.
  destruct m as [|i m]; [split; intros _; [constructor|reflexivity]|]. cbn [octect].
  apply octets_cons in O. destruct O as [_ O].
  destruct (i =? 1) eqn:Ei; [|split; [discriminate|intros C; exfalso; inversion C; subst; lia]].
  assert (i = 1) by lia. subst i. unfold d_packet_info. unfold mbind at 1, mlift at 1.
  destruct m as [|info m]; [split; intros _; [constructor|reflexivity]|]. cbn [octect]. rewrite nibble_mod.
  apply octets_cons in O. destruct O as [_ O].
  destruct (info mod 16 =? 3) eqn:Ef.
  2:{ split; [discriminate|]. intros C. exfalso. inversion C; subst; lia. }
  unfold mbind at 1, mlift at 1.
  destruct m as [|plen r]; [split; intros _; [apply cut_plen; lia|reflexivity]|]. cbn [octect].
  apply octets_cons in O. destruct O as [_ O].
  rewrite (packet_index st s go _ Ha Hg (octets_ztake _ _ O)). split; [apply cut_inside; lia|].
  intros C. inversion C; subst; assumption.
Qed.

(** ** KNXnet/IP *)
Lemma tunnelled_service m n r : octets m -> ip_service m = Some (n, r) -> n = 0x0420 ->
  match r with
  | _ :: _ :: _ :: _ :: counter :: _ :: cemi => tunnelled m = Some (counter, cemi)
  | _ => tunnelled m = None
  end.
Proof.
  intros O S E. destruct m as [|h0 [|v0 [|s1 [|s2 m]]]]; try discriminate S. cbn [ip_service] in S.
  destruct ((h0 =? 6) && (v0 =? 16)) eqn:Eh; [|discriminate S]. injection S as Sn ->.
  rewrite !octets_cons in O. unfold is_octet in O.
  destruct r as [|l1 [|l2 [|sz [|ch [|ct [|sta r]]]]]]; try reflexivity.
  cbn [tunnelled]. rewrite Eh. assert (s1 = 4 /\ s2 = 32) as [-> ->] by lia. reflexivity.
Qed.
Lemma tunnelled_service' m x : tunnelled m = Some x -> exists r, ip_service m = Some (0x0420, r) /\ 6 <= zlen r.
Proof.
  intros H. destruct m as [|h [|v [|s1 [|s2 [|l1 [|l2 [|sz [|ch [|ct [|sta r]]]]]]]]]]; try discriminate H.
  cbn [tunnelled] in H. destruct (h =? 6) eqn:Eh; [|discriminate H]. destruct (v =? 16) eqn:Ev; [|discriminate H].
  destruct (s1 =? 4) eqn:E1; [|discriminate H]. destruct (s2 =? 32) eqn:E2; [|discriminate H].
  cbn [ip_service]. rewrite Eh, Ev. cbn [andb]. assert (256 * s1 + s2 = 1056) as -> by lia.
  eexists. split; [reflexivity|]. rewrite !zlen_cons. pose proof (zlen_nonneg r). lia.
Qed.
Lemma behind_error counter r e : behind_request counter r = Err e <-> r = Err e.
Proof. destruct r as [[l| |l]|e']; cbn; split; congruence. Qed.

(** What a datagram raises apart from what its telegram raises. *)
Inductive datagram_failure (st : state) (m : list Z) : exn -> Prop :=
| D_ip : zlen m < 4 -> datagram_failure st m IndexError
| D_body service r : ip_service m = Some (service, r) -> zlen r < needs service -> datagram_failure st m IndexError
| D_connect l1 l2 channel r : ip_service m = Some (0x0206, l1 :: l2 :: channel :: 0 :: r) ->
    8 <= zlen r < 12 -> datagram_failure st m IndexError
| D_status service r : ip_service m = Some (service, r) ->
    unknown_status m = true -> (service = 0x0206 -> 12 <= zlen r) -> datagram_failure st m ValueError
| D_endpoint r : ip_service m = Some (0x0206, r) -> 4 <= zlen r < 12 -> datagram_failure st m TypeError
| D_frame cemi e : tunnelled m = Some (st_remote st, cemi) -> fst (d_msg_code cemi st) = Err e -> datagram_failure st m e.

Ltac by_length L := exfalso; rewrite ?zlen_cons in L;
  match type of L with context [zlen ?x] => pose proof (zlen_nonneg x) end; lia.
Lemma datagram_none st m : octets m -> zlen m >= 4 -> ip_service m = None -> forall e, ~ datagram_failure st m e.
Proof.
  intros O L N e D. inversion D; subst; try congruence; try lia.
  match goal with H : tunnelled m = _ |- _ => apply tunnelled_service' in H; destruct H as (r & H & _) end. congruence.
Qed.
Lemma datagram_index st m e : octets m ->
  (fst (d_ip_header CNetIP m st) = Err e <-> datagram_failure st m e).
Proof.
  intros O. destruct (ip_cases m st O) as [[L ->]|[(N & L & ->)|(n & r & S & Or & Q)]].
  - split; [intros E; injection E as <-; apply D_ip; assumption|].
    intros D. inversion D; subst; try reflexivity;
      try (match goal with H : ip_service m = _ |- _ => apply service_length in H end; lia).
    match goal with H : tunnelled m = _ |- _ => apply tunnelled_service' in H; destruct H as (r & H & _); apply service_length in H end. lia.
  - split; [discriminate|]. intros D. exfalso. apply (datagram_none st m O ltac:(lia) N e D).
  - pose proof (service_length m _ S) as L4.
    assert (INV : datagram_failure st m e ->
       e = IndexError /\ zlen r < needs n \/
       e = IndexError /\ n = 0x0206 /\ (exists l1 l2 ch r', r = l1 :: l2 :: ch :: 0 :: r' /\ 8 <= zlen r' < 12) \/
       e = ValueError /\ unknown_status m = true /\ (n = 0x0206 -> 12 <= zlen r) \/
       e = TypeError /\ n = 0x0206 /\ 4 <= zlen r < 12 \/
       n = 0x0420 /\ 6 <= zlen r /\ exists cemi, tunnelled m = Some (st_remote st, cemi) /\ fst (d_msg_code cemi st) = Err e).
    { intros D. inversion D as [X|n' r' X Y|l1 l2 ch r' X Y|n' r' X Y Z|r' X Y|cemi e' X Y]; subst.
      - lia.
      - rewrite S in X. injection X as <- <-. tauto.
      - rewrite S in X. injection X as -> ->. right. left. split; [reflexivity|]. split; [reflexivity|]. eauto 8.
      - rewrite S in X. injection X as <- <-. tauto.
      - rewrite S in X. injection X as -> ->. tauto.
      - destruct (tunnelled_service' m _ X) as (r' & X' & Y'). rewrite S in X'. injection X' as -> ->. do 4 right. eauto. }
    assert (U : unknown_status m =
      let bad (o : option Z) l := match o with Some x => negb (existsb (Z.eqb x) l) | None => false end in
      if n =? 0x0206 then bad (nth_error r 3) [0x00; 0x22; 0x23; 0x24]
      else if n =? 0x0208 then bad (nth_error r 3) [0x00; 0x21; 0x26; 0x27]
      else if n =? 0x0421 then bad (nth_error r 5) [0x00; 0x01; 0x02; 0x03]
      else false) by (unfold unknown_status; rewrite S; reflexivity). cbv zeta in U.
    assert (SHORT : zlen r < needs n -> datagram_failure st m IndexError) by (intros; eapply D_body; eassumption).
    unfold needs in INV, SHORT.
    destruct (n =? 0x202) eqn:E1.
    { rewrite Q, search_res_spec by assumption. cbn [fst].
      assert (X : zlen r < 14 \/ exists i1 i2 i3 i4 i5 i6 i7 i8 i9 i10 i11 i12 i13 i14 r',
        r = i1 :: i2 :: i3 :: i4 :: i5 :: i6 :: i7 :: i8 :: i9 :: i10 :: i11 :: i12 :: i13 :: i14 :: r').
      { do 14 (destruct r as [|? r]; [left; reflexivity|]). right. repeat eexists. }
      assert (N : n = 514) by lia.
      destruct X as [X|(i1 & i2 & i3 & i4 & i5 & i6 & i7 & i8 & i9 & i10 & i11 & i12 & i13 & i14 & r' & ->)].
      - match goal with |- ?x = _ <-> _ => assert (x = Err IndexError) as -> end.
        { do 14 (destruct r as [|? r]; [reflexivity|]). by_length X. }
        split; [intros E; injection E as <-; tauto|].
        intros D. apply INV in D. assert (F206 : n <> 518) by lia. assert (F420 : n <> 1056) by lia.
        destruct (n =? 518) eqn:?; [lia|]. destruct (n =? 520) eqn:?; [lia|]. destruct (n =? 1057) eqn:?; [lia|]. rewrite U in D.
        destruct D as [D|[D|[D|[D|D]]]]; try (destruct D as [-> _]; reflexivity); exfalso; intuition (lia || discriminate).
      - split; [discriminate|]. intros D. exfalso. apply INV in D.
        destruct (n =? 518) eqn:?; [lia|]. destruct (n =? 520) eqn:?; [lia|]. destruct (n =? 1057) eqn:?; [lia|]. rewrite U in D.
        destruct D as [[_ D]|[D|[D|[D|D]]]]; [by_length D| | | |]; intuition (lia || discriminate). }
    destruct (n =? 0x20A) eqn:E2.
    { rewrite Q, disconnect_res_spec by assumption. assert (N : n = 522) by lia.
      destruct (n =? 518) eqn:?; [lia|]. destruct (n =? 520) eqn:?; [lia|]. destruct (n =? 1057) eqn:?; [lia|]. rewrite U in INV.
      assert (X : zlen r < 4 \/ exists i1 i2 i3 i4 r', r = i1 :: i2 :: i3 :: i4 :: r').
      { do 4 (destruct r as [|? r]; [left; reflexivity|]). right. repeat eexists. }
      destruct X as [X|(i1 & i2 & i3 & i4 & r' & ->)].
      - match goal with |- fst ?x = _ <-> _ => assert (fst x = Err IndexError) as -> end.
        { do 4 (destruct r as [|? r]; [reflexivity|]). by_length X. }
        split; [intros E; injection E as <-; tauto|].
        intros D. apply INV in D.
        destruct D as [D|[D|[D|[D|D]]]]; try (destruct D as [-> _]; reflexivity); exfalso; intuition (lia || discriminate).
      - split; [destruct (i4 =? 0); discriminate|]. intros D. exfalso. apply INV in D.
        destruct D as [[_ D]|[D|[D|[D|D]]]]; [by_length D| | | |]; intuition (lia || discriminate). }
    destruct (n =? 0x206) eqn:E3.
    { assert (N : n = 518) by lia. rewrite Q.
      destruct (Z.lt_ge_cases (zlen r) 12) as [L|L].
      - destruct (Z.lt_ge_cases (zlen r) 4) as [L'|L'].
        + destruct (connect_res_short r st L) as [[-> _]|X].
          2:{ exfalso. destruct r as [|l1 [|l2 [|ch [|sta r]]]]; try discriminate X. by_length L'. }
          cbn [fst]. split; [intros E; injection E as <-; tauto|].
          intros D. apply INV in D.
          destruct D as [D|[D|[D|[D|D]]]]; try (destruct D as [-> _]; reflexivity); exfalso; intuition lia.
        + destruct (connect_res_short r st L) as [[_ X]| ->]; [lia|]. cbn [fst].
          split; [intros E; injection E as <-; apply (D_endpoint st m r); [subst n; assumption|lia]|].
          intros D. apply INV in D. destruct D as [D|[D|[D|[D|D]]]]; try (destruct D as [-> _]; reflexivity); exfalso; try (intuition lia).
          destruct D as (_ & _ & l1 & l2 & ch & r' & -> & D). rewrite !zlen_cons in L. lia.
      - destruct r as [|l1 [|l2 [|ch [|sta r]]]]; try (cbn in L; lia).
        assert (L8 : 8 <= zlen r) by (rewrite !zlen_cons in L; lia).
        destruct (eight r L8) as (a & b & i1 & i2 & i3 & i4 & p1 & p2 & r' & Er). rewrite Er in Or |- *.
        rewrite !octets_cons in Or. rewrite connect_res_spec by (cbn [app]; rewrite !octets_cons; tauto).
        cbn [nth_error] in U.
        destruct (sta =? 0) eqn:Es.
        + assert (sta = 0) by lia. subst sta.
          assert (X : zlen r' < 4 \/ exists i1 i2 i3 i4 r2, r' = i1 :: i2 :: i3 :: i4 :: r2).
          { do 4 (destruct r' as [|? r']; [left; reflexivity|]). right. repeat eexists. }
          destruct X as [X|(j1 & j2 & j3 & j4 & r2 & ->)].
          * match goal with |- fst ?x = _ <-> _ => assert (fst x = Err IndexError) as -> end.
            { do 4 (destruct r' as [|? r']; [reflexivity|]). by_length X. }
            split.
            -- intros E; injection E as <-. apply (D_connect st m l1 l2 ch r); [subst n; assumption|].
               rewrite Er, !zlen_cons. pose proof (zlen_nonneg r'). lia.
            -- intros D. apply INV in D. rewrite U in D.
               destruct D as [D|[D|[D|[D|D]]]]; try (destruct D as [-> _]; reflexivity); exfalso; try (intuition lia).
               destruct D as (_ & D & _). discriminate D.
          * split; [discriminate|]. intros D. exfalso. apply INV in D. rewrite U in D.
            destruct D as [[_ D]|[D|[D|[D|D]]]]; [lia| |destruct D as (_ & D & _); discriminate D|intuition lia|intuition lia].
            destruct D as (_ & _ & k1 & k2 & k3 & r3 & X & D). injection X as -> -> -> <-.
            rewrite Er, !zlen_cons in D. pose proof (zlen_nonneg r2). lia.
        + cbn [fst].
          destruct (existsb (Z.eqb sta) [0; 34; 35; 36]) eqn:Ee; cbn [fst].
          * split; [discriminate|]. intros D. exfalso. apply INV in D. rewrite U in D.
            destruct D as [[_ D]|[D|[D|[D|D]]]]; [lia| |destruct D as (_ & D & _); discriminate D|intuition lia|intuition lia].
            destruct D as (_ & _ & k1 & k2 & k3 & r3 & X & D). injection X as -> -> -> -> <-. discriminate Es.
          * split.
            -- intros E; injection E as <-. apply (D_status st m n (l1 :: l2 :: ch :: sta :: r)); [assumption|rewrite U; reflexivity|intros _; assumption].
            -- intros D. apply INV in D.
               destruct D as [[_ D]|[D|[D|[D|D]]]]; [lia| |destruct D as [-> _]; reflexivity|intuition lia|intuition lia].
               exfalso. destruct D as (_ & _ & k1 & k2 & k3 & r3 & X & D). injection X as -> -> -> -> <-. discriminate Es. }
    destruct (n =? 0x208) eqn:E4.
    { assert (N : n = 520) by lia. rewrite Q, connectionstate_res_spec. cbn [fst].
      destruct r as [|l1 [|l2 [|ch [|sta r]]]];
        try (split; [intros E; injection E as <-; apply SHORT; reflexivity|intros D; apply INV in D;
             destruct D as [D|[D|[D|[D|D]]]]; try (destruct D as [-> _]; reflexivity); exfalso; try (intuition lia);
             rewrite U in D; destruct D as (_ & D & _); discriminate D]).
      cbn [nth_error] in U. assert (L : 4 <= zlen (l1 :: l2 :: ch :: sta :: r)) by (rewrite !zlen_cons; pose proof (zlen_nonneg r); lia).
      destruct (existsb (Z.eqb sta) [0; 33; 38; 39]) eqn:Ee.
      - split; [discriminate|]. intros D. exfalso. apply INV in D. rewrite U in D.
        destruct D as [[_ D]|[D|[D|[D|D]]]]; [lia|intuition lia|destruct D as (_ & D & _); discriminate D|intuition lia|intuition lia].
      - split.
        + intros E; injection E as <-. eapply D_status; [exact S|rewrite U; reflexivity|lia].
        + intros D. apply INV in D. destruct D as [[_ D]|[D|[D|[D|D]]]]; [lia|intuition lia|destruct D as [-> _]; reflexivity|intuition lia|intuition lia]. }
    destruct (n =? 0x420) eqn:E5.
    { assert (N : n = 1056) by lia.
      destruct (Z.lt_ge_cases (zlen r) 6) as [L|L].
      - rewrite Q, tunneling_req_short by assumption. cbn [fst]. split; [intros E; injection E as <-; tauto|].
        destruct (n =? 1057) eqn:?; [lia|].
        intros D. apply INV in D. rewrite U in D.
        destruct D as [D|[D|[D|[D|D]]]]; try (destruct D as [-> _]; reflexivity); exfalso; intuition (lia || discriminate).
      - pose proof (tunnelled_service m n r O S N) as T.
        destruct r as [|l1 [|l2 [|sz [|ch [|ct [|sta r]]]]]]; try (cbn in L; lia).
        destruct (tunnelled_some m ct r st O T) as [_ Y]. rewrite Y. clear Q Y.
        destruct (n =? 1057) eqn:?; [lia|].
        assert (TI : datagram_failure st m e <-> ct = st_remote st /\ fst (d_msg_code r st) = Err e).
        { split.
          - intros D. apply INV in D. rewrite U in D.
            destruct D as [D|[D|[D|[D|(_ & _ & cemi & X & Y)]]]]; try (exfalso; intuition (lia || discriminate)).
            rewrite T in X. injection X as -> ->. auto.
          - intros [-> X]. exact (D_frame st m r e T X). }
        rewrite TI. clear TI. destruct (st_remote st =? ct) eqn:Er.
        + cbn [fst]. rewrite behind_error. split; [intros ->; split; [lia|reflexivity]|tauto].
        + split; [destruct (st_remote st =? ct + 1); discriminate|]. intros [X _]. lia. }
    destruct (n =? 0x421) eqn:E6.
    { assert (N : n = 1057) by lia. rewrite Q, tunneling_ack_spec by assumption.
      destruct r as [|l1 [|l2 [|sz [|ch [|ct [|sta r]]]]]];
        try (split; [intros E; injection E as <-; apply SHORT; reflexivity|intros D; apply INV in D;
             destruct D as [D|[D|[D|[D|D]]]]; try (destruct D as [-> _]; reflexivity); exfalso; try (intuition lia);
             rewrite U in D; destruct D as (_ & D & _); discriminate D]).
      cbv zeta. cbn [fst]. cbn [nth_error] in U. assert (L : 6 <= zlen (l1 :: l2 :: sz :: ch :: ct :: sta :: r)) by (rewrite !zlen_cons; pose proof (zlen_nonneg r); lia).
      destruct (existsb (Z.eqb sta) [0; 1; 2; 3]) eqn:Ee.
      - split; [discriminate|]. intros D. exfalso. apply INV in D. rewrite U in D.
        destruct D as [[_ D]|[D|[D|[D|D]]]]; [lia|intuition lia|destruct D as (_ & D & _); discriminate D|intuition lia|intuition lia].
      - split.
        + intros E; injection E as <-. eapply D_status; [exact S|rewrite U; reflexivity|lia].
        + intros D. apply INV in D. destruct D as [[_ D]|[D|[D|[D|D]]]]; [lia|intuition lia|destruct D as [-> _]; reflexivity|intuition lia|intuition lia]. }
    rewrite Q. split; [discriminate|]. intros D. exfalso. apply INV in D. rewrite U in D.
    destruct D as [[_ D]|[D|[D|[D|D]]]]; [|intuition lia|destruct D as (_ & D & _); discriminate D|intuition lia|intuition lia].
    pose proof (zlen_nonneg r). lia.
Qed.

(** ** Everything together *)
Definition telegram_failure tb l h (s : assoc_table) (go : gobj_table) (t : telegram) (e : exn) : Prop :=
  group_telegram t /\ In (t_dst t) (vals (at_addrs (as_table s))) /\ (exists svc, group_service t = Some svc) /\
  (e = KeyError /\ (forall v, balance tb l h v (t_dst t) = 0) \/
   e = ValueError /\ exists p rest, receivers tb l h (t_dst t) go = p :: rest /\ undisplayable (snd p) (raw (snd p) t) = true).
Lemma telegram_error tb l h s go k t e : built tb l h s ->
  (telegram_outcome s go k t = Err e <->
   telegram_failure tb l h s go t e \/
   e = IndexError /\ accepted_individual s k t /\ (exists svc, property_service t = Some svc) /\ zlen (t_data t) < 4).
Proof.
  intros B. split.
  - intros E. destruct (telegram_index s go k t) as [TI _].
    assert (X : e = IndexError \/ e <> IndexError) by (destruct e; (left; reflexivity) || (right; discriminate)).
    destruct X as [-> |Ne]; [right; auto|]. left. clear TI. unfold telegram_outcome in E.
    destruct (group_addressed t) eqn:G.
    + destruct (t_dst t =? 0) eqn:D; [discriminate E|]. destruct (plain t) eqn:P; [|discriminate E].
      unfold group_outcome in E. destruct (listed s (t_dst t)) eqn:L; [|discriminate E]. apply listed_In in L.
      destruct (group_service t) as [svc|] eqn:S; [|discriminate E].
      split; [repeat split; [assumption|lia|assumption]|]. split; [assumption|]. split; [eauto|].
      pose proof (reached_balance tb l h s go (t_dst t) B (or_introl L)) as X.
      destruct (reached s go (t_dst t)) as [r|e'].
      * right. destruct X as [-> _]. cbn [rbind] in E. change (filter _ go) with (receivers tb l h (t_dst t) go) in E.
        destruct (receivers tb l h (t_dst t) go) as [|p rest]; [discriminate E|]. cbn [first_undisplayable] in E.
        destruct (undisplayable (snd p) (raw (snd p) t)) eqn:U; [|discriminate E].
        cbn [rbind] in E. split; [congruence|]. eauto.
      * left. destruct X as [-> X]. cbn [rbind] in E. split; [congruence|assumption].
    + exfalso. destruct (plain t && individual_accepts s k t); [|discriminate E]. unfold property_outcome in E.
      destruct (property_service t); [|discriminate E]. destruct (4 <=? zlen (t_data t)); cbn [rbind] in E; congruence.
  - intros [F|(-> & F)]; [|apply telegram_index; exact F].
    destruct F as ((G & D & P) & L & [svc S] & F). unfold telegram_outcome. rewrite G, P.
    destruct (t_dst t =? 0) eqn:E0; [lia|]. unfold group_outcome. rewrite (proj2 (listed_In s (t_dst t)) L), S.
    pose proof (reached_balance tb l h s go (t_dst t) B (or_introl L)) as X.
    destruct F as [[-> V]|(-> & p & rest & V & U)]; destruct (reached s go (t_dst t)) as [r|e'].
    + destruct X as [_ [v X]]. rewrite V in X. lia.
    + destruct X as [-> _]. reflexivity.
    + destruct X as [-> _]. cbn [rbind]. change (filter _ go) with (receivers tb l h (t_dst t) go).
      rewrite V. cbn [first_undisplayable]. rewrite U. reflexivity.
    + destruct X as [_ X]. assert (In p (receivers tb l h (t_dst t) go)) as I by (rewrite V; left; reflexivity).
      unfold receivers in I. apply filter_In in I. rewrite X in I. destruct I. discriminate.
Qed.
Lemma cemi_error tb l h st s go cemi e : built tb l h s -> st_assoc st = Some s -> st_gobj st = Some go -> octets cemi ->
  (fst (d_msg_code cemi st) = Err e <->
   e = IndexError /\ cut_cemi s cemi \/
   exists k t, cemi_telegram cemi = Some (k, t) /\ telegram_failure tb l h s go t e).
Proof.
  intros B Ha Hg O. pose proof (cemi_index st s go cemi Ha Hg O) as CI. split.
  - intros E. assert (X : e = IndexError \/ e <> IndexError) by (destruct e; (left; reflexivity) || (right; discriminate)).
    destruct X as [-> |Ne]; [left; tauto|]. right.
    destruct (cemi_telegram cemi) as [[k t]|] eqn:T.
    + destruct (msg_code_some cemi st s go k t Ha Hg O T) as [_ X]. rewrite X in E. cbn [fst] in E.
      apply (telegram_error tb l h s go k t e B) in E. destruct E as [E|[E _]]; [|congruence]. exists k, t. auto.
    + destruct (msg_code_none cemi st T) as [X|X]; rewrite X in E; cbn [fst] in E; congruence.
  - intros [[-> C]|(k & t & T & F)]; [tauto|].
    destruct (msg_code_some cemi st s go k t Ha Hg O T) as [_ ->]. cbn [fst].
    apply (telegram_error tb l h s go k t e B). left. exact F.
Qed.

Lemma decode_failure tb l h st s go c m e :
  built tb l h s -> st_assoc st = Some s -> st_gobj st = Some go -> octets m -> proper_class st c ->
  (fst (decode_msg c m st) = Err e <-> failure tb l h st s go m e).
Proof.
  intros B Ha Hg O C.
  assert (TF : forall k t, on_bus st m = Some (k, t) -> telegram_failure tb l h s go t e -> failure tb l h st s go m e).
  { intros k t X (T & L & [svc S] & [[-> V]|(-> & p & rest & V & U)]);
      [exact (Fails_unassociated tb l h st s go m k t svc X T L S V)|exact (Fails_display tb l h st s go m k t svc p rest X T L S V U)]. }
  unfold decode_msg. unfold mbind at 1, mget at 1. destruct (st_medium st) eqn:Hm.
  - split.
    + intros E. injection E as <-. apply Fails_medium. assumption.
    + intros F. inversion F; subst; try congruence;
        try (match goal with H : on_bus st m = _ |- _ => unfold on_bus in H; rewrite Hm in H; discriminate H end). reflexivity.
  - pose proof (report_index st s go m Ha Hg O) as RI. split.
    + intros E. assert (X : e = IndexError \/ e <> IndexError) by (destruct e; (left; reflexivity) || (right; discriminate)).
      destruct X as [-> |Ne]; [apply Fails_cut_usb; tauto|].
      destruct (usb_cemi m) as [cemi|] eqn:U.
      * destruct (usb_some m cemi st O U) as [Oc X]. rewrite X in E.
        apply (cemi_error tb l h st s go cemi e B Ha Hg Oc) in E. destruct E as [[E _]|(k & t & T & F)]; [congruence|].
        apply (TF k t); [|exact F]. unfold on_bus. rewrite Hm, U. exact T.
      * destruct (usb_none m st O U) as [_ Q]. rewrite E in Q. congruence.
    + intros F.
      assert (G : forall k t, on_bus st m = Some (k, t) -> telegram_failure tb l h s go t e -> fst (d_report_identifier m st) = Err e).
      { intros k t X Y. unfold on_bus in X. rewrite Hm in X. destruct (usb_cemi m) as [cemi|] eqn:U; [|discriminate X].
        destruct (usb_some m cemi st O U) as [Oc ->]. apply (cemi_error tb l h st s go cemi e B Ha Hg Oc). right. eauto. }
      inversion F as [_ X| |k t svc X T L S V|k t svc p rest X T L S V U| | |]; subst; try congruence.
      * tauto.
      * apply (G k t X). repeat split; try (apply T); eauto.
      * apply (G k t X). split; [exact T|]. split; [exact L|]. split; [eauto|]. right. split; [reflexivity|]. eauto.
  - destruct C as [C| ->]; [congruence|]. rewrite (datagram_index st m e O). split.
    + intros D. inversion D as [X|n r X Y|l1 l2 ch r X Y|n r X Y Z|r X Y|cemi e' X Y]; subst.
      * apply Fails_cut_ip; [assumption|]. apply cut_ip. assumption.
      * apply Fails_cut_ip; [assumption|]. eapply cut_body_ip; eassumption.
      * apply Fails_cut_ip; [assumption|]. eapply cut_connect; eassumption.
      * eapply Fails_status; eassumption.
      * eapply Fails_endpoint; eassumption.
      * destruct (tunnelled_some m _ cemi st O X) as [Oc _].
        apply (cemi_error tb l h st s go cemi e B Ha Hg Oc) in Y. destruct Y as [[-> Y]|(k & t & T & F)].
        -- apply Fails_cut_ip; [assumption|]. eapply cut_tunnelled; eassumption.
        -- apply (TF k t); [|exact F]. unfold on_bus. rewrite Hm, X, Z.eqb_refl. exact T.
    + intros F.
      assert (G : forall k t, on_bus st m = Some (k, t) -> telegram_failure tb l h s go t e -> datagram_failure st m e).
      { intros k t X Y. unfold on_bus in X. rewrite Hm in X. destruct (tunnelled m) as [[ct cemi]|] eqn:U; [|discriminate X].
        destruct (ct =? st_remote st) eqn:Ec; [|discriminate X]. assert (ct = st_remote st) by lia. subst ct.
        destruct (tunnelled_some m _ cemi st O U) as [Oc _]. apply (D_frame st m cemi e U).
        apply (cemi_error tb l h st s go cemi e B Ha Hg Oc). right. eauto. }
      inversion F as [|_ X|k t svc X T L S V|k t svc p rest X T L S V U|n r _ X Y Z|r _ X Y|]; subst; try congruence.
      * destruct X as [m X|m n r X Y|m l1 l2 ch r X Y|m cemi X Y].
        -- apply D_ip. assumption.
        -- eapply D_body; eassumption.
        -- eapply D_connect; eassumption.
        -- apply (D_frame st m cemi _ X). destruct (tunnelled_some m _ cemi st O X) as [Oc _].
           apply (cemi_index st s go cemi Ha Hg Oc). exact Y.
      * apply (G k t X). repeat split; try (apply T); eauto.
      * apply (G k t X). split; [exact T|]. split; [exact L|]. split; [eauto|]. right. split; [reflexivity|]. eauto.
      * eapply D_status; eassumption.
      * eapply D_endpoint; eassumption.
Qed.
