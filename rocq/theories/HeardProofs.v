(** Proofs for C101. *)
From Coq Require Import String ZArith NArith List Bool Lia ZifyBool.
From Verif Require Import Py Base Msg Address Dpt Tables LData Inet State Encode Decode.
From Verif Require Import SpecMsg SpecTables SpecWire SpecDecode.
From Verif Require Import MsgProofs TablesProofs AssocProofs EncodeProofs DecodeProofs SimProofs IpProofs Props_Tables Props_Encode Props_Decode.
From Verif Require Import SpecFail FailProofs SpecHeard.
Import ListNotations.
Open Scope Z_scope.

(** ** Telegrams *)
Lemma telegram_ok tb l h s go k t r : built tb l h s -> telegram_outcome s go k t = Ok r ->
  r = if no_list t then RNone else RList (telegram_messages tb l h s go k t).
Proof.
  intros B E. unfold telegram_outcome, no_list, telegram_messages in *. change (has s) with (listed s) in *.
  destruct (group_addressed t) eqn:G; cbn [andb].
  - destruct (t_dst t =? 0) eqn:Z0; cbn [andb negb].
    + injection E as <-. destruct (plain t); reflexivity.
    + destruct (plain t); cbn [negb]; [|injection E as <-; reflexivity].
      unfold group_outcome in E. destruct (listed s (t_dst t)) eqn:L; cbn [rbind] in E; [|injection E as <-; reflexivity].
      destruct (group_service t) as [svc|]; cbn [rbind] in E; [|injection E as <-; reflexivity].
      apply listed_In in L. pose proof (reached_balance tb l h s go (t_dst t) B (or_introl L)) as X.
      destruct (reached s go (t_dst t)) as [q|e]; [|discriminate E]. destruct X as [-> _]. cbn [rbind] in E.
      change (filter _ go) with (receivers tb l h (t_dst t) go) in E.
      destruct (first_undisplayable t _); [discriminate E|]. cbn [rbind] in E. injection E as <-. reflexivity.
  - destruct (plain t); cbn [andb negb] in *; [|injection E as <-; reflexivity]. unfold individual_accepts in E.
    destruct (match k with Ind => _ | Con => _ end); [|injection E as <-; reflexivity].
    unfold property_outcome in E. destruct (property_service t); cbn [rbind] in E; [|injection E as <-; reflexivity].
    destruct (4 <=? zlen (t_data t)); [|discriminate E]. cbn [rbind] in E. injection E as <-. reflexivity.
Qed.

Lemma cemi_ok tb l h st s go cemi r : built tb l h s -> st_assoc st = Some s -> st_gobj st = Some go -> octets cemi ->
  fst (d_msg_code cemi st) = Ok r ->
  r = match cemi_telegram cemi with
      | Some (k, t) => if no_list t then RNone else RList (telegram_messages tb l h s go k t)
      | None => RList []
      end.
Proof.
  intros B Ha Hg O E. destruct (cemi_telegram cemi) as [[k t]|] eqn:C.
  - destruct (msg_code_some cemi st s go k t Ha Hg O C) as [_ X]. rewrite X in E. cbn [fst] in E. exact (telegram_ok _ _ _ _ _ _ _ _ B E).
  - destruct (msg_code_none cemi st C) as [X|X]; rewrite X in E; cbn [fst] in E; [injection E as <-; reflexivity|discriminate E].
Qed.

(** ** Features *)
Lemma feature_ok m st r : fst (d_feature_identifier m st) = Ok r ->
  r = RList match m with f :: v :: _ => feature_report 2 0 0 f v | _ => [] end.
Proof.
  unfold d_feature_identifier, mbind, mlift, octect. destruct m as [|f [|v q]]; [discriminate| |].
  - destruct (f =? 3); [discriminate|]. destruct (f =? 5); [discriminate|]. intros [= <-]. reflexivity.
  - unfold feature_report. cbn [Z.eqb Pos.eqb orb andb]. destruct (f =? 3).
    + destruct (v =? 0); [intros [= <-]; reflexivity|]. destruct (v =? 1); intros [= <-]; reflexivity.
    + destruct (f =? 5); [|intros [= <-]; reflexivity].
      destruct (v =? 3) eqn:E3; [assert (v = 3) as -> by lia; intros [= <-]; reflexivity|].
      destruct (v =? 1); [intros [= <-]; reflexivity|]. destruct (v =? 2); intros [= <-]; reflexivity.
Qed.
Lemma service_ok m st r : octets m -> fst (d_service_identifier m st) = Ok r ->
  r = RList match m with service :: mf1 :: mf2 :: f :: v :: _ => feature_report service mf1 mf2 f v | _ => [] end.
Proof.
  intros O. assert (G : forall sv m1 m2 q, sv = 2 \/ sv = 4 -> octets [m1; m2] ->
    fst ((if 256 * m1 + m2 =? 0 then d_feature_identifier q else mret (RList [])) st) = Ok r ->
    r = RList match q with f :: v :: _ => feature_report sv m1 m2 f v | _ => [] end).
  { intros sv m1 m2 q S Om. rewrite !octets_cons in Om. rewrite eqb_sum by tauto.
    destruct (m1 =? 0) eqn:E1; cbn [andb].
    - destruct (m2 =? 0) eqn:E2.
      + intros E. rewrite (feature_ok _ _ _ E). f_equal. destruct q as [|f [|v q]]; try reflexivity.
        unfold feature_report. rewrite E1, E2. destruct S as [-> | ->]; reflexivity.
      + intros [= <-]. f_equal. destruct q as [|f [|v q]]; try reflexivity.
        unfold feature_report. rewrite E2, andb_false_r. reflexivity.
    - intros [= <-]. f_equal. destruct q as [|f [|v q]]; try reflexivity.
      unfold feature_report. rewrite E1, andb_false_r. reflexivity. }
  unfold d_service_identifier. unfold mbind at 1, mlift at 1. destruct m as [|sv m]; [discriminate|]. cbn [octect].
  apply octets_cons in O. destruct O as [_ O].
  assert (Q : forall m1 m2 q, m = m1 :: m2 :: q -> octets [m1; m2]).
  { intros m1 m2 q ->. rewrite !octets_cons in O. rewrite !octets_cons. split; [tauto|]. split; [tauto|]. constructor. }
  unfold mbind at 1. destruct (sv =? 4) eqn:S4.
  - unfold mbind at 1, mlift at 1. destruct m as [|m1 [|m2 q]]; [discriminate|discriminate|].
    rewrite octets_short by assumption. specialize (G sv m1 m2 q ltac:(lia) (Q _ _ _ eq_refl)).
    destruct (256 * m1 + m2 =? 0) eqn:Z0.
    + unfold mbind at 1. intros E. apply G.
      pose proof (feature_quiet q st) as [Q1 _].
      destruct (d_feature_identifier q st) as [[x|e] st']; [|discriminate E]. unfold mret at 1 in E. 
      destruct (256 * m1 + m2 =? 2) eqn:Z2; [lia|]. exact E.
    + unfold mret at 1. intros E. apply G. destruct (256 * m1 + m2 =? 2); [|exact E].
      unfold mbind, mlift in E. rewrite Z0 in E. exact E.
  - unfold mret at 1. destruct (sv =? 2) eqn:S2.
    + unfold mbind at 1, mlift at 1. destruct m as [|m1 [|m2 q]]; [discriminate|discriminate|].
      rewrite octets_short by assumption. apply G; [lia|]. exact (Q _ _ _ eq_refl).
    + intros [= <-]. f_equal. destruct m as [|m1 [|m2 [|f [|v q]]]]; try reflexivity.
      unfold feature_report. rewrite S2, S4. reflexivity.
Qed.
Lemma usb_features_ok m st r : octets m -> usb_cemi m = None -> fst (d_report_identifier m st) = Ok r ->
  r = RList (usb_features m).
Proof.
  intros O H. assert (N : forall x : dres, fst (mret (RList []) st) = Ok x -> x = RList []) by (intros x [= <-]; reflexivity).
  unfold d_report_identifier. unfold mbind at 1, mlift at 1.
  destruct m as [|id m]; [discriminate|]. cbn [octect].
  destruct (id =? 1) eqn:E1.
  2:{ intros E. rewrite (N _ E). unfold usb_features. rewrite E1. destruct m as [|? [|? ?]]; reflexivity. }
  unfold d_packet_info, octect. destruct m as [|info m]; [discriminate|]. unfold mbind at 1, mlift at 1.
  rewrite nibble_mod. destruct (info mod 16 =? 3) eqn:Ei.
  2:{ intros E. rewrite (N _ E). unfold usb_features. rewrite E1, Ei. destruct m; reflexivity. }
  destruct m as [|plen q]; [discriminate|]. unfold mbind at 1, mlift at 1.
  cbn [usb_cemi usb_features] in *. rewrite E1, Ei in *. cbn [andb] in *.
  rewrite !octets_cons in O. destruct O as (_ & _ & _ & O). apply (octets_ztake plen) in O.
  unfold d_protocol_version, octect. unfold mbind at 1, mlift at 1.
  destruct (ztake plen q) as [|v p]; [discriminate|]. destruct (v =? 0) eqn:Ev.
  2:{ intros E. rewrite (N _ E). destruct p as [|? [|? [|? ?]]]; reflexivity. }
  unfold d_header_length, octect. unfold mbind at 1, mlift at 1.
  destruct p as [|hl p]; [discriminate|]. destruct (hl =? 8) eqn:Eh.
  2:{ intros E. rewrite (N _ E). destruct p as [|? [|? ?]]; reflexivity. }
  unfold d_body_length. unfold mbind at 1, mlift at 1.
  destruct p as [|hi [|lo r2]]; [discriminate|discriminate|].
  rewrite octets_cons in O. destruct O as (_ & O). rewrite octets_cons in O. destruct O as (_ & O).
  rewrite octets_short by assumption. cbn [andb] in *.
  rewrite !octets_cons in O. destruct O as (_ & _ & O). apply (octets_ztake (256 * hi + lo + 4)) in O.
  unfold d_protocol_id, octect. unfold mbind at 1, mlift at 1.
  destruct (ztake (256 * hi + lo + 4) r2) as [|p q2]; [discriminate|].
  destruct (p =? 1) eqn:Ep.
  - assert (F : match q2 with a :: b :: c :: d :: e :: _ => if p =? 15 then feature_report a b c d e else [] | _ => [] end = []).
    { assert (p =? 15 = false) as -> by lia. destruct q2 as [|? [|? [|? [|? [|? ?]]]]]; reflexivity. }
    rewrite F. unfold d_emi_id, octect. unfold mbind at 1, mlift at 1. destruct q2 as [|e q2]; [discriminate|].
    destruct (e =? 3) eqn:Ee; [|exact (N r)]. unfold mbind at 1, mlift at 1.
    destruct q2 as [|m1 [|m2 q2]]; [discriminate|discriminate|].
    rewrite octets_cons in O. destruct O as (_ & O). rewrite octets_cons in O. destruct O as (_ & O).
    rewrite octets_short by assumption. rewrite !octets_cons in O. destruct O as (O1 & O2 & _).
    rewrite eqb_sum by assumption. cbn [andb] in H. destruct ((m1 =? 0) && (m2 =? 0)); [discriminate H|exact (N r)].
  - destruct (p =? 15) eqn:E15.
    + apply octets_cons in O. intros E. rewrite (service_ok q2 st r (proj2 O) E).
      destruct q2 as [|? [|? [|? [|? [|? ?]]]]]; reflexivity.
    + intros E. rewrite (N _ E). destruct q2 as [|? [|? [|? [|? [|? ?]]]]]; reflexivity.
Qed.

(** ** Everything *)
Lemma returned_ok tb l h st s go c m r :
  built tb l h s -> st_assoc st = Some s -> st_gobj st = Some go -> octets m -> proper_class st c ->
  fst (decode_msg c m st) = Ok r -> r = returned tb l h s go st m.
Proof.
  intros B Ha Hg O C E. unfold decode_msg in E. unfold mbind at 1, mget at 1 in E. unfold returned.
  destruct (st_medium st) eqn:Hm; [discriminate E| |].
  - destruct (usb_cemi m) as [cemi|] eqn:U.
    + destruct (usb_some m cemi st O U) as [Oc X]. rewrite X in E.
      rewrite (cemi_ok _ _ _ _ _ _ _ _ B Ha Hg Oc E). destruct (cemi_telegram cemi) as [[k t]|]; reflexivity.
    + exact (usb_features_ok m st r O U E).
  - destruct C as [C| ->]; [congruence|].
    destruct (ip_cases m st O) as [[L X]|[[S [_ X]]|(n & q & S & Oq & X)]]; rewrite X in E; clear X.
    + discriminate E.
    + rewrite S. injection E as <-. reflexivity.
    + rewrite S.
      destruct (n =? 0x202) eqn:E1.
      { rewrite search_res_spec in E by assumption. cbn [fst] in E.
        destruct q as [|l1 [|l2 [|a [|b [|i1 [|i2 [|i3 [|i4 [|p1 [|p2 [|cc [|d [|x1 [|x2 q]]]]]]]]]]]]]]; try discriminate E.
        injection E as <-. reflexivity. }
      destruct (n =? 0x20A) eqn:E2.
      { assert (n = 0x20A) as -> by lia. change (0x20A =? 0x206) with false. change (0x20A =? 0x208) with false. cbv iota.
        rewrite disconnect_res_spec in E by assumption. destruct q as [|l1 [|l2 [|ch [|sta q]]]]; try discriminate E.
        unfold disconnect_answer. destruct (sta =? 0); injection E as <-; reflexivity. }
      destruct (n =? 0x206) eqn:E3.
      { destruct (Z.lt_ge_cases (zlen q) 12) as [W|W].
        - destruct (connect_res_short q st W) as [[X _]|X]; rewrite X in E; discriminate E.
        - destruct q as [|l1 [|l2 [|ch [|sta q]]]]; try (cbn in W; lia).
          destruct (eight q) as (a & b & i1 & i2 & i3 & i4 & p1 & p2 & q' & ->); [rewrite !zlen_cons in W; lia|].
          rewrite !octets_cons in Oq. rewrite connect_res_spec in E by (cbn [app]; rewrite !octets_cons; tauto).
          unfold connect_answer. destruct (sta =? 0) eqn:Es.
          + assert (sta = 0) as -> by lia. destruct q' as [|x1 [|x2 [|x3 [|x4 q']]]]; try discriminate E. injection E as <-. reflexivity.
          + destruct (existsb (Z.eqb sta) [0; 34; 35; 36]); [|discriminate E]. injection E as <-. reflexivity. }
      destruct (n =? 0x208) eqn:E4.
      { rewrite connectionstate_res_spec in E. cbn [fst] in E. destruct q as [|l1 [|l2 [|ch [|sta q]]]]; try discriminate E.
        destruct (existsb (Z.eqb sta) [0; 0x21; 0x26; 0x27]); [|discriminate E]. injection E as <-. reflexivity. }
      destruct (n =? 0x420) eqn:E5.
      { destruct q as [|l1 [|l2 [|sz [|ch [|ct [|sta q]]]]]];
          try (rewrite tunneling_req_short in E by (cbn; lia); discriminate E).
        unfold d_tunneling_req, ip_conn_header, octect in E. unfold mbind at 1, mlift at 1 in E. cbn [short] in E.
        unfold mbind at 1, mlift at 1 in E. cbn [rbind] in E. unfold mbind at 1, mget at 1 in E.
        rewrite (Z.eqb_sym ct), (Z.eqb_sym (ct + 1)).
        rewrite !octets_cons in Oq. assert (Oc : octets q) by tauto.
        destruct (st_remote st =? ct).
        - unfold mbind at 1 in E. destruct (d_msg_code q st) as [[x|e] st'] eqn:D; [|discriminate E].
          assert (D' : fst (d_msg_code q st) = Ok x) by (rewrite D; reflexivity).
          pose proof (cemi_ok _ _ _ _ _ _ _ _ B Ha Hg Oc D') as Y. injection E as <-. subst x.
          destruct (cemi_telegram q) as [[k t]|]; [|reflexivity].
          destruct (no_list t) eqn:NL; [|reflexivity].
          unfold telegram_messages. unfold no_list in NL. destruct (plain t); [rewrite andb_false_r in NL; discriminate NL|reflexivity].
        - destruct (st_remote st =? ct + 1); injection E as <-; reflexivity. }
      destruct (n =? 0x421) eqn:E6; [|injection E as <-; reflexivity].
      rewrite tunneling_ack_spec in E by assumption.
      destruct q as [|l1 [|l2 [|sz [|ch [|ct [|sta q]]]]]]; try discriminate E. cbv zeta in E. cbn [fst] in E.
      destruct (existsb (Z.eqb sta) [0; 1; 2; 3]); [|discriminate E]. injection E as <-.
      unfold local_after. rewrite S, E6. cbn [andb]. reflexivity.
Qed.

(** ** Runs *)
Lemma moved_nil st : moved st [] = st.
Proof. destruct st as [[]]; reflexivity. Qed.
Lemma hear_app c ms : forall st ms', fst (hear c st (ms ++ ms')) = fst (hear c st ms) ++ fst (hear c (snd (hear c st ms)) ms').
Proof.
  induction ms as [|m r IH]; intros st ms'; [reflexivity|]. cbn [app hear].
  specialize (IH (snd (decode_msg c m st)) ms').
  destruct (hear c (snd (decode_msg c m st)) (r ++ ms')) as [o1 s1], (hear c (snd (decode_msg c m st)) r) as [o2 s2].
  cbn [fst snd] in *. rewrite IH. reflexivity.
Qed.
Lemma hear_cons c m r st : fst (hear c st (m :: r)) = fst (decode_msg c m st) :: fst (hear c (snd (decode_msg c m st)) r).
Proof. cbn [hear]. destruct (hear c (snd (decode_msg c m st)) r). reflexivity. Qed.
Lemma hear_length c ms : forall st, length (fst (hear c st ms)) = length ms.
Proof. induction ms as [|m r IH]; intros st; [reflexivity|]. rewrite hear_cons. cbn [length]. rewrite IH. reflexivity. Qed.
Lemma hear_state c ms : forall st st', agree (moved st []) st' -> Forall octets ms -> proper_class st c ->
  agree (moved st ms) (snd (hear c st' ms)).
Proof.
  induction ms as [|m r IH]; intros st st' A F C; [exact A|].
  inversion F as [|? ? Om Fr]. subst. cbn [hear].
  assert (H : agree (moved (moved st [m]) r) (snd (hear c (snd (decode_msg c m st')) r))).
  { apply IH.
    - rewrite moved_nil in *. unfold moved. destruct (st_medium st) eqn:Hm.
      + pose proof A as ((M & _) & _). unfold decode_msg. unfold mbind at 1, mget at 1. rewrite M, Hm. exact A.
      + pose proof A as ((M & _) & _).
        pose proof (C31_usb c m st' ltac:(congruence)) as X. clear -A X. unfold agree, same_tables in *. intuition congruence.
      + destruct C as [C| ->]; [congruence|]. pose proof A as ((M & _) & _).
        destruct (C31_netip m st' Om ltac:(congruence)) as (X1 & X2 & X3 & X4).
        unfold agree, same_tables in *. cbn [st_medium st_assoc st_gobj st_remote st_local st_channel fold_left].
        destruct A as ((A1 & A2 & A3) & A4 & A5 & A6). rewrite A5 in X3. rewrite A6 in X4. intuition congruence.
    - exact Fr.
    - destruct C as [C| ->]; [left|right; reflexivity]. unfold moved. rewrite C. exact C. }
  assert (X : moved (moved st [m]) r = moved st (m :: r)).
  { unfold moved. destruct (st_medium st) eqn:Hm; cbn [st_medium]; rewrite ?Hm; reflexivity. }
  rewrite X in H. destruct (hear c (snd (decode_msg c m st')) r). exact H.
Qed.
