(** Everything the encoder returns is a list of octets (C61). *)
From Coq Require Import String Ascii ZArith List Bool Lia ZifyBool.
From Verif Require Import Py Base Msg Address Dpt Tables LData Inet State Encode Decode.
From Verif Require Import SpecMsg SpecWire MsgProofs EncodeProofs.
Import ListNotations.
Open Scope Z_scope.

Lemma zipmap_octets hs : forall ls, octets (zipmap hs ls).
Proof.
  induction hs as [|x hs IH]; intros ls; [constructor|]. destruct ls as [|y ls]; [constructor|].
  cbn [zipmap]. apply octets_cons. split; [|apply IH]. rewrite octect_of_nibbles_arith. unfold is_octet. lia.
Qed.
Lemma parsed_octets text data : stringtooctects text = Ok data -> octets data.
Proof.
  unfold stringtooctects. destruct (hexvals (evens _)) as [hs|]; [|discriminate].
  destruct (hexvals (odds _)) as [ls|]; [|discriminate]. cbn [rbind]. intros E. injection E as <-. apply zipmap_octets.
Qed.

Lemma Octect_octet x : is_octet (Octect x).
Proof. rewrite Octect_mod. unfold is_octet. lia. Qed.
Lemma short_octets_ok v : octets [short_MSB (Short v); short_LSB (Short v)].
Proof. rewrite be2'. apply be_octets. Qed.
Lemma long_octets_ok v : octets [long_B4 (Long v); long_B3 (Long v); long_B2 (Long v); long_B1 (Long v)].
Proof. change (octets (long_octects (Long v))). rewrite be4. apply be_octets. Qed.

Lemma long_octects_ok v : octets (long_octects v).
Proof. unfold long_octects, long_B4, long_B3, long_B2, long_B1. repeat (apply octets_cons; split; [apply Octect_octet|]). constructor. Qed.

Definition yields {A} (P : A -> Prop) (k : M state A) : Prop :=
  forall s, match fst (k s) with Ok b => P b | Err _ => True end.
Lemma yields_ret {A} (P : A -> Prop) a : P a -> yields P (mret a).
Proof. intros H s. exact H. Qed.
Lemma yields_raise {A} (P : A -> Prop) e : yields P (mraise e).
Proof. intros s. exact I. Qed.
Lemma yields_bind {A B} (P : A -> Prop) (Q : B -> Prop) m f :
  yields P m -> (forall a, P a -> yields Q (f a)) -> yields Q (mbind m f).
Proof.
  intros Hm Hf s. unfold mbind. specialize (Hm s). destruct (m s) as [[a|e] s1]; [|exact I].
  apply Hf. exact Hm.
Qed.
Lemma yields_any {A} (k : M state A) : yields (fun _ => True) k.
Proof. intros s. destruct (fst (k s)); exact I. Qed.

Ltac octets_goal := repeat first
  [ assumption
  | match goal with
    | |- octets (_ ++ _) => apply octets_app; split
    | |- octets (?a :: ?b) => first [apply short_octets_ok | apply long_octets_ok | apply octets_cons; split]
    | |- octets (short_octects (Short _)) => apply short_octets_ok
    | |- octets (long_octects (Long _)) => apply long_octets_ok
    | |- octets (map Octect ?l) => clear; induction l; [constructor|apply octets_cons; split; [apply Octect_octet|assumption]]
    | |- is_octet (Octect _) => apply Octect_octet
    | |- is_octet (octect_of_nibbles _ _) => rewrite octect_of_nibbles_arith; unfold is_octet; lia
    | |- octets [] => constructor
    end ].
Ltac yields_tac := repeat match goal with
  | |- yields _ (mret _) => apply yields_ret
  | |- yields _ (mraise _) => apply yields_raise
  | |- yields _ (mbind _ _) => eapply yields_bind; [apply yields_any|intros ? _]
  | |- yields _ (if ?b then _ else _) => destruct b
  | |- yields _ (match ?x with _ => _ end) => destruct x
  | |- yields _ (let _ := _ in _) => cbv zeta
  end.

Lemma pair_octets a b m : octets [a; b] -> octets m -> octets (a :: b :: m).
Proof. rewrite !octets_cons. tauto. Qed.
Lemma emi_octets m : octets m -> octets (e_emi_id m).
Proof.
  intros H. unfold e_emi_id, e_protocol_id, e_body_length, e_header_length, e_protocol_version, e_packet_info, e_report_identifier.
  cbn [app]. apply octets_cons; split; [apply Octect_octet|]. apply octets_cons; split; [rewrite octect_of_nibbles_arith; unfold is_octet; lia|].
  apply octets_cons; split; [apply Octect_octet|]. apply octets_cons; split; [apply Octect_octet|].
  apply octets_cons; split; [apply Octect_octet|]. apply pair_octets; [apply short_octets_ok|].
  repeat (apply octets_cons; split; [apply Octect_octet|]). assumption.
Qed.
Lemma hpai_octets ip p : octets (e_hpai ip p).
Proof. unfold e_hpai. octets_goal. Qed.
Lemma conn_header_octets a b : yields octets (e_connection_header a b).
Proof. unfold e_connection_header. yields_tac. octets_goal. Qed.
Lemma ip_header_octets m : octets m -> octets (e_ip_header m).
Proof. intros. unfold e_ip_header. octets_goal. Qed.
Lemma cemi_req_octets m : octets m -> yields octets (e_cemi_req m).
Proof.
  intros H. unfold e_cemi_req. eapply yields_bind; [apply yields_any|]. intros s _.
  assert (octets ([Octect 17; Octect 0] ++ m)) by octets_goal.
  destruct (st_medium s); [apply yields_ret; assumption|apply yields_ret, emi_octets; assumption|].
  unfold e_tunneling_req. eapply yields_bind; [apply yields_any|]. intros s' _.
  eapply yields_bind; [apply conn_header_octets|]. intros h Hh. apply yields_ret, ip_header_octets. octets_goal.
Qed.
Lemma cemi_ind_octets m : octets m -> yields octets (e_cemi_ind m).
Proof. intros H. apply yields_ret, emi_octets. octets_goal. Qed.
Lemma ll_octets m : octets m -> yields octets (ll_encode m).
Proof. intros H. unfold ll_encode. yields_tac. cbn [app]. do 2 (apply octets_cons; split; [apply Octect_octet|]). apply pair_octets; [apply short_octets_ok|assumption]. Qed.
Lemma ldata_req_octets m : octets m -> yields octets (e_ldata_req m).
Proof. intros H. eapply yields_bind; [apply ll_octets; exact H|]. intros a Ha. apply cemi_req_octets. exact Ha. Qed.
Lemma ldata_ind_octets m : octets m -> yields octets (e_ldata_ind m).
Proof. intros H. eapply yields_bind; [apply ll_octets; exact H|]. intros a Ha. apply cemi_ind_octets. exact Ha. Qed.
Lemma nl_octets m : octets m -> yields octets (nl_encode m).
Proof.
  intros H. unfold nl_encode. yields_tac; [assumption|]. cbn [app]. apply pair_octets; [apply short_octets_ok|].
  apply octets_cons; split; [apply Octect_octet|assumption].
Qed.
Lemma tl_octets m : octets m -> yields octets (tl_encode m).
Proof. intros H. unfold tl_encode. yields_tac; try assumption. apply octets_cons; split; [apply Octect_octet|assumption]. Qed.
Lemma group_req_octets m : octets m -> yields octets (e_tdata_group_req m).
Proof.
  intros H. eapply yields_bind; [apply tl_octets; exact H|]. intros a Ha.
  eapply yields_bind; [apply nl_octets; exact Ha|]. intros b Hb. apply ldata_req_octets. exact Hb.
Qed.
Lemma group_ind_octets m : octets m -> yields octets (e_tdata_group_ind m).
Proof.
  intros H. eapply yields_bind; [apply tl_octets; exact H|]. intros a Ha.
  eapply yields_bind; [apply nl_octets; exact Ha|]. intros b Hb. apply ldata_ind_octets. exact Hb.
Qed.
Lemma ndata_individual_octets m : octets m -> yields octets (e_ndata_individual_req m).
Proof.
  intros H. unfold e_ndata_individual_req. cbv zeta. eapply yields_bind; [apply yields_any|]. intros s _.
  eapply yields_bind; [apply yields_any|]. intros ia _. apply ldata_req_octets. cbn [app].
  apply pair_octets; [apply short_octets_ok|]. apply octets_cons; split; [apply Octect_octet|assumption].
Qed.
Lemma individual_req_octets m : octets m -> yields octets (e_tdata_individual_req m).
Proof.
  intros H. unfold e_tdata_individual_req. eapply yields_bind; [apply yields_any|]. intros s _.
  destruct (match st_address_type s with Some v => v =? AT_individual | None => false end); [|apply yields_ret; exact H].
  destruct (st_apci s); [|apply yields_raise]. apply ndata_individual_octets.
  apply octets_cons; split; [apply Octect_octet|assumption].
Qed.
Lemma al_octets a d : yields octets (al_encode a d).
Proof.
  unfold al_encode. yields_tac; repeat (apply octets_cons; split; [apply Octect_octet|]);
    try apply short_octets_ok; try apply long_octets_ok; constructor.
Qed.
Lemma lift_yields {A} (P : A -> Prop) r : (forall b, r = Ok b -> P b) -> yields P (mlift r).
Proof. intros H s. unfold mlift. destruct r as [b|]; cbn; [apply H; reflexivity|exact I]. Qed.

Lemma encode_octets m : yields octets (encode_msg m).
Proof.
  destruct m; cbn [encode_msg]; try apply yields_raise.
  - unfold e_connect_req. yields_tac. apply ip_header_octets. rewrite !octets_app.
    repeat split; try apply hpai_octets; try apply short_octets_ok; octets_goal.
  - unfold e_connectionstate_req, e_channel_req. yields_tac. apply ip_header_octets. rewrite !octets_app.
    repeat split; try apply hpai_octets; try apply short_octets_ok; octets_goal.
  - unfold e_disconnect_req, e_channel_req. yields_tac. apply ip_header_octets. rewrite !octets_app.
    repeat split; try apply hpai_octets; try apply short_octets_ok; octets_goal.
  - unfold e_search_req. yields_tac. apply ip_header_octets. rewrite !octets_app.
    repeat split; try apply hpai_octets; try apply short_octets_ok; octets_goal.
  - unfold e_tunneling_ack. eapply yields_bind; [apply yields_any|]. intros s _.
    eapply yields_bind; [apply conn_header_octets|]. intros h Hh. eapply yields_bind; [apply yields_any|]. intros _ _.
    apply yields_ret, ip_header_octets. octets_goal.
  - unfold e_group_value_read. do 3 (eapply yields_bind; [apply yields_any|intros _ _]). cbv zeta.
    apply group_req_octets. octets_goal.
  - eapply yields_bind; [apply al_octets|]. intros x Hx. apply group_req_octets. exact Hx.
  - eapply yields_bind; [apply al_octets|]. intros x Hx. apply group_ind_octets. exact Hx.
  - unfold e_property_value_read. cbv zeta. do 3 (eapply yields_bind; [apply yields_any|intros _ _]).
    apply individual_req_octets. apply octets_cons; split; [apply Octect_octet|apply long_octects_ok].
  - unfold e_property_value_write. cbv zeta. do 3 (eapply yields_bind; [apply yields_any|intros _ _]).
    eapply yields_bind; [apply lift_yields; intros b Hb; apply (parsed_octets _ _ Hb)|]. intros bs Hbs.
    apply individual_req_octets. apply octets_cons; split; [apply Octect_octet|].
    apply octets_app. split; [apply long_octects_ok|exact Hbs].
Qed.
Lemma encoded_octets m st b : fst (encode_msg m st) = Ok b -> octets b.
Proof.
  intros H. assert (X : match fst (encode_msg m st) with Ok b => octets b | Err _ => True end) by exact (encode_octets m st).
  rewrite H in X. exact X.
Qed.
