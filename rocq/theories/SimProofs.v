(** Results do not depend on the scratch attributes of the state (C30), and what
    decoding may change (C31). *)
From Coq Require Import String ZArith List Bool Lia ZifyBool.
From Verif Require Import Py Base Msg Address Dpt Tables LData Inet State Encode Decode.
From Verif Require Import SpecMsg SpecTables SpecWire SpecDecode.
Import ListNotations.
Open Scope Z_scope.

Section Sim.
Context (R : state -> state -> Prop).
Definition sim {A} (k : M state A) : Prop :=
  forall s s', R s s' -> fst (k s) = fst (k s') /\ R (snd (k s)) (snd (k s')).
Lemma sim_ret {A} (a : A) : sim (mret a).
Proof. intros s s' H. split; [reflexivity|exact H]. Qed.
Lemma sim_raise {A} e : sim (@mraise state A e).
Proof. intros s s' H. split; [reflexivity|exact H]. Qed.
Lemma sim_lift {A} (r : res A) : sim (mlift r).
Proof. intros s s' H. split; [reflexivity|exact H]. Qed.
Lemma sim_bind {A B} (m : M state A) (f : A -> M state B) : sim m -> (forall a, sim (f a)) -> sim (mbind m f).
Proof.
  intros Hm Hf s s' H. unfold mbind. destruct (Hm s s' H) as [E R'].
  destruct (m s) as [[a|e] t], (m s') as [[a'|e'] t']; cbn [fst snd] in *; try discriminate E.
  - injection E as <-. apply Hf. exact R'.
  - split; congruence || assumption.
Qed.
Lemma sim_get {B} (f : state -> M state B) :
  (forall s s', R s s' -> f s = f s') -> (forall s, sim (f s)) -> sim (mbind mget f).
Proof. intros Hf H s s' E. unfold mbind, mget. rewrite <- (Hf s s' E). apply H. exact E. Qed.
Lemma sim_modify f : (forall s s', R s s' -> R (f s) (f s')) -> sim (mmodify f).
Proof. intros H s s' E. split; [reflexivity|]. apply H. exact E. Qed.
End Sim.

(** Tables, medium, counters and channel agree, and so does the received frame /
    so do the attributes of the request being encoded. *)
Definition agree_dec (s s' : state) : Prop := agree s s' /\ st_ldata s' = st_ldata s.
Definition agree_enc (s s' : state) : Prop :=
  agree s s' /\ st_asap s' = st_asap s /\ st_apci s' = st_apci s /\ st_address_type s' = st_address_type s.

Ltac rel_tac :=
  let s := fresh in let s' := fresh in let H := fresh in
  intros s s' H; destruct s, s';
  unfold agree_dec, agree_enc, agree, same_tables in H; cbn in H;
  repeat match goal with H : _ /\ _ |- _ => destruct H end; subst;
  try reflexivity; unfold agree_dec, agree_enc, agree, same_tables; cbn; repeat split; reflexivity.
Ltac sim_tac := repeat match goal with
  | |- sim _ (mret _) => apply sim_ret
  | |- sim _ (mraise _) => apply sim_raise
  | |- sim _ (mlift _) => apply sim_lift
  | |- sim _ (mmodify _) => apply sim_modify; rel_tac
  | |- sim _ (mbind mget _) => apply sim_get; [rel_tac|intros]
  | |- sim _ (mbind _ _) => apply sim_bind; [|intros]
  | |- sim _ (match ?x with _ => _ end) => destruct x
  | |- sim _ (let '(_, _) := ?x in _) => destruct x
  end.

(** ** Decoding *)

Lemma sim_cur_ldata : sim agree_dec cur_ldata.
Proof. unfold cur_ldata. sim_tac. Qed.
Lemma sim_group mk mkc k m : sim agree_dec (d_group mk mkc k m).
Proof. unfold d_group, d_group_value. sim_tac. apply sim_cur_ldata. Qed.
Lemma sim_tdata_group k m : sim agree_dec (d_tdata_group k m).
Proof.
  unfold d_tdata_group, d_group_value_read, d_group_value_response, d_group_value_write.
  sim_tac; try apply sim_cur_ldata; apply sim_group.
Qed.
Lemma sim_property mk mkc k m : sim agree_dec (d_property mk mkc k m).
Proof. unfold d_property. sim_tac; try apply sim_cur_ldata. Qed.
Lemma sim_dispatch k m : sim agree_dec (d_property_dispatch k m).
Proof.
  unfold d_property_dispatch, d_property_value_read, d_property_value_response, d_property_value_write.
  sim_tac; try apply sim_cur_ldata; apply sim_property.
Qed.
Lemma sim_tdata_individual k m : sim agree_dec (d_tdata_individual k m).
Proof.
  destruct k; cbn [d_tdata_individual]; unfold d_tdata_individual_ind, d_tdata_individual_con.
  - apply sim_bind; [apply sim_cur_ldata|intros]. sim_tac; apply sim_dispatch.
  - sim_tac; apply sim_dispatch.
Qed.
Lemma sim_ldata k m : sim agree_dec (d_ldata k m).
Proof.
  unfold d_ldata, d_ndata_individual, d_ndata_group, d_ndata_broadcast, d_todo.
  sim_tac; try apply sim_cur_ldata; try apply sim_tdata_individual; try apply sim_tdata_group.
Qed.
Lemma sim_cemi_ldata k m : sim agree (d_cemi_ldata k m).
Proof.
  unfold d_cemi_ldata. apply sim_bind; [apply sim_lift|]. intros [d body] s s' H. unfold mbind, mmodify.
  assert (X : agree_dec (st_set_ldata d s) (st_set_ldata d s')).
  { split; [|reflexivity]. destruct H as ((H1 & H2 & H3) & H4 & H5 & H6). repeat split; assumption. }
  destruct (sim_ldata k body _ _ X) as [Y [Z _]]. split; assumption.
Qed.
Lemma sim_msg_code m : sim agree (d_msg_code m).
Proof. unfold d_msg_code. sim_tac; apply sim_cemi_ldata. Qed.
Lemma sim_feature m : sim agree (d_feature_identifier m).
Proof. unfold d_feature_identifier. sim_tac. Qed.
Lemma sim_service m : sim agree (d_service_identifier m).
Proof. unfold d_service_identifier. sim_tac; apply sim_feature. Qed.
Lemma sim_usb m : sim agree (d_report_identifier m).
Proof.
  unfold d_report_identifier, d_packet_info, d_protocol_version, d_header_length, d_body_length, d_protocol_id, d_emi_id.
  sim_tac; try apply sim_msg_code; apply sim_service.
Qed.
Lemma sim_ip c m : sim agree (d_ip_header c m).
Proof.
  unfold d_ip_header, d_search_res, d_disconnect_res, d_connect_res, d_connectionstate_res, d_tunneling_req, d_tunneling_ack.
  sim_tac; apply sim_msg_code.
Qed.
Lemma sim_decode c m : sim agree (decode_msg c m).
Proof. unfold decode_msg. sim_tac; [apply sim_usb|apply sim_ip]. Qed.

(** ** Encoding *)

Lemma sim_conn_header a b : sim agree_enc (e_connection_header a b).
Proof. unfold e_connection_header, channel_id. sim_tac. Qed.
Lemma sim_cemi_req m : sim agree_enc (e_cemi_req m).
Proof. unfold e_cemi_req, e_tunneling_req. sim_tac. apply sim_conn_header. Qed.
Lemma sim_ll m : sim agree_enc (ll_encode m).
Proof. unfold ll_encode. sim_tac. Qed.
Lemma sim_ldata_req m : sim agree_enc (e_ldata_req m).
Proof. unfold e_ldata_req. sim_tac; [apply sim_ll|apply sim_cemi_req]. Qed.
Lemma sim_ldata_ind m : sim agree_enc (e_ldata_ind m).
Proof. unfold e_ldata_ind, e_cemi_ind. sim_tac. apply sim_ll. Qed.
Lemma sim_nl m : sim agree_enc (nl_encode m).
Proof. unfold nl_encode. sim_tac. Qed.
Lemma sim_tl m : sim agree_enc (tl_encode m).
Proof. unfold tl_encode. sim_tac. Qed.
Lemma sim_tdata_group_req m : sim agree_enc (e_tdata_group_req m).
Proof. unfold e_tdata_group_req, e_ndata_group_req. sim_tac; [apply sim_tl|apply sim_nl|apply sim_ldata_req]. Qed.
Lemma sim_tdata_group_ind m : sim agree_enc (e_tdata_group_ind m).
Proof. unfold e_tdata_group_ind, e_ndata_group_ind. sim_tac; [apply sim_tl|apply sim_nl|apply sim_ldata_ind]. Qed.
Lemma sim_tdata_individual_req m : sim agree_enc (e_tdata_individual_req m).
Proof. unfold e_tdata_individual_req, e_ndata_individual_req. sim_tac; apply sim_ldata_req. Qed.

(** The three attributes are set first. *)
Definition prepared (a : asap) (apci at_ : Z) (s : state) : state :=
  st_set_address_type at_ (st_set_apci apci (st_set_asap a s)).
Lemma prepared_agree a apci at_ s s' : agree s s' -> agree_enc (prepared a apci at_ s) (prepared a apci at_ s').
Proof. revert s s'. rel_tac. Qed.
Lemma sim_prepared {A} (k : M state A) a apci at_ : sim agree_enc k ->
  sim agree (fun s => k (prepared a apci at_ s)).
Proof.
  intros H s s' E. destruct (H _ _ (prepared_agree a apci at_ s s' E)) as [X [Y _]]. split; assumption.
Qed.
Definition al_rest (d : dpt) : E msg :=
  act s <- mget;
  act c <- mlift (st_get_dpt s);
  if dpt_small c then mret [Octect (ld_full_apci (ld_set_data (ld_set_apci ld_new 0x80) (d_value d)))]
  else
    let l := ld_set_data (ld_set_apci ld_new 0x80) 0 in
    if dpt_size c =? 1 then mret [Octect (ld_full_apci l); Octect (d_value d)]
    else if dpt_size c =? 2 then
      let v := Short (d_value d) in
      mret [Octect (ld_full_apci l); short_MSB v; short_LSB v]
    else if dpt_size c =? 4 then
      let v := Long (d_value d) in
      mret [Octect (ld_full_apci l); long_B4 v; long_B3 v; long_B2 v; long_B1 v]
    else mret [].
Lemma sim_al_rest d : sim agree_enc (al_rest d).
Proof. unfold al_rest. sim_tac. Qed.
Lemma sim_ext {A} R (k k' : M state A) : (forall s, k s = k' s) -> sim R k -> sim R k'.
Proof. intros E H s s' X. rewrite <- !E. apply H. exact X. Qed.

Lemma sim_encode m : sim agree (encode_msg m).
Proof.
  destruct m; cbn [encode_msg]; try apply sim_raise.
  - unfold e_connect_req. sim_tac.
  - unfold e_connectionstate_req, e_channel_req, channel_id. sim_tac.
  - unfold e_disconnect_req, e_channel_req, channel_id. sim_tac.
  - unfold e_search_req. sim_tac.
  - unfold e_tunneling_ack, e_connection_header, channel_id. sim_tac.
  - eapply sim_ext; [|apply (sim_prepared (e_tdata_group_req [Octect (ld_apci (ld_set_apci ld_new 0))]) a 0 AT_group), sim_tdata_group_req].
    intros s. reflexivity.
  - eapply sim_ext; [|apply (sim_prepared (act m <- al_rest d; e_tdata_group_req m) a 0x80 AT_group)].
    + intros s. reflexivity.
    + apply sim_bind; [apply sim_al_rest|intros; apply sim_tdata_group_req].
  - eapply sim_ext; [|apply (sim_prepared (act m <- al_rest d; e_tdata_group_ind m) a 0x80 AT_group)].
    + intros s. reflexivity.
    + apply sim_bind; [apply sim_al_rest|intros; apply sim_tdata_group_ind].
  - eapply sim_ext; [|apply (sim_prepared (e_tdata_individual_req (Octect (ld_full_apci (ld_set_apci ld_new 0x3D5)) :: long_octects (Long (ph_make oi pid ne si)))) a 0x3D5 AT_individual), sim_tdata_individual_req].
    intros s. reflexivity.
  - eapply sim_ext; [|apply (sim_prepared (act bytes <- mlift (stringtooctects data); e_tdata_individual_req (Octect (ld_full_apci (ld_set_apci ld_new 0x3D7)) :: long_octects (Long (ph_make oi pid ne si)) ++ bytes)) a 0x3D7 AT_individual)].
    + intros s. reflexivity.
    + apply sim_bind; [apply sim_lift|intros; apply sim_tdata_individual_req].
Qed.

(** ** Decoding keeps the state, except for the received frame *)

Definition still {A} (k : M state A) : Prop := forall s, snd (k s) = s.
Lemma still_ret {A} (a : A) : still (mret a).
Proof. intros s. reflexivity. Qed.
Lemma still_raise {A} e : still (@mraise state A e).
Proof. intros s. reflexivity. Qed.
Lemma still_lift {A} (r : res A) : still (mlift r).
Proof. intros s. reflexivity. Qed.
Lemma still_get : still (@mget state).
Proof. intros s. reflexivity. Qed.
Lemma still_bind {A B} (m : M state A) (f : A -> M state B) : still m -> (forall a, still (f a)) -> still (mbind m f).
Proof.
  intros Hm Hf s. unfold mbind. specialize (Hm s). destruct (m s) as [[a|e] s']; cbn [snd] in *; [|assumption].
  subst s'. apply Hf.
Qed.
Ltac still_tac := repeat match goal with
  | |- still (mret _) => apply still_ret
  | |- still (mraise _) => apply still_raise
  | |- still (mlift _) => apply still_lift
  | |- still mget => apply still_get
  | |- still (mbind _ _) => apply still_bind; [|intros]
  | |- still (match ?x with _ => _ end) => destruct x
  end.
Lemma still_group mk mkc k m : still (d_group mk mkc k m).
Proof. unfold d_group, d_group_value, cur_ldata. still_tac. Qed.
Lemma still_tdata_group k m : still (d_tdata_group k m).
Proof.
  unfold d_tdata_group, d_group_value_read, d_group_value_response, d_group_value_write, cur_ldata.
  still_tac; apply still_group.
Qed.
Lemma still_property mk mkc k m : still (d_property mk mkc k m).
Proof. unfold d_property, cur_ldata. still_tac. Qed.
Lemma still_dispatch k m : still (d_property_dispatch k m).
Proof.
  unfold d_property_dispatch, d_property_value_read, d_property_value_response, d_property_value_write, cur_ldata.
  still_tac; apply still_property.
Qed.
Lemma still_tdata_individual k m : still (d_tdata_individual k m).
Proof.
  destruct k; cbn [d_tdata_individual]; unfold d_tdata_individual_ind, d_tdata_individual_con, cur_ldata;
    still_tac; apply still_dispatch.
Qed.
Lemma still_ldata k m : still (d_ldata k m).
Proof.
  unfold d_ldata, d_ndata_individual, d_ndata_group, d_ndata_broadcast, d_todo, cur_ldata.
  still_tac; try apply still_tdata_individual; apply still_tdata_group.
Qed.
Lemma still_feature m : still (d_feature_identifier m).
Proof. unfold d_feature_identifier. still_tac. Qed.
Lemma still_service m : still (d_service_identifier m).
Proof. unfold d_service_identifier. still_tac; apply still_feature. Qed.

(** Everything but [st_ldata] is kept. *)
Definition only_frame (s s' : state) : Prop := s' = s \/ exists l, s' = st_set_ldata l s.
Definition calm {A} (k : M state A) : Prop := forall s, only_frame s (snd (k s)).
Lemma calm_still {A} (k : M state A) : still k -> calm k.
Proof. intros H s. left. apply H. Qed.
Lemma calm_bind {A B} (m : M state A) (f : A -> M state B) : still m -> (forall a, calm (f a)) -> calm (mbind m f).
Proof.
  intros Hm Hf s. unfold mbind. specialize (Hm s). destruct (m s) as [[a|e] s']; cbn [snd] in *; [|left; assumption].
  subst s'. apply Hf.
Qed.
Lemma calm_cemi_ldata k m : calm (d_cemi_ldata k m).
Proof.
  unfold d_cemi_ldata. apply calm_bind; [still_tac|]. intros [d body] s. unfold mbind, mmodify.
  right. exists d. apply still_ldata.
Qed.
Ltac calm_tac := repeat match goal with
  | |- calm (mret _) => apply calm_still, still_ret
  | |- calm (mraise _) => apply calm_still, still_raise
  | |- calm (mlift _) => apply calm_still, still_lift
  | |- calm (mbind _ _) => apply calm_bind; [still_tac|intros]
  | |- calm (match ?x with _ => _ end) => destruct x
  end.
Lemma calm_msg_code m : calm (d_msg_code m).
Proof. unfold d_msg_code. calm_tac; apply calm_cemi_ldata. Qed.
Lemma calm_usb m : calm (d_report_identifier m).
Proof.
  unfold d_report_identifier, d_packet_info, d_protocol_version, d_header_length, d_body_length, d_protocol_id, d_emi_id.
  calm_tac; try apply calm_msg_code; apply calm_still, still_service.
Qed.
Lemma calm_tunneling_req c m : calm (d_tunneling_req c m).
Proof.
  unfold d_tunneling_req. apply calm_bind; [still_tac|intros [? body]].
  apply calm_bind; [still_tac|intros [[[? seq] ?] rest]]. apply calm_bind; [still_tac|intros s0].
  destruct (st_remote s0 =? seq); [|destruct (st_remote s0 =? seq + 1); calm_tac].
  intros s. unfold mbind. pose proof (calm_msg_code rest s) as H. destruct (d_msg_code rest s) as [[r|e] s']; exact H.
Qed.
