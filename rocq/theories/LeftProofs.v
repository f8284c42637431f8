(** Proofs for C106. *)
From Coq Require Import String ZArith NArith List Bool Lia.
From Verif Require Import Py Base Msg Address Dpt Tables LData Inet State Encode Decode.
From Verif Require Import SpecMsg SpecTables SpecWire SpecDecode SpecLeft.
From Verif Require Import MsgProofs EncodeProofs DecodeProofs SimProofs IpProofs FailProofs Props_Encode Props_Decode.
Import ListNotations.
Open Scope Z_scope.

(** ** Encoding *)

Lemma still_conn a b : still (e_connection_header a b).
Proof. unfold e_connection_header, channel_id. still_tac. Qed.
Lemma still_ldata_req m : still (e_ldata_req m).
Proof. unfold e_ldata_req, ll_encode, e_cemi_req, e_tunneling_req. still_tac. apply still_conn. Qed.
Lemma still_group_req m : still (e_tdata_group_req m).
Proof. unfold e_tdata_group_req, tl_encode, e_ndata_group_req, nl_encode. still_tac; apply still_ldata_req. Qed.
Lemma still_group_ind m : still (e_tdata_group_ind m).
Proof. unfold e_tdata_group_ind, tl_encode, e_ndata_group_ind, nl_encode, e_ldata_ind, ll_encode, e_cemi_ind. still_tac. Qed.
Lemma still_individual_req m : still (e_tdata_individual_req m).
Proof. unfold e_tdata_individual_req, e_ndata_individual_req. still_tac; apply still_ldata_req. Qed.
Lemma still_al d : still (al_rest d).
Proof. unfold al_rest. still_tac. Qed.

Lemma encoding_leaves m s : snd (encode_msg m s) = left_by_encoding m s.
Proof.
  assert (I : forall x, mkstate (st_medium x) (st_assoc x) (st_gobj x) (st_ldata x) (st_asap x) (st_apci x) (st_address_type x) (st_remote x) (st_local x) (st_channel x) = x)
    by (intros []; reflexivity).
  assert (K : forall k : M state msg, still k -> snd (k s) = mkstate (st_medium s) (st_assoc s) (st_gobj s) (st_ldata s) (st_asap s) (st_apci s) (st_address_type s) (st_remote s) (st_local s) (st_channel s))
    by (intros k H; rewrite I; apply H).
  assert (P : forall (k : M state msg) a v t, still k -> snd (k (prepared a v t s)) =
    mkstate (st_medium s) (st_assoc s) (st_gobj s) (st_ldata s) (Some a) (Some v) (Some t) (st_remote s) (st_local s) (st_channel s))
    by (intros k a v t H; rewrite H; reflexivity).
  destruct m; unfold left_by_encoding; cbn [addressing]; try (cbn [encode_msg]; apply K; apply still_raise).
  - cbn [encode_msg]. apply K. unfold e_connect_req. still_tac.
  - cbn [encode_msg]. apply K. unfold e_connectionstate_req, e_channel_req, channel_id. still_tac.
  - cbn [encode_msg]. apply K. unfold e_disconnect_req, e_channel_req, channel_id. still_tac.
  - cbn [encode_msg]. apply K. unfold e_search_req. still_tac.
  - rewrite ack_frame. destruct (st_channel s) as [ch|] eqn:E; cbn [snd]; rewrite <- E.
    + destruct (seq =? st_remote s); [reflexivity|]. symmetry. apply I.
    + symmetry. apply I.
  - exact (P (e_tdata_group_req [Octect (ld_apci (ld_set_apci ld_new 0))]) a 0 AT_group (still_group_req _)).
  - refine (P (act m <- al_rest d; e_tdata_group_req m) a 0x80 AT_group _). apply still_bind; [apply still_al|intros; apply still_group_req].
  - refine (P (act m <- al_rest d; e_tdata_group_ind m) a 0x80 AT_group _). apply still_bind; [apply still_al|intros; apply still_group_ind].
  - exact (P (e_tdata_individual_req (Octect (ld_full_apci (ld_set_apci ld_new 0x3D5)) :: long_octects (Long (ph_make oi pid ne si)))) a 0x3D5 AT_individual (still_individual_req _)).
  - refine (P (act bytes <- mlift (stringtooctects data); e_tdata_individual_req (Octect (ld_full_apci (ld_set_apci ld_new 0x3D7)) :: long_octects (Long (ph_make oi pid ne si)) ++ bytes)) a 0x3D7 AT_individual _).
    apply still_bind; [apply still_lift|intros; apply still_individual_req].
Qed.

(** ** Decoding *)

Definition asides (s : state) := (st_ldata s, st_asap s, st_apci s, st_address_type s).
Definition holds {A} (k : M state A) : Prop := forall s, asides (snd (k s)) = asides s.
Lemma holds_still {A} (k : M state A) : still k -> holds k.
Proof. intros H s. rewrite H. reflexivity. Qed.
Lemma holds_bind {A B} (m : M state A) (f : A -> M state B) : holds m -> (forall a, holds (f a)) -> holds (mbind m f).
Proof.
  intros Hm Hf s. unfold mbind. specialize (Hm s). destruct (m s) as [[a|e] s']; cbn [snd] in *; [|assumption].
  rewrite Hf. exact Hm.
Qed.
Lemma holds_modify f : (forall s, asides (f s) = asides s) -> holds (mmodify f).
Proof. intros H s. apply H. Qed.
Ltac holds_tac := repeat match goal with
  | |- holds (mret _) => apply holds_still, still_ret
  | |- holds (mraise _) => apply holds_still, still_raise
  | |- holds (mlift _) => apply holds_still, still_lift
  | |- holds mget => apply holds_still, still_get
  | |- holds (mmodify _) => apply holds_modify; intros; reflexivity
  | |- holds (mbind _ _) => apply holds_bind; [|intros]
  | |- holds (match ?x with _ => _ end) => destruct x
  end.
Lemma holds_search m : holds (d_search_res m).
Proof. unfold d_search_res. holds_tac. Qed.
Lemma holds_disconnect m : holds (d_disconnect_res m).
Proof. unfold d_disconnect_res. holds_tac. Qed.
Lemma holds_connect c m : holds (d_connect_res c m).
Proof. unfold d_connect_res. holds_tac. Qed.
Lemma holds_connectionstate m : holds (d_connectionstate_res m).
Proof. unfold d_connectionstate_res. holds_tac. Qed.
Lemma holds_ack c m : holds (d_tunneling_ack c m).
Proof. unfold d_tunneling_ack. holds_tac. Qed.

Lemma msg_code_left cemi s : octets cemi -> snd (d_msg_code cemi s) =
  match cemi_telegram cemi with Some (_, t) => st_set_ldata (header t) s | None => s end.
Proof.
  intros O. destruct (cemi_telegram cemi) as [[k t]|] eqn:E.
  - destruct (msg_code_ldata cemi s k t O E) as [_ ->]. apply still_ldata.
  - destruct (msg_code_none cemi s E) as [-> | ->]; reflexivity.
Qed.
Lemma ip_asides m s : octets m -> st_medium s = Knxnet_ip -> asides (snd (d_ip_header CNetIP m s)) =
  (match on_bus s m with Some (_, t) => Some (header t) | None => st_ldata s end, st_asap s, st_apci s, st_address_type s).
Proof.
  intros O Hm. unfold on_bus. rewrite Hm. destruct (tunnelled m) as [[counter cemi]|] eqn:T.
  - destruct (tunnelled_some m counter cemi s O T) as [Oc ->]. rewrite (Z.eqb_sym counter).
    destruct (st_remote s =? counter); [|destruct (st_remote s =? counter + 1); reflexivity]. cbn [snd]. rewrite msg_code_left by exact Oc.
    destruct (cemi_telegram cemi) as [[k t]|]; reflexivity.
  - assert (R : asides (snd (d_ip_header CNetIP m s)) = asides s); [|exact R].
    destruct (ip_cases m s O) as [[_ ->]|[(_ & _ & ->)|(n & r & S & Or & ->)]]; try reflexivity.
    destruct (n =? 0x202); [apply holds_search|]. destruct (n =? 0x20A); [apply holds_disconnect|].
    destruct (n =? 0x206); [apply holds_connect|]. destruct (n =? 0x208); [apply holds_connectionstate|].
    destruct (n =? 0x420) eqn:E; [|destruct (n =? 0x421); [apply holds_ack|reflexivity]].
    destruct (Z.lt_ge_cases (zlen r) 6) as [W|W]; [rewrite tunneling_req_short by exact W; reflexivity|].
    exfalso. destruct m as [|h [|v [|s1 [|s2 m]]]]; try discriminate S. cbn [ip_service] in S.
    destruct ((h =? 6) && (v =? 16)) eqn:Eh; [|discriminate S]. injection S as <- <-.
    destruct m as [|x1 [|x2 [|x3 [|x4 [|x5 [|x6 m]]]]]]; try (cbn in W; lia).
    cbn [tunnelled] in T. rewrite !octets_cons in O. unfold is_octet in O.
    assert (s1 = 4 /\ s2 = 32) as [-> ->] by lia. rewrite Eh in T. discriminate T.
Qed.
Lemma decoding_leaves c m s : octets m -> (st_medium s = Knxnet_ip -> c = CNetIP) ->
  snd (decode_msg c m s) = left_by_decoding m s.
Proof.
  intros O C. unfold left_by_decoding. destruct (st_medium s) eqn:Hm.
  - assert (E : snd (decode_msg c m s) = s) by (unfold decode_msg, mbind, mget; rewrite Hm; reflexivity).
    rewrite E. unfold on_bus. rewrite Hm. destruct s; cbn in Hm |- *. subst. reflexivity.
  - assert (E : decode_msg c m s = d_report_identifier m s) by (unfold decode_msg, mbind, mget; rewrite Hm; reflexivity).
    rewrite E. unfold on_bus. rewrite Hm.
    assert (I : mkstate Usb_hid (st_assoc s) (st_gobj s) (st_ldata s) (st_asap s) (st_apci s) (st_address_type s) (st_remote s) (st_local s) (st_channel s) = s)
      by (rewrite <- Hm; destruct s; reflexivity).
    destruct (usb_cemi m) as [cemi|] eqn:U.
    + destruct (usb_some m cemi s O U) as [Oc ->]. rewrite msg_code_left by exact Oc.
      destruct (cemi_telegram cemi) as [[k t]|]; [|symmetry; exact I]. unfold st_set_ldata. rewrite Hm. reflexivity.
    + destruct (usb_none m s O U) as [-> _]. symmetry. exact I.
  - specialize (C eq_refl). subst c. pose proof (C31_netip m s O Hm) as N. cbv zeta in N.
    assert (E : decode_msg CNetIP m s = d_ip_header CNetIP m s) by (unfold decode_msg, mbind, mget; rewrite Hm; reflexivity).
    rewrite E in *. pose proof (ip_asides m s O Hm) as A. destruct N as ((N1 & N2 & N3) & N4 & N5 & N6).
    unfold asides in A. destruct (snd (d_ip_header CNetIP m s)) as [md ta tg ld sa sv stt re lo ch]. cbn in *.
    injection A as A1 A2 A3 A4. subst. rewrite Hm. reflexivity.
Qed.

Lemma call_leaves s x : proper_call (st_medium s) x -> snd (api_do s x) = left_by s x.
Proof. destruct x as [m|c m]; cbn [api_do snd left_by proper_call]; [intros _; apply encoding_leaves|intros [O C]; apply decoding_leaves; assumption]. Qed.
Lemma left_medium s x : st_medium (left_by s x) = st_medium s.
Proof. destruct x; reflexivity. Qed.
Lemma run_leaves : forall h s, Forall (proper_call (st_medium s)) h -> snd (api_run s h) = fold_left left_by h s.
Proof.
  induction h as [|x h IH]; intros s F; [reflexivity|]. cbn [api_run fold_left].
  pose proof (call_leaves s x (Forall_inv F)) as E. destruct (api_do s x) as [o s1]. cbn [snd] in E. subst s1.
  specialize (IH (left_by s x)). rewrite left_medium in IH. specialize (IH (Forall_inv_tail F)).
  destruct (api_run (left_by s x) h) as [os s2]. exact IH.
Qed.
