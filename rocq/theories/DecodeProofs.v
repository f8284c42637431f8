(** Proofs about the decoder (C21-C34, C59, C60). *)
From Coq Require Import String Ascii ZArith List Bool Lia ZifyBool Permutation.
From Verif Require Import Py Base Msg Address Dpt Tables LData Inet State Encode Decode.
From Verif Require Import SpecMsg SpecTables SpecWire SpecDecode.
From Verif Require Import MsgProofs TablesProofs AssocProofs EncodeProofs.
Import ListNotations.
Open Scope Z_scope.

(** ** Display *)

Definition modes : list Z := [0; 1; 2; 3; 4; 5; 6; 7; 8; 9; 10; 11; 12; 13; 14; 15].
Definition bitsv : list Z := [0; 1].
Lemma in_modes z : 0 <= z < 16 -> In z modes.
Proof. intros H. unfold modes. cbn. lia. Qed.
Lemma mode_enum z : 0 <= z < 16 ->
  (exists n, enum_of_code funzionamento_enum z = Ok n) /\ ((9 <=? z) && (z <=? 13)) || (z =? 15) = false \/
  enum_of_code funzionamento_enum z = Err ValueError /\ ((9 <=? z) && (z <=? 13)) || (z =? 15) = true.
Proof.
  intros H. apply in_modes in H. cbn in H.
  repeat (destruct H as [<-|H]; [solve [left; split; [eexists; reflexivity|reflexivity] | right; split; reflexivity]|]).
  destruct H.
Qed.
Lemma bit_enum e z : (exists n, enum_of_code e 0 = Ok n) -> (exists n, enum_of_code e 1 = Ok n) ->
  0 <= z < 2 -> exists n, enum_of_code e z = Ok n.
Proof. intros H0 H1 H. assert (z = 0 \/ z = 1) as [->| ->] by lia; assumption. Qed.

Lemma repr_spec c v : dpt_repr (mkdpt c v) = if undisplayable c v then Err ValueError else Ok tt.
Proof.
  unfold dpt_repr, describe.
  assert (G : forall o, 0 <= o -> 0 <= get v o 1 < 2) by (intros o Ho; pose proof (get_range v o 1 Ho ltac:(lia)); lia).
  assert (F : get v 24 4 = v / 16777216 mod 16) by (rewrite get_arith by lia; reflexivity).
  assert (B : forall e o, 0 <= o -> (exists n, enum_of_code e 0 = Ok n) -> (exists n, enum_of_code e 1 = Ok n) ->
    exists n, enum_of_code e (get v o 1) = Ok n).
  { intros e o Ho H0 H1. apply bit_enum; [assumption|assumption|]. apply G. assumption. }
  destruct c; cbn [d_class properties describe_props]; unfold prop_get, bits_get;
    cbn [d_class d_value sfind properties layout find_field String.eqb Ascii.eqb Bool.eqb];
    cbn [rbind]; unfold undisplayable; try reflexivity;
  repeat match goal with
    | |- context [enum_of_code ?e (get v ?o 1)] =>
        let n := fresh "n" in let Hn := fresh "Hn" in
        destruct (B e o ltac:(lia) ltac:(eexists; reflexivity) ltac:(eexists; reflexivity)) as [n Hn];
        rewrite Hn; clear Hn; cbn [rbind]
    end; try reflexivity.
  - assert (0 <= get v 6 2 < 4) as H by (pose proof (get_range v 6 2); lia).
    assert (get v 6 2 = 0 \/ get v 6 2 = 1 \/ get v 6 2 = 2 \/ get v 6 2 = 3) as K by lia.
    destruct K as [->|[->|[->| ->]]]; reflexivity.
  - rewrite F. destruct (mode_enum (v / 16777216 mod 16)) as [[[n1 ->] ->]|[-> ->]]; [lia|reflexivity|reflexivity].
  - rewrite F. destruct (mode_enum (v / 16777216 mod 16)) as [[[n1 ->] ->]|[-> ->]]; [lia|reflexivity|reflexivity].
Qed.

(** ** Telegrams *)

Definition proper (t : telegram) : Prop :=
  is_octet (t_c1 t) /\ is_octet (t_c2 t) /\ 0 <= t_src t < 65536 /\ 0 <= t_dst t < 65536 /\
  is_octet (t_len t) /\ is_octet (t_tpci t) /\ is_octet (t_apci t) /\ octets (t_data t).
Definition ld_of (t : telegram) : ldata :=
  mkld (t_apci t) (t_tpci t) (t_len t) (t_dst t) (t_src t) (t_c2 t) (t_c1 t).

Lemma make_telegram c1 c2 s1 s2 d1 d2 len tpci apci data :
  is_octet s1 -> is_octet s2 -> is_octet d1 -> is_octet d2 ->
  let t := mktg c1 c2 (256 * s1 + s2) (256 * d1 + d2) len tpci apci data in
  ld_make_from (c1 :: c2 :: s1 :: s2 :: d1 :: d2 :: len :: tpci :: apci :: data) = Ok (ld_of t, payload t).
Proof.
  intros H1 H2 H3 H4 t. unfold ld_make_from, octect. cbn [rbind].
  rewrite short_spec by assumption. cbn [rbind]. rewrite short_spec by assumption. cbn [rbind].
  unfold t, ld_of, payload. cbn. destruct data; reflexivity.
Qed.

Lemma ld_address t : proper t -> ld_address_type (ld_of t) = if group_addressed t then 1 else 0.
Proof.
  intros (_ & H & _). unfold ld_address_type, group_addressed. cbn [ld_cntrl2 ld_of].
  rewrite get_arith by lia. change (2 ^ 7) with 128. change (2 ^ 1) with 2. unfold is_octet in H.
  destruct (128 <=? t_c2 t) eqn:E; lia.
Qed.
Lemma ld_apci10 t : ld_full_apci (ld_of t) = apci10 t.
Proof.
  unfold ld_full_apci, apci10, tp_ack_nack. cbn [ld_tpci ld_apci ld_of].
  rewrite get_arith, Z.shiftl_mul_pow2 by lia. change (2 ^ 0) with 1. change (2 ^ 2) with 4. change (2 ^ 8) with 256.
  rewrite Z.div_1_r. lia.
Qed.
Lemma ld_stat t : ld_status (ld_of t) = status t.
Proof.
  unfold ld_status, status. cbn [ld_cntrl1 ld_of]. rewrite get_arith by lia. change (2 ^ 0) with 1. change (2 ^ 1) with 2.
  rewrite Z.div_1_r. reflexivity.
Qed.
Lemma ld_low t : ld_data (ld_of t) = t_apci t mod 64.
Proof.
  unfold ld_data. cbn [ld_apci ld_of]. rewrite get_arith by lia. change (2 ^ 0) with 1. change (2 ^ 6) with 64.
  rewrite Z.div_1_r. reflexivity.
Qed.
Definition pdu_model (p : pdu) : option nsdu :=
  match p with
  | Broadcast => Some T_Data_Broadcast_PDU | GroupData => Some T_Data_Group_PDU
  | TagGroup => Some T_Data_Tag_Group_PDU | IndividualData => Some T_Data_Individual_PDU
  | Connected => Some T_Data_Connected_PDU | Ack => Some T_ACK_PDU | Nack => Some T_NACK_PDU
  | Other => None
  end.
Lemma nsdu_kind t : proper t -> ld_nsdu (ld_of t) = pdu_model (pdu_kind t).
Proof.
  intros P. unfold ld_nsdu, pdu_kind. rewrite ld_address by assumption.
  destruct P as (_ & _ & _ & _ & _ & H & _). unfold is_octet in H.
  cbn [ld_tpci ld_destination ld_of]. unfold tp_control, tp_numbered, tp_sequence, tp_ack_nack.
  rewrite !get_arith by lia.
  change (2 ^ 0) with 1. change (2 ^ 1) with 2. change (2 ^ 2) with 4. change (2 ^ 4) with 16.
  change (2 ^ 6) with 64. change (2 ^ 7) with 128. rewrite Z.div_1_r.
  assert (C : t_tpci t / 128 mod 2 = if 128 <=? t_tpci t then 1 else 0) by (destruct (128 <=? t_tpci t) eqn:E; lia).
  rewrite C. assert (N : t_tpci t / 64 mod 2 = 0 \/ t_tpci t / 64 mod 2 = 1) by lia.
  change AT_group with 1. change AT_individual with 0.
  destruct (group_addressed t), (128 <=? t_tpci t), N as [-> | ->]; cbn [orb andb negb];
    change (1 =? 1) with true; change (0 =? 0) with true; change (0 =? 1) with false; change (1 =? 0) with false;
    cbn [orb andb negb]; try reflexivity.
  - destruct (t_tpci t / 4 mod 16 =? 0) eqn:E; [destruct (t_dst t =? 0); reflexivity|].
    cbn [andb]. destruct (t_tpci t / 4 mod 16 =? 1); reflexivity.
  - destruct (t_tpci t mod 4 =? 2) eqn:E; [reflexivity|]. destruct (t_tpci t mod 4 =? 3); reflexivity.
  - destruct (t_tpci t / 4 mod 16 =? 0); reflexivity.
Qed.

Lemma plain_kind t : proper t -> group_addressed t = true -> t_dst t <> 0 ->
  match pdu_kind t with GroupData => plain t = true | _ => plain t = false end.
Proof.
  intros (_ & _ & _ & _ & _ & H & _) G D. unfold pdu_kind, plain. rewrite G. unfold is_octet in H.
  destruct (128 <=? t_tpci t) eqn:E1; cbn [orb]; [lia|].
  destruct (t_tpci t / 64 mod 2 =? 1) eqn:E2; [lia|].
  destruct (t_tpci t / 4 mod 16 =? 0) eqn:E3.
  - destruct (t_dst t =? 0) eqn:E4; lia.
  - destruct (t_tpci t / 4 mod 16 =? 1); lia.
Qed.
Lemma plain_kind_individual t : proper t -> group_addressed t = false ->
  match pdu_kind t with IndividualData => plain t = true | _ => plain t = false end.
Proof.
  intros (_ & _ & _ & _ & _ & H & _) G. unfold pdu_kind, plain. rewrite G. unfold is_octet in H.
  destruct (128 <=? t_tpci t) eqn:E1.
  - destruct (t_tpci t / 64 mod 2 =? 1); [|lia].
    destruct (t_tpci t mod 4 =? 2); [lia|]. destruct (t_tpci t mod 4 =? 3); lia.
  - destruct (t_tpci t / 64 mod 2 =? 1) eqn:E2; [lia|].
    destruct (t_tpci t / 4 mod 16 =? 0) eqn:E3; lia.
Qed.

(** ** Payloads *)

Lemma payload_loop_be body : forall value head,
  payload_loop value head body = fold_left (fun v b => 256 * v + b) (head :: body) value.
Proof.
  induction body as [|h b IH]; intros value head; cbn [payload_loop].
  - cbn [fold_left]. rewrite Z.shiftl_mul_pow2 by lia. change (2 ^ 8) with 256. lia.
  - rewrite IH. cbn [fold_left]. rewrite Z.shiftl_mul_pow2 by lia. change (2 ^ 8) with 256.
    replace (value * 256 + head) with (256 * value + head) by lia. reflexivity.
Qed.
Lemma payload_cons t : exists h b, payload t = h :: b.
Proof. unfold payload. destruct (t_data t); eauto. Qed.
Lemma size_octets c : 2 ^ (8 * dpt_size c) = 256 ^ value_octets c.
Proof. destruct c; reflexivity. Qed.
Lemma group_values_spec t l : group_values (payload t) l =
  Ok (map (fun p => (fst p, mkdpt (snd p) (raw (snd p) t))) l).
Proof.
  destruct (payload_cons t) as (h & b & P).
  induction l as [|[a c] r IH]; cbn [group_values map fst snd]; [reflexivity|].
  assert (R : raw c t = payload_loop 0 h b mod 256 ^ value_octets c).
  { unfold raw. rewrite payload_loop_be, P. reflexivity. }
  rewrite IH. rewrite P at 1. unfold octect. cbn [rbind].
  unfold dpt_set_value, dpt_new. cbn [d_class].
  unfold cuint. rewrite size_octets, <- R. reflexivity.
Qed.

(** ** Group telegrams *)

Definition listed (s : assoc_table) (g : Z) : bool := existsb (Z.eqb g) (vals (at_addrs (as_table s))).
Lemma listed_In s g : listed s g = true <-> In g (vals (at_addrs (as_table s))).
Proof.
  unfold listed. rewrite existsb_exists. split.
  - intros (x & H & E). apply Z.eqb_eq in E. subst. assumption.
  - intros H. exists g. split; [assumption|apply Z.eqb_refl].
Qed.
Lemma tsap_listed s g : match at_get_tsap (as_table s) g with
  | Some n => negb (n =? 0) = listed s (a_val g) /\ (n =? 0) = negb (listed s (a_val g)) /\ (n = 0 -> a_val g = a_val (at_ia (as_table s)))
  | None => listed s (a_val g) = false /\ a_val g <> a_val (at_ia (as_table s))
  end.
Proof.
  destruct (listed s (a_val g)) eqn:E.
  - apply listed_In in E. destruct (get_tsap_listed _ _ E) as (k & -> & Hk & _). split; [lia|]. lia.
  - assert (N : ~ In (a_val g) (vals (at_addrs (as_table s)))).
    { intros H. apply listed_In in H. congruence. }
    destruct (Z.eq_dec (a_val g) (a_val (at_ia (as_table s)))) as [Ei|Ni].
    + rewrite get_tsap_ia by assumption. split; [reflexivity|]. split; [reflexivity|]. auto.
    + rewrite get_tsap_unknown by assumption. auto.
Qed.

(** The entries of the group object table reached by an address. *)
Definition reached (s : assoc_table) (go : gobj_table) (g : Z) : res (list (asap * dpt_class)) :=
  do asaps <- as_get_asaps_from_address s (mkaddr 0 g);
  Ok (filter (fun p => existsb (asap_eqb (fst p)) asaps) go).
Definition first_undisplayable (t : telegram) (l : list (asap * dpt_class)) : bool :=
  match l with [] => false | p :: _ => undisplayable (snd p) (raw (snd p) t) end.
Definition group_outcome (s : assoc_table) (go : gobj_table) (k : dir) (t : telegram) : res (list message) :=
  if listed s (t_dst t) then
    match group_service t with
    | None => Ok []
    | Some svc =>
        do l <- reached s go (t_dst t);
        if first_undisplayable t l then Err ValueError else Ok (group_messages k svc t l)
    end
  else Ok [].

Lemma debug_group k svc t l : debug_first (group_messages k svc t l) =
  if first_undisplayable t l then Err ValueError else Ok tt.
Proof.
  destruct l as [|[a c] r]; [reflexivity|]. cbn [group_messages map debug_first first_undisplayable fst snd].
  assert (message_repr (group_message k svc t a (mkdpt c (raw c t))) = dpt_repr (mkdpt c (raw c t))) as ->
    by (destruct k, svc; reflexivity).
  rewrite repr_spec. destruct (undisplayable c (raw c t)); reflexivity.
Qed.

Lemma st_tsap st s t : st_assoc st = Some s -> st_ldata st = Some (ld_of t) -> proper t ->
  st_get_tsap st = Ok (at_get_tsap (as_table s) (mkaddr 0 (t_dst t))).
Proof.
  intros Ha Hl P. unfold st_get_tsap. rewrite Ha, Hl. cbn [need rbind].
  unfold as_get_tsap. cbn [ld_destination ld_of]. unfold free_style, cuint.
  destruct P as (_ & _ & _ & D & _). change (2 ^ 16) with 65536. rewrite Z.mod_small by lia. reflexivity.
Qed.

Lemma d_group_spec mk mkc k t st s go : st_assoc st = Some s -> st_gobj st = Some go ->
  st_ldata st = Some (ld_of t) -> proper t ->
  d_group mk mkc k (payload t) st =
  (do l <- reached s go (t_dst t);
   Ok (map (fun p => match k with
                     | Ind => mk (fst p) (mkdpt (snd p) (raw (snd p) t))
                     | Con => mkc (fst p) (mkdpt (snd p) (raw (snd p) t)) (status t)
                     end) l), st).
Proof.
  intros Ha Hg Hl P. unfold d_group, d_group_value. unfold mbind at 1 2, mget at 1.
  unfold mbind at 1, mlift at 1. unfold st_get_asaps_and_dpts, st_get_asaps.
  rewrite (st_tsap st s t Ha Hl P). cbn [rbind]. rewrite Ha, Hg. cbn [need rbind].
  unfold reached, as_get_asaps_from_address.
  destruct (as_get_asaps s (at_get_tsap (as_table s) (mkaddr 0 (t_dst t)))) as [asaps|e]; [|reflexivity].
  cbn [rbind]. unfold mlift. rewrite group_values_spec.
  destruct k.
  - unfold mret. rewrite map_map. reflexivity.
  - unfold cur_ldata, mbind, mget, mlift, mret. rewrite Hl. cbn [need].
    rewrite map_map, ld_stat. reflexivity.
Qed.

Lemma tdata_group k t st s go : st_assoc st = Some s -> st_gobj st = Some go ->
  st_ldata st = Some (ld_of t) -> proper t ->
  d_tdata_group k (payload t) st = (group_outcome s go k t, st).
Proof.
  intros Ha Hg Hl P. unfold d_tdata_group. unfold mbind at 1, mget at 1. unfold mbind at 1, mlift at 1.
  rewrite (st_tsap st s t Ha Hl P). unfold mbind at 1. unfold cur_ldata at 1. unfold mbind at 1, mget at 1, mlift at 1.
  rewrite Hl. cbn [need].
  pose proof (tsap_listed s (mkaddr 0 (t_dst t))) as T. cbn [a_val] in T. unfold group_outcome.
  destruct (at_get_tsap (as_table s) (mkaddr 0 (t_dst t))) as [n|].
  2: { destruct T as [-> _]. reflexivity. }
  destruct T as [-> _]. destruct (listed s (t_dst t)); [|reflexivity].
  rewrite ld_apci10, ld_low. unfold group_service.
  pose proof P as (_ & _ & _ & _ & _ & Ht & Hp & _). unfold is_octet in *.
  assert (A : forall svc mk mkc, 
    (forall p, match k with
               | Ind => mk (fst p) (mkdpt (snd p) (raw (snd p) t))
               | Con => mkc (fst p) (mkdpt (snd p) (raw (snd p) t)) (status t)
               end = group_message k svc t (fst p) (mkdpt (snd p) (raw (snd p) t))) ->
    (act result <- d_group mk mkc k (payload t); act _ <- mlift (debug_first result); mret result) st =
    (do l <- reached s go (t_dst t);
     if first_undisplayable t l then Err ValueError else Ok (group_messages k svc t l), st)).
  { intros svc mk mkc E. unfold mbind at 1. rewrite (d_group_spec mk mkc k t st s go Ha Hg Hl P).
    destruct (reached s go (t_dst t)) as [l|e]; [|reflexivity]. cbn [rbind].
    rewrite (map_ext _ _ E). fold (group_messages k svc t l). unfold mbind, mlift, mret.
    rewrite debug_group. destruct (first_undisplayable t l); reflexivity. }
  assert (X : forall z, 0 <= z < 1024 -> z mod 256 = t_apci t -> 
     (z - t_apci t mod 64 =? 0x40) = ((0x40 <=? z) && (z <=? 0x7F)) /\
     (z - t_apci t mod 64 =? 0x80) = ((0x80 <=? z) && (z <=? 0xBF))) by (intros; split; lia).
  destruct (X (apci10 t)) as [-> ->]; [unfold apci10; lia|unfold apci10; lia|].
  destruct (apci10 t =? 0).
  { apply (A Read MGroupValueReadInd MGroupValueReadCon). intros p. destruct k; reflexivity. }
  destruct ((0x40 <=? apci10 t) && (apci10 t <=? 0x7F)).
  { apply (A Response MGroupValueResponseInd MGroupValueResponseCon). intros p. destruct k; reflexivity. }
  destruct ((0x80 <=? apci10 t) && (apci10 t <=? 0xBF)).
  { apply (A Write MGroupValueWriteInd MGroupValueWriteCon). intros p. destruct k; reflexivity. }
  reflexivity.
Qed.

(** ** Individually addressed telegrams *)

Definition property_outcome (k : dir) (t : telegram) : res (list message) :=
  match property_service t with
  | None => Ok []
  | Some svc => if 4 <=? zlen (t_data t) then Ok [property_message k svc t] else Err IndexError
  end.
Definition individual_accepts (s : assoc_table) (k : dir) (t : telegram) : bool :=
  match k with
  | Ind => t_src t =? a_val (at_ia (as_table s))
  | Con => (t_dst t =? a_val (at_ia (as_table s))) && negb (listed s (t_dst t))
  end.

Lemma payload_long t : proper t -> long (payload t) =
  if 4 <=? zlen (t_data t) then Ok (big_endian (firstn 4 (t_data t)), skipn 4 (t_data t)) else Err IndexError.
Proof.
  intros (_ & _ & _ & _ & _ & _ & _ & O). unfold payload.
  destruct (t_data t) as [|b0 [|b1 [|b2 [|b3 r]]]]; try reflexivity.
  rewrite !octets_cons in O. destruct O as (O0 & O1 & O2 & O3 & _).
  rewrite long_spec by assumption. rewrite !zlen_cons. pose proof (zlen_nonneg r).
  destruct (4 <=? zlen r + 1 + 1 + 1 + 1) eqn:E; [|lia]. cbn [firstn skipn]. unfold big_endian. cbn [fold_left].
  do 2 f_equal. lia.
Qed.
Lemma big_endian4_range l : octets l -> length l = 4%nat -> 0 <= big_endian l < 4294967296.
Proof.
  intros O L. destruct l as [|a [|b [|c [|d [|]]]]]; try discriminate L.
  rewrite !octets_cons in O. unfold is_octet in O. unfold big_endian. cbn [fold_left]. lia.
Qed.
Lemma firstn4 (l : list Z) : 4 <= zlen l -> length (firstn 4 l) = 4%nat.
Proof. intros H. apply firstn_length_le. unfold zlen in H. lia. Qed.
Lemma octets_firstn n l : octets l -> octets (firstn n l).
Proof. intros O. rewrite <- (firstn_skipn n l) in O. apply octets_app in O. tauto. Qed.

Lemma d_property_spec mk mkc k t st : st_ldata st = Some (ld_of t) -> proper t ->
  d_property mk mkc k (payload t) st =
  (if 4 <=? zlen (t_data t) then
     let w := big_endian (firstn 4 (t_data t)) in
     let data := skipn 4 (t_data t) in
     Ok [match k with
         | Ind => mk (w / 16777216) (w / 65536 mod 256) (w / 4096 mod 16) (w mod 4096) data
         | Con => mkc (w / 16777216) (w / 65536 mod 256) (w / 4096 mod 16) (w mod 4096) data (status t)
         end]
   else Err IndexError, st).
Proof.
  intros Hl P. unfold d_property. unfold mbind at 1, mlift at 1. rewrite payload_long by assumption.
  destruct (4 <=? zlen (t_data t)) eqn:E; [|reflexivity]. cbv zeta.
  set (w := big_endian (firstn 4 (t_data t))).
  assert (W : 0 <= w < 4294967296).
  { apply big_endian4_range; [apply octets_firstn; apply P|apply firstn4; lia]. }
  unfold cuint. change (2 ^ 32) with 4294967296. rewrite Z.mod_small by assumption.
  unfold ph_object_index, ph_property_id, ph_number_of_elements, ph_start_index.
  rewrite !get_arith by lia.
  change (2 ^ 24) with 16777216. change (2 ^ 16) with 65536. change (2 ^ 12) with 4096.
  change (2 ^ 8) with 256. change (2 ^ 4) with 16. change (2 ^ 0) with 1. rewrite Z.div_1_r.
  rewrite (Z.mod_small (w / 16777216) 256) by lia.
  destruct k; unfold cur_ldata, mbind, mget, mlift, mret; [reflexivity|]. rewrite Hl. cbn [need].
  rewrite ld_stat. reflexivity.
Qed.

Lemma property_dispatch k t st : st_ldata st = Some (ld_of t) -> proper t ->
  d_property_dispatch k (payload t) st = (property_outcome k t, st).
Proof.
  intros Hl P. unfold d_property_dispatch. unfold mbind at 1. unfold cur_ldata at 1. unfold mbind at 1, mget at 1, mlift at 1.
  rewrite Hl. cbn [need]. rewrite ld_apci10. unfold property_outcome, property_service.
  unfold d_property_value_read, d_property_value_response, d_property_value_write.
  destruct (apci10 t =? 0x3D5); [|destruct (apci10 t =? 0x3D6); [|destruct (apci10 t =? 0x3D7); [|reflexivity]]];
    unfold mbind at 1; rewrite d_property_spec by assumption;
    (destruct (4 <=? zlen (t_data t)); [|reflexivity]); destruct k; reflexivity.
Qed.

Lemma tdata_individual k t st s : st_assoc st = Some s ->
  st_ldata st = Some (ld_of t) -> proper t ->
  d_tdata_individual k (payload t) st =
  (if individual_accepts s k t then property_outcome k t else Ok [], st).
Proof.
  intros Ha Hl P. destruct k; cbn [d_tdata_individual individual_accepts].
  - unfold d_tdata_individual_ind. unfold mbind at 1. unfold cur_ldata at 1. unfold mbind at 1, mget at 1, mlift at 1.
    rewrite Hl. cbn [need]. unfold mbind at 1, mget at 1. unfold mbind at 1, mlift at 1.
    unfold st_individual_address. rewrite Ha. cbn [need rbind]. unfold as_individual_address. cbn [ld_source ld_of].
    destruct (t_src t =? a_val (at_ia (as_table s))); [|reflexivity]. apply property_dispatch; assumption.
  - unfold d_tdata_individual_con. unfold mbind at 1, mget at 1. unfold mbind at 1, mlift at 1.
    rewrite (st_tsap st s t Ha Hl P).
    pose proof (tsap_listed s (mkaddr 0 (t_dst t))) as T. cbn [a_val] in T.
    destruct (at_get_tsap (as_table s) (mkaddr 0 (t_dst t))) as [n|].
    + destruct T as (_ & Tn & Ti). rewrite Tn.
      destruct (listed s (t_dst t)) eqn:EL; cbn [negb andb].
      * rewrite andb_false_r. reflexivity.
      * assert (t_dst t =? a_val (at_ia (as_table s)) = true) as ->.
        { apply Z.eqb_eq. apply Ti. cbn [negb] in Tn. lia. }
        apply property_dispatch; assumption.
    + destruct T as [_ N]. destruct (t_dst t =? a_val (at_ia (as_table s))) eqn:E; [lia|]. reflexivity.
Qed.

(** ** Link layer and cEMI *)

Definition telegram_outcome (s : assoc_table) (go : gobj_table) (k : dir) (t : telegram) : res dres :=
  if group_addressed t then
    if t_dst t =? 0 then Ok (RList [])
    else if plain t then do l <- group_outcome s go k t; Ok (RList l)
    else Ok RNone
  else if plain t && individual_accepts s k t then do l <- property_outcome k t; Ok (RList l)
  else Ok (RList []).

Lemma ldata_spec k t st s go : st_assoc st = Some s -> st_gobj st = Some go ->
  st_ldata st = Some (ld_of t) -> proper t ->
  d_ldata k (payload t) st = (telegram_outcome s go k t, st).
Proof.
  intros Ha Hg Hl P. unfold d_ldata. unfold mbind at 1. unfold cur_ldata at 1. unfold mbind at 1, mget at 1, mlift at 1.
  rewrite Hl. cbn [need]. rewrite ld_address by assumption. cbn [ld_destination ld_of].
  change AT_individual with 0. change AT_group with 1. unfold telegram_outcome.
  destruct (group_addressed t) eqn:G.
  - change (1 =? 0) with false. change (1 =? 1) with true. cbn [andb]. cbv iota.
    destruct (t_dst t =? 0) eqn:E0; cbn [negb]; [reflexivity|].
    unfold d_ndata_group. unfold mbind at 1. unfold cur_ldata at 1. unfold mbind at 1, mget at 1, mlift at 1.
    rewrite Hl. cbn [need]. rewrite nsdu_kind by assumption.
    pose proof (plain_kind t P G ltac:(lia)) as K.
    destruct (pdu_kind t); rewrite K; cbn [pdu_model]; try reflexivity.
    unfold mbind. rewrite (tdata_group k t st s go Ha Hg Hl P). destruct (group_outcome s go k t); reflexivity.
  - change (0 =? 0) with true. cbv iota. unfold d_ndata_individual. unfold mbind at 1. unfold cur_ldata at 1.
    unfold mbind at 1, mget at 1, mlift at 1. rewrite Hl. cbn [need]. rewrite nsdu_kind by assumption.
    pose proof (plain_kind_individual t P G) as K.
    destruct (pdu_kind t); rewrite K; cbn [pdu_model andb]; try reflexivity.
    unfold mbind. rewrite (tdata_individual k t st s Ha Hl P).
    destruct (individual_accepts s k t); [|reflexivity]. destruct (property_outcome k t); reflexivity.
Qed.

Lemma octets_zdrop n l : octets l -> octets (zdrop n l).
Proof.
  intros O. rewrite zdrop_skipn. rewrite <- (firstn_skipn (Z.to_nat n) l) in O. apply octets_app in O. tauto.
Qed.
Lemma octets_ztake n l : octets l -> octets (ztake n l).
Proof. intros O. rewrite ztake_firstn. apply octets_firstn. assumption. Qed.

Lemma msg_code_ldata cemi st k t : octets cemi -> cemi_telegram cemi = Some (k, t) ->
  proper t /\ d_msg_code cemi st = d_ldata k (payload t) (st_set_ldata (ld_of t) st).
Proof.
  intros O H. destruct cemi as [|code [|info r]]; try discriminate H. cbn [cemi_telegram] in H.
  unfold d_msg_code, octect. unfold mbind at 1, mlift at 1. unfold mbind at 1, mlift at 1. cbv zeta.
  rewrite !octets_cons in O. destruct O as (_ & _ & O). apply (octets_zdrop info) in O.
  destruct (zdrop info r) as [|c1 [|c2 [|s1 [|s2 [|d1 [|d2 [|len [|tpci [|apci data]]]]]]]]]; try discriminate H.
  rewrite !octets_cons in O. destruct O as (O1 & O2 & O3 & O4 & O5 & O6 & O7 & O8 & O9 & O10).
  unfold data_ind, data_con in H.
  assert (D : forall k0, let t0 := mktg c1 c2 (256 * s1 + s2) (256 * d1 + d2) len tpci apci data in
     d_cemi_ldata k0 (c1 :: c2 :: s1 :: s2 :: d1 :: d2 :: len :: tpci :: apci :: data) st =
     d_ldata k0 (payload t0) (st_set_ldata (ld_of t0) st) /\ proper t0).
  { intros k0 t0.
    assert (P : proper t0).
    { unfold proper, t0. cbn. unfold is_octet in *. repeat split; try assumption; try lia. }
    split; [|exact P]. unfold d_cemi_ldata. unfold mbind at 1, mlift at 1.
    rewrite make_telegram by assumption. fold t0. reflexivity. }
  destruct (code =? 0x29) eqn:E1.
  - injection H as <- <-. destruct (D Ind). auto.
  - destruct (code =? 0x2E) eqn:E2; [|discriminate H]. injection H as <- <-. destruct (D Con). auto.
Qed.
Lemma msg_code_some cemi st s go k t : st_assoc st = Some s -> st_gobj st = Some go -> octets cemi ->
  cemi_telegram cemi = Some (k, t) ->
  proper t /\ d_msg_code cemi st = (telegram_outcome s go k t, st_set_ldata (ld_of t) st).
Proof.
  intros Ha Hg O H. destruct (msg_code_ldata cemi st k t O H) as [P ->]. split; [exact P|].
  apply ldata_spec; try assumption; reflexivity.
Qed.

Lemma make_from_short m e : ld_make_from m = Err e -> e = IndexError.
Proof.
  destruct m as [|c1 [|c2 [|s1 [|s2 [|d1 [|d2 [|len [|tpci [|apci data]]]]]]]]]; cbn; congruence.
Qed.
Lemma msg_code_none cemi st : cemi_telegram cemi = None ->
  d_msg_code cemi st = (Ok (RList []), st) \/ d_msg_code cemi st = (Err IndexError, st).
Proof.
  intros H. destruct cemi as [|code [|info r]]; [right; reflexivity|right; reflexivity|].
  cbn [cemi_telegram] in H. unfold d_msg_code, octect. unfold mbind at 1 3, mlift at 1 3.
  unfold mbind at 1 2, mlift at 1 2. cbv zeta. unfold data_ind, data_con in H.
  destruct (code =? 0x29) eqn:E1; [|destruct (code =? 0x2E) eqn:E2; [|left; reflexivity]];
    destruct (zdrop info r) as [|c1 [|c2 [|s1 [|s2 [|d1 [|d2 [|len [|tpci [|apci data]]]]]]]]];
    try discriminate H; right; reflexivity.
Qed.

(** ** USB *)

Lemma octets_short hi lo r : octets (hi :: lo :: r) -> short (hi :: lo :: r) = Ok (256 * hi + lo, r).
Proof. intros O. rewrite !octets_cons in O. apply short_spec; tauto. Qed.
Lemma nibble_mod i : nibble_low i = i mod 16.
Proof.
  unfold nibble_low. rewrite get_arith by lia. change (2 ^ 0) with 1. change (2 ^ 4) with 16. rewrite Z.div_1_r. reflexivity.
Qed.
Lemma eqb_sum hi lo : is_octet hi -> is_octet lo -> (256 * hi + lo =? 0) = (hi =? 0) && (lo =? 0).
Proof. unfold is_octet. lia. Qed.

(** Reports that carry no cEMI frame give no telegram messages. *)
Definition feature_message (m : message) : Prop :=
  match m with MConnectionStatus _ | MEMIType _ => True | _ => False end.
Definition quiet (p : res dres * state) (st : state) : Prop :=
  snd p = st /\
  match fst p with
  | Ok (RList l) => Forall feature_message l
  | Err e => e = IndexError
  | _ => False
  end.
Lemma quiet_nil st : quiet (Ok (RList []), st) st.
Proof. split; [reflexivity|]. constructor. Qed.
Lemma quiet_err st : quiet (Err IndexError, st) st.
Proof. split; reflexivity. Qed.

Lemma feature_quiet m st : quiet (d_feature_identifier m st) st.
Proof.
  unfold d_feature_identifier. unfold mbind at 1, mlift at 1.
  destruct m as [|f [|v r]]; cbn [octect]; [apply quiet_err| |].
  - destruct (f =? 3); [apply quiet_err|]. destruct (f =? 5); [apply quiet_err|apply quiet_nil].
  - unfold mbind, mlift. cbn [octect].
    repeat match goal with |- context [if ?b then _ else _] => destruct b end;
      split; try reflexivity; repeat constructor.
Qed.
Lemma service_quiet m st : quiet (d_service_identifier m st) st.
Proof.
  unfold d_service_identifier. unfold mbind at 1, mlift at 1. destruct m as [|f m]; [apply quiet_err|]. cbn [octect].
  unfold mbind at 1. destruct (f =? 4).
  - unfold mbind at 1, mlift at 1. destruct (short m) as [[h2 body]|e] eqn:E.
    + destruct (h2 =? 0) eqn:E0.
      * pose proof (feature_quiet body st) as Q. unfold mbind at 1.
        destruct (d_feature_identifier body st) as [[r|e] st'] eqn:EF.
        -- destruct Q as [Q1 Q2]. cbn in Q1, Q2. subst st'. unfold mret at 1.
           destruct (h2 =? 2) eqn:E2; [lia|]. split; [reflexivity|exact Q2].
        -- exact Q.
      * unfold mret at 1. destruct (h2 =? 2).
        -- unfold mbind at 1, mlift at 1. rewrite E0. apply quiet_nil.
        -- apply quiet_nil.
    + destruct m as [|? [|? ?]]; cbn in E; try discriminate E; injection E as <-; apply quiet_err.
  - unfold mret at 1. destruct (f =? 2); [|apply quiet_nil].
    unfold mbind at 1, mlift at 1. destruct (short m) as [[h2 body]|e] eqn:E.
    + destruct (h2 =? 0); [apply feature_quiet|apply quiet_nil].
    + destruct m as [|? [|? ?]]; cbn in E; try discriminate E; injection E as <-; apply quiet_err.
Qed.

Lemma usb_some m cemi st : octets m -> usb_cemi m = Some cemi ->
  octets cemi /\ d_report_identifier m st = d_msg_code cemi st.
Proof.
  intros O H. destruct m as [|id [|info [|plen r]]]; try discriminate H. cbn [usb_cemi] in H.
  destruct (id =? 1) eqn:E1; [|discriminate H]. cbn [andb] in H.
  unfold d_report_identifier, octect. unfold mbind at 1, mlift at 1. rewrite E1.
  unfold d_packet_info, octect. unfold mbind at 1, mlift at 1. rewrite nibble_mod.
  destruct (info mod 16 =? 3); [|discriminate H]. unfold mbind at 1, mlift at 1.
  rewrite !octets_cons in O. destruct O as (_ & _ & _ & O). apply (octets_ztake plen) in O.
  destruct (ztake plen r) as [|v [|h [|hi [|lo r2]]]]; try discriminate H.
  destruct (v =? 0) eqn:Ev; [|discriminate H]. destruct (h =? 8) eqn:Eh; [|discriminate H]. cbn [andb] in H.
  unfold d_protocol_version, octect. unfold mbind at 1, mlift at 1. rewrite Ev.
  unfold d_header_length, octect. unfold mbind at 1, mlift at 1. rewrite Eh.
  rewrite octets_cons in O. destruct O as (_ & O). rewrite octets_cons in O. destruct O as (_ & O).
  unfold d_body_length. unfold mbind at 1, mlift at 1. rewrite octets_short by assumption.
  rewrite !octets_cons in O. destruct O as (_ & _ & O). apply (octets_ztake (256 * hi + lo + 4)) in O.
  destruct (ztake (256 * hi + lo + 4) r2) as [|p [|e [|m1 [|m2 cemi']]]]; try discriminate H.
  destruct (p =? 1) eqn:Ep; [|discriminate H]. destruct (e =? 3) eqn:Ee; [|discriminate H]. cbn [andb] in H.
  unfold d_protocol_id, octect. unfold mbind at 1, mlift at 1. rewrite Ep.
  unfold d_emi_id, octect. unfold mbind at 1, mlift at 1. rewrite Ee.
  rewrite octets_cons in O. destruct O as (_ & O). rewrite octets_cons in O. destruct O as (_ & O).
  unfold mbind at 1, mlift at 1. rewrite octets_short by assumption.
  rewrite !octets_cons in O. destruct O as (O1 & O2 & O). rewrite eqb_sum by assumption.
  destruct ((m1 =? 0) && (m2 =? 0)); [|discriminate H]. injection H as <-. auto.
Qed.
Lemma usb_none m st : octets m -> usb_cemi m = None -> quiet (d_report_identifier m st) st.
Proof.
  intros O H. unfold d_report_identifier. unfold mbind at 1, mlift at 1.
  destruct m as [|id m]; [apply quiet_err|]. cbn [octect].
  destruct (id =? 1) eqn:E1; [|apply quiet_nil].
  unfold d_packet_info, octect. destruct m as [|info m]; [apply quiet_err|]. unfold mbind at 1, mlift at 1.
  rewrite nibble_mod. destruct (info mod 16 =? 3) eqn:Ei; [|apply quiet_nil].
  destruct m as [|plen r]; [apply quiet_err|]. unfold mbind at 1, mlift at 1.
  cbn [usb_cemi] in H. rewrite E1, Ei in H. cbn [andb] in H.
  rewrite !octets_cons in O. destruct O as (_ & _ & _ & O). apply (octets_ztake plen) in O.
  unfold d_protocol_version, octect. unfold mbind at 1, mlift at 1.
  destruct (ztake plen r) as [|v q]; [apply quiet_err|]. destruct (v =? 0) eqn:Ev; [|apply quiet_nil].
  unfold d_header_length, octect. unfold mbind at 1, mlift at 1.
  destruct q as [|h q]; [apply quiet_err|]. destruct (h =? 8) eqn:Eh; [|apply quiet_nil].
  unfold d_body_length. unfold mbind at 1, mlift at 1.
  destruct q as [|hi [|lo r2]]; [apply quiet_err|apply quiet_err|].
  rewrite octets_cons in O. destruct O as (_ & O). rewrite octets_cons in O. destruct O as (_ & O).
  rewrite octets_short by assumption. cbn [andb] in H.
  rewrite !octets_cons in O. destruct O as (_ & _ & O). apply (octets_ztake (256 * hi + lo + 4)) in O.
  unfold d_protocol_id, octect. unfold mbind at 1, mlift at 1.
  destruct (ztake (256 * hi + lo + 4) r2) as [|p q]; [apply quiet_err|].
  destruct (p =? 1) eqn:Ep.
  2: { destruct (p =? 15); [apply service_quiet|apply quiet_nil]. }
  unfold d_emi_id, octect. unfold mbind at 1, mlift at 1. destruct q as [|e q]; [apply quiet_err|].
  destruct (e =? 3) eqn:Ee; [|apply quiet_nil]. unfold mbind at 1, mlift at 1.
  destruct q as [|m1 [|m2 q]]; [apply quiet_err|apply quiet_err|].
  rewrite octets_cons in O. destruct O as (_ & O). rewrite octets_cons in O. destruct O as (_ & O).
  rewrite octets_short by assumption. rewrite !octets_cons in O. destruct O as (O1 & O2 & _).
  rewrite eqb_sum by assumption. cbn [andb] in H. destruct ((m1 =? 0) && (m2 =? 0)); [discriminate H|apply quiet_nil].
Qed.

(** ** KNXnet/IP *)

Definition services (c : msg_class) (s1 s2 : Z) (r : msg) : D :=
  if (s1 =? 0x02) && (s2 =? 0x02) then d_search_res r
  else if (s1 =? 0x02) && (s2 =? 0x0A) then d_disconnect_res r
  else if (s1 =? 0x02) && (s2 =? 0x06) then d_connect_res c r
  else if (s1 =? 0x02) && (s2 =? 0x08) then d_connectionstate_res r
  else if (s1 =? 0x04) && (s2 =? 0x20) then d_tunneling_req c r
  else if (s1 =? 0x04) && (s2 =? 0x21) then d_tunneling_ack c r
  else mret (RList []).
Lemma ip_header c h v s1 s2 r st : is_octet s1 -> is_octet s2 ->
  d_ip_header c (h :: v :: s1 :: s2 :: r) st =
  (if (h =? 0x06) && (v =? 0x10) then services c s1 s2 r else mret (RList [])) st.
Proof.
  intros O1 O2. unfold d_ip_header, octect. unfold mbind at 1, mlift at 1. unfold mbind at 1, mlift at 1.
  unfold mbind at 1, mlift at 1. rewrite short_spec by assumption.
  change HEADER_SIZE_10 with 0x06. change KNXNETIP_VERSION_10 with 0x10.
  destruct ((h =? 0x06) && (v =? 0x10)); [|reflexivity].
  unfold services, SEARCH_RESPONSE, DISCONNECT_RESPONSE, CONNECT_RESPONSE, CONNECTIONSTATE_RESPONSE,
    TUNNELING_REQUEST, TUNNELING_ACK. unfold is_octet in *.
  assert (X : forall n, 0 <= n < 65536 -> (256 * s1 + s2 =? n) = (s1 =? n / 256) && (s2 =? n mod 256)) by (intros; lia).
  rewrite !X by lia. reflexivity.
Qed.
Lemma ip_short c m st : zlen m < 4 -> d_ip_header c m st = (Err IndexError, st).
Proof.
  intros H. destruct m as [|h [|v [|s1 [|s2 r]]]]; try reflexivity.
  rewrite !zlen_cons in H. pose proof (zlen_nonneg r). lia.
Qed.

Definition behind_request (counter : Z) (r : res dres) : res dres :=
  match r with
  | Ok (RList l) => Ok (RList (MTunnelingReq counter 0 :: l))
  | Ok RNone => Ok (RList [MTunnelingReq counter 0])
  | Ok (RAck l) => Ok (RList (MTunnelingReq counter 0 :: l))
  | Err e => Err e
  end.
Lemma tunnelled_some m counter cemi st : octets m -> tunnelled m = Some (counter, cemi) ->
  octets cemi /\
  d_ip_header CNetIP m st =
    if st_remote st =? counter then
      (behind_request counter (fst (d_msg_code cemi st)), snd (d_msg_code cemi st))
    else if st_remote st =? counter + 1 then (Ok (RList [MTunnelingReq counter 0]), st)
    else (Ok (RList [MTunnelingReq counter 3]), st).
Proof.
  intros O H. destruct m as [|h [|v [|s1 [|s2 [|l1 [|l2 [|sz [|ch [|ct [|sta r]]]]]]]]]]; try discriminate H.
  cbn [tunnelled] in H. destruct (h =? 6) eqn:Eh; [|discriminate H]. destruct (v =? 16) eqn:Ev; [|discriminate H].
  destruct (s1 =? 4) eqn:E1; [|discriminate H]. destruct (s2 =? 32) eqn:E2; [|discriminate H].
  injection H as <- <-. rewrite !octets_cons in O. split; [tauto|].
  rewrite ip_header by tauto. rewrite Eh, Ev. cbn [andb]. unfold services. rewrite E1, E2.
  assert (s1 =? 2 = false) as -> by lia. cbn [andb].
  unfold d_tunneling_req. unfold mbind at 1, mlift at 1. rewrite short_spec by tauto.
  unfold ip_conn_header, octect. cbn [rbind]. unfold mbind at 1, mlift at 1. unfold mbind at 1, mget at 1.
  destruct (st_remote st =? ct).
  - unfold mbind. destruct (d_msg_code r st) as [[[l| |l]|e] s']; reflexivity.
  - destruct (st_remote st =? ct + 1); reflexivity.
Qed.

(** ** decode_msg on telegrams *)

Lemma decode_telegram c m st s go k t : st_assoc st = Some s -> st_gobj st = Some go -> octets m ->
  proper_class st c -> on_bus st m = Some (k, t) ->
  proper t /\ decode_msg c m st =
  (match telegram_outcome s go k t with
   | Ok (RList l) => Ok (reported st l)
   | Ok RNone => Ok (match st_medium st with Usb_hid => RNone | _ => reported st [] end)
   | Ok (RAck l) => Ok (reported st l)
   | Err e => Err e
   end, st_set_ldata (ld_of t) st).
Proof.
  intros Ha Hg O C H. unfold on_bus in H. unfold decode_msg, reported. unfold mbind at 1, mget at 1.
  destruct (st_medium st) eqn:Hm; [discriminate H| |].
  - destruct (usb_cemi m) as [cemi|] eqn:U; [|discriminate H].
    destruct (usb_some m cemi st O U) as [Oc ->].
    destruct (msg_code_some cemi st s go k t Ha Hg Oc H) as [P ->]. split; [exact P|].
    unfold telegram_outcome. destruct (group_addressed t).
    + destruct (t_dst t =? 0); [reflexivity|]. destruct (plain t); [|reflexivity].
      destruct (group_outcome s go k t); reflexivity.
    + destruct (plain t && individual_accepts s k t); [|reflexivity].
      destruct (property_outcome k t); reflexivity.
  - destruct (tunnelled m) as [[counter cemi]|] eqn:U; [|discriminate H].
    destruct (counter =? st_remote st) eqn:E; [|discriminate H].
    destruct C as [C| ->]; [congruence|].
    destruct (tunnelled_some m counter cemi st O U) as [Oc ->].
    destruct (msg_code_some cemi st s go k t Ha Hg Oc H) as [P ->]. split; [exact P|].
    rewrite Z.eqb_sym, E. apply Z.eqb_eq in E. subst counter. cbn [fst snd].
    destruct (telegram_outcome s go k t) as [[l| |l]|e]; reflexivity.
Qed.

(** The entries reached, in terms of the history. *)
Lemma reached_balance tb l h s go g : built tb l h s -> known (as_table s) g ->
  match reached s go g with
  | Ok r => r = filter (fun p => 0 <? balance tb l h (asap_value (fst p)) g) go /\
            exists v, 0 < balance tb l h v g
  | Err e => e = KeyError /\ forall v, balance tb l h v g = 0
  end.
Proof.
  intros B K. pose proof (routing tb l h s (mkaddr 0 g) B K) as R. unfold reached. cbn [a_val] in R.
  destruct (as_get_asaps_from_address s (mkaddr 0 g)) as [asaps|e]; [|exact R].
  cbn [rbind]. destruct R as [N R]. split.
  - apply filter_ext. intros [a c]. cbn [fst]. specialize (R (asap_value a)).
    destruct (existsb (asap_eqb a) asaps) eqn:E.
    + apply existsb_exists in E. destruct E as (b & Hb & E). unfold asap_eqb in E. apply Z.eqb_eq in E.
      assert (0 < occ (asap_value a) (map asap_value asaps)); [|lia].
      apply occ_In. rewrite E. apply in_map. assumption.
    + assert (~ In (asap_value a) (map asap_value asaps)); [|rewrite occ_In in *; lia]. intros H. apply in_map_iff in H. destruct H as (b & Eb & Hb).
      assert (existsb (asap_eqb a) asaps = true); [|congruence].
      apply existsb_exists. exists b. split; [assumption|]. unfold asap_eqb. apply Z.eqb_eq. auto.
  - destruct asaps as [|b r]; [congruence|]. exists (asap_value b). rewrite <- R. apply occ_In. left. reflexivity.
Qed.

(** ** Only the last octets matter *)
Lemma fold_be l : forall v, fold_left (fun v b => 256 * v + b) l v = v * 256 ^ zlen l + big_endian l.
Proof.
  unfold big_endian. induction l as [|x l IH]; intros v; cbn [fold_left].
  - change (zlen (@nil Z)) with 0. lia.
  - rewrite (IH (256 * v + x)), (IH (256 * 0 + x)), zlen_cons. pose proof (zlen_nonneg l).
    rewrite Z.pow_add_r by lia. lia.
Qed.
Lemma big_endian_app a b : big_endian (a ++ b) = big_endian a * 256 ^ zlen b + big_endian b.
Proof. unfold big_endian at 1. rewrite fold_left_app. apply fold_be. Qed.
Lemma big_endian_range l : octets l -> 0 <= big_endian l < 256 ^ zlen l.
Proof.
  induction l as [|x l IH]; intros O; [cbn; lia|]. apply octets_cons in O. destruct O as [X O]. specialize (IH O).
  change (x :: l) with ([x] ++ l). rewrite big_endian_app, zlen_app. pose proof (zlen_nonneg l).
  change (zlen [x]) with 1. rewrite Z.pow_add_r by lia. unfold big_endian at 1 3. cbn [fold_left]. unfold is_octet in X. nia.
Qed.
Lemma raw_last c t : octets (payload t) ->
  raw c t = big_endian (zdrop (zlen (payload t) - value_octets c) (payload t)) /\ 1 <= value_octets c <= 4.
Proof.
  intros O. assert (V : 1 <= value_octets c <= 4) by (destruct c; cbn; lia). split; [|exact V].
  unfold raw. set (n := value_octets c) in *. set (p := payload t) in *.
  rewrite zdrop_skipn. set (j := Z.to_nat (zlen p - n)).
  rewrite <- (firstn_skipn j p) at 1. rewrite big_endian_app.
  assert (O2 : octets (skipn j p)).
  { rewrite <- (firstn_skipn j p) in O. apply octets_app in O. tauto. }
  pose proof (big_endian_range _ O2) as Rg.
  destruct (Z.le_gt_cases n (zlen p)) as [Hn|Hn].
  - assert (L : zlen (skipn j p) = n). { unfold zlen in *. rewrite skipn_length. unfold j, zlen. lia. }
    rewrite L in *. rewrite Z.add_comm, Z_mod_plus_full. apply Z.mod_small. assumption.
  - assert (J : j = 0%nat) by (unfold j; lia). rewrite J in *. cbn [firstn skipn] in *.
    unfold big_endian at 1. cbn [fold_left]. rewrite Z.mul_0_l, Z.add_0_l. apply Z.mod_small.
    assert (256 ^ zlen p <= 256 ^ n) by (apply Z.pow_le_mono_r; lia). lia.
Qed.
