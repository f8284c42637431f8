(** C92: assignments to the properties of an L_Data object. *)
From Coq Require Import ZArith List Bool Lia ZifyBool.
From Verif Require Import Py Base Msg LData LDataObj.
From Verif Require Import SpecMsg SpecLData.
From Verif Require Import MsgProofs.
Import ListNotations.
Open Scope Z_scope.

Ltac bits := rewrite ?set_arith by lia; rewrite ?get_arith by lia; change (2 ^ 0) with 1; change (2 ^ 1) with 2; change (2 ^ 2) with 4; change (2 ^ 4) with 16; change (2 ^ 6) with 64; change (2 ^ 7) with 128; change (2 ^ 8) with 256; change (2 ^ 16) with 65536; change (2 ^ 3) with 8.
Lemma assign_refines v a : ranges v -> ranges (assigned v a) /\ ld_assign (octets_of v) a = octets_of (assigned v a).
Proof.
  destruct v as [t c n s a10 src dst c1 h len]. intros R. unfold ranges in R. cbn in R.
  destruct a as [x|x|x|b|x|x|p].
  - split; [exact R|reflexivity].
  - split; [exact R|reflexivity].
  - split; [unfold ranges; cbn; lia|]. unfold ld_assign, ld_set_address_type, octets_of. cbn. f_equal. bits. lia.
  - split; [unfold ranges; cbn; destruct b; lia|]. unfold ld_assign, ld_set_connected, ld_with_tpci, octets_of. cbn. f_equal. bits. destruct b; lia.
  - split; [unfold ranges; cbn; lia|]. unfold ld_assign, ld_set_apci, ld_with_tpci, ld_with_apci, octets_of, cuint. cbn [w_type w_control w_numbered w_sequence w_apci w_source w_destination w_cntrl1 w_hops w_length assigned ld_apci ld_tpci ld_npdu_length ld_destination ld_source ld_cntrl2 ld_cntrl1]. f_equal; [bits; lia|]. rewrite Z.shiftr_div_pow2 by lia. bits. lia.
  - split; [unfold ranges; cbn; lia|]. unfold ld_assign, ld_set_data, ld_with_apci, octets_of. cbn [w_type w_control w_numbered w_sequence w_apci w_source w_destination w_cntrl1 w_hops w_length assigned ld_apci ld_tpci ld_npdu_length ld_destination ld_source ld_cntrl2 ld_cntrl1]. f_equal; [bits; lia|lia].
  - split; [unfold ranges; destruct p; cbn; lia|]. unfold ld_assign, ld_set_nsdu, ld_with_tpci, octets_of.
    destruct p; cbn [w_type w_control w_numbered w_sequence w_apci w_source w_destination w_cntrl1 w_hops w_length assigned with_kind ld_apci ld_tpci ld_npdu_length ld_destination ld_source ld_cntrl2 ld_cntrl1];
      f_equal; bits; lia.
Qed.

(** Any sequence of assignments: the object holds what the numbers say. *)
Theorem C92_refines : forall es v, ranges v ->
  ranges (fold_left assigned es v) /\ ld_assigns (octets_of v) es = octets_of (fold_left assigned es v).
Proof.
  unfold ld_assigns. induction es as [|a es IH]; intros v R; [split; [exact R|reflexivity]|]. cbn [fold_left].
  destruct (assign_refines v a R) as [R' ->]. exact (IH _ R').
Qed.
Print Assumptions C92_refines.
(** Every object made of octets is of that form, in one way only. *)
Theorem C92_form : forall l, is_octet (ld_apci l) -> is_octet (ld_tpci l) -> is_octet (ld_cntrl2 l) ->
  exists v, ranges v /\ octets_of v = l /\ forall v', ranges v' -> octets_of v' = l -> v' = v.
Proof.
  intros [ap tp len dst src c2 c1] A T C. unfold is_octet in *. cbn in A, T, C.
  exists (mkview (c2 / 128) (tp / 128) (tp / 64 mod 2) (tp / 4 mod 16) (256 * (tp mod 4) + ap) src dst c1 (c2 mod 128) len).
  split; [unfold ranges; cbn; lia|]. split.
  - unfold octets_of. cbn [w_type w_control w_numbered w_sequence w_apci w_source w_destination w_cntrl1 w_hops w_length]. f_equal; lia.
  - intros [t c n s a10 src' dst' c1' h len'] R E. unfold ranges in R. cbn in R. unfold octets_of in E.
    cbn [w_type w_control w_numbered w_sequence w_apci w_source w_destination w_cntrl1 w_hops w_length] in E.
    assert (E1 := f_equal ld_apci E). assert (E2 := f_equal ld_tpci E). assert (E3 := f_equal ld_cntrl2 E). assert (E4 := f_equal ld_npdu_length E).
    assert (E5 := f_equal ld_destination E). assert (E6 := f_equal ld_source E). assert (E7 := f_equal ld_cntrl1 E).
    cbn [ld_apci ld_tpci ld_npdu_length ld_destination ld_source ld_cntrl2 ld_cntrl1] in *. clear E. f_equal; lia.
Qed.
Print Assumptions C92_form.
(** What the properties read. *)
Theorem C92_read : forall v, ranges v ->
  ld_source (octets_of v) = w_source v /\ ld_destination (octets_of v) = w_destination v /\
  ld_address_type (octets_of v) = w_type v /\ (ld_connected (octets_of v) = true <-> w_control v = 1) /\
  ld_full_apci (octets_of v) = w_apci v /\ ld_data (octets_of v) = w_apci v mod 64 /\ ld_status (octets_of v) = w_cntrl1 v mod 2.
Proof.
  intros [t c n s a10 src dst c1 h len] R. unfold ranges in R. cbn in R.
  unfold ld_address_type, ld_connected, tp_control, ld_full_apci, tp_ack_nack, ld_data, ld_status, octets_of.
  cbn [w_type w_control w_numbered w_sequence w_apci w_source w_destination w_cntrl1 w_hops w_length ld_apci ld_tpci ld_npdu_length ld_destination ld_source ld_cntrl2 ld_cntrl1].
  rewrite Z.shiftl_mul_pow2 by lia. rewrite !get_arith by lia. change (2 ^ 0) with 1; change (2 ^ 1) with 2; change (2 ^ 2) with 4; change (2 ^ 6) with 64; change (2 ^ 7) with 128; change (2 ^ 8) with 256.
  repeat split; lia.
Qed.
Print Assumptions C92_read.
(** So an APCI that was assigned is not there any more when the kind of PDU is
    set to connect, disconnect, ack or nack after it; and no assignment reaches
    the first control octet, the hop count or the length. *)
Theorem C92_kept : forall es l, is_octet (ld_apci l) -> is_octet (ld_tpci l) -> is_octet (ld_cntrl2 l) ->
  let l' := ld_assigns l es in
  ld_cntrl1 l' = ld_cntrl1 l /\ ld_npdu_length l' = ld_npdu_length l /\ ld_cntrl2 l' mod 128 = ld_cntrl2 l mod 128 /\
  is_octet (ld_apci l') /\ is_octet (ld_tpci l') /\ is_octet (ld_cntrl2 l').
Proof.
  intros es l A T C. destruct (C92_form l A T C) as (v & R & <- & _). destruct (C92_refines es v R) as [R' E]. cbv zeta. rewrite E.
  assert (K : w_cntrl1 (fold_left assigned es v) = w_cntrl1 v /\ w_length (fold_left assigned es v) = w_length v /\ w_hops (fold_left assigned es v) = w_hops v).
  { clear. revert v. induction es as [|a es IH]; intros v; [auto|]. cbn [fold_left]. destruct (IH (assigned v a)) as (-> & -> & ->).
    destruct v, a as [x|x|x|x|x|x|p]; cbn; auto. destruct p; auto. }
  destruct K as (K1 & K2 & K3). unfold ranges in R, R'. unfold octets_of, is_octet.
  cbn [ld_apci ld_tpci ld_npdu_length ld_cntrl2 ld_cntrl1]. rewrite K1, K2, K3. repeat split; lia.
Qed.
Print Assumptions C92_kept.
(** Reading back right after an assignment. *)
Theorem C92_back : forall es l, is_octet (ld_apci l) -> is_octet (ld_tpci l) -> is_octet (ld_cntrl2 l) ->
  (forall x, ld_full_apci (ld_assigns l (es ++ [Set_apci x])) = x mod 1024) /\
  (forall x y, ld_full_apci (ld_assigns l (es ++ [Set_apci x; Set_data y])) = 64 * (x mod 1024 / 64) + y mod 64) /\
  (forall x y, ld_full_apci (ld_assigns l (es ++ [Set_data y; Set_apci x])) = x mod 1024) /\
  (forall x, ld_full_apci (ld_assigns l (es ++ [Set_apci x; Set_nsdu T_Disconnect_PDU])) = 256 + x mod 256) /\
  (forall x b, ld_full_apci (ld_assigns l (es ++ [Set_apci x; Set_connected b])) = x mod 1024 /\
               ld_connected (ld_assigns l (es ++ [Set_apci x; Set_connected b])) = b) /\
  (forall x y z, let l' := ld_assigns l (es ++ [Set_address_type x; Set_source y; Set_destination z]) in
    ld_address_type l' = x mod 2 /\ ld_source l' = y mod 65536 /\ ld_destination l' = z mod 65536).
Proof.
  intros es l A T C. destruct (C92_form l A T C) as (v & R & <- & _).
  assert (X : forall es', exists v', ranges v' /\ ld_assigns (octets_of v) (es ++ es') = octets_of (fold_left assigned es' v') /\ ranges (fold_left assigned es' v')).
  { intros es'. exists (fold_left assigned es v). destruct (C92_refines es v R) as [R1 E1]. destruct (C92_refines es' _ R1) as [R2 E2].
    split; [exact R1|]. split; [|exact R2]. rewrite <- E2, <- E1. unfold ld_assigns. apply fold_left_app. }
  repeat split; intros; match goal with |- context [es ++ ?t] => destruct (X t) as ([w1 w2 w3 w4 w5 w6 w7 w8 w9 w10] & R1 & E & R2) end;
    subst; try rewrite E; destruct (C92_read _ R2) as (Q1 & Q2 & Q3 & Q4 & Q5 & Q6 & Q7); try rewrite Q5;
    cbn [fold_left assigned with_kind w_type w_control w_numbered w_sequence w_apci w_source w_destination w_cntrl1 w_hops w_length]; try lia.
  - destruct b; [apply Q4; reflexivity|]. destruct (ld_connected _); [|reflexivity]. destruct Q4 as [Q4 _]. specialize (Q4 eq_refl). discriminate Q4.
  - exact Q3.
  - exact Q1.
  - exact Q2.
Qed.
Print Assumptions C92_back.
(** A new object, as an application would fill it. *)
Example C92_example :
  let l := ld_assigns ld_new [Set_nsdu T_Data_Group_PDU; Set_address_type 1; Set_source 0x1101; Set_destination 0x10900; Set_apci 0x80; Set_data 0x41] in
  is_octet (ld_apci ld_new) /\ is_octet (ld_tpci ld_new) /\ is_octet (ld_cntrl2 ld_new) /\
  l = mkld 0x81 0 0 0x0900 0x1101 0xE0 0x96 /\ ld_full_apci l = 0x81 /\ ld_nsdu l = Some T_Data_Group_PDU /\
  ld_full_apci (ld_assigns l [Set_apci 0x3D5; Set_nsdu T_Connect_PDU]) = 0xD5.
Proof. vm_compute. repeat split; discriminate. Qed.
