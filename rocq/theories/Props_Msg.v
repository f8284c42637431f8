(** C01-C03: messages and addresses. *)
From Coq Require Import String Ascii ZArith NArith List Bool Lia ZifyBool.
From Verif Require Import Py Base Msg Address SpecMsg MsgProofs.
Import ListNotations.
Open Scope Z_scope.

(** ** C01 *)

(** str(m) is two upper-case digits per octet. *)
Theorem C01_text_of_message : forall m, octets m -> msg_str m = text_of m.
Proof. exact msg_str_text. Qed.
Print Assumptions C01_text_of_message.

Theorem C01_message_round_trip : forall m, octets m -> make_from_str (msg_str m) = Ok m.
Proof. exact make_of_str. Qed.
Print Assumptions C01_message_round_trip.

Theorem C01_text_round_trip : forall s, all_hex s -> Nat.even (String.length s) = true ->
  exists m, make_from_str s = Ok m /\ octets m /\ msg_str m = upper s.
Proof. exact make_hex_even. Qed.
Print Assumptions C01_text_round_trip.

Theorem C01_odd_digit_dropped : forall s c, all_hex s -> Nat.even (String.length s) = true ->
  is_hex c -> make_from_str (String.append s (String c EmptyString)) = make_from_str s.
Proof. exact make_hex_odd. Qed.
Print Assumptions C01_odd_digit_dropped.

Theorem C01_non_hex_raises : forall s,
  Exists (fun c => ~ is_hex c) (list_ascii_of_string s) -> make_from_str s = Err ValueError.
Proof. exact make_bad. Qed.
Print Assumptions C01_non_hex_raises.

Example C01_example : octets [0x11; 0xAB; 0xFF] /\ msg_str [0x11; 0xAB; 0xFF] = "11ABFF"%string /\
  make_from_str "11abff" = Ok [0x11; 0xAB; 0xFF] /\ upper "11abff" = "11ABFF"%string.
Proof. split; [repeat constructor|]; repeat split; vm_compute; congruence. Qed.
Example C01_hypotheses_met : all_hex "0aF9" /\ Nat.even (String.length "0aF9") = true.
Proof. split; [|reflexivity]. repeat constructor; unfold is_hex; vm_compute; tauto. Qed.
Example C01_bad_met : Exists (fun c => ~ is_hex c) (list_ascii_of_string "1g").
Proof. apply Exists_cons_tl, Exists_cons_hd. unfold is_hex. vm_compute. intuition congruence. Qed.

(** ** C02 *)

Theorem C02_consume : forall m, octets m ->
  octect m = (if (length m <? 1)%nat then Err IndexError
              else Ok (big_endian (firstn 1 m), skipn 1 m)) /\
  short m = (if (length m <? 2)%nat then Err IndexError
             else Ok (big_endian (firstn 2 m), skipn 2 m)) /\
  long m = (if (length m <? 4)%nat then Err IndexError
            else Ok (big_endian (firstn 4 m), skipn 4 m)).
Proof.
  exact (fun m H => conj (octect_consume m H) (conj (short_consume m H) (long_consume m H))).
Qed.
Print Assumptions C02_consume.

(** Storing any integer in an Octect, Short or Long and consuming its octets. *)
Theorem C02_store : forall v rest,
  octect (Octect v :: rest) = Ok (v mod 2 ^ 8, rest) /\
  short (short_octects (Short v) ++ rest) = Ok (v mod 2 ^ 16, rest) /\
  long (long_octects (Long v) ++ rest) = Ok (v mod 2 ^ 32, rest) /\
  octets [Octect v] /\ octets (short_octects (Short v)) /\ octets (long_octects (Long v)).
Proof.
  exact (fun v r => conj eq_refl (conj (short_store v r) (conj (long_store v r)
    (conj (Forall_cons _ (Octect_octet v) (Forall_nil _))
      (conj (short_octects_octets _) (long_octects_octets _)))))).
Qed.
Print Assumptions C02_store.
(** The number held is the stored one modulo the width, and the octets are its
    digits to base 256, most significant first. *)
Theorem C02_value : forall v,
  Octect v = v mod 2 ^ 8 /\ Short v = v mod 2 ^ 16 /\ Long v = v mod 2 ^ 32 /\
  big_endian (short_octects (Short v)) = Short v /\ big_endian (long_octects (Long v)) = Long v.
Proof.
  intros v. split; [reflexivity|]. split; [reflexivity|]. split; [reflexivity|].
  pose proof (short_store v []) as S. pose proof (long_store v []) as L. rewrite app_nil_r in S, L.
  destruct (C02_store v []) as (_ & _ & _ & _ & Os & Ol).
  destruct (C02_consume _ Os) as (_ & Es & _). destruct (C02_consume _ Ol) as (_ & _ & El).
  rewrite Es in S. rewrite El in L. cbn [length Nat.ltb Nat.leb short_octects long_octects firstn skipn] in S, L.
  change (v mod 2 ^ 16) with (Short v) in S. change (v mod 2 ^ 32) with (Long v) in L.
  unfold short_octects, long_octects. split; [injection S|injection L]; auto.
Qed.
Print Assumptions C02_value.
(** An octet is its two halves, and takes four bits of each half it is made of. *)
Theorem C02_halves : forall h l,
  nibble_high (octect_of_nibbles h l) = h mod 16 /\ nibble_low (octect_of_nibbles h l) = l mod 16 /\
  (forall o, is_octet o -> o = 16 * nibble_high o + nibble_low o /\ octect_of_nibbles (nibble_high o) (nibble_low o) = o).
Proof.
  intros h l. unfold nibble_high, nibble_low. rewrite !octect_of_nibbles_arith, !get_arith by lia.
  change (2 ^ 4) with 16. change (2 ^ 0) with 1. split; [lia|]. split; [lia|]. intros o O. unfold is_octet in O.
  rewrite !octect_of_nibbles_arith, !get_arith by lia. change (2 ^ 4) with 16. change (2 ^ 0) with 1. lia.
Qed.
Print Assumptions C02_halves.

Example C02_example :
  nibble_high 0x13 = 1 /\ nibble_low 0x13 = 3 /\ octect_of_nibbles 17 (-1) = 0x1F /\ octets [1; 2; 3; 4; 5] /\ long [1; 2; 3; 4; 5] = Ok (0x01020304, [5]) /\
  short [7] = Err IndexError /\ short_octects (Short (-2)) = [255; 254].
Proof. do 3 (split; [vm_compute; reflexivity|]). split; [repeat constructor|]; repeat split; vm_compute; congruence. Qed.

(** ** C03 *)

(** Any integers given as components are reduced to their field widths; the
    three notations of the resulting number read back as stated. *)
Theorem C03_build_and_read : forall main middle sub v,
  free_style v = v mod 65536 /\
  two_main (two_level main sub) = main mod 32 /\
  two_sub (two_level main sub) = sub mod 2048 /\
  three_main (three_level main middle sub) = main mod 32 /\
  three_middle (three_level main middle sub) = middle mod 8 /\
  three_sub (three_level main middle sub) = sub mod 256 /\
  two_level main sub = 2048 * (main mod 32) + sub mod 2048 /\
  three_level main middle sub = 2048 * (main mod 32) + 256 * (middle mod 8) + sub mod 256.
Proof.
  intros. rewrite two_level_arith, three_level_arith.
  destruct (fields_arith (2048 * (main mod 32) + sub mod 2048)) as (-> & -> & _ & _ & _).
  destruct (fields_arith (2048 * (main mod 32) + 256 * (middle mod 8) + sub mod 256))
    as (_ & _ & -> & -> & ->).
  repeat split; try lia.
Qed.
Print Assumptions C03_build_and_read.

(** The three readings of one 16-bit number describe that number. *)
Theorem C03_notations_agree : forall v, 0 <= v < 65536 ->
  two_level (two_main v) (two_sub v) = v /\
  three_level (three_main v) (three_middle v) (three_sub v) = v /\
  free_style v = v /\
  two_main v = three_main v /\ two_sub v = 256 * three_middle v + three_sub v /\
  0 <= two_main v < 32 /\ 0 <= two_sub v < 2048 /\ 0 <= three_middle v < 8 /\ 0 <= three_sub v < 256.
Proof.
  intros v Hv. rewrite two_level_arith, three_level_arith.
  destruct (fields_arith v) as (-> & -> & -> & -> & ->).
  assert (free_style v = v) by (apply cuint_small; lia).
  repeat split; try lia.
Qed.
Print Assumptions C03_notations_agree.

(** Addresses are equal exactly when their numbers are. *)
Theorem C03_equality : forall a b, addr_eqb a b = true <-> a_val a = a_val b.
Proof. intros a b. apply Z.eqb_eq. Qed.
Print Assumptions C03_equality.

Example C03_example : three_level 1 5 130 = 0x0D82 /\ two_level 1 1410 = 0x0D82 /\
  three_level 33 13 386 = 0x0D82 /\ 0 <= 0x0D82 < 65536.
Proof. repeat split; vm_compute; congruence. Qed.
