(** C103: two telegrams are told apart by some application exactly when their
    gists differ; the other bits of a telegram never matter. *)
From Coq Require Import String ZArith List Bool Lia.
From Verif Require Import Base Py Address Dpt Tables State Encode Decode SpecTables SpecMsg SpecWire SpecDecode SpecGist GistProofs
  Props_Encode Props_Decode.
Import ListNotations.
Open Scope Z_scope.

(** ** C103: on USB *)
Theorem C103_usb : forall c m1 k1 t1 m2 k2 t2, reports m1 k1 t1 -> reports m2 k2 t2 ->
  (alike_on Usb_hid c m1 m2 <-> gist_of k1 t1 = gist_of k2 t2).
Proof. exact alike_usb. Qed.
Print Assumptions C103_usb.

(** ** C103: through the tunnel, where no list and an empty list are the same *)
Theorem C103_ip : forall n m1 k1 t1 m2 k2 t2, tunnels n m1 k1 t1 -> tunnels n m2 k2 t2 ->
  (alike_on Knxnet_ip CNetIP m1 m2 <-> behind_tunnel (gist_of k1 t1) = behind_tunnel (gist_of k2 t2)).
Proof. exact alike_ip. Qed.
Print Assumptions C103_ip.

(** ** C103: what never matters in a group telegram

    The sender, the length octet, the second control octet but for the address
    type, the first one but for the confirm flag of confirmations. *)
Theorem C103_group_bits : forall c m1 m2 k t c1 c2 src len, group_addressed t = true ->
  c2 / 128 = t_c2 t / 128 -> (k = Con -> c1 mod 2 = t_c1 t mod 2) ->
  reports m1 k t -> reports m2 k (mktg c1 c2 src (t_dst t) len (t_tpci t) (t_apci t) (t_data t)) ->
  alike_on Usb_hid c m1 m2.
Proof.
  intros c m1 m2 k t c1 c2 src len G C2 C1 R1 R2. rewrite (alike_usb _ _ _ _ _ _ _ R1 R2).
  symmetry. apply idle_group; assumption.
Qed.
Print Assumptions C103_group_bits.
Theorem C103_group_bits_ip : forall n m1 m2 k t c1 c2 src len, group_addressed t = true ->
  c2 / 128 = t_c2 t / 128 -> (k = Con -> c1 mod 2 = t_c1 t mod 2) ->
  tunnels n m1 k t -> tunnels n m2 k (mktg c1 c2 src (t_dst t) len (t_tpci t) (t_apci t) (t_data t)) ->
  alike_on Knxnet_ip CNetIP m1 m2.
Proof.
  intros n m1 m2 k t c1 c2 src len G C2 C1 R1 R2. rewrite (alike_ip _ _ _ _ _ _ _ R1 R2).
  rewrite idle_group by assumption. reflexivity.
Qed.
Print Assumptions C103_group_bits_ip.

(** ** C103: and in a property telegram

    The same, with the destination of an indication and the source of a
    confirmation. *)
Theorem C103_property_bits : forall c m1 m2 k t c1 c2 other len, group_addressed t = false ->
  c2 / 128 = t_c2 t / 128 -> (k = Con -> c1 mod 2 = t_c1 t mod 2) ->
  reports m1 k t ->
  reports m2 k (mktg c1 c2 (match k with Ind => t_src t | Con => other end) (match k with Ind => other | Con => t_dst t end)
                  len (t_tpci t) (t_apci t) (t_data t)) ->
  alike_on Usb_hid c m1 m2.
Proof.
  intros c m1 m2 k t c1 c2 other len G C2 C1 R1 R2. rewrite (alike_usb _ _ _ _ _ _ _ R1 R2).
  symmetry. apply idle_property; assumption.
Qed.
Print Assumptions C103_property_bits.

(** ** Cases *)

(** A write of 1 to 0C02h, the same one sent by another device with other
    priority and hop count, and one with another value. *)
Definition gs_telegram (c1 c2 src v : Z) : list Z :=
  [0x29; 0x00; c1; c2; src / 256; src mod 256; 0x0C; 0x02; 0x01; 0x00; 0x80 + v].
Definition gs_tg (c1 c2 src v : Z) : telegram := mktg c1 c2 (256 * (src / 256) + src mod 256) 0x0C02 0x01 0x00 (0x80 + v) [].
Lemma gs_reports : 
  reports (ex_usb (gs_telegram 0xBC 0xE0 0x1104 1)) Ind (gs_tg 0xBC 0xE0 0x1104 1) /\
  reports (ex_usb (gs_telegram 0xB0 0x90 0x12FE 1)) Ind (gs_tg 0xB0 0x90 0x12FE 1) /\
  reports (ex_usb (gs_telegram 0xBC 0xE0 0x1104 0)) Ind (gs_tg 0xBC 0xE0 0x1104 0).
Proof. split; [|split]; (split; [unfold ex_usb, usb_report, gs_telegram; octets_tac|eexists; split; reflexivity]). Qed.
Example C103_example :
  alike_on Usb_hid CUsbHid (ex_usb (gs_telegram 0xBC 0xE0 0x1104 1)) (ex_usb (gs_telegram 0xB0 0x90 0x12FE 1)) /\
  ~ alike_on Usb_hid CUsbHid (ex_usb (gs_telegram 0xBC 0xE0 0x1104 1)) (ex_usb (gs_telegram 0xBC 0xE0 0x1104 0)) /\
  gist_of Ind (gs_tg 0xBC 0xE0 0x1104 1) = GroupSays Ind 0x0C02 Write 129 0.
Proof.
  destruct gs_reports as (R1 & R2 & R3). split; [|split].
  - apply (proj2 (C103_usb CUsbHid _ _ _ _ _ _ R1 R2)). reflexivity.
  - rewrite (C103_usb CUsbHid _ _ _ _ _ _ R1 R3). vm_compute. discriminate.
  - reflexivity.
Qed.

(** A telegram of another transport kind to a group: on USB told apart from a
    broadcast, through the tunnel not. *)
Definition gs_other (dst : Z) : list Z := [0x29; 0x00; 0xBC; 0xE0; 0x11; 0x04; dst / 256; dst mod 256; 0x01; 0x04; 0x81].
Definition gs_other_tg (dst : Z) : telegram := mktg 0xBC 0xE0 0x1104 (256 * (dst / 256) + dst mod 256) 0x01 0x04 0x81 [].
Example C103_no_list :
  ~ alike_on Usb_hid CUsbHid (ex_usb (gs_other 0x0C02)) (ex_usb (gs_other 0)) /\
  alike_on Knxnet_ip CNetIP (tunnelling_request 7 9 (gs_other 0x0C02)) (tunnelling_request 7 9 (gs_other 0)).
Proof.
  assert (U : forall d, d = 0x0C02 \/ d = 0 -> reports (ex_usb (gs_other d)) Ind (gs_other_tg d)).
  { intros d [-> | ->]; (split; [unfold ex_usb, usb_report, gs_other; octets_tac|eexists; split; reflexivity]). }
  assert (T : forall d, d = 0x0C02 \/ d = 0 -> tunnels 9 (tunnelling_request 7 9 (gs_other d)) Ind (gs_other_tg d)).
  { intros d [-> | ->]; (split; [unfold tunnelling_request, gs_other; octets_tac|eexists; split; reflexivity]). }
  split.
  - rewrite (C103_usb CUsbHid _ _ _ _ _ _ (U 0x0C02 (or_introl eq_refl)) (U 0 (or_intror eq_refl))). vm_compute. discriminate.
  - apply (proj2 (C103_ip 9 _ _ _ _ _ _ (T 0x0C02 (or_introl eq_refl)) (T 0 (or_intror eq_refl)))). reflexivity.
Qed.

(** A property telegram: its destination does not matter to an indication. *)
Definition gs_prop (dst : Z) : list Z :=
  [0x29; 0x00; 0xBC; 0x60; 0x11; 0x04; dst / 256; dst mod 256; 0x05; 0x03; 0xD5; 0x03; 0x05; 0x10; 0x01].
Definition gs_prop_tg (dst : Z) : telegram :=
  mktg 0xBC 0x60 0x1104 (256 * (dst / 256) + dst mod 256) 0x05 0x03 0xD5 [0x03; 0x05; 0x10; 0x01].
Example C103_property :
  alike_on Usb_hid CUsbHid (ex_usb (gs_prop 0x1201)) (ex_usb (gs_prop 0x1202)) /\
  gist_of Ind (gs_prop_tg 0x1201) = PropertySays Ind 0x1104 (Some (MPropertyValueReadInd (mkasap 0 None) 3 5 1 1)).
Proof.
  assert (U : forall d, d = 0x1201 \/ d = 0x1202 -> reports (ex_usb (gs_prop d)) Ind (gs_prop_tg d)).
  { intros d [-> | ->]; (split; [unfold ex_usb, usb_report, gs_prop; octets_tac|eexists; split; reflexivity]). }
  split; [|reflexivity].
  apply (C103_property_bits CUsbHid _ _ Ind (gs_prop_tg 0x1201) 0xBC 0x60 0x1202 0x05); try reflexivity; try discriminate;
    apply U; auto.
Qed.
