(** C110: a value described at one application arrives with the same description
    at another. *)
From Coq Require Import String Ascii ZArith QArith Qabs List Bool Lia ZifyBool SpecFloat.
From Verif Require Import Py Base Msg Address Float Dpt Tables LData Inet State Encode Decode.
From Verif Require Import SpecMsg SpecTables SpecWire SpecDecode SpecDpt SpecFactory SpecAcross SpecTold.
From Verif Require Import DptProofs SingleProofs ToldProofs.
From Verif Require Import Props_Dpt Props_Factory Props_Tables Props_Encode Props_Decode Props_Client Props_Across.
Import ListNotations.
Open Scope string_scope.
Open Scope list_scope.
Open Scope Z_scope.

(** Any value of the type that both applications give to their group objects: the
    second describes it as the first does, and every property reads the same. *)
Theorem C110_described : forall st1 a c x v st2 b, raw_value c v -> sends_as st1 a c x -> shown_at st2 b c x (sent c v) ->
  passed_on st1 a (mkdpt c v) st2 b
    (fun e => d_class e = c /\ describe e = describe (mkdpt c v) /\ forall n, prop_get e n = prop_get (mkdpt c v) n).
Proof.
  intros st1 a c x v st2 b R Sd Sh. apply (is_passed_on st1 a c x v st2 b Sd Sh). split; [reflexivity|].
  split; [apply same_described; exact R|apply same_props; exact R].
Qed.
Print Assumptions C110_described.

(** From a dictionary on one side to the fields on the other. *)
Theorem C110_dictionary : forall st1 a c x st2 b before k y after d, sends_as st1 a c x ->
  factory_make (class_name c) (before ++ (k, y) :: after) = Ok d -> shown_at st2 b c x (sent c (d_value d)) ->
  Forall (fun e => whole_key (fst e) = false /\ fst e <> k) after ->
  passed_on st1 a d st2 b (fun e =>
    (In k (numbers c) -> exists z o w, y = VInt z /\ position c k = Some (o, w) /\ prop_get e k = Ok (VInt (z mod 2 ^ w))) /\
    (forall l, names c k = Some l -> exists s z, y = VName s /\ In (s, z) l /\ prop_get e k = Ok (VName (canonical s)))).
Proof.
  intros st1 a c x st2 b before k y after d Sd M Sh F. pose proof (C107_reads c before k y after d M F) as [N1 N2].
  pose proof (C107_fails c (before ++ (k, y) :: after)) as H. rewrite M in H.
  destruct (first_failure c (before ++ (k, y) :: after)); [discriminate H|]. destruct H as (r & E & R). injection E as ->. cbn [d_value] in Sh.
  apply (is_passed_on st1 a c x r st2 b Sd Sh). rewrite (same_props c r R). split; [exact N1|exact N2].
Qed.
Print Assumptions C110_dictionary.

(** A number given to a 2-octet float: what is heard is off by at most one per mille
    and a cent.  Numbers between -0.01 and -0 are the exception of C48. *)
Theorem C110_number : forall st1 a c x st2 b y, is_f16 c = true -> sends_as st1 a c x ->
  f_finite y = true -> f_signbit y = false \/ (f_value y <= - (1 # 100))%Q -> (Qabs (f_value y) <= 6710886399 # 10000)%Q ->
  exists d, factory_make (class_name c) [("decoded_value", VFloat y)] = Ok d /\
  (shown_at st2 b c x (sent c (d_value d)) ->
   passed_on st1 a d st2 b (fun e => exists z, describe e = Ok (class_name c, [("decoded_value", VFloat z)]) /\ f_finite z = true /\
     (Qabs (f_value z - f_value y) <= (101 # 10000) + Qabs (f_value y) * (1 # 1000))%Q)).
Proof.
  intros st1 a c x st2 b y C Sd F Sg L. destruct (float16_close y F Sg L) as (r & E & Hr & Fr & D). exists (mkdpt c r).
  assert (R : raw_value c r) by (destruct c; try discriminate C; exact Hr). split.
  - rewrite C107_value. cbn [built_from]. unfold entry_effect. rewrite C. cbn [String.eqb Ascii.eqb Bool.eqb as_number rbind].
    rewrite E. cbn [rbind write]. do 2 f_equal. unfold with_field, field. change (2 ^ 0) with 1. rewrite Z.div_1_r, Z.mod_0_l by lia. rewrite Z.mod_small by exact Hr. lia.
  - intros Sh. cbn [d_value] in Sh. apply (is_passed_on st1 a c x r st2 b Sd Sh). exists (f16_decode r).
    rewrite (same_described c r R). split; [destruct c; try discriminate C; reflexivity|]. split; assumption.
Qed.
Print Assumptions C110_number.
(** A number given to a 4-octet float is heard as the nearest single. *)
Theorem C110_single : forall st1 a c x st2 b y, is_f32 c = true -> sends_as st1 a c x -> f_finite y = true ->
  exists d, factory_make (class_name c) [("decoded_value", VFloat y)] = Ok d /\
  (shown_at st2 b c x (sent c (d_value d)) ->
   passed_on st1 a d st2 b (fun e => exists z s, describe e = Ok (class_name c, [("decoded_value", VFloat z)]) /\
     rounded 24 128 (f_value y) (f_signbit y) s /\ f_signbit z = f_signbit s /\ f_finite z = f_finite s /\ (f_value z == f_value s)%Q)).
Proof.
  intros st1 a c x st2 b y C Sd F. exists (mkdpt c (f32_encode y)). pose proof (f32_encode_raw y) as R0.
  assert (R : raw_value c (f32_encode y)) by (destruct c; try discriminate C; exact R0). split.
  - rewrite C107_value. cbn [built_from]. unfold entry_effect. replace (is_f16 c) with false by (destruct c; try discriminate C; reflexivity).
    rewrite C. cbn [String.eqb Ascii.eqb Bool.eqb as_number rbind write]. do 2 f_equal.
    unfold with_field, field. change (2 ^ 0) with 1. rewrite Z.div_1_r, Z.mod_0_l by lia. rewrite Z.mod_small by exact R0. lia.
  - intros Sh. cbn [d_value] in Sh. apply (is_passed_on st1 a c x (f32_encode y) st2 b Sd Sh).
    destruct (float32_nearest y F) as (s & Rd & S1 & S2 & V). exists (f32_decode (f32_encode y)), s.
    rewrite (same_described c _ R). split; [destruct c; try discriminate C; reflexivity|]. auto.
Qed.
Print Assumptions C110_single.

(** The receiver of the example: address 0100h for a temperature. *)
Definition tl_table := at_new (mkaddr 1 0x1003) [mkaddr 2 0x0100] 4.
Definition tl_calls : list as_call := [Associate (mkasap 9 None) [mkaddr 3 0x0100]].
Definition tl_assoc : assoc_table :=
  match assoc_new tl_table [] with Ok s => snd (as_run s tl_calls) | Err _ => mkassoc tl_table [] [] end.
Definition tl_state : state := state_new Usb_hid (Some tl_assoc) (Some [(mkasap 9 None, Value_Temp)]).
Lemma tl_built : built tl_table [] tl_calls tl_assoc.
Proof. eexists. exists [Ok tt]. split; [vm_compute; reflexivity|]. split; [vm_compute; reflexivity|]. repeat constructor. Qed.
(** 19.5 degrees from a tunnelling application (ASAP 2, address 0100h) to one on
    USB (ASAP 9): 1950 cents. *)
Definition tl_number : float := fdiv (f_of_Z 39) (f_of_Z 2).
Example C110_example : sends_as (ex_state Knxnet_ip) (mkasap 2 None) Value_Temp 0x0100 /\
  factory_make "DPT_Value_Temp" [("decoded_value", VFloat tl_number)] = Ok (mkdpt Value_Temp 1950) /\
  shown_at tl_state (mkasap 9 None) Value_Temp 0x0100 (sent Value_Temp 1950) /\
  f_finite tl_number = true /\ f_signbit tl_number = false /\ (Qabs (f_value tl_number) <= 6710886399 # 10000)%Q /\
  describe (mkdpt Value_Temp 1950) = Ok ("DPT_Value_Temp", [("decoded_value", VFloat tl_number)]) /\
  let request := [0x11; 0x00; 0x96; 0xE0; 0x00; 0x00; 0x01; 0x00; 0x03; 0x00; 0x80; 0x07; 0x9E] in
  let indication := [0x29; 0x00; 0xBC; 0xE0; 0x11; 0x01; 0x01; 0x00; 0x03; 0x00; 0x80; 0x07; 0x9E] in
  fst (encode_msg (MGroupValueWriteReq (mkasap 2 None) (mkdpt Value_Temp 1950)) (ex_state Knxnet_ip)) = wire (ex_state Knxnet_ip) request /\
  fst (decode_msg CPlain (delivered tl_state 0 [0; 0] indication) tl_state) =
    Ok (RList [MGroupValueWriteInd (mkasap 9 None) (mkdpt Value_Temp 1950)]).
Proof.
  split. { exists ex_assoc, ex_gobj. eexists. eexists. repeat split; vm_compute; reflexivity. }
  split; [vm_compute; reflexivity|]. split.
  { exists tl_table, [], tl_calls, tl_assoc, [(mkasap 9 None, Value_Temp)]. split; [exact tl_built|]. split; [reflexivity|]. split; [reflexivity|].
    split; [|split; vm_compute; auto]. split; [cbn; lia|]. intros _. split; [exists 9; vm_compute; reflexivity|vm_compute; reflexivity]. }
  split; [reflexivity|]. split; [reflexivity|]. split; [vm_compute; discriminate|]. split; [vm_compute; reflexivity|].
  split; vm_compute; reflexivity.
Qed.
(** A dictionary with a name, to a switch. *)
Example C110_example_dictionary : sends_as (ex_state Usb_hid) (mkasap 1 None) Switch 0x0900 /\
  factory_make "DPT_Switch" ([] ++ ("action", VName "on") :: []) = Ok (mkdpt Switch 1) /\
  shown_at (state_new Usb_hid (Some ex_assoc2) (Some ex_go2)) (mkasap 4 None) Switch 0x0900 (sent Switch 1) /\
  names Switch "action" <> None /\ describe (as_class Switch (sent Switch 1)) = describe (mkdpt Switch 1) /\
  as_class Switch (sent Switch 1) <> mkdpt Switch 1.
Proof.
  split. { exists ex_assoc, ex_gobj. eexists. eexists. repeat split; vm_compute; reflexivity. }
  split; [vm_compute; reflexivity|]. split.
  { exists ex_table2, [], ex_calls2, ex_assoc2, ex_go2. split; [exact ex_built2|]. split; [reflexivity|]. split; [reflexivity|].
    split; [exact ex_audible|]. split; vm_compute; auto. }
  split; [discriminate|]. split; [vm_compute; reflexivity|vm_compute; discriminate].
Qed.
