(** C118: the numbers that objects of the float classes stand for. *)
From Coq Require Import String ZArith QArith Qabs Qpower List Bool Lia SpecFloat.
From Verif Require Import Py Base Msg Address Float Dpt Tables State Encode Decode.
From Verif Require Import SpecMsg SpecTables SpecWire SpecDecode SpecDpt SpecValue Props_Tables Props_Encode Props_Decode Props_Dpt Props_Roundtrip.
Import ListNotations.
Open Scope string_scope.
Open Scope list_scope.
Open Scope Z_scope.

Local Lemma two_cases : forall c, In (class_name c) two_octet_numbers -> is_f16 c = true /\ dpt_size c = 2.
Proof.
  intros c H. destruct c; try (split; reflexivity); exfalso; cbn in H; repeat (destruct H as [H|H]; [discriminate H|]); exact H.
Qed.
Local Lemma four_cases : forall c, In (class_name c) four_octet_numbers -> is_f16 c = false /\ is_f32 c = true /\ dpt_size c = 4.
Proof.
  intros c H. destruct c; try (repeat split; reflexivity); exfalso; cbn in H; repeat (destruct H as [H|H]; [discriminate H|]); exact H.
Qed.

(** ** C118 *)

(** Only objects of these six classes can be decoded and encoded. *)
Theorem C118_methods : forall d x, ~ In (class_name (d_class d)) (two_octet_numbers ++ four_octet_numbers) ->
  dpt_decode d = Err AttributeError /\ dpt_encode d x = Err AttributeError.
Proof.
  intros [c v] x H. cbn [d_class] in H. destruct c; try (split; reflexivity); exfalso; apply H; cbn; intuition.
Qed.
Print Assumptions C118_methods.

(** The classes of two octets decode to the KNX value. *)
Theorem C118_two : forall d, In (class_name (d_class d)) two_octet_numbers -> raw_value (d_class d) (d_value d) ->
  exists x, dpt_decode d = Ok x /\ f_finite x = true /\
    (Qabs (f_value x - knx_value (d_value d)) <= Qabs (knx_value (d_value d)) * (2 # 1) ^ (-52))%Q /\
    f_signbit x = (knx_mantissa (d_value d) <? 0).
Proof.
  intros [c v] H R. cbn [d_class d_value] in *. destruct (two_cases c H) as (F & S). unfold raw_value in R. rewrite S in R.
  change (8 * 2) with 16 in R. destruct (C45_value v R) as (A & B & C & _). exists (f16_decode v).
  unfold dpt_decode. cbn [d_class d_value]. rewrite F. split; [reflexivity|]. split; [exact A|]. split; [exact B|exact C].
Qed.
Print Assumptions C118_two.

(** The classes of four octets decode to the number of the IEEE 754 pattern. *)
Theorem C118_four : forall d, In (class_name (d_class d)) four_octet_numbers -> raw_value (d_class d) (d_value d) ->
  exists x, dpt_decode d = Ok x /\ (is_nan_pattern (d_value d) -> x = S754_nan) /\
    (~ is_nan_pattern (d_value d) -> pattern (d_value d) x /\ is_double x).
Proof.
  intros [c v] H R. cbn [d_class d_value] in *. destruct (four_cases c H) as (F & F' & S). unfold raw_value in R. rewrite S in R.
  destruct (C49_decode v R) as (A & B). exists (f32_decode v).
  unfold dpt_decode. cbn [d_class d_value]. rewrite F, F'. split; [reflexivity|]. split; [exact A|exact B].
Qed.
Print Assumptions C118_four.

(** A number of up to 671088.6399, not a small negative one, is stored in an
    object of two octets less than one step below and at most 0.000051 above its
    magnitude; the object keeps its class. *)
Theorem C118_store_two : forall d x, In (class_name (d_class d)) two_octet_numbers -> raw_value (d_class d) (d_value d) ->
  f_finite x = true -> (Qabs (f_value x) <= 6710886399 # 10000)%Q -> f_signbit x = false \/ (f_value x <= - (1 # 100))%Q ->
  exists d', dpt_encode d x = Ok d' /\ d_class d' = d_class d /\ raw_value (d_class d') (d_value d') /\
    (0 <= f_value x -> 0 <= knx_value (d_value d'))%Q /\ (f_value x < 0 -> knx_value (d_value d') < 0)%Q /\
    (Qabs (f_value x) - (1 # 100) * (2 # 1) ^ knx_exponent (d_value d') < Qabs (knx_value (d_value d')))%Q /\
    (Qabs (knx_value (d_value d')) <= Qabs (f_value x) + (51 # 1000000))%Q.
Proof.
  intros [c v] x H R X B Sg. cbn [d_class d_value] in *. destruct (two_cases c H) as (F & S). unfold raw_value in *. rewrite S in *.
  change (8 * 2) with 16 in *. destruct (proj1 (C47_range v x R X) B) as (r & E).
  destruct (C47_accuracy v x r R X E Sg) as (P1 & P2 & P3 & P4).
  assert (W : 0 <= r < 2 ^ 16).
  { destruct (C47_total v x X) as [(n & N & _) | (_ & N)]; [|rewrite N in E; discriminate E].
    destruct (Z.lt_ge_cases n (2 ^ 26)) as [L|L].
    - destruct (C47_encode v x n R X N L) as (r' & e & E' & W & _). rewrite E' in E. injection E as <-. exact W.
    - rewrite (C47_fails v x n R X N L) in E. discriminate E. }
  exists (mkdpt c r). unfold dpt_encode. cbn [d_class d_value]. rewrite F, E. cbn [d_class d_value]. rewrite S. change (8 * 2) with 16.
  split; [reflexivity|]. split; [reflexivity|]. split; [exact W|]. split; [exact P1|]. split; [exact P2|]. split; [exact P3|exact P4].
Qed.
Print Assumptions C118_store_two.

(** Every finite double is stored in an object of four octets as the nearest
    single. *)
Theorem C118_store_four : forall d x, In (class_name (d_class d)) four_octet_numbers -> f_finite x = true ->
  exists d' s, dpt_encode d x = Ok d' /\ d_class d' = d_class d /\ raw_value (d_class d') (d_value d') /\
    rounded 24 128 (f_value x) (f_signbit x) s /\ pattern (d_value d') s.
Proof.
  intros [c v] x H X. cbn [d_class d_value] in *. destruct (four_cases c H) as (F & F' & S).
  destruct (C49_encode x) as (R & E & _). destruct (E X) as (s & P & Q). exists (mkdpt c (f32_encode x)), s.
  unfold dpt_encode. cbn [d_class d_value]. rewrite F, F'. unfold raw_value in *. rewrite S.
  split; [reflexivity|]. split; [reflexivity|]. split; [exact R|]. split; [exact P|exact Q].
Qed.
Print Assumptions C118_store_four.

(** What was decoded can be encoded in any object of the class, and decodes the
    same again; the exceptions are F800h and the patterns that are no number. *)
Theorem C118_again : forall d u x, raw_value (d_class d) (d_value d) -> raw_value (d_class u) (d_value u) ->
  d_class u = d_class d -> dpt_decode d = Ok x -> x <> S754_nan ->
  (In (class_name (d_class d)) two_octet_numbers -> d_value d <> 0xF800) ->
  exists d', dpt_encode u x = Ok d' /\ d_class d' = d_class d /\ dpt_decode d' = Ok x.
Proof.
  intros [c v] [c' w] x R R' C D N E. cbn [d_class d_value] in *. subst c'.
  destruct (in_dec string_dec (class_name c) two_octet_numbers) as [T|T].
  - destruct (two_cases c T) as (F & S). unfold raw_value in *. rewrite S in *. change (8 * 2) with 16 in *.
    unfold dpt_decode in D. cbn [d_class d_value] in D. rewrite F in D. injection D as <-.
    destruct (C46_reencode w v R' R (E T)) as (r & A & _ & B & _). exists (mkdpt c r).
    unfold dpt_encode, dpt_decode. cbn [d_class d_value]. rewrite F, A, B. split; [reflexivity|]. split; reflexivity.
  - destruct (in_dec string_dec (class_name c) four_octet_numbers) as [T'|T'].
    + destruct (four_cases c T') as (F & F' & S). unfold dpt_decode in D. cbn [d_class d_value] in D. rewrite F, F' in D. injection D as <-.
      assert (V : raw_value Float_32 v) by (unfold raw_value in *; rewrite S in R; exact R).
      assert (M : ~ is_nan_pattern v) by (intro M; apply N, (proj1 (C49_decode v V)), M).
      exists (mkdpt c v). unfold dpt_encode, dpt_decode. cbn [d_class d_value]. rewrite F, F', (C49_roundtrip v V M).
      split; [reflexivity|]. split; reflexivity.
    + destruct (C118_methods (mkdpt c v) x) as (A & _); [|rewrite A in D; discriminate D].
      cbn [d_class]. rewrite in_app_iff. tauto.
Qed.
Print Assumptions C118_again.

Local Lemma encode_raw : forall d x d', raw_value (d_class d) (d_value d) -> f_finite x = true -> dpt_encode d x = Ok d' ->
  d_class d' = d_class d /\ raw_value (d_class d) (d_value d').
Proof.
  intros [c v] x d' R X E. cbn [d_class d_value] in *.
  destruct (in_dec string_dec (class_name c) two_octet_numbers) as [T|T].
  - destruct (two_cases c T) as (F & S). unfold raw_value in *. rewrite S in *. change (8 * 2) with 16 in *.
    unfold dpt_encode in E. cbn [d_class d_value] in E. rewrite F in E.
    destruct (f16_encode v x) as [r|e] eqn:Er; [|discriminate E]. injection E as <-. split; [reflexivity|].
    cbn [d_value]. destruct (C47_total v x X) as [(n & N & _) | (_ & N)]; [|rewrite N in Er; discriminate Er].
    destruct (Z.lt_ge_cases n (2 ^ 26)) as [L|L].
    + destruct (C47_encode v x n R X N L) as (r' & e & E' & W & _). rewrite E' in Er. injection Er as <-. exact W.
    + rewrite (C47_fails v x n R X N L) in Er. discriminate Er.
  - destruct (in_dec string_dec (class_name c) four_octet_numbers) as [T'|T'].
    + destruct (four_cases c T') as (F & F' & S). unfold dpt_encode in E. cbn [d_class d_value] in E. rewrite F, F' in E.
      injection E as <-. split; [reflexivity|]. cbn [d_value]. unfold raw_value. rewrite S. exact (proj1 (C49_encode x)).
    + destruct (C118_methods (mkdpt c v) x) as (_ & A); [|rewrite A in E; discriminate E].
      cbn [d_class]. rewrite in_app_iff. tauto.
Qed.
Local Lemma two_wire : forall c, In (class_name c) two_octet_numbers -> wire_octets c = 2%nat /\ value_octets c = 2.
Proof.
  intros c H. destruct c; try (split; reflexivity); exfalso; cbn in H; repeat (destruct H as [H|H]; [discriminate H|]); exact H.
Qed.
Local Lemma four_wire : forall c, In (class_name c) four_octet_numbers -> wire_octets c = 4%nat /\ value_octets c = 4.
Proof.
  intros c H. destruct c; try (split; reflexivity); exfalso; cbn in H; repeat (destruct H as [H|H]; [discriminate H|]); exact H.
Qed.

(** A number stored in an object and written to the group reaches every receiver
    of a class of the same size as the number that was stored. *)
Theorem C118_wire : forall tb l h st s go a c x cl pad d number d',
  sender tb l h st s go a c x -> st_medium st = Usb_hid -> octets pad ->
  d_class d = c -> raw_value c (d_value d) -> f_finite number = true -> dpt_encode d number = Ok d' ->
  shows (SpecDecode.sent c (d_value d')) (receivers tb l h x go) ->
  exists report st1 messages, encode_msg (MGroupValueWriteInd a d') st = (Ok report, st1) /\
    fst (decode_msg cl (report ++ pad) st1) = Ok (RList messages) /\
    forall b k, In (b, k) (receivers tb l h x go) ->
      (exists f, (f = two_octet_numbers \/ f = four_octet_numbers) /\ In (class_name c) f /\ In (class_name k) f) ->
      exists r, In (MGroupValueWriteInd b r) messages /\ d_class r = k /\ dpt_decode r = dpt_decode d'.
Proof.
  intros tb l h st s go a c x cl pad d number d' Se M P Dc R X E Sh.
  rewrite <- Dc in R. destruct (encode_raw d number d' R X E) as (Dc' & R'). rewrite Dc in Dc', R'.
  destruct (C21_roundtrip tb l h st s go a c d' x cl pad Se M P Sh) as (report & st1 & A & B & _).
  eexists report, st1, _. split; [exact A|]. split; [exact B|].
  intros b k I (f & Hf & Fc & Fk). exists (as_class k (SpecDecode.sent c (d_value d'))).
  split; [apply in_map_iff; exists (b, k); split; [reflexivity|exact I]|]. split; [reflexivity|].
  destruct d' as [c' v]. cbn [d_class d_value] in *. subst c'. unfold as_class, SpecDecode.sent, raw_value in *.
  destruct Hf as [-> | ->].
  - destruct (two_wire c Fc) as (W & V). destruct (two_wire k Fk) as (_ & V'). destruct (two_cases c Fc) as (F & S).
    destruct (two_cases k Fk) as (F' & _). rewrite W, V'. rewrite S in R'. change (256 ^ Z.of_nat 2) with 65536. change (256 ^ 2) with 65536.
    change (2 ^ (8 * 2)) with 65536 in R'. rewrite !Z.mod_small by lia. unfold dpt_decode. cbn [d_class d_value]. rewrite F, F'. reflexivity.
  - destruct (four_wire c Fc) as (W & V). destruct (four_wire k Fk) as (_ & V'). destruct (four_cases c Fc) as (F & G & S).
    destruct (four_cases k Fk) as (F' & G' & _). rewrite W, V'. rewrite S in R'. change (256 ^ Z.of_nat 4) with 4294967296. change (256 ^ 4) with 4294967296.
    change (2 ^ (8 * 4)) with 4294967296 in R'. rewrite !Z.mod_small by lia. unfold dpt_decode. cbn [d_class d_value]. rewrite F, F', G, G'. reflexivity.
Qed.
Print Assumptions C118_wire.

(** 21 degrees in an object that held something else, 6400 watts, and a switch. *)
Example C118_example :
  dpt_encode (mkdpt Value_Temp 0xFFFF) (f_of_Z 21) = Ok (mkdpt Value_Temp 0x0C1A) /\ (knx_value 0x0C1A == 21)%Q /\
  dpt_encode (mkdpt Value_Power 7) (f_of_Z 6400) = Ok (mkdpt Value_Power 0x45C80000) /\
  dpt_decode (mkdpt Value_Power 0x45C80000) = Ok (f_of_Z 6400) /\
  dpt_decode (mkdpt Switch 1) = Err AttributeError /\ dpt_encode (mkdpt Brightness 1) (f_of_Z 1) = Err AttributeError.
Proof. repeat split. Qed.

(** 21 degrees written by ASAP 3 arrive at ASAP 1, which takes them for lux. *)
Definition ex_go_value : gobj_table := [(mkasap 3 None, Value_Temp); (mkasap 1 None, Value_Lux)].
Definition ex_st_value : state := state_new Usb_hid (Some ex_assoc) (Some ex_go_value).
Example C118_wire_ex : let a := mkasap 3 None in let d' := mkdpt Value_Temp 0x0C1A in
  sender ex_table [] ex_calls ex_st_value ex_assoc ex_go_value a Value_Temp 0x0900 /\
  receivers ex_table [] ex_calls 0x0900 ex_go_value = ex_go_value /\
  shows (SpecDecode.sent Value_Temp (d_value d')) ex_go_value /\
  match encode_msg (MGroupValueWriteInd a d') ex_st_value with
  | (Ok report, st1) => fst (decode_msg CUsbHid (report ++ [0; 0]) st1) =
      Ok (RList [MGroupValueWriteInd a d'; MGroupValueWriteInd (mkasap 1 None) (mkdpt Value_Lux 0x0C1A)])
  | _ => False
  end /\ dpt_decode (mkdpt Value_Lux 0x0C1A) = Ok (f16_decode 0x0C1A).
Proof.
  cbv zeta. split.
  - split; [exact ex_assoc_built|]. split; [reflexivity|]. split; [reflexivity|]. split; [reflexivity|].
    split; [eexists; eexists; split; vm_compute; reflexivity|]. split; [lia|]. vm_compute. auto.
  - split; [reflexivity|]. split; [reflexivity|]. split; vm_compute; reflexivity.
Qed.
