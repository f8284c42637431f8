(** C82: the text of a message identifies it. *)
From Coq Require Import String Ascii ZArith List Bool Permutation SpecFloat.
From Verif Require Import Py Msg Float Dpt Tables State Decode Text MessageText SpecMsg SpecText SpecMessage MessageProofs TextProofs.
Import ListNotations.
Open Scope Z_scope.

(** The texts of a message are those of its template with the holes filled: numbers
    in decimal, ASAPs with their name in parentheses, addresses and octets in
    hexadecimal, and the datapoint as the name of its class with a dictionary of
    its fields in any order. *)
Theorem C82_form : forall ft m t, legible m ->
  (message_text ft m t <-> exists dt texts, (forall d, carries m d -> shown_dpt ft d dt) /\
     Forall2 (piece_text dt) (snd (template m)) texts /\ t = fill (fst (template m)) texts).
Proof. exact text_form. Qed.
Print Assumptions C82_form.

(** Two messages with a text in common, whatever the order of the entries in
    either, are alike: same kind, same ASAP number and name, same fields and
    status, and datapoints of one class that read the same. *)
Theorem C82_unambiguous : forall ft m n t, float_texts ft -> legible m -> legible n ->
  message_text ft m t -> message_text ft n t -> alike ft m n.
Proof. exact unambiguous. Qed.
Print Assumptions C82_unambiguous.

(** Alike messages have the same texts, so that nothing else is shown. *)
Theorem C82_nothing_else : forall ft m n t, alike ft m n -> message_text ft m t -> message_text ft n t.
Proof. exact alike_text. Qed.
Print Assumptions C82_nothing_else.

(** Every message the decoder returns is legible, on each medium and in each
    state. *)
Theorem C82_decoded : forall c m st r st', octets m -> decode_msg c m st = (Ok r, st') ->
  forall x, match r with RList l | RAck l => In x l | RNone => False end -> legible x.
Proof.
  intros c m st r st' O E x I. pose proof (decoded_legible c m st r st' O E) as G. destruct r; cbn [good] in G; try contradiction; rewrite Forall_forall in G; exact (G x I).
Qed.
Print Assumptions C82_decoded.

(** A message has a text exactly when formatting it does not raise. *)
Theorem C82_text : forall ft m, message_repr m = Ok tt <-> exists t, message_text ft m t.
Proof. exact text_exists. Qed.
Print Assumptions C82_text.

(** The data of a property write request is shown as it is: requests to different
    ASAPs with different data can have the same text. *)
Theorem C82_request_refuted : exists m n t, (forall ft, message_text ft m t) /\ (forall ft, message_text ft n t) /\
  (exists a b data, m = MPropertyValueWriteReq a 0 1 1 1 data /\ n = MPropertyValueWriteReq b 0 1 1 1 "00" /\ asap_value a <> asap_value b).
Proof.
  set (pos := " (object index 0, property id 1, number of elements 1, start index 1 for asap "%string).
  exists (MPropertyValueWriteReq (mkasap 2 (Some "x"%string)) 0 1 1 1 ("00" ++ pos ++ "1 (lamp)")%string),
    (MPropertyValueWriteReq (mkasap 1 (Some ("lamp)" ++ pos ++ "2 (x")%string)) 0 1 1 1 "00").
  exists ("PropertyValueWriteReq 00" ++ pos ++ "1 (lamp)" ++ pos ++ "2 (x))")%string.
  split; [|split].
  - intros ft. exists ""%string. split; [reflexivity|]. vm_compute. reflexivity.
  - intros ft. exists ""%string. split; [reflexivity|]. vm_compute. reflexivity.
  - eexists _, _, _. split; [reflexivity|]. split; [reflexivity|]. discriminate.
Qed.
Print Assumptions C82_request_refuted.

(** Texts of floats as the theorem wants them exist. *)
Definition plain_float (x : float) : string :=
  match x with
  | S754_zero s => if s then "-0.0" else "0.0"
  | S754_infinity s => if s then "-inf" else "inf"
  | S754_nan => "nan"
  | S754_finite s m e => (if s then "-" else "") ++ dec (Zpos m) ++ ".0e" ++ dec e
  end.
Example C82_floats : float_texts plain_float /\ plain_float (S754_finite true 3 (-2)) = "-3.0e-2"%string.
Proof.
  split; [|vm_compute; reflexivity]. intros x.
  assert (A : forall l m, forallb (fun c => existsb (Ascii.eqb c) m) l = true -> Forall (fun c => In c m) l).
  { intros l m H. apply Forall_forall. exact (in_sub l m H). }
  assert (D : forall z, Forall (fun c => In c (chars "0123456789.+-einfa")) (list_ascii_of_string (dec z))).
  { intros z. apply (Forall_impl _ (fun c H => in_sub (chars "-0123456789") (chars "0123456789.+-einfa") ltac:(vm_compute; reflexivity) c H) (dec_chars_ok z)). }
  assert (N : forall c s, In c (chars s) -> ~ In c (chars "-0123456789") -> ~ Forall (fun c => In c (chars "-0123456789")) (chars s)).
  { intros c s I H F. rewrite Forall_forall in F. exact (H (F c I)). }
  destruct x as [[]|[]| |s m e].
  1,2: split; [apply A; vm_compute; reflexivity|apply (N "."%char); [vm_compute; tauto|notin]].
  1,2,3: split; [apply A; vm_compute; reflexivity|apply (N "n"%char); [vm_compute; tauto|notin]].
  unfold chars. split.
  - cbn [plain_float]. rewrite !L_app. apply Forall_app. split; [apply A; destruct s; vm_compute; reflexivity|]. apply Forall_app. split; [apply D|].
    apply Forall_app. split; [apply A; vm_compute; reflexivity|apply D].
  - apply (N "."%char); [|notin]. unfold chars. cbn [plain_float]. rewrite !L_app, !in_app_iff. right. right. left. left. reflexivity.
Qed.

(** The texts of the documentation, in one order or the other. *)
Example C82_example :
  let on := mkdpt Switch 1 in
  message_text plain_float (MGroupValueWriteInd (mkasap 1 (Some "example asap"%string)) on)
    "GroupValueWriteInd (DPT_Switch {'action': 'on'} for asap 1 (example asap))" /\
  message_text plain_float (MTunnelingReq 1 0) "TunnelingReq(sequence counter=1, status=<ErrorCodes.E_NO_ERROR: 0>)" /\
  message_text plain_float (MConnectRes "172.31.10.250" 3671 (Some 0xFFFF) 0)
    "ConnectRes(ip=172.31.10.250, port=3671, individual address=0xFFFF, status=0)" /\
  message_text plain_float (MPropertyValueWriteCon (mkasap 0 None) 0 123 1 33 [255] 0)
    "PropertyValueWriteCon FF status 0 (object index 0, property id 123, number of elements 1, start index 33 for asap 0)" /\
  (forall t, In t ["GroupValueWriteReq (DPT_SceneControl {'command': 'learn', 'number': 5} for asap 3)"%string;
                   "GroupValueWriteReq (DPT_SceneControl {'number': 5, 'command': 'learn'} for asap 3)"%string] ->
     message_text plain_float (MGroupValueWriteReq (mkasap 3 (Some ""%string)) (mkdpt SceneControl 0x85)) t) /\
  ~ alike plain_float (MGroupValueWriteInd (mkasap 1 None) on) (MGroupValueWriteInd (mkasap 1 None) (mkdpt Switch 0)).
Proof.
  cbv zeta. split; [|split; [|split; [|split; [|split]]]].
  - exists "DPT_Switch {'action': 'on'}"%string. split; [|vm_compute; reflexivity].
    eexists _, _, _. split; [vm_compute; reflexivity|]. split; [apply Permutation_refl|]. vm_compute. reflexivity.
  - exists ""%string. split; [reflexivity|vm_compute; reflexivity].
  - exists ""%string. split; [reflexivity|vm_compute; reflexivity].
  - exists ""%string. split; [reflexivity|vm_compute; reflexivity].
  - intros t [<-|[<-|[]]].
    + eexists. split; [eexists _, _, _; split; [vm_compute; reflexivity|split; [apply Permutation_refl|reflexivity]]|vm_compute; reflexivity].
    + eexists. split; [eexists _, _, _; split; [vm_compute; reflexivity|split; [apply perm_swap|reflexivity]]|vm_compute; reflexivity].
  - intros [_ A]. specialize (A _ _ (c_write_ind _ _) (c_write_ind _ _)). destruct A as (_ & A & _). specialize (A "action"%string). vm_compute in A. discriminate A.
Qed.

(** The text of a confirmation, from its template. *)
Example C82_form_example :
  legible (MGroupValueWriteCon (mkasap 1 (Some "lamp"%string)) (mkdpt Switch 1) 0) /\
  message_text plain_float (MGroupValueWriteCon (mkasap 1 (Some "lamp"%string)) (mkdpt Switch 1) 0)
    "GroupValueWriteCon status 0 (DPT_Switch {'action': 'on'} for asap 1 (lamp))" /\
  fill "GroupValueWriteCon status {} ({} for asap {})" ["0"; "DPT_Switch {'action': 'on'}"; "1 (lamp)"]%string
    = "GroupValueWriteCon status 0 (DPT_Switch {'action': 'on'} for asap 1 (lamp))"%string.
Proof.
  split; [exact I|]. split; [|vm_compute; reflexivity].
  exists "DPT_Switch {'action': 'on'}"%string. split; [|vm_compute; reflexivity].
  eexists _, _, _. split; [vm_compute; reflexivity|]. split; [apply Permutation_refl|]. vm_compute. reflexivity.
Qed.
