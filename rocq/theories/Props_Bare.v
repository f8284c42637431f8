(** C108: decoding when a table is missing. *)
From Coq Require Import String ZArith NArith List Bool Lia.
From Verif Require Import Py Base Msg Address Dpt Tables LData Inet State Encode Decode.
From Verif Require Import SpecMsg SpecTables SpecWire SpecDecode.
From Verif Require Import MsgProofs TablesProofs AssocProofs EncodeProofs DecodeProofs SimProofs IpProofs Props_Tables Props_Encode Props_Decode.
From Verif Require Import SpecFail FailProofs SpecListen SpecHeard HeardProofs SpecBare BareProofs.
Import ListNotations.
Open Scope Z_scope.

(** Octets that carry no telegram that somebody would have to be looked up for
    give the same result with any tables and with none. *)
Theorem C108_unneeded : forall a g a' g' c m st,
  octets m -> proper_class st c -> (forall k t, on_bus st m = Some (k, t) -> ~ concerns t) ->
  fst (decode_msg c m (supplied a g st)) = fst (decode_msg c m (supplied a' g' st)).
Proof.
  intros a g a' g' c m st O C N. apply decode_unneeded; try assumption. repeat split.
Qed.
Print Assumptions C108_unneeded.

(** Without an association table every other telegram raises AttributeError, on
    either medium and whether or not there are datapoint types. *)
Theorem C108_nobody : forall c m st k t,
  octets m -> proper_class st c -> st_assoc st = None -> on_bus st m = Some (k, t) ->
  (fst (decode_msg c m st) = Err AttributeError <-> concerns t).
Proof.
  intros c m st k t O C A B. split; [|intros N; eapply decode_unheard; eassumption].
  intros E. destruct (decode_ldata c m st k t O C B) as [P X]. rewrite X in E.
  destruct (ListenProofs.ldata_bare k t (st_set_ldata (ld_of t) st) A eq_refl P) as (r & Y & [[N _]|[_ [-> | ->]]]); [exact N| |];
    rewrite Y in E; unfold wrapped in E; destruct (st_medium st); discriminate E.
Qed.
Print Assumptions C108_nobody.

(** With an association table but without datapoint types only a group telegram
    that looks them up is affected; all other octets give the same result as with
    any datapoint types. *)
Theorem C108_typeless : forall c m st s go,
  octets m -> proper_class st c -> st_assoc st = Some s ->
  (forall k t, on_bus st m = Some (k, t) -> ~ looks_up s t) ->
  fst (decode_msg c m (supplied (Some s) None st)) = fst (decode_msg c m (supplied (Some s) (Some go) st)).
Proof. exact decode_typeless. Qed.
Print Assumptions C108_typeless.
(** One that does raises: KeyError if the address has no association, as with
    datapoint types, and AttributeError if it has one. *)
Theorem C108_lookup : forall tb l h c m st s k t,
  built tb l h s -> octets m -> proper_class st c -> st_assoc st = Some s -> st_gobj st = None ->
  on_bus st m = Some (k, t) -> looks_up s t ->
  ((forall v, balance tb l h v (t_dst t) = 0) -> fst (decode_msg c m st) = Err KeyError) /\
  ((exists v, 0 < balance tb l h v (t_dst t)) -> fst (decode_msg c m st) = Err AttributeError).
Proof.
  intros tb l h c m st s k t B O C A G Bu L.
  destruct (decode_lookup tb l h c m st s k t B O C A G Bu L) as [[E Z]|[E [v Z]]]; rewrite E; split; try reflexivity.
  - intros [v V]. specialize (Z v). lia.
  - intros V. specialize (V v). lia.
Qed.
Print Assumptions C108_lookup.

(** A state that never gets an association table, over any sequence of octets:
    each call fails for a telegram that concerns somebody, and otherwise returns
    what a state with any tables would, with the counter and the channel reached
    so far. *)
Theorem C108_run : forall a' g' c st before m after,
  st_assoc st = None -> Forall octets (before ++ m :: after) -> proper_class st c ->
  let now := moved st before in
  exists r, nth_error (fst (hear c st (before ++ m :: after))) (length before) = Some r /\
    match on_bus now m with
    | Some (_, t) => (concerns t -> r = Err AttributeError) /\
                     (~ concerns t -> r = fst (decode_msg c m (supplied a' g' now)))
    | None => r = fst (decode_msg c m (supplied a' g' now))
    end.
Proof.
  intros a' g' c st before m after A F C now. apply Forall_app in F. destruct F as [F1 F2].
  inversion F2 as [|? ? Om _]. subst.
  rewrite hear_app, nth_error_app2 by (rewrite hear_length; lia). rewrite hear_length, Nat.sub_diag, hear_cons. cbn [nth_error].
  eexists. split; [reflexivity|].
  assert (A0 : agree (moved st []) st) by (rewrite moved_nil; repeat split).
  pose proof (hear_state c before st st A0 F1 C) as Ag. fold now in Ag.
  rewrite <- (proj1 (C30_decode c m _ _ Ag)).
  assert (M : st_medium now = st_medium st /\ st_assoc now = st_assoc st).
  { unfold now, moved. destruct (st_medium st) eqn:Hm; cbn; auto. }
  destruct M as (M1 & M2).
  assert (Cn : proper_class now c) by (unfold proper_class in *; rewrite M1; exact C).
  assert (U : (forall k t, on_bus now m = Some (k, t) -> ~ concerns t) ->
              fst (decode_msg c m now) = fst (decode_msg c m (supplied a' g' now))).
  { intros N. apply decode_unneeded; try assumption. repeat split. }
  destruct (on_bus now m) as [[k t]|] eqn:B.
  - split.
    + intros N. apply (decode_unheard c m now k t); try assumption. congruence.
    + intros N. apply U. intros k' t' E. injection E as <- <-. exact N.
  - apply U. intros k t E. discriminate E.
Qed.
Print Assumptions C108_run.

(** ** Examples *)

(** The write of the examples, and the same with a numbered telegram. *)
Definition ba_numbered : list Z :=
  [0x29; 0x00; 0xBC; 0xE0; 0x11; 0x02; 0x09; 0x00; 0x01; 0x40; 0x80].
Example C108_example :
  octets (ex_usb ex_frame) /\ concerns ex_telegram /\ looks_up ex_assoc ex_telegram /\
  (exists v, 0 < balance ex_table [] ex_calls v (t_dst ex_telegram)) /\
  on_bus (supplied None None (ex_st Usb_hid)) (ex_usb ex_frame) = Some (Ind, ex_telegram) /\
  fst (decode_msg CUsbHid (ex_usb ex_frame) (supplied None None (ex_st Usb_hid))) = Err AttributeError /\
  fst (decode_msg CUsbHid (ex_usb ex_frame) (supplied None (Some ex_go) (ex_st Usb_hid))) = Err AttributeError /\
  fst (decode_msg CUsbHid (ex_usb ex_frame) (supplied (Some ex_assoc) None (ex_st Usb_hid))) = Err AttributeError /\
  fst (decode_msg CUsbHid (ex_usb ba_numbered) (supplied None None (ex_st Usb_hid))) = Ok RNone /\
  fst (decode_msg CUsbHid (ex_usb ba_numbered) (ex_st Usb_hid)) = Ok RNone /\
  fst (hear CNetIP (supplied None None (ex_st Knxnet_ip))
         [tunnelling_request 7 9 ex_frame; tunnelling_request 7 9 ba_numbered; tunnelling_request 7 8 ex_frame]) =
    [Err AttributeError; Ok (RList [MTunnelingReq 9 0]); Ok (RList [MTunnelingReq 8 0])].
Proof.
  split; [vm_compute; octets_tac|]. split; [split; [reflexivity|discriminate]|].
  split; [split; [repeat split; discriminate || reflexivity|split; [vm_compute; auto|discriminate]]|].
  split; [exists 1; reflexivity|].
  repeat split; vm_compute; reflexivity.
Qed.

(** A read of 0300h, which is listed but not associated yet. *)
Definition ba_read : list Z := [0x29; 0x00; 0xBC; 0xE0; 0x11; 0x02; 0x03; 0x00; 0x01; 0x00; 0x00].
Definition ba_telegram : telegram := mktg 0xBC 0xE0 0x1102 0x0300 1 0 0 [].
Definition ba_assoc : assoc_table :=
  match assoc_new ex_table [] with Ok s => s | Err _ => mkassoc ex_table [] [] end.
Example C108_unassociated_example :
  built ex_table [] [] ba_assoc /\ looks_up ba_assoc ba_telegram /\
  (forall v, balance ex_table [] [] v (t_dst ba_telegram) = 0) /\
  on_bus (supplied (Some ba_assoc) None (ex_st Usb_hid)) (ex_usb ba_read) = Some (Ind, ba_telegram) /\
  fst (decode_msg CUsbHid (ex_usb ba_read) (supplied (Some ba_assoc) None (ex_st Usb_hid))) = Err KeyError.
Proof.
  split; [exists ba_assoc, []; repeat split; constructor|].
  split; [split; [repeat split; discriminate || reflexivity|split; [vm_compute; auto|discriminate]]|].
  split.
  { intros v. change (t_dst ba_telegram) with 0x300. unfold balance, initial_calls.
    cbn [map app zsum fold_right balance1 asap_value fst snd]. destruct (0 =? v); reflexivity. }
  split; vm_compute; reflexivity.
Qed.
