(** C100: for every message, state and history of the tables, the bytes or the
    exception. *)
From Coq Require Import String Ascii ZArith NArith List Bool Lia.
From Verif Require Import Py Msg Address Dpt Tables State Encode.
From Verif Require Import SpecMsg SpecTables SpecWire SpecInet SpecRefuse RefuseProofs Props_Tables Props_Encode.
Import ListNotations.
Open Scope Z_scope.

(** Encoding raises the exception of the first complaint; without complaint it
    gives the bytes that are meant. *)
Theorem C100_outcome : forall t l h st m, (forall s, st_assoc st = Some s -> built t l h s) ->
  match fst (encode_msg m st) with
  | Ok b => first_of (complaints t l h st m) None /\ meant t l h st m b
  | Err e => first_of (complaints t l h st m) (Some e)
  end.
Proof. exact outcome. Qed.
Print Assumptions C100_outcome.

(** There is one first complaint at most, so that the exception is that one
    exactly when it is the first, and bytes are sent exactly when there is none. *)
Theorem C100_exactly : forall t l h st m, (forall s, st_assoc st = Some s -> built t l h s) ->
  (forall e, fst (encode_msg m st) = Err e <-> first_of (complaints t l h st m) (Some e)) /\
  ((exists b, fst (encode_msg m st) = Ok b) <-> first_of (complaints t l h st m) None).
Proof.
  intros t l h st m B. pose proof (outcome t l h st m B) as H. unfold outcome_ok in H.
  destruct (fst (encode_msg m st)) as [b|e].
  - destruct H as [H _]. split.
    + intros e. split; [discriminate|]. intros F. pose proof (first_of_unique _ _ _ H F). discriminate.
    + split; [intros _; exact H|eauto].
  - split.
    + intros e'. split; [intros [= <-]; exact H|]. intros F. pose proof (first_of_unique _ _ _ H F). congruence.
    + split; [intros [b Q]; discriminate|]. intros F. pose proof (first_of_unique _ _ _ H F). discriminate.
Qed.
Print Assumptions C100_exactly.

(** C08 for histories with disassociations: the addresses an ASAP sends to are
    what the calls left, in their order. *)
Theorem C100_order : forall t l h s a, built t l h s ->
  match sends_to s a with
  | Ok L => introduced t l h (asap_value a) = true /\ vals L = remaining t l h (asap_value a) /\
            ~ exists g, In g (remaining t l h (asap_value a)) /\ gone t l h g
  | Err e => (e = KeyError /\ introduced t l h (asap_value a) = false) \/
             (e = TypeError /\ introduced t l h (asap_value a) = true /\
              exists g, In g (remaining t l h (asap_value a)) /\ gone t l h g)
  end.
Proof. exact sends_outcome. Qed.
Print Assumptions C100_order.

(** ** Examples *)

Definition rf_a : asap := mkasap 1 None.
Definition rf_b : asap := mkasap 2 None.
Definition rf_x : address := mkaddr 5 0x0901.
Definition rf_y : address := mkaddr 6 0x0902.
(** ASAP 1 is given two addresses twice over; one of them is taken away once, and
    is brought back into the table by ASAP 2. *)
Definition rf_calls : list as_call :=
  [Associate rf_a [rf_x; rf_y; rf_x]; Disassociate rf_a [rf_x]; Associate rf_b [rf_x]].
Definition rf_assoc (h : list as_call) : assoc_table :=
  match assoc_new ex_table [] with Ok s => snd (as_run s h) | Err _ => mkassoc ex_table [] [] end.
Ltac built_by n := eexists; exists (repeat (Ok tt) n);
  split; [vm_compute; reflexivity|]; split; [vm_compute; reflexivity|]; repeat constructor.
Lemma rf_built : built ex_table [] rf_calls (rf_assoc rf_calls).
Proof. built_by 3%nat. Qed.
Definition rf_state (h : list as_call) : state :=
  state_new Usb_hid (Some (rf_assoc h)) (Some [(rf_a, Switch); (rf_b, Switch)]).
(** ASAP 1 now sends to the second of its addresses. *)
Example C100_example :
  built ex_table [] rf_calls (rf_assoc rf_calls) /\ remaining ex_table [] rf_calls 1 = [0x0902; 0x0901] /\
  ~ gone ex_table [] rf_calls 0x0901 /\
  fst (encode_msg (MGroupValueReadReq rf_a) (rf_state rf_calls)) =
  Ok (usb_report (group_frame data_req 0x0902 read_tpdu)).
Proof.
  split; [exact rf_built|]. split; [vm_compute; reflexivity|].
  split; [intros [_ H]; vm_compute in H; discriminate|vm_compute; reflexivity].
Qed.
(** Only the first of several addresses is written to; a later one that another
    ASAP was disassociated from still makes sending impossible. *)
Definition rf_shared : list as_call :=
  [Associate rf_a [rf_x; rf_y]; Associate rf_b [rf_y]; Disassociate rf_b [rf_y]].
Theorem C100_unused_refuted : exists t l h s st a,
  built t l h s /\ st_assoc st = Some s /\
  remaining t l h (asap_value a) = [0x0901; 0x0902] /\ ~ gone t l h 0x0901 /\
  fst (encode_msg (MGroupValueReadReq a) st) = Err TypeError.
Proof.
  exists ex_table, [], rf_shared, (rf_assoc rf_shared), (rf_state rf_shared), rf_a.
  split; [built_by 3%nat|]. split; [reflexivity|]. split; [vm_compute; reflexivity|].
  split; [intros [_ H]; vm_compute in H; discriminate|vm_compute; reflexivity].
Qed.
Print Assumptions C100_unused_refuted.
(** Two things wrong at once: the text comes first. *)
Example C100_example_two :
  first_of (complaints ex_table [] [] (state_new Knxnet_ip None None) (MDisconnectReq "nowhere" 1)) (Some OSError) /\
  first_of (complaints ex_table [] [] (state_new Knxnet_ip None None) (MDisconnectReq "10.0.0.1" 1)) (Some AttributeError).
Proof.
  split; apply C100_exactly; try (intros s H; discriminate H); vm_compute; reflexivity.
Qed.
