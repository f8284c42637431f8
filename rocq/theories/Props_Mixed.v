(** C120: tables that are changed while messages come and go. *)
From Coq Require Import String ZArith NArith List Bool Lia.
From Verif Require Import Py Base Msg Address Dpt Tables LData Inet State Encode Decode.
From Verif Require Import SpecMsg SpecTables SpecWire SpecShared SpecBook SpecDecode SpecBare SpecLeft SpecNoted SpecMixed.
From Verif Require Import LeftProofs BookProofs Props_Tables Props_Encode Props_Decode Props_Book Props_Noted.
Import ListNotations.
Open Scope Z_scope.

Local Lemma left_supplied a g st x : left_by (supplied a g st) x = supplied a g (left_by st x).
Proof. destruct x; reflexivity. Qed.
Local Lemma api_leaves st x : proper_call (st_medium st) x -> snd (api_do st x) = left_by st x.
Proof.
  destruct x as [m|c m]; intros P; cbn [api_do snd left_by]; [apply encoding_leaves|].
  destruct P as [O C]. apply decoding_leaves; assumption.
Qed.
Local Lemma left_keeps st x : st_medium (left_by st x) = st_medium st /\ st_assoc (left_by st x) = st_assoc st /\ st_gobj (left_by st x) = st_gobj st.
Proof. destruct x; repeat split. Qed.
Local Lemma supplied_same st s g : st_assoc st = Some s -> st_gobj st = Some g -> supplied (Some s) (Some g) st = st.
Proof. intros A G. unfold supplied. rewrite <- A, <- G. destruct st; reflexivity. Qed.
Local Lemma fold_supplied a g l : forall st, fold_left left_by l (supplied a g st) = supplied a g (fold_left left_by l st).
Proof. induction l as [|x l IH]; intros st; [reflexivity|]. cbn [fold_left]. rewrite left_supplied. apply IH. Qed.

(** ** C120 *)

(** The sorts of calls live apart: the tables say and become what they would without
    any message, each without the calls on the other, and the rest of the state
    becomes what it would with the tables left alone. *)
Theorem C120_apart : forall h st s g, st_assoc st = Some s -> st_gobj st = Some g ->
  Forall (proper_call (st_medium st)) (on_api h) ->
  table_says (fst (mixed_run st h)) = fst (table_run s (on_tables h)) /\
  types_say (fst (mixed_run st h)) = go_says g (on_types h) /\
  snd (mixed_run st h) =
    supplied (Some (snd (table_run s (on_tables h)))) (Some (go_after g (on_types h))) (fold_left left_by (on_api h) st).
Proof.
  induction h as [|y h IH]; intros st s g A G F.
  - split; [reflexivity|]. split; [reflexivity|]. cbn. symmetry. apply supplied_same; assumption.
  - destruct y as [c|c|x]; cbn [mixed_run mixed_do on_tables on_types on_api flat_map app] in *;
      fold (on_api h) in *; fold (on_tables h); fold (on_types h).
    + cbn [table_run]. rewrite A, G. destruct (table_call s c) as [o s1].
      destruct (IH (supplied (Some s1) (Some g) st) s1 g eq_refl eq_refl F) as (R & Q & S).
      destruct (mixed_run (supplied (Some s1) (Some g) st) h) as [os st2]. cbn [fst snd] in *.
      destruct (table_run s1 (on_tables h)) as [os' s2]. cbn [fst snd] in *.
      split; [cbn [table_says flat_map app]; fold (table_says os); rewrite R; reflexivity|].
      split; [exact Q|]. rewrite S, fold_supplied. reflexivity.
    + cbn [go_says go_after]. rewrite A, G. destruct (go_do g c) as [o g1]. cbn [fst snd].
      destruct (IH (supplied (Some s) (Some g1) st) s g1 eq_refl eq_refl F) as (R & Q & S).
      destruct (mixed_run (supplied (Some s) (Some g1) st) h) as [os st2]. cbn [fst snd] in *.
      split; [exact R|]. split; [cbn [types_say flat_map app]; fold (types_say os); rewrite Q; reflexivity|].
      rewrite S, fold_supplied. reflexivity.
    + pose proof (api_leaves st x (Forall_inv F)) as L. destruct (api_do st x) as [o st1]. cbn [snd] in L. subst st1.
      destruct (left_keeps st x) as (M & A' & G').
      destruct (IH (left_by st x) s g) as (R & Q & S); [rewrite A'; exact A|rewrite G'; exact G|rewrite M; exact (Forall_inv_tail F)|].
      destruct (mixed_run (left_by st x) h) as [os st2]. cbn [fst snd] in *.
      split; [exact R|]. split; [exact Q|]. rewrite S. reflexivity.
Qed.
Print Assumptions C120_apart.

(** So at every moment the tables are the ones of which the notebook tells, the calls
    on them say what the notebook says, and C119 tells what is sent and heard. *)
Theorem C120_noted : forall h st s b g, st_assoc st = Some s -> noted s b -> st_gobj st = Some g ->
  Forall (proper_call (st_medium st)) (on_api h) ->
  table_says (fst (mixed_run st h)) = fst (book_run b (on_tables h)) /\
  exists s', st_assoc (snd (mixed_run st h)) = Some s' /\ noted s' (snd (book_run b (on_tables h))) /\
    st_gobj (snd (mixed_run st h)) = Some (go_after g (on_types h)) /\ st_medium (snd (mixed_run st h)) = st_medium st.
Proof.
  intros h st s b g A (t & l & s0 & b0 & h0 & os0 & N & R & Bn & Br) G F. destruct (C120_apart h st s g A G F) as (T & _ & S).
  pose proof (new_kept t l) as K. rewrite N, Bn in K. destruct (run_kept h0 s0 b0 K) as [_ K1]. rewrite R, Br in K1. cbn [snd] in K1.
  destruct (run_kept (on_tables h) s b K1) as [O _]. split; [rewrite T; exact O|].
  exists (snd (table_run s (on_tables h))). rewrite S. cbn [st_assoc st_gobj st_medium supplied]. split; [reflexivity|].
  split; [|split; [reflexivity|]].
  - exists t, l, s0, b0, (h0 ++ on_tables h), (os0 ++ fst (table_run s (on_tables h))).
    split; [exact N|]. split; [|split; [exact Bn|]].
    + revert R. clear. revert s0 os0. generalize (on_tables h) as q. intros q.
      induction h0 as [|c h0 IH]; intros s0 os0 R; cbn [table_run app] in *.
      * injection R as <- <-. apply surjective_pairing.
      * destruct (table_call s0 c) as [o s1]. destruct (table_run s1 h0) as [os s2] eqn:E. injection R as <- <-.
        rewrite (IH s1 os E). reflexivity.
    + rewrite O. revert Br. clear. revert b0 os0. generalize (on_tables h) as q. intros q.
      induction h0 as [|c h0 IH]; intros b0 os0 R; cbn [book_run app] in *.
      * injection R as <- <-. apply surjective_pairing.
      * destruct (book_call b0 c) as [o b1]. destruct (book_run b1 h0) as [os b2] eqn:E. injection R as <- <-.
        rewrite (IH b1 os E). reflexivity.
  - generalize (on_api h) as q. clear. intros q. revert st. induction q as [|x q IH]; intros st; [reflexivity|].
    cbn [fold_left]. rewrite IH. apply (left_keeps st x).
Qed.
Print Assumptions C120_noted.

(** When the calls on the tables were made does not matter, only what they leave in
    the notebook: after two histories with the same messages, the same notebook and
    the same types at the end, the next message is sent, or heard, alike. *)
Theorem C120_next : forall h h' st s b go, st_assoc st = Some s -> noted s b -> st_gobj st = Some go ->
  Forall (proper_call (st_medium st)) (on_api h) -> on_api h = on_api h' ->
  snd (book_run b (on_tables h)) = snd (book_run b (on_tables h')) -> go_after go (on_types h) = go_after go (on_types h') ->
  (forall m, fst (encode_msg m (snd (mixed_run st h))) = fst (encode_msg m (snd (mixed_run st h')))) /\
  (forall c m, octets m -> proper_class st c ->
     fst (decode_msg c m (snd (mixed_run st h))) = fst (decode_msg c m (snd (mixed_run st h')))).
Proof.
  intros h h' st s b go A N G F E B Y0.
  assert (F' : Forall (proper_call (st_medium st)) (on_api h')) by (rewrite <- E; exact F).
  destruct (C120_noted h st s b go A N G F) as (_ & s1 & A1 & N1 & G1 & M1).
  destruct (C120_noted h' st s b go A N G F') as (_ & s2 & A2 & N2 & _ & _).
  destruct (C120_apart h st s go A G F) as (_ & _ & S1). destruct (C120_apart h' st s go A G F') as (_ & _ & S2).
  assert (S : snd (mixed_run st h') = supplied (Some s2) (Some (go_after go (on_types h))) (snd (mixed_run st h))).
  { rewrite S2 in A2. cbn [st_assoc supplied] in A2. rewrite S1, S2, A2, E, Y0. reflexivity. }
  rewrite <- B in N2.
  destruct (C119_same s1 s2 _ _ _ N1 N2 A1 G1) as [X Y]. rewrite S. split; [exact X|].
  intros c m O P. apply Y; [exact O|]. unfold proper_class in *. rewrite M1. exact P.
Qed.
Print Assumptions C120_next.

(** On USB every result is told by the tables of its time alone: no message has any
    influence on a later one, and a call on the tables has it through the tables. *)
Theorem C120_usb : forall h st s g, st_medium st = Usb_hid -> st_channel st = None -> st_assoc st = Some s -> st_gobj st = Some g ->
  Forall (proper_call Usb_hid) (on_api h) -> fst (mixed_run st h) = by_the_tables st s g h.
Proof.
  intros h st s g Hm Hc A G F.
  assert (X : forall h s g st', agree (supplied (Some s) (Some g) st) st' -> Forall (proper_call Usb_hid) (on_api h) ->
            fst (mixed_run st' h) = by_the_tables st s g h).
  { clear h s g A G F. induction h as [|y h IH]; intros s g st' A F; [reflexivity|].
    pose proof A as ((A1 & A2 & A3) & A4 & A5 & A6). cbn [supplied st_medium st_assoc st_gobj st_remote st_local st_channel] in *.
    destruct y as [c|c|x]; cbn [mixed_run mixed_do by_the_tables on_api flat_map app] in *; fold (on_api h) in F.
    - rewrite A2. destruct (table_call s c) as [o s1]. cbn [fst snd].
      assert (A' : agree (supplied (Some s1) (Some g) st) (supplied (Some s1) (st_gobj st') st')).
      { repeat split; cbn; assumption. }
      specialize (IH s1 g _ A' F). destruct (mixed_run (supplied (Some s1) (st_gobj st') st') h) as [os st2].
      cbn [fst] in *. rewrite IH. reflexivity.
    - rewrite A3. destruct (go_do g c) as [o g1]. cbn [fst snd].
      assert (A' : agree (supplied (Some s) (Some g1) st) (supplied (st_assoc st') (Some g1) st')).
      { repeat split; cbn; assumption. }
      specialize (IH s g1 _ A' F). destruct (mixed_run (supplied (st_assoc st') (Some g1) st') h) as [os st2].
      cbn [fst] in *. rewrite IH. reflexivity.
    - pose proof (Forall_inv F) as P. apply Forall_inv_tail in F.
      assert (R : fst (api_do st' x) = fst (api_do (supplied (Some s) (Some g) st) x)).
      { destruct x as [m|c m]; cbn [api_do fst]; f_equal; symmetry; [apply (C30_encode m _ _ A)|apply (C30_decode c m _ _ A)]. }
      assert (A' : agree (supplied (Some s) (Some g) st) (snd (api_do st' x))).
      { destruct x as [m|c m]; cbn [api_do snd].
        - rewrite encoding_leaves. unfold left_by_encoding. rewrite A6, Hc. repeat split; cbn; auto. destruct m; exact A4.
        - destruct P as [O _]. rewrite decoding_leaves; [|exact O|rewrite A1, Hm; discriminate].
          unfold left_by_decoding. rewrite A1, Hm. repeat split; cbn; auto; congruence. }
      destruct (api_do st' x) as [o s1]. cbn [fst snd] in R, A'. specialize (IH s g s1 A' F).
      destruct (mixed_run s1 h) as [os s2]. cbn [fst] in IH |- *. rewrite R, IH. reflexivity. }
  apply X; [|exact F]. rewrite supplied_same by assumption. repeat split; reflexivity.
Qed.
Print Assumptions C120_usb.

(** A telegram to 0500h, a call that raises half way, the telegram again, a request, a
    call that takes 0100h away, the telegram once more: at first it is nobody's, then it
    raises, then it is heard by ASAP 1, and in the end, without its type, by nobody. *)
Definition mx_start : assoc_table :=
  match assoc_new ex_table [] with
  | Ok s0 => snd (table_run s0 [Through (Associate (mkasap 1 None) [mkaddr 4 0x0900]); Through (Associate (mkasap 2 None) [mkaddr 5 0x0300])])
  | Err _ => mkassoc ex_table [] []
  end.
Definition mx_state : state := state_new Usb_hid (Some mx_start) (Some nt_go).
Definition mx_heard : mixed_call := On_api (Decode_msg CUsbHid (ex_usb nt_frame)).
Definition mx_history : list mixed_call :=
  [ mx_heard
  ; On_tables (Through (Associate (mkasap 3 None) [mkaddr 7 0x0100; mkaddr 8 0x0500; mkaddr 9 0x0700]))
  ; mx_heard
  ; On_api (Encode_msg (MGroupValueReadReq (mkasap 2 None)))
  ; On_tables (Direct (AtRemove (mkaddr 10 0x0100)))
  ; mx_heard
  ; On_types (GoDisassociate (mkasap 1 None))
  ; On_types (GoDisassociate (mkasap 1 None))
  ; mx_heard ].
Example C120_example : st_medium mx_state = Usb_hid /\ st_channel mx_state = None /\
  st_assoc mx_state = Some mx_start /\ st_gobj mx_state = Some nt_go /\ (exists b, noted mx_start b) /\
  Forall (proper_call (st_medium mx_state)) (on_api mx_history) /\
  fst (mixed_run mx_state mx_history) =
  [ Api_says (Decoded (Ok (RList [])))
  ; Table_says (Err AddressTableException)
  ; Api_says (Decoded (Err KeyError))
  ; Api_says (Encoded (wire mx_state (group_frame data_req 0x0300 read_tpdu)))
  ; Table_says (Ok tt)
  ; Api_says (Decoded (Ok (RList [MGroupValueWriteInd (mkasap 1 None) (mkdpt Switch 0x81)])))
  ; Types_say (Ok tt)
  ; Types_say (Err KeyError)
  ; Api_says (Decoded (Ok (RList []))) ].
Proof.
  do 4 (split; [reflexivity|]). split.
  - eexists. exists ex_table, []. do 2 eexists.
    exists [Through (Associate (mkasap 1 None) [mkaddr 4 0x0900]); Through (Associate (mkasap 2 None) [mkaddr 5 0x0300])].
    eexists. repeat split; vm_compute; reflexivity.
  - split; [|vm_compute; reflexivity].
    assert (P : proper_call Usb_hid (Decode_msg CUsbHid (ex_usb nt_frame))).
    { split; [|discriminate]. vm_compute. repeat constructor; discriminate. }
    assert (Q : proper_call Usb_hid (Encode_msg (MGroupValueReadReq (mkasap 2 None)))) by exact I.
    exact (Forall_cons _ P (Forall_cons _ P (Forall_cons _ Q (Forall_cons _ P (Forall_cons _ P (Forall_nil _)))))).
Qed.
(** The same messages, with all calls on the tables made before the first. *)
Example C120_next_example : exists h', h' <> mx_history /\ on_api mx_history = on_api h' /\
  on_tables mx_history = on_tables h' /\ on_types mx_history = on_types h'.
Proof.
  exists (map On_tables (on_tables mx_history) ++ map On_types (on_types mx_history) ++ map On_api (on_api mx_history)).
  split; [discriminate|]. repeat split.
Qed.
