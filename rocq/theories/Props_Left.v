(** C106: the State object that every call of the API, and every history of
    calls, leaves behind. *)
From Coq Require Import String ZArith NArith List Bool Lia.
From Verif Require Import Py Base Msg Address Dpt Tables LData State StateText Encode Decode.
From Verif Require Import SpecMsg SpecTables SpecText SpecWire SpecDecode SpecStateText SpecLeft.
From Verif Require Import MsgProofs DecodeProofs SimProofs LeftProofs Props_Encode Props_Decode Props_Text Props_StateText.
Import ListNotations.
Open Scope Z_scope.

(** Encoding a message, for every message and every state, whether it succeeds or
    not. *)
Theorem C106_encode : forall m s, snd (encode_msg m s) = left_by_encoding m s.
Proof. exact encoding_leaves. Qed.
Print Assumptions C106_encode.

(** Decoding octets, in every state. *)
Theorem C106_decode : forall c m s, octets m -> (st_medium s = Knxnet_ip -> c = CNetIP) ->
  snd (decode_msg c m s) = left_by_decoding m s.
Proof. exact decoding_leaves. Qed.
Print Assumptions C106_decode.

(** Any history of calls. *)
Theorem C106_history : forall h s, Forall (proper_call (st_medium s)) h -> snd (api_run s h) = fold_left left_by h s.
Proof. intros h s. apply run_leaves. Qed.
Print Assumptions C106_history.

(** On USB, with no channel, nothing is kept but what the last message sent was
    addressed to and the header of the last telegram seen: all else is as before. *)
Theorem C106_usb : forall h s a v t, st_medium s = Usb_hid -> st_channel s = None -> Forall (proper_call Usb_hid) h ->
  st_asap s = Some a -> st_apci s = Some v -> st_address_type s = Some t ->
  exists a' v' t', last_told told_addressing h (Some (a, v, t)) = Some (a', v', t') /\
  snd (api_run s h) = mkstate Usb_hid (st_assoc s) (st_gobj s) (last_told told_header h (st_ldata s)) (Some a') (Some v') (Some t')
    (st_remote s) (st_local s) None.
Proof.
  intros h s a v t Hm Hc F Ha Hv Ht. rewrite <- Hm in F. rewrite run_leaves by exact F. clear F.
  revert s a v t Hm Hc Ha Hv Ht. induction h as [|x h IH]; intros s a v t Hm Hc Ha Hv Ht.
  - exists a, v, t. split; [reflexivity|]. cbn [fold_left last_told]. rewrite <- Hm, <- Hc, <- Ha, <- Hv, <- Ht. destruct s; reflexivity.
  - cbn [fold_left last_told]. destruct x as [m|c m]; cbn [told_addressing told_header left_by].
    + assert (R : st_remote (left_by_encoding m s) = st_remote s) by (unfold left_by_encoding; rewrite Hc; destruct m; reflexivity).
      pose proof (IH (left_by_encoding m s)) as G. rewrite R in G.
      change (st_medium (left_by_encoding m s)) with (st_medium s) in G. change (st_channel (left_by_encoding m s)) with (st_channel s) in G.
      change (st_ldata (left_by_encoding m s)) with (st_ldata s) in G. change (st_assoc (left_by_encoding m s)) with (st_assoc s) in G.
      change (st_gobj (left_by_encoding m s)) with (st_gobj s) in G. change (st_local (left_by_encoding m s)) with (st_local s) in G.
      destruct (addressing m) as [[[a1 v1] t1]|] eqn:E.
      * apply (G a1 v1 t1 Hm Hc); unfold left_by_encoding; cbn; rewrite E; reflexivity.
      * apply (G a v t Hm Hc); unfold left_by_encoding; cbn; rewrite E; assumption.
    + pose proof (IH (left_by_decoding m s) a v t Hm) as G.
      assert (L : st_ldata (left_by_decoding m s) = match (match usb_cemi m with Some cemi => match cemi_telegram cemi with Some (_, t0) => Some (header t0) | None => None end | None => None end) with Some u => Some u | None => st_ldata s end).
      { unfold left_by_decoding, on_bus. cbn. rewrite Hm. destruct (usb_cemi m) as [cemi|]; [destruct (cemi_telegram cemi) as [[k u]|]|]; reflexivity. }
      rewrite L in G. assert (W : st_local (left_by_decoding m s) = st_local s /\ st_channel (left_by_decoding m s) = None)
        by (unfold left_by_decoding; cbn; rewrite Hm; auto).
      destruct W as [W1 W2]. rewrite W1 in G. exact (G W2 Ha Hv Ht).
Qed.
Print Assumptions C106_usb.

(** On USB, sending and receiving do not meet: in either order the results are the
    same, and so is the state. *)
Theorem C106_commute : forall m c f s, st_medium s = Usb_hid -> st_channel s = None -> octets f ->
  let sent := encode_msg m s in
  let heard := decode_msg c f s in
  fst (encode_msg m (snd heard)) = fst sent /\ fst (decode_msg c f (snd sent)) = fst heard /\
  snd (encode_msg m (snd heard)) = snd (decode_msg c f (snd sent)).
Proof.
  intros m c f s Hm Hc O sent heard.
  assert (N : Usb_hid = Knxnet_ip -> c = CNetIP) by discriminate.
  assert (A : snd heard = left_by_decoding f s) by (apply decoding_leaves; rewrite ?Hm; assumption).
  assert (B : snd sent = left_by_encoding m s) by apply encoding_leaves.
  assert (A' : agree s (snd heard)).
  { rewrite A. unfold left_by_decoding. rewrite Hm. repeat split; cbn; auto. }
  assert (B' : agree s (snd sent)).
  { rewrite B. unfold left_by_encoding. rewrite Hc. repeat split; cbn; auto. destruct m; reflexivity. }
  split; [symmetry; apply (C30_encode m _ _ A')|]. split; [symmetry; apply (C30_decode c f _ _ B')|].
  rewrite encoding_leaves, decoding_leaves; [|exact O|rewrite B; cbn; rewrite Hm; exact N]. rewrite A, B.
  unfold left_by_decoding, left_by_encoding, on_bus. cbn. rewrite Hm. cbn. rewrite Hc. reflexivity.
Qed.
Print Assumptions C106_commute.

(** On USB every call of a history, however long, has the result it would have had
    as the first one. *)
Theorem C106_first : forall h s, st_medium s = Usb_hid -> st_channel s = None -> Forall (proper_call Usb_hid) h ->
  fst (api_run s h) = map (fun x => fst (api_do s x)) h.
Proof.
  intros h s Hm Hc F. assert (G : forall s', agree s s' -> fst (api_run s' h) = map (fun x => fst (api_do s x)) h).
  { induction F as [|x h P F IH]; intros s' A; [reflexivity|].
    assert (R : fst (api_do s' x) = fst (api_do s x)).
    { destruct x as [m|c m]; cbn [api_do fst]; f_equal; symmetry; [apply (C30_encode m _ _ A)|apply (C30_decode c m _ _ A)]. }
    assert (A' : agree s (snd (api_do s' x))).
    { destruct A as ((A1 & A2 & A3) & A4 & A5 & A6). destruct x as [m|c m]; cbn [api_do snd].
      - rewrite encoding_leaves. unfold left_by_encoding. rewrite A6, Hc. repeat split; cbn; auto. destruct m; exact A4.
      - destruct P as [O _]. rewrite decoding_leaves; [|exact O|rewrite A1, Hm; discriminate].
        unfold left_by_decoding. rewrite A1, Hm. repeat split; cbn; auto; congruence. }
    cbn [api_run map]. destruct (api_do s' x) as [o s1]. cbn [fst snd] in R, A'. specialize (IH s1 A').
    destruct (api_run s1 h) as [os s2]. cbn [fst] in IH |- *. rewrite R, IH. reflexivity. }
  apply G. repeat split; reflexivity.
Qed.
Print Assumptions C106_first.

(** And the state after a history is that of sending everything first and receiving
    everything afterwards: any interleaving of the same sends and receptions comes
    to the same. *)
Theorem C106_interleave : forall h s, st_medium s = Usb_hid -> st_channel s = None -> Forall (proper_call Usb_hid) h ->
  snd (api_run s h) = snd (api_run s (filter sends h ++ filter (fun x => negb (sends x)) h)).
Proof.
  intros h s Hm Hc F. assert (F' : Forall (proper_call (st_medium s)) (filter sends h ++ filter (fun x => negb (sends x)) h)).
  { rewrite Hm. apply Forall_app. split; apply Forall_forall; intros x I; apply filter_In in I;
      exact (proj1 (Forall_forall _ _) F x (proj1 I)). }
  pose proof F as F0. rewrite <- Hm in F0. rewrite !run_leaves by assumption. rewrite fold_left_app. clear F F' F0.
  revert s Hm Hc. induction h as [|x h IH]; intros s Hm Hc; [reflexivity|]. cbn [fold_left filter]. destruct x as [m|c m]; cbn [sends negb left_by].
  - cbn [fold_left left_by]. apply IH; [exact Hm|exact Hc].
  - rewrite IH; [|exact Hm|unfold left_by_decoding; cbn; rewrite Hm; exact Hc]. cbn [fold_left left_by]. f_equal.
    clear IH. assert (G : forall l s, forallb sends l = true -> st_medium s = Usb_hid -> st_channel s = None ->
      fold_left left_by l (left_by_decoding m s) = left_by_decoding m (fold_left left_by l s)).
    { clear. induction l as [|y l IH]; intros s Hl Hm Hc; [reflexivity|]. cbn [forallb] in Hl. apply andb_prop in Hl. destruct Hl as [Hy Hl].
      destruct y as [n|c n]; [|discriminate Hy]. cbn [fold_left left_by]. rewrite <- (IH (left_by_encoding n s) Hl Hm Hc). f_equal.
      unfold left_by_decoding, left_by_encoding, on_bus. cbn. rewrite Hm. cbn. rewrite Hc. reflexivity. }
    apply G; [|exact Hm|exact Hc]. clear. induction h as [|y h IH]; [reflexivity|]. cbn [filter].
    destruct (sends y) eqn:E; [cbn [forallb]; rewrite E|]; exact IH.
Qed.
Print Assumptions C106_interleave.

(** On KNXnet/IP the same holds for everything that is sent but acknowledgements and
    everything received that moves neither the counter nor the channel. *)
Theorem C106_commute_ip : forall m f s, st_medium s = Knxnet_ip -> octets f -> (forall seq sta, m <> MTunnelingAck seq sta) ->
  local_after f (st_local s) = st_local s -> channel_after f (st_channel s) = st_channel s ->
  let sent := encode_msg m s in
  let heard := decode_msg CNetIP f s in
  fst (encode_msg m (snd heard)) = fst sent /\ fst (decode_msg CNetIP f (snd sent)) = fst heard /\
  snd (encode_msg m (snd heard)) = snd (decode_msg CNetIP f (snd sent)).
Proof.
  intros m f s Hm O Hk L C sent heard.
  assert (A : snd heard = left_by_decoding f s) by (apply decoding_leaves; auto).
  assert (B : snd sent = left_by_encoding m s) by apply encoding_leaves.
  assert (R : forall s', st_remote (left_by_encoding m s') = st_remote s')
    by (intros s'; unfold left_by_encoding; cbn [st_remote]; destruct m; try reflexivity; exfalso; eapply Hk; reflexivity).
  assert (A' : agree s (snd heard)).
  { rewrite A. unfold left_by_decoding. rewrite Hm. repeat split; cbn; auto. }
  assert (B' : agree s (snd sent)).
  { rewrite B. repeat split; try reflexivity. apply R. }
  split; [symmetry; apply (C30_encode m _ _ A')|]. split; [symmetry; apply (C30_decode CNetIP f _ _ B')|].
  rewrite encoding_leaves, decoding_leaves; [|exact O|reflexivity]. rewrite A, B.
  destruct m; try (exfalso; eapply Hk; reflexivity); reflexivity.
Qed.
Print Assumptions C106_commute_ip.
(** A telegram that comes in while a message is sent; and an acknowledgement, which
    changes the counter of the message that is sent after it. *)
Example C106_commute_ip_ex : let s := st_set_channel 5 (state_new Knxnet_ip (Some ex_assoc) (Some ex_go)) in
  let f := [6; 16; 4; 32; 0; 25; 4; 5; 0; 0] ++ ex_frame in
  let ack := [6; 16; 4; 33; 0; 10; 4; 5; 0; 0] in
  local_after f (st_local s) = st_local s /\ channel_after f (st_channel s) = st_channel s /\ local_after ack (st_local s) = 1 /\
  (exists e e2 r, fst (decode_msg CNetIP f s) = Ok (RList (e :: e2 :: r))) /\
  fst (encode_msg (MGroupValueReadReq (mkasap 1 None)) (snd (decode_msg CNetIP ack s))) <> fst (encode_msg (MGroupValueReadReq (mkasap 1 None)) s).
Proof.
  cbv zeta. split; [reflexivity|]. split; [reflexivity|]. split; [reflexivity|].
  split; [do 3 eexists; vm_compute; reflexivity|]. vm_compute. discriminate.
Qed.

(** Calls with names of one line keep a state presentable: C105 says what its text
    tells after any history. *)
Theorem C106_text : forall kind named h h' s s', presentable s -> presentable s' ->
  Forall (proper_call (st_medium s)) h -> Forall (proper_call (st_medium s')) h' -> Forall short_name h -> Forall short_name h' ->
  (state_text kind named (snd (api_run s h)) = state_text kind named (snd (api_run s' h')) <->
   shown_state kind (fold_left left_by h s) = shown_state kind (fold_left left_by h' s')).
Proof.
  assert (P : forall h s, presentable s -> Forall short_name h -> presentable (fold_left left_by h s)).
  { induction h as [|x h IH]; intros s Ps F; [exact Ps|]. cbn [fold_left]. apply IH; [|exact (Forall_inv_tail F)].
    pose proof (Forall_inv F) as X. destruct x as [m|c m]; [|exact Ps]. cbn [left_by short_name] in *.
    destruct Ps as (P1 & P2 & P3 & P4). unfold presentable, left_by_encoding.
    cbn [st_assoc st_gobj st_asap st_address_type]. split; [exact P1|]. split; [exact P2|].
    destruct (addressing m) as [[[a v] t]|] eqn:E; [|split; assumption]. split; [intros a0 H; injection H as <-; exact X|].
    intros t0 H. injection H as <-. destruct m; try discriminate E; injection E as _ _ <-; auto. }
  intros kind named h h' s s' Ps Ps' F F' S1 S2. rewrite !run_leaves by assumption. apply C105_state; apply P; assumption.
Qed.
Print Assumptions C106_text.

(** A USB history: a read request, a telegram, a report that is none, and a
    write request that cannot be sent: the tables do not know its ASAP. *)
Definition lf_calls : list api_call :=
  [Encode_msg (MGroupValueReadReq (mkasap 1 None)); Decode_msg CUsbHid (ex_usb ex_frame); Decode_msg CUsbHid [1; 2; 3];
   Encode_msg (MGroupValueWriteReq (mkasap 77 (Some "door"%string)) (mkdpt Switch 1))].
Definition lf_state : state := state_new Usb_hid (Some ex_assoc) (Some ex_go).
Example C106_example_usb : Forall (proper_call Usb_hid) lf_calls /\ Forall short_name lf_calls /\
  (forall bytes, nth 3 (fst (api_run lf_state lf_calls)) (Encoded (Ok [])) <> Encoded (Ok bytes)) /\
  snd (api_run lf_state lf_calls) =
    mkstate Usb_hid (Some ex_assoc) (Some ex_go) (Some (header ex_telegram)) (Some (mkasap 77 (Some "door"%string))) (Some 0x80) (Some 1) 0 0 None /\
  last_told told_header lf_calls None = Some (header ex_telegram) /\
  last_told told_addressing lf_calls None = Some (mkasap 77 (Some "door"%string), 0x80, 1).
Proof.
  split; [|split].
  - constructor; [exact Logic.I|]. constructor; [split; [vm_compute; octets_tac|discriminate]|].
    constructor; [split; [octets_tac|discriminate]|]. constructor; [exact Logic.I|constructor].
  - constructor; [constructor; [vm_compute; intuition discriminate|constructor]|]. constructor; [exact Logic.I|]. constructor; [exact Logic.I|].
    constructor; [constructor; [vm_compute; intuition discriminate|constructor]|constructor].
  - split; [intros bytes; vm_compute; discriminate|]. vm_compute. auto.
Qed.
(** A KNXnet/IP history: connection, a tunnelled telegram, its acknowledgement, a
    request sent and acknowledged, the end of the connection. *)
Definition lf_ip : list api_call :=
  [Decode_msg CNetIP [6; 16; 2; 6; 0; 20; 5; 0; 8; 1; 10; 0; 0; 1; 14; 87; 4; 4; 17; 255];
   Decode_msg CNetIP ([6; 16; 4; 32; 0; 25; 4; 5; 0; 0] ++ ex_frame);
   Encode_msg (MTunnelingAck 0 0);
   Encode_msg (MGroupValueReadReq (mkasap 1 None));
   Decode_msg CNetIP [6; 16; 4; 33; 0; 10; 4; 5; 0; 0]].
Example C106_example_ip : let s := state_new Knxnet_ip (Some ex_assoc) (Some ex_go) in
  Forall (proper_call Knxnet_ip) lf_ip /\
  snd (api_run s lf_ip) = mkstate Knxnet_ip (Some ex_assoc) (Some ex_go) (Some (header ex_telegram)) (Some (mkasap 1 None)) (Some 0) (Some 1) 1 1 (Some 5) /\
  snd (api_run s (lf_ip ++ [Decode_msg CNetIP [6; 16; 2; 10; 0; 8; 5; 0]])) =
    mkstate Knxnet_ip (Some ex_assoc) (Some ex_go) (Some (header ex_telegram)) (Some (mkasap 1 None)) (Some 0) (Some 1) 1 1 (Some 0).
Proof.
  split.
  - constructor; [split; [octets_tac|reflexivity]|]. constructor; [split; [vm_compute; octets_tac|reflexivity]|].
    constructor; [exact Logic.I|]. constructor; [exact Logic.I|]. constructor; [split; [octets_tac|reflexivity]|constructor].
  - vm_compute. auto.
Qed.

Example C106_example_interleave : st_medium lf_state = Usb_hid /\ st_channel lf_state = None /\ Forall (proper_call Usb_hid) lf_calls /\
  filter sends lf_calls <> [] /\ filter (fun x => negb (sends x)) lf_calls <> [] /\
  filter sends lf_calls ++ filter (fun x => negb (sends x)) lf_calls <> lf_calls.
Proof. split; [reflexivity|]. split; [reflexivity|]. split; [exact (proj1 C106_example_usb)|]. repeat split; discriminate. Qed.
