(** C119: what is sent and heard after any calls on the tables. *)
From Coq Require Import String ZArith NArith List Bool Lia.
From Verif Require Import Py Base Msg Address Dpt Tables LData Inet State Encode Decode.
From Verif Require Import SpecMsg SpecTables SpecWire SpecShared SpecBook SpecDecode SpecBare SpecNoted.
From Verif Require Import EncodeProofs DecodeProofs BareProofs RefuseProofs BookProofs Props_Tables Props_Encode Props_Decode Props_Book.
Import ListNotations.
Open Scope Z_scope.

Local Lemma noted_kept s b : noted s b -> kept_by s b.
Proof.
  intros (t & l & s0 & b0 & h & os & N & R & Bn & Br). pose proof (new_kept t l) as K. rewrite N, Bn in K.
  destruct (run_kept h s0 b0 K) as [_ K1]. rewrite R, Br in K1. exact K1.
Qed.
Local Lemma has_eqb x l : has x l = existsb (Z.eqb x) l.
Proof. reflexivity. Qed.
Local Lemma reached_noted s b go g : kept_by s b -> reached s go g = routed_entries b g go.
Proof.
  intros K. pose proof (kept_routes s b (mkaddr 0 g) K) as R. cbn [a_val] in R. unfold reached, routed_entries.
  destruct (as_get_asaps_from_address s (mkaddr 0 g)) as [l|e]; cbn [seen_as] in R; rewrite <- R; [|reflexivity].
  cbn [rbind]. f_equal. apply filter_ext. intros [a c]. cbn [fst]. unfold has. clear.
  induction l as [|x l IH]; [reflexivity|]. cbn [existsb map]. rewrite IH. reflexivity.
Qed.

(** ** C119 *)

(** Group messages go to the first number on the page of the ASAP. *)
Theorem C119_read : forall s b st a, noted s b -> st_assoc st = Some s ->
  fst (encode_msg (MGroupValueReadReq a) st) =
  carried st (written_to data_req b (asap_value a) read_tpdu [0x11; 0; 0x96; 0xE0; 0; 0; 0]).
Proof.
  intros s b st a N A. rewrite (read_frame st s a A). unfold written_to, carried. rewrite <- (kept_sends s b a (noted_kept s b N)).
  destruct (sends_to s a) as [[|x r]|e]; reflexivity.
Qed.
Print Assumptions C119_read.
Theorem C119_write : forall s b st go a d c, noted s b -> st_assoc st = Some s -> st_gobj st = Some go ->
  type_of go (asap_value a) = Some c ->
  let tpdu := write_tpdu c (d_value d) in
  fst (encode_msg (MGroupValueWriteReq a d) st) =
    carried st (written_to data_req b (asap_value a) tpdu ([0x11; 0; 0x96; 0xE0; 0; 0] ++ tl tpdu)) /\
  fst (encode_msg (MGroupValueWriteInd a d) st) =
    match written_to data_ind b (asap_value a) tpdu ([0x29; 0; 0x96; 0xE0; 0; 0] ++ tl tpdu) with
    | Ok f => Ok (usb_report f) | Err e => Err e
    end.
Proof.
  intros s b st go a d c N A G T tpdu. rewrite (write_frame st s go a d c A G T), (write_ind_frame st s go a d c A G T).
  unfold written_to, carried. rewrite <- (kept_sends s b a (noted_kept s b N)).
  destruct (sends_to s a) as [[|x r]|e]; split; reflexivity.
Qed.
Print Assumptions C119_write.
(** Property messages go to the own number. *)
Theorem C119_property : forall s b st a oi pid ne si text data, noted s b -> st_assoc st = Some s ->
  fst (encode_msg (MPropertyValueReadReq a oi pid ne si) st) =
    wire st (individual_frame data_req (a_val (b_own b)) (property_read_tpdu oi pid ne si)) /\
  (stringtooctects text = Ok data ->
   fst (encode_msg (MPropertyValueWriteReq a oi pid ne si text) st) =
     wire st (individual_frame data_req (a_val (b_own b)) (property_write_tpdu oi pid ne si data))).
Proof.
  intros s b st a oi pid ne si text data N A. destruct (noted_kept s b N) as (O & _). rewrite O. split.
  - rewrite (property_read_frame st s a oi pid ne si A). reflexivity.
  - intros H. rewrite (property_write_frame st s a oi pid ne si text data A H). reflexivity.
Qed.
Print Assumptions C119_property.

(** Telegrams are heard as the notebook tells. *)
Theorem C119_heard : forall s b st go c m k t, noted s b -> st_assoc st = Some s -> st_gobj st = Some go -> octets m ->
  proper_class st c -> on_bus st m = Some (k, t) ->
  fst (decode_msg c m st) =
  match noted_messages b go k t with
  | Err e => Err e
  | Ok l => Ok (match st_medium st with
                | Usb_hid => if group_addressed t && negb (t_dst t =? 0) && negb (plain t) then RNone else RList l
                | _ => reported st l
                end)
  end.
Proof.
  intros s b st go c m k t N A G O C B. pose proof (noted_kept s b N) as K.
  destruct (decode_telegram c m st s go k t A G O C B) as [P ->]. cbn [fst].
  pose proof K as (Own & _ & Li & _).
  unfold telegram_outcome, noted_messages, group_outcome, individual_accepts, property_outcome, listed.
  rewrite Own, Li. fold (has (t_dst t) (vals (at_addrs (as_table s)))). rewrite (reached_noted s b go _ K).
  assert (M : st_medium st <> Tp) by (intros M; unfold on_bus in B; rewrite M in B; discriminate B).
  destruct (group_addressed t); [destruct (t_dst t =? 0); [|destruct (plain t)]|]; cbn [negb andb].
  - unfold reported. destruct (plain t); destruct (st_medium st); try reflexivity; congruence.
  - destruct (has (t_dst t) _); [|unfold reported; cbn [rbind]; destruct (st_medium st); try reflexivity; congruence].
    destruct (group_service t) as [svc|]; [|unfold reported; cbn [rbind]; destruct (st_medium st); try reflexivity; congruence].
    destruct (routed_entries b (t_dst t) go) as [l|e]; [|reflexivity]. cbn [rbind]. unfold first_undisplayable.
    destruct (match l with [] => false | p :: _ => _ end); [reflexivity|].
    unfold reported; cbn [rbind]; destruct (st_medium st); try reflexivity; congruence.
  - unfold reported. destruct (st_medium st); try reflexivity; congruence.
  - destruct (plain t); cbn [negb andb]; [|unfold reported; destruct (st_medium st); try reflexivity; congruence].
    destruct k; (match goal with |- context [if ?x then _ else _] => destruct x end;
      [|unfold reported; destruct (st_medium st); try reflexivity; congruence]);
      (destruct (property_service t) as [svc|]; [|unfold reported; cbn [rbind]; destruct (st_medium st); try reflexivity; congruence]);
      (destruct (4 <=? zlen (t_data t)); [|reflexivity]); unfold reported; cbn [rbind]; destruct (st_medium st); try reflexivity; congruence.
Qed.
Print Assumptions C119_heard.

(** Tables with the same notebook cannot be told apart by sending and receiving:
    every message and every sequence of octets has the same outcome with either. *)
Theorem C119_same : forall s s' b st go, noted s b -> noted s' b -> st_assoc st = Some s -> st_gobj st = Some go ->
  let st' := supplied (Some s') (Some go) st in
  (forall m, fst (encode_msg m st) = fst (encode_msg m st')) /\
  (forall c m, octets m -> proper_class st c -> fst (decode_msg c m st) = fst (decode_msg c m st')).
Proof.
  intros s s' b st go N N' A G st'. split.
  - intros m.
    assert (R : forall a, fst (encode_msg (MGroupValueReadReq a) st) = fst (encode_msg (MGroupValueReadReq a) st')).
    { intros a. rewrite (C119_read s b st a N A), (C119_read s' b st' a N' eq_refl). reflexivity. }
    assert (W : forall a d, fst (encode_msg (MGroupValueWriteReq a d) st) = fst (encode_msg (MGroupValueWriteReq a d) st') /\
                            fst (encode_msg (MGroupValueWriteInd a d) st) = fst (encode_msg (MGroupValueWriteInd a d) st')).
    { intros a d. destruct (type_of go (asap_value a)) as [c|] eqn:T.
      - destruct (C119_write s b st go a d c N A G T) as [-> ->].
        destruct (C119_write s' b st' go a d c N' eq_refl eq_refl T) as [-> ->]. split; reflexivity.
      - destruct (write_no_type st go a d G T) as [-> ->]. destruct (write_no_type st' go a d eq_refl T) as [-> ->]. split; reflexivity. }
    assert (Q : forall a oi pid ne si, fst (encode_msg (MPropertyValueReadReq a oi pid ne si) st) = fst (encode_msg (MPropertyValueReadReq a oi pid ne si) st')).
    { intros. rewrite (proj1 (C119_property s b st a oi pid ne si EmptyString [] N A)),
        (proj1 (C119_property s' b st' a oi pid ne si EmptyString [] N' eq_refl)). reflexivity. }
    assert (V : forall a oi pid ne si text, fst (encode_msg (MPropertyValueWriteReq a oi pid ne si text) st) = fst (encode_msg (MPropertyValueWriteReq a oi pid ne si text) st')).
    { intros. destruct (stringtooctects text) as [data|e] eqn:T.
      - rewrite (proj2 (C119_property s b st a oi pid ne si text data N A) T),
          (proj2 (C119_property s' b st' a oi pid ne si text data N' eq_refl) T). reflexivity.
      - cbn [encode_msg]. unfold e_property_value_write, mbind, mmodify, mlift. rewrite T. reflexivity. }
    destruct m; try apply R; try apply W; try apply Q; try apply V; try reflexivity; cbn [encode_msg].
    + unfold e_connect_req, mbind, mlift, mret. destruct (inet_aton caddr); [|reflexivity]. destruct (inet_aton daddr); reflexivity.
    + unfold e_connectionstate_req. rewrite !channel_outcome. reflexivity.
    + unfold e_disconnect_req. rewrite !channel_outcome. reflexivity.
    + unfold e_search_req, mbind, mlift, mret. destruct (inet_aton addr); reflexivity.
    + unfold e_tunneling_ack, e_connection_header, channel_id, mbind, mget, mmodify, mret, mlift.
      change (st_channel st') with (st_channel st). change (st_remote st') with (st_remote st).
      destruct (st_channel st) as [ch|]; [|reflexivity]. cbn [need]. destruct (seq =? st_remote st); reflexivity.
  - intros c m O C. destruct (on_bus st m) as [[k t]|] eqn:B.
    + rewrite (C119_heard s b st go c m k t N A G O C B), (C119_heard s' b st' go c m k t N' eq_refl eq_refl O C B). reflexivity.
    + apply silent_same; try assumption. repeat split.
Qed.
Print Assumptions C119_same.

(** The calls of C113's example, two of which raise, and a telegram to 0500h, with
    which only the call that raised had to do: it is heard by ASAP 1. *)
Definition nt_assoc : assoc_table :=
  match assoc_new ex_table [] with Ok s0 => snd (table_run s0 bk_history) | Err _ => mkassoc ex_table [] [] end.
Definition nt_book : book :=
  match book_new ex_table [] with Ok b0 => snd (book_run b0 bk_history) | Err _ => settled (mkaddr 0 0) 0 [] [] end.
Definition nt_go : gobj_table := [(mkasap 1 None, Switch); (mkasap 2 None, Switch)].
Definition nt_state : state := state_new Usb_hid (Some nt_assoc) (Some nt_go).
Definition nt_frame : list Z := [0x29; 0x00; 0xBC; 0xE0; 0x11; 0x02; 0x05; 0x00; 0x01; 0x00; 0x81].
Example C119_example : noted nt_assoc nt_book /\ st_assoc nt_state = Some nt_assoc /\
  written_to data_req nt_book 2 read_tpdu [] = Ok (group_frame data_req 0x0300 read_tpdu) /\
  written_to data_req nt_book 1 read_tpdu [] = Err TypeError /\
  fst (encode_msg (MGroupValueReadReq (mkasap 1 None)) nt_state) = Err TypeError /\
  fst (decode_msg CUsbHid (ex_usb nt_frame) nt_state) = Ok (RList [MGroupValueWriteInd (mkasap 1 None) (mkdpt Switch 0x81)]).
Proof.
  split.
  - exists ex_table, []. do 2 eexists. exists bk_history. eexists. repeat split; vm_compute; reflexivity.
  - split; [reflexivity|]. repeat split; vm_compute; reflexivity.
Qed.
(** Another name for ASAP 1 and another object for 0900h. *)
Example C119_same_example : exists s', noted s' nt_book /\ s' <> nt_assoc.
Proof.
  exists (match assoc_new ex_table [] with
          | Ok s0 => snd (table_run s0 (Through (Associate (mkasap 1 (Some "fan"%string)) [mkaddr 77 0x0900; mkaddr 5 0x0300]) :: tl bk_history))
          | Err _ => nt_assoc
          end). split.
  - exists ex_table, []. do 2 eexists.
    exists (Through (Associate (mkasap 1 (Some "fan"%string)) [mkaddr 77 0x0900; mkaddr 5 0x0300]) :: tl bk_history).
    eexists. repeat split; vm_compute; reflexivity.
  - vm_compute. discriminate.
Qed.
