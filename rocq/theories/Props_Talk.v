(** C121: two applications that change their tables while they talk. *)
From Coq Require Import String ZArith NArith List Bool Lia.
From Verif Require Import Py Base Msg Address Dpt Tables LData Inet State Encode Decode.
From Verif Require Import SpecMsg SpecTables SpecWire SpecShared SpecBook SpecDecode SpecBare SpecLeft SpecNoted SpecMixed SpecTalk SpecSystem SpecAcross.
From Verif Require Import BookProofs OctetsProofs RoundProofs AcrossProofs Props_Tables Props_Encode Props_Decode Props_Across Props_Book Props_Noted Props_Mixed.
Import ListNotations.
Open Scope Z_scope.

Local Lemma kept s b : noted s b -> kept_by s b.
Proof.
  intros (t & l & s0 & b0 & h & os & N & R & Bn & Br). pose proof (new_kept t l) as K. rewrite N, Bn in K.
  destruct (run_kept h s0 b0 K) as [_ K1]. rewrite R, Br in K1. exact K1.
Qed.
Local Lemma said_noted s b go m : noted s b -> said s go m = noted_said b go m.
Proof.
  intros N. destruct m; try reflexivity; cbn [said noted_said]; rewrite <- (kept_sends s b _ (kept s b N));
    destruct (sends_to s _) as [[|x r]|e]; reflexivity.
Qed.
Local Lemma zero_shown c : undisplayable c 0 = false.
Proof. destruct c; reflexivity. Qed.

(** ** C121 *)

(** Two applications, each with a history of its own of calls on its tables and of
    messages: what one says then the other hears then, told from what its own calls on
    its own tables have left in each notebook and in each group object table. *)
Theorem C121_talk : forall st1 s1 b1 go1 h1 m w st2 s2 b2 go2 h2,
  st_assoc st1 = Some s1 -> noted s1 b1 -> st_gobj st1 = Some go1 -> Forall (proper_call (st_medium st1)) (on_api h1) ->
  st_assoc st2 = Some s2 -> noted s2 b2 -> st_gobj st2 = Some go2 -> Forall (proper_call (st_medium st2)) (on_api h2) ->
  noted_said (snd (book_run b1 (on_tables h1))) (go_after go1 (on_types h1)) m = Some w -> 0 < fst w < 65536 ->
  let now1 := snd (mixed_run st1 h1) in
  let now2 := snd (mixed_run st2 h2) in
  exists request, fst (encode_msg m now1) = wire now1 request /\
  forall indication cl ch pad, carried request indication -> proper_class now2 cl -> octets pad -> room now2 indication ->
  fst (decode_msg cl (delivered now2 ch pad indication) now2) =
  match noted_heard (snd (book_run b2 (on_tables h2))) (go_after go2 (on_types h2)) w with
  | Ok l => Ok (reported now2 l)
  | Err e => Err e
  end.
Proof.
  intros st1 s1 b1 go1 h1 m w st2 s2 b2 go2 h2 A1 N1 G1 F1 A2 N2 G2 F2 Sd X now1 now2.
  destruct (C120_noted h1 st1 s1 b1 go1 A1 N1 G1 F1) as (_ & r1 & B1 & M1 & H1 & _). fold now1 in B1, H1.
  destruct (C120_noted h2 st2 s2 b2 go2 A2 N2 G2 F2) as (_ & r2 & B2 & M2 & H2 & _). fold now2 in B2, H2.
  rewrite <- (said_noted r1 _ _ m M1) in Sd.
  exists (said_frame r1 (go_after go1 (on_types h1)) m). split; [apply (said_encode now1 r1 _ m w); assumption|].
  intros ind cl ch pad C P Op Rm. destruct (said_says r1 _ m w ind Sd X C) as (O & t & Et & (Ga & Gz & Gp) & D & Sy).
  assert (Bus : on_bus now2 (delivered now2 ch pad ind) = Some (Ind, t)) by (rewrite delivered_on_bus; [exact Et|exact Rm]).
  rewrite (C119_heard r2 _ now2 _ cl _ Ind t M2 B2 H2 (delivered_octets now2 ch pad ind Op O) P Bus).
  assert (Q : noted_messages (snd (book_run b2 (on_tables h2))) (go_after go2 (on_types h2)) Ind t =
              noted_heard (snd (book_run b2 (on_tables h2))) (go_after go2 (on_types h2)) w).
  { unfold noted_messages, noted_heard. rewrite Gp, Ga, (proj2 (Z.eqb_neq _ _) Gz), D. cbn [negb andb].
    destruct (has (fst w) _); [|reflexivity]. destruct w as [g [n|]]; cbn [fst snd] in *; destruct Sy as [-> R].
    - destruct (routed_entries _ g _) as [l|e]; [|reflexivity].
      replace (match l with [] => false | p :: _ => undisplayable (snd p) (raw (snd p) t) end)
        with (match l with [] => false | p :: _ => undisplayable (snd p) (d_value (as_class (snd p) n)) end)
        by (destruct l as [|p l]; [reflexivity|rewrite R; reflexivity]).
      destruct (match l with [] => false | _ => _ end); [reflexivity|]. f_equal. apply map_ext. intros p. rewrite R. reflexivity.
    - destruct (routed_entries _ g _) as [l|e]; [|reflexivity].
      replace (match l with [] => false | p :: _ => undisplayable (snd p) (raw (snd p) t) end) with false
        by (destruct l as [|p l]; [reflexivity|rewrite R, zero_shown; reflexivity]).
      f_equal. apply map_ext. intros p. rewrite R. reflexivity. }
  rewrite Q. destruct (noted_heard _ _ w) as [l|e]; [|reflexivity]. f_equal. unfold reported. rewrite Gp.
  destruct (st_medium now2); try reflexivity. rewrite andb_false_r. reflexivity.
Qed.
Print Assumptions C121_talk.

(** The speaker is the application of C120's example, whose ASAP 2 has 0300h. The
    listener is the one of C119's example, where a call that raised makes 0300h that of
    ASAPs 1 and 2; then ASAP 2 gets another type. *)
Definition tk_book : book :=
  match book_new ex_table [] with
  | Ok b0 => snd (book_run b0 [Through (Associate (mkasap 1 None) [mkaddr 4 0x0900]); Through (Associate (mkasap 2 None) [mkaddr 5 0x0300])])
  | Err _ => settled (mkaddr 0 0) 0 [] []
  end.
Definition tk_history : list mixed_call := [mx_heard; On_types (GoAssociate (mkasap 2 None) Brightness)].
Definition tk_write : message := MGroupValueWriteReq (mkasap 2 None) (mkdpt Switch 1).
Definition tk_indication : list Z := [0x29; 0x02; 0x03; 0x00; 0xBC; 0xD0; 0x11; 0x01; 0x03; 0x00; 0x01; 0x00; 0x81].
Definition tk_messages : list message :=
  [MGroupValueWriteInd (mkasap 1 None) (mkdpt Switch 0x81); MGroupValueWriteInd (mkasap 2 None) (mkdpt Brightness 0x81)].
Example C121_example :
  noted mx_start tk_book /\ noted nt_assoc nt_book /\ Forall (proper_call (st_medium nt_state)) (on_api tk_history) /\
  noted_said (snd (book_run tk_book (on_tables mx_history))) (go_after nt_go (on_types mx_history)) tk_write = Some (0x0300, Some 0x81) /\
  noted_heard (snd (book_run nt_book (on_tables tk_history))) (go_after nt_go (on_types tk_history)) (0x0300, Some 0x81) = Ok tk_messages /\
  let now1 := snd (mixed_run mx_state mx_history) in
  let now2 := snd (mixed_run nt_state tk_history) in
  let request := group_frame data_req 0x0300 [0x00; 0x81] in
  fst (encode_msg tk_write now1) = wire now1 request /\ carried request tk_indication /\ room now2 tk_indication /\
  fst (decode_msg CPlain (delivered now2 0 [0; 0] tk_indication) now2) = Ok (RList tk_messages).
Proof.
  split; [|split; [exact (proj1 C119_example)|split; [|split; [vm_compute; reflexivity|split; [vm_compute; reflexivity|]]]]].
  - exists ex_table, []. do 2 eexists.
    exists [Through (Associate (mkasap 1 None) [mkaddr 4 0x0900]); Through (Associate (mkasap 2 None) [mkaddr 5 0x0300])].
    eexists. repeat split; vm_compute; reflexivity.
  - destruct C120_example as (_ & _ & _ & _ & _ & F & _). exact (Forall_cons _ (Forall_inv F) (Forall_nil _)).
  - cbv zeta. split; [vm_compute; reflexivity|]. split; [|split; [vm_compute; discriminate|vm_compute; reflexivity]].
    exists 0x96, 0xE0, 0, 0, [0x03; 0x00; 0x01; 0x00; 0x81], [0x03; 0x00], 0xBC, 0xD0, 0x11, 0x01.
    split; [reflexivity|]. split; [reflexivity|]. split; [reflexivity|].
    split; [repeat constructor; discriminate|]. split; [repeat constructor; discriminate|reflexivity].
Qed.
(** A listener can have a number listed for which nothing is routed: after the second
    call of C120's example it raises at 0500h. *)
Example C121_raises_example :
  noted_heard (snd (book_run tk_book (on_tables (firstn 2 mx_history)))) nt_go (0x0500, Some 0x81) = Err KeyError /\
  noted_heard (snd (book_run tk_book (on_tables (firstn 1 mx_history)))) nt_go (0x0500, Some 0x81) = Ok [].
Proof. split; vm_compute; reflexivity. Qed.
