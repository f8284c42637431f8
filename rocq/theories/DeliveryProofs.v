(** Delivery over the tunnel (C35, C36, C39, C41), the USB client (C53). *)
From Coq Require Import String Ascii ZArith List Bool Lia ZifyBool.
From Verif Require Import Py Base Msg Address Dpt Tables LData Inet State Encode Decode Client.
From Verif Require Import SpecMsg SpecTables SpecWire SpecDecode SpecClient.
From Verif Require Import MsgProofs TablesProofs AssocProofs EncodeProofs DecodeProofs SimProofs IpProofs OctetsProofs ClientProofs.
From Verif Require Import Props_Encode Props_Decode.
Import ListNotations.
Open Scope Z_scope.

Lemma well_made_start ip c msgs : well_made ip c msgs ->
  good ip c /\ c_transport c = false /\ c_connected c = false /\ c_writer c = WWait msgs /\ fits (c_state c).
Proof.
  intros W. pose proof (well_made_good ip c msgs W) as G. destruct W as (port & st & -> & _).
  repeat split; try apply G; reflexivity.
Qed.
Lemma well_made_history ip c msgs es : well_made ip c msgs -> orderly false es -> standing ip c es (after c es).
Proof. intros W O. destruct (well_made_start ip c msgs W) as (G & T & _). apply history; [exact G|rewrite T; exact O]. Qed.
Lemma well_made_allowed ip c msgs es e : well_made ip c msgs -> orderly false (es ++ [e]) -> allowed (after c es) e.
Proof.
  intros W O. destruct (well_made_start ip c msgs W) as (G & T & _).
  apply (allowed_of ip); [|rewrite T; exact O]. apply history; [exact G|]. rewrite T. apply orderly_app in O. tauto.
Qed.
Lemma well_made_remote ip c msgs es : well_made ip c msgs -> orderly false es ->
  st_remote (c_state (after c es)) = taken (st_remote (c_state c)) (trace c es) mod 256.
Proof.
  intros W O. apply (s_remote _ _ _ _ (well_made_history ip c msgs es W O)).
  destruct (well_made_start ip c msgs W) as (_ & _ & _ & _ & F). destruct F as (_ & _ & _ & _ & R & _). lia.
Qed.
Lemma orderly_prefix es e up : orderly up (es ++ [e]) -> orderly up es.
Proof. intros O. apply orderly_app in O. tauto. Qed.
Lemma filter_bus l : Forall (fun m => bus_message m = true) l -> filter bus_message l = l.
Proof. induction 1 as [|m l H _ IH]; [reflexivity|]. cbn. rewrite H, IH. reflexivity. Qed.
Lemma filter_none l : Forall (fun m => bus_message m = false) l -> filter bus_message l = [].
Proof. induction 1 as [|m l H _ IH]; [reflexivity|]. cbn. rewrite H, IH. reflexivity. Qed.

Lemma meaning_bus s cemi l : octets cemi -> fits s -> meaning s cemi = Ok l -> Forall (fun m => bus_message m = true) l.
Proof.
  intros O (M & A & G & _) H. unfold meaning in H. rewrite decode_ip in H by exact M.
  rewrite (proj2 (tunnelled_some _ _ cemi (st_set_remote 0 s) (request_octets 0 0 cemi O) (request_tunnelled 0 0 cemi))) in H.
  change (st_remote (st_set_remote 0 s) =? 0 mod 256) with true in H. cbv iota in H. cbn [fst] in H.
  pose proof (cemi_bus cemi (st_set_remote 0 s) O A G) as B.
  destruct (fst (d_msg_code cemi (st_set_remote 0 s))) as [[x| |x]|e]; cbn in H; try contradiction; try discriminate H; injection H as <-; auto.
Qed.

(** The request that is due. *)
Lemma due_request ip c msgs es d n cemi : well_made ip c msgs -> orderly false (es ++ [EvData d]) ->
  tunnelled d = Some (n, cemi) -> n = taken (st_remote (c_state c)) (trace c es) mod 256 ->
  let o := shown c es (EvData d) in
  match meaning (c_state c) cemi with
  | Ok l => o_result o = Some (Ok (RList (MTunnelingReq n 0 :: l))) /\ deliveries o = l /\
      exists ch, fold_left channel_step es (st_channel (c_state c)) = Some ch /\ o_sent o = [tunnelling_ack ch n 0]
  | Err e => o_result o = Some (Err e) /\ deliveries o = [] /\ o_sent o = []
  end.
Proof.
  intros W O Ht En o. pose proof (orderly_prefix _ _ _ O) as O1. pose proof (well_made_history ip c msgs es W O1) as S.
  destruct (well_made_allowed ip c msgs es _ W O) as [T Od]. rewrite <- (well_made_remote ip c msgs es W O1) in En.
  pose proof (s_good _ _ _ _ S) as Gd. pose proof Gd as (_ & _ & F & _).
  destruct (well_made_start ip c msgs W) as (_ & _ & _ & _ & F0).
  pose proof (step_taken ip _ d n cemi Gd T Od Ht En) as X. cbv zeta in X.
  rewrite (decode_meaning d n cemi (c_state c) (c_state (after c es)) Od Ht F0 F (s_same _ _ _ _ S) En) in X.
  unfold o, shown. destruct (tunnelled_octets d n cemi Od Ht) as [Oc _].
  destruct (meaning (c_state c) cemi) as [l|e] eqn:Hm; cbn [rbind] in X.
  - destruct X as (_ & ch & Ec & ->). cbn [snd]. split; [reflexivity|]. split.
    + unfold deliveries. cbn [o_result filter bus_message]. apply filter_bus. apply (meaning_bus (c_state c) cemi); assumption.
    + exists ch. split; [|reflexivity]. rewrite <- (s_channel _ _ _ _ S), <- Ec. symmetry.
      destruct (C31_netip d (c_state (after c es)) Od (proj1 F)) as (_ & _ & _ & ->).
      unfold channel_after. destruct d as [|h [|v [|s1 [|s2 [|l1 [|l2 [|sz [|ch' [|ct [|sta r]]]]]]]]]]; try discriminate Ht.
      cbn [tunnelled] in Ht. cbn [ip_service]. destruct (h =? 6); [|discriminate Ht]. destruct (v =? 16); [|discriminate Ht].
      cbn [andb] in *. destruct (s1 =? 4) eqn:E1; [|discriminate Ht]. destruct (s2 =? 32) eqn:E2; [|discriminate Ht].
      destruct (256 * s1 + s2 =? 518) eqn:E3; [lia|]. destruct (256 * s1 + s2 =? 522) eqn:E4; [lia|]. reflexivity.
  - rewrite X. split; [reflexivity|]. split; reflexivity.
Qed.
(** A request that is not due. *)
Lemma undue_request ip c msgs es d n cemi : well_made ip c msgs -> orderly false (es ++ [EvData d]) ->
  tunnelled d = Some (n, cemi) ->
  let expected := taken (st_remote (c_state c)) (trace c es) mod 256 in
  n <> expected ->
  let o := shown c es (EvData d) in
  deliveries o = [] /\ after c (es ++ [EvData d]) = after c es /\
  o_result o = Some (Ok (RList [MTunnelingReq n (if expected =? n + 1 then 0 else 3)])) /\
  exists ch, fold_left channel_step es (st_channel (c_state c)) = Some ch /\
  o_sent o = if expected =? n + 1 then [tunnelling_ack ch expected 0] else [].
Proof.
  intros W O Ht expected En o. pose proof (orderly_prefix _ _ _ O) as O1. pose proof (well_made_history ip c msgs es W O1) as S.
  destruct (well_made_allowed ip c msgs es _ W O) as [T Od]. unfold expected in *. rewrite <- (well_made_remote ip c msgs es W O1) in *.
  pose proof (s_good _ _ _ _ S) as Gd.
  destruct (step_refused ip _ d n cemi Gd T Od Ht En) as (ch & Ec & X). unfold o, shown. rewrite after_snoc, X. cbn [fst snd].
  split; [reflexivity|]. split; [reflexivity|]. split; [reflexivity|]. exists ch. rewrite <- (s_channel _ _ _ _ S). auto.
Qed.
(** Everything else. *)
Lemma no_request ip c msgs es d : well_made ip c msgs -> orderly false (es ++ [EvData d]) ->
  tunnelled d = None -> deliveries (shown c es (EvData d)) = [] /\ acked (shown c es (EvData d)) = false.
Proof.
  intros W O Ht. pose proof (orderly_prefix _ _ _ O) as O1. pose proof (well_made_history ip c msgs es W O1) as S.
  destruct (well_made_allowed ip c msgs es _ W O) as [T Od]. pose proof (s_good _ _ _ _ S) as Gd. pose proof Gd as (_ & _ & F & _).
  unfold shown. destruct (connect_answer d) eqn:E.
  - destruct (step_answer ip _ d Gd T Od E) as (ch & Ec & ->). cbn [snd]. destruct (decode_answer d _ Od F E) as (_ & a & p & x & sta & ->).
    split; reflexivity.
  - destruct (step_other ip _ d Gd Od E Ht) as [P ->]. cbn [snd]. split; [|reflexivity]. unfold deliveries. cbn [o_result].
    destruct (fst (decode_msg CNetIP d (c_state (after c es)))) as [[l| |l]|e]; try reflexivity.
    apply filter_none. revert P. apply Forall_impl. intros m H. destruct m; assumption || contradiction.
Qed.
Lemma no_datagram ip c msgs es e : well_made ip c msgs -> orderly false (es ++ [e]) ->
  match e with EvData _ => False | _ => True end -> deliveries (shown c es e) = [] /\ o_result (shown c es e) = None.
Proof.
  intros W O N. pose proof (orderly_prefix _ _ _ O) as O1. pose proof (well_made_history ip c msgs es W O1) as S.
  pose proof (s_good _ _ _ _ S) as Gd. unfold shown. destruct e as [| |d|]; try contradiction.
  - rewrite (step_made ip) by assumption. split; reflexivity.
  - split; reflexivity.
  - destruct (step_writer ip _ Gd) as (s1 & A & ->). split; reflexivity.
Qed.

(** ** Exactly once *)
Lemma window_snoc a : forall l k, in_window k (l ++ [a]) <->
  in_window k l /\ match a with Request i => fold_left due l k - 256 < i <= fold_left due l k | Noise _ => True end.
Proof. induction l as [|x l IH]; intros k; cbn [app in_window fold_left]; [tauto|]. rewrite IH. tauto. Qed.
Lemma due_nonneg l : forall k, 0 <= k -> 0 <= fold_left due l k.
Proof. induction l as [|a l IH]; intros k H; [exact H|]. cbn [fold_left]. apply IH. destruct a; cbn; [destruct (_ =? _)|]; lia. Qed.
Lemma upto_S k : 0 <= k -> upto (k + 1) = upto k ++ [k].
Proof.
  intros H. unfold upto. replace (Z.to_nat (k + 1)) with (S (Z.to_nat k)) by lia. rewrite seq_S, map_app. cbn.
  rewrite Z2Nat.id by assumption. reflexivity.
Qed.
Lemma taken_snoc k c es e : taken k (trace c (es ++ [e])) = taken_step (taken k (trace c es)) (e, shown c es e).
Proof. rewrite trace_snoc. unfold taken. rewrite fold_left_app. reflexivity. Qed.
Lemma exactly_once ip c msgs es0 channel frame : well_made ip c msgs -> 
  taken (st_remote (c_state c)) (trace c es0) = 0 ->
  (forall i, exists l, meaning (c_state c) (frame i) = Ok l) ->
  forall l, Forall (fun a => match a with Noise e => other_event e | Request i => octets (frame i) end) l ->
  orderly false (es0 ++ map (arrives channel frame) l) -> in_window 0 l ->
  taken (st_remote (c_state c)) (trace c (es0 ++ map (arrives channel frame) l)) = fold_left due l 0 /\
  flat_map deliveries (observations (after c es0) (map (arrives channel frame) l)) =
  flat_map (fun i => match meaning (c_state c) (frame i) with Ok m => m | Err _ => [] end) (upto (fold_left due l 0)).
Proof.
  intros W T0 Hm. induction l as [|a l IH] using rev_ind; intros N O Wi.
  - cbn [map]. rewrite app_nil_r. split; [exact T0|reflexivity].
  - rewrite map_app in *. cbn [map] in *. rewrite app_assoc in *.
    apply window_snoc in Wi. destruct Wi as [Wi Wa]. apply Forall_app in N. destruct N as [N Na]. inversion Na as [|? ? Na1 _]; subst.
    destruct (IH N (orderly_prefix _ _ _ O) Wi) as [T D]. clear IH.
    set (es := es0 ++ map (arrives channel frame) l) in *.
    rewrite observations_app, flat_map_app, D, fold_left_app. cbn [fold_left]. set (k := fold_left due l 0) in *.
    assert (0 <= k) as Hk by (apply due_nonneg; lia).
    assert (flat_map deliveries (observations (after (after c es0) (map (arrives channel frame) l)) [arrives channel frame a]) =
            deliveries (shown c es (arrives channel frame a))) as ->.
    { rewrite <- after_app. fold es. unfold observations, shown. cbn [client_run]. destruct (client_step (after c es) (arrives channel frame a)). cbn. apply app_nil_r. }
    rewrite taken_snoc, T. destruct a as [i|e]; cbn [arrives due] in *.
    + cbn [taken_step]. rewrite request_tunnelled. change (connect_answer (tunnelling_request channel i (frame i))) with false. cbv iota.
      destruct (i =? k) eqn:Ei.
      * assert (i = k) by lia. subst i. rewrite Z.eqb_refl. cbn [andb].
        pose proof (due_request ip c msgs es _ _ _ W O (request_tunnelled channel k (frame k))) as X. rewrite T in X. specialize (X eq_refl). cbv zeta in X.
        destruct (Hm k) as [m Em]. rewrite Em in X. destruct X as (_ & Dl & ch & _ & Sn).
        unfold acked. rewrite Sn. split; [reflexivity|]. rewrite Dl, upto_S, flat_map_app by assumption. cbn [flat_map]. rewrite Em, app_nil_r. reflexivity.
      * assert (i mod 256 <> k mod 256) as Ne by lia. destruct (i mod 256 =? k mod 256) eqn:E2; [lia|]. cbn [andb]. split; [reflexivity|].
        pose proof (undue_request ip c msgs es _ _ _ W O (request_tunnelled channel i (frame i))) as X. rewrite T in X. cbv zeta in X.
        destruct (X Ne) as [-> _]. apply app_nil_r.
    + destruct e as [| |d|]; cbn [taken_step]; try (split; [reflexivity|rewrite (proj1 (no_datagram ip c msgs es _ W O I)); apply app_nil_r]).
      destruct Na1 as [A1 A2]. rewrite A1, A2. split; [reflexivity|]. rewrite (proj1 (no_request ip c msgs es d W O A2)). apply app_nil_r.
Qed.

(** ** A request that cannot be decoded *)
Lemma poisoned ip c msgs es0 cemi e : well_made ip c msgs -> meaning (c_state c) cemi = Err e ->
  let k := taken (st_remote (c_state c)) (trace c es0) in
  forall es, orderly false (es0 ++ es) ->
  (forall d, In (EvData d) es -> connect_answer d = false /\
     forall n x, tunnelled d = Some (n, x) -> n = k mod 256 -> x = cemi) ->
  taken (st_remote (c_state c)) (trace c (es0 ++ es)) = k /\
  forall o, In o (observations (after c es0) es) -> deliveries o = [].
Proof.
  intros W Hm k. induction es as [|x es IH] using rev_ind; intros O P.
  - rewrite app_nil_r. split; [reflexivity|intros o []].
  - rewrite app_assoc in *. destruct IH as [T D].
    { exact (orderly_prefix _ _ _ O). } { intros d I. apply P. apply in_or_app. left. exact I. }
    rewrite taken_snoc, T. rewrite observations_app.
    assert (observations (after (after c es0) es) [x] = [shown c (es0 ++ es) x]) as ->.
    { rewrite <- after_app. unfold observations, shown. cbn [client_run]. destruct (client_step (after c (es0 ++ es)) x). reflexivity. }
    assert (Q : taken_step k (x, shown c (es0 ++ es) x) = k /\ deliveries (shown c (es0 ++ es) x) = []).
    { destruct x as [| |d|]; cbn [taken_step]; try (split; [reflexivity|apply (no_datagram ip c msgs _ _ W O I)]).
      destruct (P d) as [A B]; [apply in_or_app; right; left; reflexivity|]. rewrite A.
      destruct (tunnelled d) as [[n y]|] eqn:Ht.
      - destruct (n =? k mod 256) eqn:En.
        + assert (y = cemi) as -> by (apply (B n); [reflexivity|lia]).
          pose proof (due_request ip c msgs _ d n cemi W O Ht) as X. rewrite T in X. specialize (X ltac:(lia)). cbv zeta in X. rewrite Hm in X.
          destruct X as (_ & -> & Sn). unfold acked. rewrite Sn. split; reflexivity.
        + cbn [andb]. split; [reflexivity|].
          pose proof (undue_request ip c msgs _ d n y W O Ht) as X. rewrite T in X. cbv zeta in X. destruct X as [-> _]; [lia|reflexivity].
      - split; [reflexivity|]. apply (no_request ip c msgs _ d W O Ht). }
    destruct Q as [Q1 Q2]. split; [exact Q1|]. intros o I. apply in_app_or in I. destruct I as [I|[<-|[]]]; [apply D; exact I|exact Q2].
Qed.

(** ** The USB client *)
Lemma repr_displayable m : message_repr m = if displayable m then Ok tt else Err ValueError.
Proof.
  destruct m; try reflexivity; cbn [message_repr displayable]; destruct d as [k v]; rewrite repr_spec;
    cbn [d_class d_value]; destruct (undisplayable k v); reflexivity.
Qed.
Lemma messages_repr_spec l : messages_repr l = if forallb displayable l then Ok tt else Err ValueError.
Proof.
  induction l as [|m l IH]; [reflexivity|]. cbn [messages_repr forallb]. rewrite repr_displayable.
  destruct (displayable m); [exact IH|reflexivity].
Qed.
Lemma butlast_text line : butlast line = line_text line.
Proof.
  unfold line_text. induction line as [|a line IH]; [reflexivity|]. destruct line as [|b line]; [reflexivity|].
  change (butlast (String a (String b line))) with (String a (butlast (String b line))). rewrite IH.
  cbn [String.length Nat.sub]. rewrite Nat.sub_0_r. cbn [String.substring]. reflexivity.
Qed.
Lemma text_newline t : line_text (String.append t newline) = t.
Proof.
  rewrite <- butlast_text. induction t as [|a t IH]; [reflexivity|]. cbn [String.append].
  destruct (String.append t newline) eqn:E; [destruct t; discriminate E|].
  change (butlast (String a (String a0 s))) with (String a (butlast (String a0 s))). rewrite IH. reflexivity.
Qed.
Lemma agree_sym a b : agree a b -> agree b a.
Proof. intros ((A & B & C) & D & E & F). repeat split; congruence. Qed.
Lemma agree_trans a b c : agree a b -> agree b c -> agree a c.
Proof. intros ((A & B & C) & D & E & F) ((A' & B' & C') & D' & E' & F'). repeat split; congruence. Qed.
Lemma usb_read_spec st s line : st_medium st = Usb_hid -> agree st s ->
  fst (usb_read line s) = line_result st line /\ agree st (snd (usb_read line s)).
Proof.
  intros M A. unfold usb_read, line_result. unfold mbind, mlift. rewrite butlast_text.
  destruct (make_from_str (line_text line)) as [m|e]; [|split; [reflexivity|exact A]]. cbn [rbind].
  pose proof (proj1 (C30_decode CPlain m st s A)) as D.
  assert (A2 : agree st (snd (decode_msg CPlain m s))).
  { apply (agree_trans _ s); [exact A|]. apply C31_usb. destruct A as ((X & _) & _). congruence. }
  destruct (decode_msg CPlain m s) as [[data|e] s1]; cbn [fst snd] in *; rewrite D; cbn [rbind]; [|split; [reflexivity|exact A2]].
  destruct data as [l| |l]; cbn [dres_repr]; try (split; [reflexivity|exact A2]).
  rewrite messages_repr_spec. destruct (forallb displayable l); split; reflexivity || exact A2.
Qed.
Lemma until_failed {A} (l1 l2 : list (res A)) : existsb (fun r => match r with Err _ => true | _ => false end) l1 = true ->
  until_failure (l1 ++ l2) = until_failure l1.
Proof. induction l1 as [|[a|e] l1 IH]; intros H; [discriminate H|cbn in *; rewrite IH by exact H; reflexivity|reflexivity]. Qed.
Lemma until_fine {A} (l1 l2 : list (res A)) : existsb (fun r => match r with Err _ => true | _ => false end) l1 = false ->
  until_failure (l1 ++ l2) = l1 ++ until_failure l2.
Proof. induction l1 as [|[a|e] l1 IH]; intros H; [reflexivity|cbn in *; rewrite IH by exact H; reflexivity|discriminate H]. Qed.
Lemma until_all {A} (l : list (res A)) : existsb (fun r => match r with Err _ => true | _ => false end) l = false ->
  until_failure l = l.
Proof. intros H. rewrite <- (app_nil_r l) at 1. rewrite until_fine by exact H. apply app_nil_r. Qed.
Lemma usb_run_snoc e : forall es u, usb_run u (es ++ [e]) =
  (fst (usb_step (fst (usb_run u es)) e), snd (usb_run u es) ++ [snd (usb_step (fst (usb_run u es)) e)]).
Proof.
  induction es as [|x es IH]; intros u.
  - cbn [app usb_run fst snd]. destruct (usb_step u e). reflexivity.
  - cbn [app usb_run]. destruct (usb_step u x) as [u1 o]. rewrite IH. destruct (usb_run u1 es). reflexivity.
Qed.
Lemma firstn_S_nth {A} (l : list A) n : firstn (n + 1) l = firstn n l ++ firstn 1 (skipn n l).
Proof. revert n. induction l as [|a l IH]; intros [|n]; try reflexivity. cbn. rewrite IH. reflexivity. Qed.
Lemma usb_history st msgs : st_medium st = Usb_hid -> Forall (fun m => is_ack_message m = false) msgs ->
  forall es, let u := fst (usb_run (usb_new st msgs) es) in
  let os := snd (usb_run (usb_new st msgs) es) in
  let rs := map (line_result st) (usb_lines es) in
  agree st (u_state u) /\
  usb_reads os = until_failure rs /\
  (u_reader u = None <-> existsb (fun r => match r with Err _ => true | _ => false end) rs = false) /\
  usb_writes os = firstn (usb_turns es) (lines_of st msgs) /\
  exists rest, skipn (usb_turns es) (lines_of st msgs) = lines_of st rest /\
    Forall (fun m => is_ack_message m = false) rest /\
    match u_writer u with WWait l | WSend l => l = rest | WStopped | WDead _ => lines_of st rest = [] end.
Proof.
  intros M N. induction es as [|e es IH] using rev_ind; intros u os rs.
  - subst u os rs. cbn. split; [apply agree_refl|]. split; [reflexivity|]. split; [tauto|]. split; [reflexivity|]. exists msgs. auto.
  - subst u os rs. rewrite usb_run_snoc. cbn [fst snd]. cbv zeta in IH.
    destruct (usb_run (usb_new st msgs) es) as [u os]. cbn [fst snd] in *. destruct IH as (A & R & D & Wr & rest & S & F & X).
    unfold usb_reads, usb_writes, usb_lines, usb_turns in *. rewrite !flat_map_app, filter_app, app_length, map_app. cbn [flat_map filter].
    destruct e as [line|]; cbn [usb_step length app]; rewrite ?Nat.add_0_r, ?app_nil_r.
    + destruct (u_reader u) as [x|] eqn:Er; cbn [fst snd uo_read uo_written map app].
      * rewrite !app_nil_r. split; [exact A|].
        assert (E : existsb (fun r => match r with Err _ => true | _ => false end) (map (line_result st) (flat_map (fun e => match e with UvLine l => [l] | UvWriter => [] end) es)) = true).
        { destruct (existsb _ _); [reflexivity|]. destruct D as [_ D]. discriminate (D eq_refl). }
        split; [rewrite until_failed by exact E; exact R|]. split; [rewrite existsb_app, E, Er; cbn [orb]; split; discriminate|]. split; [exact Wr|].
        exists rest. auto.
      * destruct (usb_read_spec st (u_state u) line M A) as [Q1 Q2]. destruct (usb_read line (u_state u)) as [r s1]. cbn [fst snd] in Q1, Q2. subst r.
        cbn [fst snd uo_read uo_written u_state u_reader u_writer map app]. rewrite !app_nil_r.
        destruct D as [D _]. specialize (D eq_refl). split; [exact Q2|]. split; [rewrite until_fine by exact D; rewrite R, until_all by exact D|].
        { destruct (line_result st line); reflexivity. }
        split; [rewrite existsb_app, D; cbn [existsb orb]; destruct (line_result st line); cbn; split; congruence|]. split; [exact Wr|].
        exists rest. auto.
    + rewrite firstn_S_nth, S.
      assert (Sk : skipn (length (filter (fun e => match e with UvLine _ => false | UvWriter => true end) es) + 1) (lines_of st msgs) =
              skipn 1 (lines_of st rest)).
      { rewrite <- S. rewrite Nat.add_comm. clear. generalize (lines_of st msgs). generalize (length (filter (fun e => match e with UvLine _ => false | UvWriter => true end) es)).
        induction n as [|n IH]; intros [|a l]; try reflexivity. cbn [Nat.add skipn] in *. rewrite <- IH. reflexivity. }
      rewrite Sk.
      assert (Y : forall l, l = rest ->
        let p := match l with
          | [] => (mkusb (u_state u) (u_reader u) WStopped, mkuobs None [])
          | m :: rest0 =>
              let '(r, s) := usb_write m (u_state u) in
              match r with
              | Err x => (mkusb s (u_reader u) (WDead x), mkuobs None [])
              | Ok t => (mkusb s (u_reader u) (match message_repr m with Ok _ => WSend rest0 | Err x => WDead x end), mkuobs None [t])
              end
          end in
        agree st (u_state (fst p)) /\ uo_read (snd p) = None /\ u_reader (fst p) = u_reader u /\
        uo_written (snd p) = firstn 1 (lines_of st rest) /\
        exists rest1, skipn 1 (lines_of st rest) = lines_of st rest1 /\ Forall (fun m => is_ack_message m = false) rest1 /\
        match u_writer (fst p) with WWait l | WSend l => l = rest1 | WStopped | WDead _ => lines_of st rest1 = [] end).
      { intros l ->. destruct rest as [|m rest]; cbv zeta.
        - cbn. repeat split; try apply A. exists []. repeat split; constructor.
        - inversion F as [|? ? Nm F2]; subst. unfold usb_write, mbind, mret.
          pose proof (proj1 (C30_encode m st (u_state u) A)) as Em.
          assert (A2 : agree st (snd (encode_msg m (u_state u)))) by (apply (agree_trans _ (u_state u)); [exact A|apply encode_agree; exact Nm]).
          cbn [lines_of]. rewrite Em. destruct (encode_msg m (u_state u)) as [[b|x] s1]; cbn [fst snd] in *.
          + cbn. split; [exact A2|]. split; [reflexivity|]. split; [reflexivity|]. split; [reflexivity|].
            rewrite repr_displayable. destruct (displayable m); [exists rest; auto|]. exists []. split; [reflexivity|]. split; [constructor|reflexivity].
          + cbn. split; [exact A2|]. split; [reflexivity|]. split; [reflexivity|]. split; [reflexivity|]. exists []. split; [reflexivity|]. split; [constructor|reflexivity]. }
      assert (Z : lines_of st rest = [] ->
        agree st (u_state u) /\ flat_map (fun o => match uo_read o with Some r => [r] | None => [] end) os ++ [] = until_failure (map (line_result st) (flat_map (fun e => match e with UvLine l => [l] | UvWriter => [] end) es)) /\
        (u_reader u = None <-> existsb (fun r => match r with Err _ => true | _ => false end) (map (line_result st) (flat_map (fun e => match e with UvLine l => [l] | UvWriter => [] end) es)) = false) /\
        flat_map uo_written os ++ [] = firstn (length (filter (fun e => match e with UvLine _ => false | UvWriter => true end) es)) (lines_of st msgs) ++ firstn 1 (lines_of st rest) /\
        exists rest0, skipn 1 (lines_of st rest) = lines_of st rest0 /\ Forall (fun m => is_ack_message m = false) rest0 /\ lines_of st rest0 = []).
      { intros E. rewrite !app_nil_r, E. cbn [firstn skipn]. rewrite app_nil_r. split; [exact A|]. split; [exact R|]. split; [exact D|]. split; [exact Wr|].
        exists rest. auto. }
      cbn [map]. rewrite ?app_nil_r.
      destruct (u_writer u) as [l|l| |x] eqn:Ew.
      * destruct (Y l X) as (Y1 & Y2 & Y3 & Y4 & Y5). split; [exact Y1|]. rewrite Y2, Y3, Y4, !app_nil_r, Wr. auto.
      * destruct (Y l X) as (Y1 & Y2 & Y3 & Y4 & Y5). split; [exact Y1|]. rewrite Y2, Y3, Y4, !app_nil_r, Wr. auto.
      * cbn [fst snd uo_read uo_written]. rewrite Ew. exact (Z X).
      * cbn [fst snd uo_read uo_written]. rewrite Ew. exact (Z X).
Qed.

(** ** Counters stay in range *)
Definition in_range (s : state) : Prop := 0 <= st_remote s < 256 /\ 0 <= st_local s < 256.
Definition ranged {A} (k : M state A) : Prop := forall s, in_range s -> in_range (snd (k s)).
Lemma ranged_ret {A} (a : A) : ranged (mret a). Proof. intros s H. exact H. Qed.
Lemma ranged_raise {A} e : ranged (@mraise state A e). Proof. intros s H. exact H. Qed.
Lemma ranged_lift {A} (r : res A) : ranged (mlift r). Proof. intros s H. exact H. Qed.
Lemma ranged_get : ranged (@mget state). Proof. intros s H. exact H. Qed.
Lemma ranged_bind {A B} (m : M state A) (f : A -> M state B) : ranged m -> (forall a, ranged (f a)) -> ranged (mbind m f).
Proof.
  intros Hm Hf s H. unfold mbind. specialize (Hm s H). destruct (m s) as [[a|e] t]; cbn [fst snd] in *; [apply Hf|]; exact Hm.
Qed.
Lemma ranged_modify f : (forall s, in_range s -> in_range (f s)) -> ranged (mmodify f).
Proof. intros H s E. apply H. exact E. Qed.
Lemma ranged_still {A} (k : M state A) : still k -> ranged k.
Proof. intros H s R. rewrite H. exact R. Qed.
Lemma ranged_calm {A} (k : M state A) : calm k -> ranged k.
Proof. intros H s R. destruct (H s) as [-> |[l ->]]; exact R. Qed.
Ltac ranged_tac := repeat match goal with
  | |- ranged (mret _) => apply ranged_ret
  | |- ranged (mraise _) => apply ranged_raise
  | |- ranged (mlift _) => apply ranged_lift
  | |- ranged mget => apply ranged_get
  | |- ranged (mmodify _) => apply ranged_modify; intros ? [? ?]; split; cbn; assumption || lia
  | |- ranged (mbind _ _) => apply ranged_bind; [|intros]
  | |- ranged (match ?x with _ => _ end) => destruct x
  | |- ranged (let '(_, _) := ?x in _) => destruct x
  end.
Lemma ranged_ip c m : ranged (d_ip_header c m).
Proof.
  unfold d_ip_header, d_search_res, d_disconnect_res, d_connect_res, d_connectionstate_res, d_tunneling_ack.
  ranged_tac. apply ranged_calm, calm_tunneling_req.
Qed.
Lemma ranged_decode c m : ranged (decode_msg c m).
Proof. unfold decode_msg. ranged_tac; [apply ranged_calm, calm_usb|apply ranged_ip]. Qed.
Lemma ranged_encode m : ranged (encode_msg m).
Proof.
  intros s [R L]. destruct (C20_preserved m s _ eq_refl) as (_ & _ & _ & _ & E & _ & Hr). split; [|rewrite E; exact L].
  rewrite Hr. destruct m; try exact R. destruct (_ =? _); [|exact R]. destruct (st_channel s); [lia|exact R].
Qed.
Lemma counters h : forall s, in_range s -> in_range (fold_left counter_do h s).
Proof.
  induction h as [|x h IH]; intros s H; [exact H|]. cbn [fold_left]. apply IH.
  destruct x as [[m|c m]|v|v]; cbn [counter_do api_do snd].
  - apply ranged_encode. exact H.
  - apply ranged_decode. exact H.
  - destruct H. split; cbn; lia.
  - destruct H. split; cbn; lia.
Qed.
