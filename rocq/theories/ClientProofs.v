(** Proofs about the tunnelling client (C35-C41, C52). *)
From Coq Require Import String Ascii ZArith List Bool Lia ZifyBool.
From Verif Require Import Py Base Msg Address Dpt Tables LData Inet State Encode Decode Client.
From Verif Require Import SpecMsg SpecTables SpecWire SpecDecode SpecClient.
From Verif Require Import MsgProofs TablesProofs AssocProofs EncodeProofs DecodeProofs SimProofs IpProofs OctetsProofs.
From Verif Require Import Props_Encode Props_Decode.
Import ListNotations.
Open Scope Z_scope.

(** ** bytes.hex() and back *)
Lemma hexval_lower n : 0 <= n < 16 -> hexval (hexdigit_lower n) = Some n.
Proof.
  intros H.
  assert (In n [0; 1; 2; 3; 4; 5; 6; 7; 8; 9; 10; 11; 12; 13; 14; 15]) as I.
  { cbn [In]. lia. }
  cbn [In] in I. repeat (destruct I as [<-|I]; [reflexivity|]). elim I.
Qed.
Lemma bytes_hex_parse d : octets d -> make_from_str (bytes_hex d) = Ok d.
Proof.
  unfold make_from_str. induction d as [|o d IH]; intros O; [reflexivity|]. apply octets_cons in O. destruct O as [O1 O2].
  specialize (IH O2). unfold stringtooctects in *. cbn [bytes_hex list_ascii_of_string evens odds].
  cbn [hexvals]. unfold is_octet in O1. rewrite !hexval_lower by lia.
  destruct (hexvals (evens (list_ascii_of_string (bytes_hex d)))) as [hs|]; [|discriminate IH].
  destruct (hexvals (odds (list_ascii_of_string (bytes_hex d)))) as [ls|]; [|discriminate IH].
  cbn [rbind zipmap] in *. injection IH as ->. do 2 f_equal. rewrite octect_of_nibbles_arith. lia.
Qed.

(** ** Sending *)
Lemma c_send_up b c : octets b -> c_transport c = true ->
  c_send b c = (Ok tt, c_with_out (c_out c ++ [b]) c).
Proof.
  intros O T. unfold c_send. unfold mbind at 1, mget. rewrite T. unfold mbind, mlift. unfold fromhex.
  change (stringtooctects (msg_str b)) with (make_from_str (msg_str b)). rewrite make_of_str by assumption. reflexivity.
Qed.
Lemma c_send_down b c : c_transport c = false -> c_send b c = (Err AttributeError, c).
Proof. intros T. unfold c_send, mbind, mget. rewrite T. reflexivity. Qed.

(** ** The invariant *)
Definition fits (st : state) : Prop :=
  st_medium st = Knxnet_ip /\ st_assoc st <> None /\ st_gobj st <> None /\ st_channel st <> None /\
  0 <= st_remote st < 256 /\ 0 <= st_local st < 256.
Definition pending (w : writer) : list message :=
  match w with WWait l | WSend l => l | _ => [] end.
Definition good (ip : list Z) (c : client) : Prop :=
  c_laddr c = dotted ip /\ ipv4 ip /\ fits (c_state c) /\ c_out c = [] /\
  Forall (fun m => is_ack_message m = false) (pending (c_writer c)).
Lemma well_made_good ip c msgs : well_made ip c msgs -> good ip c.
Proof.
  intros (port & st & -> & I & M & A & G & C & R & L & F). unfold good, fits, client_new.
  cbn [c_laddr c_state c_out c_writer pending]. tauto.
Qed.

(** ** What datagrams decode to *)

Definition plain_result (r : res dres) : Prop :=
  match r with
  | Ok (RList l) => Forall (fun m => match m with MConnectRes _ _ _ _ | MTunnelingReq _ _ => False | _ => bus_message m = false end) l
  | Ok RNone => False
  | _ => True
  end.
Lemma group_messages_bus k svc t l : Forall (fun m => bus_message m = true) (group_messages k svc t l).
Proof. apply Forall_forall. intros m I. unfold group_messages in I. apply in_map_iff in I. destruct I as (p & <- & _). destruct k, svc; reflexivity. Qed.
Lemma telegram_bus s go k t : match telegram_outcome s go k t with
  | Ok (RList l) => Forall (fun m => bus_message m = true) l | Ok (RAck _) => False | _ => True end.
Proof.
  unfold telegram_outcome. destruct (group_addressed t).
  - destruct (t_dst t =? 0); [constructor|]. destruct (plain t); [|exact I]. unfold group_outcome.
    destruct (listed s (t_dst t)); [|constructor]. destruct (group_service t); [|constructor].
    destruct (reached s go (t_dst t)); cbn [rbind]; [|exact I]. destruct (first_undisplayable _ _); cbn [rbind]; [exact I|].
    apply group_messages_bus.
  - destruct (plain t && individual_accepts s k t); [|constructor]. unfold property_outcome.
    destruct (property_service t) as [svc|]; [|constructor]. destruct (4 <=? zlen (t_data t)); cbn [rbind]; [|exact I].
    constructor; [|constructor]. destruct k, svc; reflexivity.
Qed.
Lemma cemi_bus cemi st : octets cemi -> st_assoc st <> None -> st_gobj st <> None ->
  match fst (d_msg_code cemi st) with
  | Ok (RList l) => Forall (fun m => bus_message m = true) l | Ok (RAck _) => False | _ => True end.
Proof.
  intros O A G. destruct (st_assoc st) as [s|] eqn:Ha; [|congruence]. destruct (st_gobj st) as [go|] eqn:Hg; [|congruence].
  destruct (cemi_telegram cemi) as [[k t]|] eqn:T.
  - destruct (msg_code_some cemi st s go k t Ha Hg O T) as [_ ->]. apply telegram_bus.
  - destruct (msg_code_none cemi st T) as [-> | ->]; [constructor|exact I].
Qed.

Lemma decode_ip m st : st_medium st = Knxnet_ip -> decode_msg CNetIP m st = d_ip_header CNetIP m st.
Proof. intros H. unfold decode_msg. unfold mbind at 1, mget at 1. rewrite H. reflexivity. Qed.

(** Requests. *)
Lemma decode_request d n cemi st : octets d -> fits st -> tunnelled d = Some (n, cemi) ->
  connect_answer d = false /\
  if st_remote st =? n then
    match fst (decode_msg CNetIP d st) with
    | Ok (RList l) => exists l', l = MTunnelingReq n 0 :: l' /\ Forall (fun m => bus_message m = true) l'
    | Ok _ => False
    | Err _ => True
    end
  else fst (decode_msg CNetIP d st) = Ok (RList [MTunnelingReq n (if st_remote st =? n + 1 then 0 else 3)]) /\
       snd (decode_msg CNetIP d st) = st.
Proof.
  intros O (M & A & G & _) T. split.
  { destruct d as [|h [|v [|s1 [|s2 [|l1 [|l2 [|sz [|ch [|ct [|sta r]]]]]]]]]]; try discriminate T.
    cbn [tunnelled] in T. unfold connect_answer. cbn [ip_service].
    destruct ((h =? 6) && (v =? 16)) eqn:E; [|reflexivity]. cbn [andb] in T.
    destruct ((s1 =? 4) && (s2 =? 32)) eqn:F; [|discriminate T].
    destruct (256 * s1 + s2 =? 518) eqn:X; [lia|reflexivity]. }
  rewrite decode_ip by assumption. destruct (tunnelled_some d n cemi st O T) as [Oc ->].
  destruct (st_remote st =? n).
  - cbn [fst]. pose proof (cemi_bus cemi st Oc A G) as B.
    destruct (fst (d_msg_code cemi st)) as [[l| |l]|e]; cbn [behind_request]; [exists l; auto|exists []; auto|contradiction|exact I].
  - destruct (st_remote st =? n + 1); split; reflexivity.
Qed.
(** Connect responses. *)
Lemma decode_answer d st : octets d -> fits st -> connect_answer d = true ->
  tunnelled d = None /\
  exists a p x sta, fst (decode_msg CNetIP d st) = Ok (RList [MConnectRes a p x sta]).
Proof.
  intros O (M & _) H. unfold connect_answer in H.
  destruct d as [|h [|v [|s1 [|s2 r]]]]; try discriminate H. cbn [ip_service] in H.
  destruct ((h =? 6) && (v =? 16)) eqn:E; [|discriminate H].
  destruct r as [|l1 [|l2 [|ch [|sta r]]]]; try discriminate H.
  apply andb_true_iff in H. destruct H as [S H]. rewrite !octets_cons in O. unfold is_octet in O.
  assert (s1 = 2 /\ s2 = 6 /\ h = 6 /\ v = 16) as (-> & -> & -> & ->) by lia.
  split; [destruct r as [|? [|? ?]]; reflexivity|].
  rewrite connect_datagram by assumption.
  destruct r as [|a [|b [|i1 [|i2 [|i3 [|i4 [|p1 [|p2 r]]]]]]]];
    try (exfalso; clear O E S; cbn in H; destruct (sta =? 0); [discriminate H|rewrite andb_false_r in H; discriminate H]).
  rewrite !octets_cons in O. rewrite connect_res_spec by (cbn [app]; rewrite !octets_cons; unfold is_octet in *; tauto).
  destruct (sta =? 0) eqn:E0.
  - rewrite !zlen_cons in H. destruct r as [|x [|y [|z1 [|z2 r]]]]; try (rewrite ?zlen_cons, ?zlen_nil in H; lia).
    cbn [fst]. eauto.
  - apply andb_true_iff in H. destruct H as [H _]. cbn [existsb] in *. rewrite E0. cbn [orb]. rewrite H. cbn [fst]. eauto.
Qed.
(** Everything else. *)
Lemma decode_other d st : octets d -> fits st -> connect_answer d = false -> tunnelled d = None ->
  plain_result (fst (decode_msg CNetIP d st)).
Proof.
  intros O (M & _) N T. rewrite decode_ip by assumption.
  destruct (ip_cases d st O) as [[_ ->]|[[_ [_ ->]]|(n & r & S & Or & ->)]]; [exact I|constructor|].
  destruct (n =? 0x202) eqn:E1.
  { rewrite search_res_spec by assumption. cbn [fst].
    repeat match goal with |- context [match ?x with _ => _ end] => is_var x; destruct x; try exact I end.
    constructor; [reflexivity|constructor]. }
  destruct (n =? 0x20A) eqn:E2.
  { rewrite disconnect_res_spec by assumption.
    destruct r as [|? [|? [|? [|sta ?]]]]; try exact I. destruct (sta =? 0); [constructor; [reflexivity|constructor]|constructor]. }
  destruct (n =? 0x206) eqn:E3.
  { unfold connect_answer in N. rewrite S, E3 in N. cbn [andb] in N.
    destruct (Z.lt_ge_cases (zlen r) 12) as [L|L].
    { destruct (connect_res_short r st L) as [[-> _]| ->]; exact I. }
    destruct r as [|l1 [|l2 [|ch [|sta r]]]]; try (cbn in L; lia).
    destruct r as [|a [|b [|i1 [|i2 [|i3 [|i4 [|p1 [|p2 r]]]]]]]]; try (cbn in L; lia).
    rewrite !octets_cons in Or. rewrite connect_res_spec by (cbn [app]; rewrite !octets_cons; tauto).
    destruct (sta =? 0) eqn:E0.
    - destruct r as [|x [|y [|z1 [|z2 r]]]]; try exact I. exfalso. rewrite !zlen_cons in N. pose proof (zlen_nonneg r). lia.
    - cbn [existsb]. rewrite E0. cbn [orb]. cbn [existsb] in N. rewrite !zlen_cons in N. pose proof (zlen_nonneg r).
      destruct ((sta =? 34) || ((sta =? 35) || ((sta =? 36) || false))); [|exact I]. exfalso. lia. }
  destruct (n =? 0x208) eqn:E4.
  { rewrite connectionstate_res_spec. cbn [fst]. destruct r as [|? [|? [|? [|sta ?]]]]; try exact I.
    destruct (existsb (Z.eqb sta) [0; 33; 38; 39]); [|exact I]. constructor; [reflexivity|constructor]. }
  destruct (n =? 0x420) eqn:E5.
  { destruct (Z.lt_ge_cases (zlen r) 6) as [L|L]; [rewrite tunneling_req_short by assumption; exact I|]. exfalso.
    destruct d as [|h [|v [|s1 [|s2 r']]]]; try discriminate S. cbn [ip_service] in S.
    destruct ((h =? 6) && (v =? 16)) eqn:E; [|discriminate S]. inversion S; subst. clear S.
    destruct r as [|? [|? [|? [|? [|? [|? ?]]]]]]; try (cbn in L; lia). cbn [tunnelled] in T.
    rewrite E in T. cbn [andb] in T. rewrite !octets_cons in O. unfold is_octet in O.
    assert (s1 = 4 /\ s2 = 32) as [-> ->] by lia. discriminate T. }
  destruct (n =? 0x421) eqn:E6.
  { rewrite tunneling_ack_spec by assumption. destruct r as [|? [|? [|? [|? [|? [|sta ?]]]]]]; try exact I.
    cbv zeta. destruct (existsb (Z.eqb sta) [0; 1; 2; 3]); exact I. }
  constructor.
Qed.

(** ** Steps *)

Lemma fits_after_decode d st : octets d -> fits st -> fits (snd (decode_msg CNetIP d st)).
Proof.
  intros O (M & A & G & C & R & L). destruct (C31_netip d st O M) as ((M' & A' & G') & R' & L' & C').
  unfold fits. rewrite M', A', G', R', L', C'. repeat split; try assumption; try lia.
  - unfold channel_after. destruct (ip_service d) as [[service r]|]; [|assumption].
    destruct r as [|? [|? [|? [|? ?]]]]; try assumption. destruct (_ && _ && _); [discriminate|].
    destruct (_ && _); [discriminate|assumption].
  - unfold local_after. destruct (ip_service d) as [[service r]|]; [|lia].
    destruct r as [|? [|? [|? [|? [|? [|? ?]]]]]]; try lia. destruct (_ && _); lia.
  - unfold local_after. destruct (ip_service d) as [[service r]|]; [|lia].
    destruct r as [|? [|? [|? [|? [|? [|? ?]]]]]]; try lia. destruct (_ && _); lia.
Qed.
Lemma quiet_responses l c : Forall (fun m => match m with MConnectRes _ _ _ _ | MTunnelingReq _ _ => False | _ => True end) l ->
  handle_responses l c = (Ok tt, c).
Proof.
  induction l as [|m l IH]; intros F; [reflexivity|]. inversion F; subst. cbn [handle_responses]. unfold mbind.
  assert (handle_response m c = (Ok tt, c)) as ->; [destruct m; try contradiction; reflexivity|]. apply IH. assumption.
Qed.
Lemma bus_quiet l : Forall (fun m => bus_message m = true) l ->
  Forall (fun m => match m with MConnectRes _ _ _ _ | MTunnelingReq _ _ => False | _ => True end) l.
Proof. apply Forall_impl. intros m H. destruct m; try exact I; discriminate H. Qed.

Definition with_state (c : client) (s : state) : client :=
  mkclient (c_laddr c) (c_lport c) s (c_transport c) (c_connected c) (c_writer c) [].
Definition connected_with (c : client) (s : state) : client :=
  mkclient (c_laddr c) (c_lport c) s (c_transport c) true (c_writer c) [].

Lemma step_list ip c d l s1 c2 : good ip c -> octets d ->
  decode_msg CNetIP d (c_state c) = (Ok (RList l), s1) ->
  handle_responses l (c_with_state s1 c) = (Ok tt, c2) ->
  client_step c (EvData d) = (c_with_out [] c2, mkobs (c_out c2) (Some (Ok (RList l)))).
Proof.
  intros (_ & _ & _ & Ho & _) O D H. unfold client_step. cbv zeta.
  assert (c_with_out [] c = c) as -> by (destruct c; cbn in Ho; subst; reflexivity).
  assert (datagram_received d c = (Ok (RList l), c2)) as ->; [|reflexivity].
  unfold datagram_received. unfold mbind at 1, mlift at 1. rewrite bytes_hex_parse by assumption.
  unfold mbind, on_state. rewrite D, H. reflexivity.
Qed.
Lemma step_nothing ip c d r s1 : good ip c -> octets d ->
  decode_msg CNetIP d (c_state c) = (r, s1) -> match r with Ok (RAck _) => True | Err _ => True | _ => False end ->
  client_step c (EvData d) = (with_state c s1, mkobs [] (Some r)).
Proof.
  intros (_ & _ & _ & Ho & _) O D H. unfold client_step. cbv zeta.
  assert (c_with_out [] c = c) as -> by (destruct c; cbn in Ho; subst; reflexivity).
  assert (datagram_received d c = (r, c_with_state s1 c)) as ->; [|cbn [fst snd c_with_state c_out]; rewrite Ho; reflexivity].
  unfold datagram_received. unfold mbind at 1, mlift at 1. rewrite bytes_hex_parse by assumption.
  unfold mbind, on_state. rewrite D. destruct r as [[| |]|]; try contradiction; reflexivity.
Qed.

Lemma endpoint_octets ip port : ipv4 ip -> octets (endpoint ip port).
Proof.
  intros [_ H]. unfold endpoint. rewrite !octets_app. repeat split.
  - repeat (apply octets_cons; split; [unfold is_octet; lia|]). constructor.
  - exact H.
  - apply be_octets.
Qed.
Lemma connectionstate_octets ch ip port : ipv4 ip -> octets (connectionstate_request ch ip port).
Proof.
  intros H. unfold connectionstate_request. apply octets_app. split; [|apply endpoint_octets; assumption].
  repeat (apply octets_cons; split; [unfold is_octet; lia|]). constructor.
Qed.
Lemma connect_octets ip port : ipv4 ip -> octets (connect_request ip port).
Proof.
  intros H. unfold connect_request. rewrite !octets_app. split; [|split; [|split]]; try (apply endpoint_octets; assumption);
  repeat (apply octets_cons; split; [unfold is_octet; lia|]); constructor.
Qed.
Lemma ack_octets ch n sta : octets (tunnelling_ack ch n sta).
Proof. unfold tunnelling_ack. repeat (apply octets_cons; split; [unfold is_octet; lia|]). constructor. Qed.

Lemma step_answer ip c d : good ip c -> c_transport c = true -> octets d -> connect_answer d = true ->
  let s1 := snd (decode_msg CNetIP d (c_state c)) in
  exists ch, st_channel s1 = Some ch /\
  client_step c (EvData d) =
  (connected_with c (st_set_remote 0 s1),
   mkobs [connectionstate_request ch ip (c_lport c)] (Some (fst (decode_msg CNetIP d (c_state c))))).
Proof.
  intros Gd T O H s1. pose proof Gd as (La & Ip & F & Ho & _).
  destruct (fits_after_decode d (c_state c) O F) as (_ & _ & _ & Ch & _). fold s1 in Ch.
  destruct (st_channel s1) as [ch|] eqn:Ec; [|congruence]. exists ch. split; [reflexivity|].
  destruct (decode_answer d (c_state c) O F H) as (_ & a & p & x & sta & D).
  assert (decode_msg CNetIP d (c_state c) = (Ok (RList [MConnectRes a p x sta]), s1)) as E.
  { unfold s1. rewrite <- D. apply surjective_pairing. }
  rewrite D. erewrite step_list by (eassumption || (
    cbn [handle_responses handle_response]; unfold mbind, on_state, mmodify, mget;
    cbn [c_with_state c_laddr c_lport c_state encode_msg]; rewrite La; unfold e_connectionstate_req;
    rewrite channel_frame by assumption; cbn [st_channel st_set_remote]; rewrite Ec;
    change ([6; 16] ++ be 2 CONNECTIONSTATE_REQUEST ++ [0; 16; ch mod 256; 0] ++ endpoint ip (c_lport c))
      with (connectionstate_request ch ip (c_lport c));
    rewrite c_send_up by (assumption || (apply connectionstate_octets; assumption)); reflexivity)).
  cbn [c_with_out c_with_connected c_with_state c_out c_laddr c_lport c_state c_transport c_connected c_writer].
  rewrite Ho. reflexivity.
Qed.

Lemma step_taken ip c d n cemi : good ip c -> c_transport c = true -> octets d ->
  tunnelled d = Some (n, cemi) -> n = st_remote (c_state c) ->
  let r := fst (decode_msg CNetIP d (c_state c)) in
  let s1 := snd (decode_msg CNetIP d (c_state c)) in
  match r with
  | Err e => client_step c (EvData d) = (with_state c s1, mkobs [] (Some (Err e)))
  | Ok (RList l) =>
      (exists l', l = MTunnelingReq n 0 :: l' /\ Forall (fun m => bus_message m = true) l') /\
      exists ch, st_channel s1 = Some ch /\
      client_step c (EvData d) =
      (with_state c (st_set_remote (n + 1) s1), mkobs [tunnelling_ack ch n 0] (Some r))
  | Ok _ => False
  end.
Proof.
  intros Gd T O Ht En r s1. pose proof Gd as (La & Ip & F & Ho & _).
  destruct (decode_request d n cemi (c_state c) O F Ht) as [_ D].
  subst n. rewrite Z.eqb_refl in D. fold r in D.
  assert (decode_msg CNetIP d (c_state c) = (r, s1)) as E by apply surjective_pairing.
  destruct r as [[l| |l]|e]; try contradiction.
  - destruct D as (l' & -> & B). split; [eauto|].
    destruct (fits_after_decode d (c_state c) O F) as (_ & _ & _ & Ch & _). fold s1 in Ch.
    destruct (st_channel s1) as [ch|] eqn:Ec; [|congruence]. exists ch. split; [reflexivity|].
    destruct (C31_netip d (c_state c) O (proj1 F)) as (_ & R' & _ & _). fold s1 in R'.
    erewrite step_list by (eassumption || (
      cbn [handle_responses handle_response]; change (0 =? 0) with true; cbv iota;
      unfold mbind, on_state; cbn [c_with_state c_state];
      rewrite ack_frame, Ec, R', Z.eqb_refl; cbn [fst snd]; rewrite c_send_up by (apply ack_octets || assumption);
      rewrite quiet_responses by (apply bus_quiet; assumption); reflexivity)).
    cbn [c_with_out c_with_state c_out c_laddr c_lport c_state c_transport c_connected c_writer].
    rewrite Ho. reflexivity.
  - apply (step_nothing ip); auto.
Qed.
Lemma step_refused ip c d n cemi : good ip c -> c_transport c = true -> octets d ->
  tunnelled d = Some (n, cemi) -> n <> st_remote (c_state c) ->
  let repeated := st_remote (c_state c) =? n + 1 in
  exists ch, st_channel (c_state c) = Some ch /\
  client_step c (EvData d) =
  (c, mkobs (if repeated then [tunnelling_ack ch (st_remote (c_state c)) 0] else [])
            (Some (Ok (RList [MTunnelingReq n (if repeated then 0 else 3)])))).
Proof.
  intros Gd T O Ht En repeated. pose proof Gd as (La & Ip & F & Ho & _).
  destruct (decode_request d n cemi (c_state c) O F Ht) as [_ D].
  destruct (st_remote (c_state c) =? n) eqn:E0; [lia|]. destruct D as [D1 D2]. fold repeated in D1.
  assert (decode_msg CNetIP d (c_state c) = (Ok (RList [MTunnelingReq n (if repeated then 0 else 3)]), c_state c)) as E.
  { rewrite <- D1. rewrite <- D2 at 3. apply surjective_pairing. }
  destruct F as (_ & _ & _ & Ch & _). destruct (st_channel (c_state c)) as [ch|] eqn:Ec; [|congruence].
  exists ch. split; [reflexivity|]. destruct repeated.
  - erewrite step_list by (eassumption || (
      cbn [handle_responses handle_response]; change (0 =? 0) with true; cbv iota;
      unfold mbind, on_state; cbn [c_with_state c_state];
      rewrite ack_frame, Ec; destruct (n =? st_remote (c_state c)) eqn:E1; [lia|]; cbn [fst snd];
      rewrite c_send_up by (apply ack_octets || assumption); reflexivity)).
    destruct c. cbn in *. subst. reflexivity.
  - erewrite step_list by (eassumption || reflexivity). destruct c. cbn in *. subst. reflexivity.
Qed.
Lemma step_other ip c d : good ip c -> octets d -> connect_answer d = false -> tunnelled d = None ->
  let r := fst (decode_msg CNetIP d (c_state c)) in
  let s1 := snd (decode_msg CNetIP d (c_state c)) in
  plain_result r /\ client_step c (EvData d) = (with_state c s1, mkobs [] (Some r)).
Proof.
  intros Gd O N Ht r s1. pose proof Gd as (La & Ip & F & Ho & _).
  pose proof (decode_other d (c_state c) O F N Ht) as P. fold r in P. split; [exact P|].
  assert (decode_msg CNetIP d (c_state c) = (r, s1)) as E by apply surjective_pairing.
  destruct r as [[l| |l]|e].
  - erewrite step_list by (eassumption || (apply quiet_responses; revert P; apply Forall_impl; intros m H; destruct m; try exact I; contradiction)).
    cbn [c_with_state c_out c_with_out]. rewrite Ho. reflexivity.
  - contradiction.
  - apply (step_nothing ip); auto.
  - apply (step_nothing ip); auto.
Qed.

(** ** The other events *)
Lemma step_made ip c : good ip c ->
  client_step c EvMade =
  (mkclient (c_laddr c) (c_lport c) (c_state c) true (c_connected c) (c_writer c) [],
   mkobs [connect_request ip (c_lport c)] None).
Proof.
  intros (La & Ip & F & Ho & _). unfold client_step. cbv zeta.
  assert (connection_made (c_with_out [] c) =
    (Ok tt, mkclient (c_laddr c) (c_lport c) (c_state c) true (c_connected c) (c_writer c) [connect_request ip (c_lport c)])) as ->; [|reflexivity].
  unfold connection_made, mbind, mmodify, mget, on_state.
  cbn [c_with_transport c_with_out c_laddr c_lport c_state]. rewrite La, connect_frame by assumption.
  rewrite c_send_up; [rewrite <- La; reflexivity|apply connect_octets; assumption|reflexivity].
Qed.
Lemma step_lost c :
  client_step c EvLost =
  (mkclient (c_laddr c) (c_lport c) (c_state c) false (c_connected c) (c_writer c) [], mkobs [] None).
Proof. reflexivity. Qed.

(** One turn of the writer with the list [l] in hand. *)
Definition turn (c : client) (l : list message) : writer * list (list Z) :=
  match l with
  | [] => (WStopped, [])
  | m :: rest =>
      match message_repr m with
      | Err e => (WDead e, [])
      | Ok _ =>
          match fst (encode_msg m (c_state c)) with
          | Err e => (WDead e, [])
          | Ok b => if c_transport c then (WSend rest, [b]) else (WDead AttributeError, [])
          end
      end
  end.
Definition turned (c : client) : writer * list (list Z) :=
  match c_writer c with
  | WWait l => if c_connected c then turn c l else (WWait l, [])
  | WSend l => turn c l
  | w => (w, [])
  end.
Lemma encode_agree m st : is_ack_message m = false -> agree st (snd (encode_msg m st)).
Proof.
  intros N. destruct (C20_preserved m st _ eq_refl) as (M & A & G & _ & L & C & R).
  repeat split; try assumption. rewrite R. destruct m; try reflexivity. discriminate N.
Qed.
Lemma agree_refl s : agree s s. Proof. repeat split. Qed.
Lemma writer_send_spec c l : c_out c = [] -> Forall (fun m => is_ack_message m = false) l ->
  exists s1, agree (c_state c) s1 /\
  match writer_send l c with
  | (Err e, c1) => turn c l = (WDead e, []) /\ c1 = c_with_state s1 c
  | (Ok _, c1) => c1 = mkclient (c_laddr c) (c_lport c) s1 (c_transport c) (c_connected c) (fst (turn c l)) (snd (turn c l))
  end.
Proof.
  intros Ho F. destruct l as [|m rest]; cbn [writer_send turn].
  - exists (c_state c). split; [apply agree_refl|]. unfold mmodify, c_with_writer. rewrite Ho. reflexivity.
  - inversion F as [|? ? N _]; subst. unfold mbind at 1, mlift. destruct (message_repr m) as [u|e].
    2: { exists (c_state c). split; [apply agree_refl|]. split; [reflexivity|]. destruct c; reflexivity. }
    exists (snd (encode_msg m (c_state c))). split; [apply encode_agree; assumption|].
    unfold mbind at 1, on_state. pose proof (encoded_octets m (c_state c)) as B.
    destruct (encode_msg m (c_state c)) as [[b|e] s1]; cbn [fst snd] in *; [|split; reflexivity].
    specialize (B b eq_refl). unfold mbind. destruct (c_transport c) eqn:T.
    + rewrite c_send_up by (assumption || exact T). unfold mmodify, c_with_writer. cbn. rewrite Ho, T. reflexivity.
    + rewrite c_send_down by exact T. split; reflexivity.
Qed.
Lemma step_writer ip c : good ip c ->
  exists s1, agree (c_state c) s1 /\
  client_step c EvWriter =
  (mkclient (c_laddr c) (c_lport c) s1 (c_transport c) (c_connected c) (fst (turned c)) [],
   mkobs (snd (turned c)) None).
Proof.
  intros (_ & _ & _ & Ho & P). unfold client_step. cbv zeta.
  assert (c_with_out [] c = c) as -> by (destruct c; cbn in Ho; subst; reflexivity).
  assert (D : exists s1, agree (c_state c) s1 /\ exists r, writer_step c =
    (r, mkclient (c_laddr c) (c_lport c) s1 (c_transport c) (c_connected c) (fst (turned c)) (snd (turned c)))).
  2: { destruct D as (s1 & A & r & ->). exists s1. split; [exact A|reflexivity]. }
  assert (X : forall l, Forall (fun m => is_ack_message m = false) l ->
    exists s1, agree (c_state c) s1 /\ exists r,
    (match writer_send l c with (Err e, c') => (Err e, c_with_writer (WDead e) c') | r => r end) =
    (r, mkclient (c_laddr c) (c_lport c) s1 (c_transport c) (c_connected c) (fst (turn c l)) (snd (turn c l)))).
  { intros l F. destruct (writer_send_spec c l Ho F) as (s1 & A & W). exists s1. split; [exact A|].
    destruct (writer_send l c) as [[u|e] c1].
    - subst c1. eexists. reflexivity.
    - destruct W as [-> ->]. eexists. unfold c_with_writer, c_with_state. cbn. rewrite Ho. reflexivity. }
  assert (Y : exists s1, agree (c_state c) s1 /\ exists r, (Ok tt, c) =
    (r, mkclient (c_laddr c) (c_lport c) s1 (c_transport c) (c_connected c) (c_writer c) [])).
  { exists (c_state c). split; [apply agree_refl|]. exists (Ok tt). destruct c; cbn in Ho; subst; reflexivity. }
  unfold writer_step, turned. destruct (c_writer c) as [l|l| |e] eqn:W; cbn [pending] in P.
  - destruct (c_connected c); [apply X; assumption|exact Y].
  - apply X. assumption.
  - exact Y.
  - exact Y.
Qed.

(** ** All events *)
Definition allowed (c : client) (e : event) : Prop :=
  match e with EvData d => c_transport c = true /\ octets d | _ => True end.

Lemma same_refl s : same_tables s s. Proof. repeat split. Qed.
Lemma same_trans a b c : same_tables a b -> same_tables b c -> same_tables a c.
Proof. intros (A & B & C) (D & E & F). repeat split; congruence. Qed.
Lemma fits_same s s1 : fits s -> same_tables s s1 -> st_channel s1 <> None -> 0 <= st_remote s1 < 256 -> 0 <= st_local s1 < 256 -> fits s1.
Proof. intros (M & A & G & _) (M' & A' & G') C R L. unfold fits. rewrite M', A', G'. tauto. Qed.
Lemma turn_pending c l : Forall (fun m => is_ack_message m = false) l ->
  Forall (fun m => is_ack_message m = false) (pending (fst (turn c l))).
Proof.
  intros F. destruct l as [|m l]; [constructor|]. cbn [turn]. inversion F; subst.
  destruct (message_repr m); [|constructor]. destruct (fst (encode_msg m (c_state c))); [|constructor].
  destruct (c_transport c); [assumption|constructor].
Qed.

Record facts (ip : list Z) (c : client) (e : event) (c1 : client) (o : observation) : Prop := {
  f_good : good ip c1;
  f_port : c_lport c1 = c_lport c;
  f_same : same_tables (c_state c) (c_state c1);
  f_up : c_transport c1 = up_step (c_transport c) e;
  f_conn : c_connected c1 = c_connected c || match e with EvData d => connect_answer d | _ => false end;
  f_local : st_local (c_state c1) = local_step (st_local (c_state c)) e;
  f_channel : st_channel (c_state c1) = channel_step (st_channel (c_state c)) e;
  f_remote : forall k, st_remote (c_state c) = k mod 256 -> st_remote (c_state c1) = taken_step k (e, o) mod 256;
  f_writer : c_writer c1 = match e with EvWriter => fst (turned c) | _ => c_writer c end
}.
Lemma good_with ip c s1 t n w : good ip c -> fits s1 -> Forall (fun m => is_ack_message m = false) (pending w) ->
  good ip (mkclient (c_laddr c) (c_lport c) s1 t n w []).
Proof. intros (La & Ip & _ & _ & P) F W. repeat split; cbn; try assumption; try apply Ip; apply F. Qed.

Lemma step_facts ip c e : good ip c -> allowed c e ->
  facts ip c e (fst (client_step c e)) (snd (client_step c e)).
Proof.
  intros Gd Al. pose proof Gd as (La & Ip & F & Ho & P). destruct e as [| |d|].
  - rewrite (step_made ip) by assumption. cbn [fst snd].
    constructor; cbn; try reflexivity; try (apply good_with; assumption); try (rewrite orb_false_r; reflexivity); [repeat split|auto].
  - rewrite step_lost. cbn [fst snd].
    constructor; cbn; try reflexivity; try (apply good_with; assumption); try (rewrite orb_false_r; reflexivity); [repeat split|auto].
  - destruct Al as [T O]. pose proof (fits_after_decode d (c_state c) O F) as F1.
    destruct (C31_netip d (c_state c) O (proj1 F)) as (S1 & R1 & L1 & C1).
    set (s1 := snd (decode_msg CNetIP d (c_state c))) in *.
    destruct (connect_answer d) eqn:E.
    { destruct (step_answer ip c d Gd T O E) as (ch & Ec & ->). cbn [fst snd]. fold s1.
      constructor; cbn; try reflexivity; try assumption.
      - apply good_with; try assumption. apply (fits_same s1); try assumption; [repeat split|apply F1|cbn; lia|apply F1].
      - rewrite E, orb_true_r. reflexivity.
      - intros k Hk. rewrite E. reflexivity. }
    destruct (tunnelled d) as [[n cemi]|] eqn:Ht.
    2: { destruct (step_other ip c d Gd O E Ht) as [_ ->]. cbn [fst snd]. fold s1.
      constructor; cbn; try reflexivity; try assumption.
      - apply good_with; assumption.
      - rewrite E, orb_false_r. reflexivity.
      - intros k Hk. rewrite E, Ht. congruence. }
    destruct (Z.eq_dec n (st_remote (c_state c))) as [En|En].
    + pose proof (step_taken ip c d n cemi Gd T O Ht En) as X. cbv zeta in X. fold s1 in X.
      destruct (fst (decode_msg CNetIP d (c_state c))) as [[l| |l]|x]; try contradiction.
      * destruct X as (_ & ch & Ec & ->). cbn [fst snd].
        constructor; cbn; try reflexivity; try assumption.
        -- apply good_with; try assumption. apply (fits_same s1); try assumption; [repeat split|apply F1|cbn; lia|apply F1].
        -- rewrite E, orb_false_r. reflexivity.
        -- intros k Hk. rewrite E, Ht. assert (n =? k mod 256 = true) as -> by lia. cbn [andb]. unfold acked. cbn.
           change (256 * 4 + 33 =? 1057) with true. cbv iota beta delta [orb]. lia.
      * rewrite X. cbn [fst snd]. constructor; cbn; try reflexivity; try assumption.
        -- apply good_with; assumption.
        -- rewrite E, orb_false_r. reflexivity.
        -- intros k Hk. rewrite E, Ht. rewrite andb_false_r. congruence.
    + destruct (step_refused ip c d n cemi Gd T O Ht En) as (ch & Ec & X). rewrite X. cbn [fst snd].
      destruct (decode_request d n cemi (c_state c) O F Ht) as [_ D].
      destruct (st_remote (c_state c) =? n) eqn:E0; [lia|]. destruct D as [_ D]. fold s1 in D.
      constructor; cbn; try reflexivity; try assumption.
      * repeat split.
      * rewrite E, orb_false_r. reflexivity.
      * rewrite <- L1, D. reflexivity.
      * rewrite <- C1, D. reflexivity.
      * intros k Hk. rewrite E, Ht. assert (n =? k mod 256 = false) as -> by lia. cbn [andb]. exact Hk.
  - destruct (step_writer ip c Gd) as (s1 & (S & R & L & C) & ->). cbn [fst snd].
    constructor; cbn; try reflexivity; try assumption.
    + apply good_with; try assumption.
      * apply (fits_same (c_state c)); [exact F|exact S|rewrite C; apply F|rewrite R; apply F|rewrite L; apply F].
      * unfold turned. destruct (c_writer c) as [l|l| |x]; cbn [pending] in P; try (constructor; fail).
        -- destruct (c_connected c); [apply turn_pending; assumption|exact P].
        -- apply turn_pending. assumption.
    + rewrite orb_false_r. reflexivity.
    + intros k Hk. congruence.
Qed.

(** ** Histories *)
Lemma run_app es2 : forall es1 c,
  client_run c (es1 ++ es2) =
  (fst (client_run (after c es1) es2), observations c es1 ++ snd (client_run (after c es1) es2)).
Proof.
  unfold after, observations. induction es1 as [|e es1 IH]; intros c.
  - cbn [app client_run fst snd]. apply surjective_pairing.
  - cbn [app client_run]. destruct (client_step c e) as [c1 o]. rewrite IH. destruct (client_run c1 es1) as [c2 os]. reflexivity.
Qed.
Lemma after_snoc c es e : after c (es ++ [e]) = fst (client_step (after c es) e).
Proof. unfold after at 1. rewrite run_app. cbn [client_run fst]. destruct (client_step (after c es) e). reflexivity. Qed.
Lemma after_app c es1 es2 : after c (es1 ++ es2) = after (after c es1) es2.
Proof. unfold after at 1. rewrite run_app. reflexivity. Qed.
Lemma observations_app c es1 es2 : observations c (es1 ++ es2) = observations c es1 ++ observations (after c es1) es2.
Proof. unfold observations at 1. rewrite run_app. reflexivity. Qed.
Lemma observations_length es : forall c, length (observations c es) = length es.
Proof.
  unfold observations. induction es as [|e es IH]; intros c; [reflexivity|]. cbn [client_run].
  destruct (client_step c e) as [c1 o]. specialize (IH c1). destruct (client_run c1 es). cbn in *. congruence.
Qed.
Lemma combine_app {A B} (a2 : list A) (b2 : list B) : forall a1 b1, length a1 = length b1 ->
  combine (a1 ++ a2) (b1 ++ b2) = combine a1 b1 ++ combine a2 b2.
Proof.
  induction a1 as [|x a1 IH]; intros [|y b1] H; try discriminate H; [reflexivity|]. cbn [app combine]. rewrite IH by (cbn in H; congruence). reflexivity.
Qed.
Lemma trace_app c es1 es2 : trace c (es1 ++ es2) = trace c es1 ++ trace (after c es1) es2.
Proof. unfold trace. rewrite observations_app, combine_app by (symmetry; apply observations_length). reflexivity. Qed.
Lemma trace_one c e : trace c [e] = [(e, snd (client_step c e))].
Proof. unfold trace, observations. cbn [client_run]. destruct (client_step c e). reflexivity. Qed.
Lemma trace_snoc c es e : trace c (es ++ [e]) = trace c es ++ [(e, shown c es e)].
Proof. rewrite trace_app, trace_one. reflexivity. Qed.
Lemma trace_cons c e es : trace c (e :: es) = (e, snd (client_step c e)) :: trace (fst (client_step c e)) es.
Proof. change (e :: es) with ([e] ++ es). rewrite trace_app, trace_one. unfold after. cbn [client_run]. destruct (client_step c e). reflexivity. Qed.
Lemma orderly_app es1 es2 : forall up, orderly up (es1 ++ es2) <-> orderly up es1 /\ orderly (fold_left up_step es1 up) es2.
Proof. induction es1 as [|[| |d|] es1 IH]; intros up; cbn; try rewrite IH; tauto. Qed.

Record standing (ip : list Z) (c : client) (es : list event) (c1 : client) : Prop := {
  s_good : good ip c1;
  s_port : c_lport c1 = c_lport c;
  s_same : same_tables (c_state c) (c_state c1);
  s_up : c_transport c1 = fold_left up_step es (c_transport c);
  s_conn : c_connected c1 = c_connected c || answered es;
  s_local : st_local (c_state c1) = fold_left local_step es (st_local (c_state c));
  s_channel : st_channel (c_state c1) = fold_left channel_step es (st_channel (c_state c));
  s_remote : forall k, st_remote (c_state c) = k mod 256 -> st_remote (c_state c1) = taken k (trace c es) mod 256
}.
Lemma allowed_of ip c es e : standing ip c es (after c es) -> orderly (c_transport c) (es ++ [e]) -> allowed (after c es) e.
Proof.
  intros S O. apply orderly_app in O. destruct O as [_ O]. rewrite <- (s_up _ _ _ _ S) in O. destruct e; cbn in *; tauto.
Qed.
Lemma history ip c es : good ip c -> orderly (c_transport c) es -> standing ip c es (after c es).
Proof.
  intros Gd. induction es as [|e es IH] using rev_ind; intros O.
  - constructor; try reflexivity; try assumption; [apply same_refl|rewrite orb_false_r; reflexivity|auto].
  - pose proof O as O2. apply orderly_app in O2. destruct O2 as [O2 _]. specialize (IH O2).
    pose proof (allowed_of ip c es e IH O) as Al. pose proof (step_facts ip _ e (s_good _ _ _ _ IH) Al) as [].
    rewrite after_snoc. destruct IH. constructor; try assumption.
    + congruence.
    + apply (same_trans _ (c_state (after c es))); assumption.
    + rewrite fold_left_app. cbn [fold_left]. congruence.
    + unfold answered. rewrite existsb_app. fold (answered es). cbn [existsb]. rewrite orb_false_r, orb_assoc. congruence.
    + rewrite fold_left_app. cbn [fold_left]. congruence.
    + rewrite fold_left_app. cbn [fold_left]. congruence.
    + intros k Hk. rewrite trace_snoc. unfold taken. rewrite fold_left_app. cbn [fold_left]. apply f_remote0, s_remote0, Hk.
Qed.

(** ** What a request means *)
Lemma msg_code_tables cemi s s' : octets cemi -> st_assoc s <> None -> st_gobj s <> None ->
  st_assoc s' = st_assoc s -> st_gobj s' = st_gobj s -> fst (d_msg_code cemi s') = fst (d_msg_code cemi s).
Proof.
  intros O A G EA EG. destruct (st_assoc s) as [t|] eqn:Ha; [|congruence]. destruct (st_gobj s) as [go|] eqn:Hg; [|congruence].
  destruct (cemi_telegram cemi) as [[k tg]|] eqn:H.
  - rewrite (proj2 (msg_code_some cemi s t go k tg Ha Hg O H)), (proj2 (msg_code_some cemi s' t go k tg EA EG O H)). reflexivity.
  - destruct cemi as [|code [|info r]]; [reflexivity|reflexivity|].
    cbn [cemi_telegram] in H. unfold d_msg_code, octect. unfold mbind, mlift. cbv zeta. unfold data_ind, data_con in H.
    destruct (code =? 0x29) eqn:E1; [|destruct (code =? 0x2E) eqn:E2; [|reflexivity]];
      destruct (zdrop info r) as [|c1 [|c2 [|s1 [|s2 [|d1 [|d2 [|len [|tpci [|apci data]]]]]]]]];
      try discriminate H; reflexivity.
Qed.
Lemma request_tunnelled ch n cemi : tunnelled (tunnelling_request ch n cemi) = Some (n mod 256, cemi).
Proof. reflexivity. Qed.
Lemma request_octets ch n cemi : octets cemi -> octets (tunnelling_request ch n cemi).
Proof.
  intros O. unfold tunnelling_request. rewrite !octets_app. split; [|split; [apply be_octets|split; [|exact O]]];
  repeat (apply octets_cons; split; [unfold is_octet; lia|]); constructor.
Qed.
Lemma tunnelled_octets d n cemi : octets d -> tunnelled d = Some (n, cemi) -> octets cemi /\ 0 <= n < 256.
Proof.
  intros O H. destruct d as [|h [|v [|s1 [|s2 [|l1 [|l2 [|sz [|ch [|ct [|sta r]]]]]]]]]]; try discriminate H.
  cbn [tunnelled] in H. destruct (_ && _); [|discriminate H]. injection H as <- <-. rewrite !octets_cons in O. unfold is_octet in O. tauto.
Qed.
Lemma decode_meaning d n cemi s0 st : octets d -> tunnelled d = Some (n, cemi) -> fits s0 -> fits st ->
  same_tables s0 st -> n = st_remote st ->
  fst (decode_msg CNetIP d st) = (do l <- meaning s0 cemi; Ok (RList (MTunnelingReq n 0 :: l))).
Proof.
  intros O Ht (M0 & A0 & G0 & _) (M & A & G & _) (_ & SA & SG) En. subst n.
  destruct (tunnelled_octets d _ cemi O Ht) as [Oc _].
  rewrite decode_ip by assumption. rewrite (proj2 (tunnelled_some d _ cemi st O Ht)). rewrite Z.eqb_refl. cbn [fst].
  unfold meaning. rewrite decode_ip by exact M0.
  rewrite (proj2 (tunnelled_some _ _ cemi (st_set_remote 0 s0) (request_octets 0 0 cemi Oc) (request_tunnelled 0 0 cemi))).
  change (st_remote (st_set_remote 0 s0) =? 0 mod 256) with true. cbv iota. cbn [fst].
  rewrite (msg_code_tables cemi s0 (st_set_remote 0 s0)) by (assumption || reflexivity).
  rewrite (msg_code_tables cemi s0 st) by assumption.
  pose proof (cemi_bus cemi s0 Oc A0 G0) as B.
  destruct (fst (d_msg_code cemi s0)) as [[l| |l]|e]; cbn; try contradiction; reflexivity.
Qed.

(** ** What is sent *)
Lemma header_service n x r b :
  ip_service (e_ip_header (short_octects (Short n) ++ b)) = Some (x, r) -> x = n mod 65536.
Proof.
  intros E. unfold e_ip_header in E. rewrite be2 in E. cbn -[Z.mul] in E. injection E as <- _. lia.
Qed.
Lemma encode_service m st b r : fits st -> is_ack_message m = false ->
  fst (encode_msg m st) = Ok b -> ip_service b = Some (0x0420, r) ->
  exists ch cemi, st_channel st = Some ch /\ b = tunnelling_request ch (st_local st) cemi.
Proof.
  intros (M & A & G & C & _) N E S.
  destruct (link_request m) eqn:L.
  { destruct (request_cemi m st L) as [x H]. specialize (H Knxnet_ip).
    assert (on_medium Knxnet_ip st = st) as X by (destruct st; cbn in M; subst; reflexivity).
    rewrite X in H. rewrite H in E. destruct x as [cemi|]; [|discriminate E]. cbn [rbind] in E.
    unfold wire in E. rewrite M in E. destruct (st_channel st) as [ch|]; [|discriminate E]. injection E as <-. eauto. }
  exfalso. destruct m; try discriminate L; try discriminate N; try discriminate E; cbn [encode_msg] in E.
  - unfold e_connect_req, mbind, mlift, mret in E. destruct (inet_aton _); [|discriminate E]. destruct (inet_aton _); [|discriminate E].
    cbv zeta in E. injection E as <-. apply header_service in S. discriminate S.
  - unfold e_connectionstate_req, e_channel_req, channel_id, mbind, mlift, mret, mget in E. destruct (inet_aton _); [|discriminate E].
    destruct (st_channel st); [|discriminate E]. cbn [need] in E. injection E as <-. apply header_service in S. discriminate S.
  - unfold e_disconnect_req, e_channel_req, channel_id, mbind, mlift, mret, mget in E. destruct (inet_aton _); [|discriminate E].
    destruct (st_channel st); [|discriminate E]. cbn [need] in E. injection E as <-. apply header_service in S. discriminate S.
  - unfold e_search_req, mbind, mlift, mret in E. destruct (inet_aton _); [|discriminate E].
    injection E as <-. apply header_service in S. discriminate S.
  - destruct (st_assoc st) as [s|] eqn:Ha; [|congruence]. destruct (st_gobj st) as [g|] eqn:Hg; [|congruence].
    destruct (type_of g (asap_value a)) as [c|] eqn:Ht.
    + change (fst (encode_msg (MGroupValueWriteInd a d) st) = Ok b) in E. rewrite (write_ind_frame st s g a d c Ha Hg Ht) in E.
      destruct (sends_to s a) as [[|x l]|]; [| |discriminate E]; injection E as <-; discriminate S.
    + change (fst (encode_msg (MGroupValueWriteInd a d) st) = Ok b) in E. rewrite (proj2 (write_no_type st g a d Hg Ht)) in E. discriminate E.
Qed.
Lemma turn_sent c l b : In b (snd (turn c l)) -> exists m, In m l /\ fst (encode_msg m (c_state c)) = Ok b.
Proof.
  destruct l as [|m l]; [contradiction|]. cbn [turn]. destruct (message_repr m); [|contradiction].
  destruct (fst (encode_msg m (c_state c))) as [x|] eqn:E; [|contradiction]. destruct (c_transport c); [|contradiction].
  intros [<-|[]]. exists m. split; [left; reflexivity|exact E].
Qed.
Lemma turned_sent c b : In b (snd (turned c)) -> exists m, In m (pending (c_writer c)) /\ fst (encode_msg m (c_state c)) = Ok b.
Proof.
  unfold turned. destruct (c_writer c) as [l|l| |e]; cbn [pending]; try contradiction; [|apply turn_sent].
  destruct (c_connected c); [apply turn_sent|contradiction].
Qed.
Lemma sent_requests ip c e b r : good ip c -> allowed c e ->
  In b (o_sent (snd (client_step c e))) -> ip_service b = Some (0x0420, r) ->
  e = EvWriter /\ exists ch cemi, st_channel (c_state c) = Some ch /\ b = tunnelling_request ch (st_local (c_state c)) cemi.
Proof.
  intros Gd Al I S. pose proof Gd as (La & Ip & F & Ho & P). destruct e as [| |d|].
  - rewrite (step_made ip) in I by assumption. destruct I as [<-|[]]. discriminate S.
  - rewrite step_lost in I. contradiction.
  - exfalso. destruct Al as [T O]. destruct (connect_answer d) eqn:E.
    { destruct (step_answer ip c d Gd T O E) as (ch & Ec & X). rewrite X in I. destruct I as [<-|[]]. discriminate S. }
    destruct (tunnelled d) as [[n cemi]|] eqn:Ht.
    2: { destruct (step_other ip c d Gd O E Ht) as [_ X]. rewrite X in I. contradiction. }
    destruct (Z.eq_dec n (st_remote (c_state c))) as [En|En].
    + pose proof (step_taken ip c d n cemi Gd T O Ht En) as X. cbv zeta in X.
      destruct (fst (decode_msg CNetIP d (c_state c))) as [[l| |l]|x]; try contradiction.
      * destruct X as (_ & ch & Ec & X). rewrite X in I. destruct I as [<-|[]]. discriminate S.
      * rewrite X in I. contradiction.
    + destruct (step_refused ip c d n cemi Gd T O Ht En) as (ch & Ec & X). rewrite X in I. cbn in I.
      destruct (_ =? _); [destruct I as [<-|[]]; discriminate S|contradiction].
  - split; [reflexivity|]. destruct (step_writer ip c Gd) as (s1 & A & X). rewrite X in I. cbn in I.
    destruct (turned_sent c b I) as (m & Im & E). apply (encode_service m _ b r); try assumption.
    rewrite Forall_forall in P. apply P. exact Im.
Qed.

(** ** The writer *)
Lemma Forall2_len {A B} (R : A -> B -> Prop) a b : Forall2 R a b -> length a = length b.
Proof. induction 1; cbn; congruence. Qed.
Lemma writer_sent_snoc c es e :
  writer_sent (trace c (es ++ [e])) = writer_sent (trace c es) ++ match e with EvWriter => o_sent (shown c es e) | _ => [] end.
Proof. rewrite trace_snoc. unfold writer_sent. rewrite flat_map_app. cbn. rewrite app_nil_r. reflexivity. Qed.
Lemma sent_as_snoc c es e m b : sent_as c es m b -> sent_as c (es ++ [e]) m b.
Proof. intros (es1 & es2 & -> & H). exists es1, (es2 ++ [e]). split; [rewrite <- app_assoc; reflexivity|exact H]. Qed.
Lemma shown_writer ip c es : standing ip c es (after c es) ->
  o_sent (shown c es EvWriter) = snd (turned (after c es)) /\ c_writer (after c (es ++ [EvWriter])) = fst (turned (after c es)).
Proof.
  intros S. rewrite after_snoc. unfold shown. destruct (step_writer ip _ (s_good _ _ _ _ S)) as (s1 & A & ->). split; reflexivity.
Qed.
Lemma other_writer ip c es e : standing ip c es (after c es) -> allowed (after c es) e -> e <> EvWriter ->
  c_writer (after c (es ++ [e])) = c_writer (after c es).
Proof.
  intros S Al N. rewrite after_snoc. rewrite (f_writer _ _ _ _ _ (step_facts ip _ e (s_good _ _ _ _ S) Al)).
  destruct e; reflexivity || congruence.
Qed.
Lemma writer_history ip c es msgs : good ip c -> c_writer c = WWait msgs -> orderly (c_transport c) es ->
  exists done rest, msgs = done ++ rest /\ Forall2 (sent_as c es) done (writer_sent (trace c es)) /\
  match c_writer (after c es) with
  | WWait l => l = rest /\ done = []
  | WSend l => l = rest
  | WStopped => rest = []
  | WDead _ => True
  end.
Proof.
  intros Gd W. induction es as [|e es IH] using rev_ind; intros O.
  - exists [], msgs. split; [reflexivity|]. split; [constructor|]. cbn. rewrite W. auto.
  - pose proof O as O2. apply orderly_app in O2. destruct O2 as [O2 _]. destruct (IH O2) as (dn & rest & E & F & X).
    pose proof (history ip c es Gd O2) as S. pose proof (allowed_of ip c es e S O) as Al.
    assert (F' : Forall2 (sent_as c (es ++ [e])) dn (writer_sent (trace c es))).
    { revert F. clear. induction 1; constructor; [apply sent_as_snoc; assumption|assumption]. }
    rewrite writer_sent_snoc.
    assert (Q : e <> EvWriter -> exists dn0 rest0, msgs = dn0 ++ rest0 /\
      Forall2 (sent_as c (es ++ [e])) dn0 (writer_sent (trace c es) ++ []) /\
      match c_writer (after c (es ++ [e])) with WWait l => l = rest0 /\ dn0 = [] | WSend l => l = rest0 | WStopped => rest0 = [] | WDead _ => True end).
    { intros N. exists dn, rest. rewrite app_nil_r. rewrite (other_writer ip) by assumption. auto. }
    destruct e; try (apply Q; discriminate). clear Q.
    destruct (shown_writer ip c es S) as [-> ->].
    assert (Y : forall l, l = rest -> exists dn0 rest0, msgs = dn0 ++ rest0 /\
      Forall2 (sent_as c (es ++ [EvWriter])) dn0 (writer_sent (trace c es) ++ snd (turn (after c es) l)) /\
      match fst (turn (after c es) l) with WWait l => l = rest0 /\ dn0 = [] | WSend l => l = rest0 | WStopped => rest0 = [] | WDead _ => True end).
    { intros l ->. destruct rest as [|m rest]; cbn [turn].
      - exists dn, []. cbn [fst snd]. rewrite ?app_nil_r in *. auto.
      - destruct (message_repr m) as [u|]; [|exists dn, (m :: rest); cbn [fst snd]; rewrite ?app_nil_r in *; auto].
        destruct (fst (encode_msg m (c_state (after c es)))) as [b|] eqn:Em; [|exists dn, (m :: rest); cbn [fst snd]; rewrite ?app_nil_r in *; auto].
        destruct (c_transport (after c es)); [|exists dn, (m :: rest); cbn [fst snd]; rewrite ?app_nil_r in *; auto].
        exists (dn ++ [m]), rest. split; [rewrite <- app_assoc; exact E|]. split; [|reflexivity].
        apply Forall2_app; [exact F'|]. constructor; [|constructor]. exists es, []. auto. }
    unfold turned. destruct (c_writer (after c es)) as [l|l| |x] eqn:Ew.
    + destruct X as [-> ->]. destruct (c_connected (after c es)).
      * apply Y. reflexivity.
      * exists [], rest. cbn [fst snd]. rewrite ?app_nil_r in *. auto.
    + apply Y. exact X.
    + exists dn, rest. cbn [fst snd]. rewrite ?app_nil_r in *. auto.
    + exists dn, rest. cbn [fst snd]. rewrite ?app_nil_r in *. auto.
Qed.
Lemma writer_before ip c es msgs : good ip c -> c_writer c = WWait msgs -> c_connected c = false -> orderly (c_transport c) es ->
  answered es = false -> writer_sent (trace c es) = [] /\ c_writer (after c es) = WWait msgs.
Proof.
  intros Gd W K. induction es as [|e es IH] using rev_ind; intros O A; [split; [reflexivity|exact W]|].
  pose proof O as O2. apply orderly_app in O2. destruct O2 as [O2 _].
  unfold answered in A. rewrite existsb_app in A. apply orb_false_iff in A. destruct A as [A _].
  destruct (IH O2 A) as [H1 H2]. pose proof (history ip c es Gd O2) as S. pose proof (allowed_of ip c es e S O) as Al.
  rewrite writer_sent_snoc, H1. cbn [app].
  destruct e; try (split; [reflexivity|rewrite (other_writer ip) by (assumption || discriminate); exact H2]).
  destruct (shown_writer ip c es S) as [-> ->]. unfold turned. rewrite H2, (s_conn _ _ _ _ S), K.
  unfold answered at 1 2. rewrite A. split; reflexivity.
Qed.

(** Nothing stops the writer when every message can be sent and the transport
    stays. *)
Lemma up_kept es : forall up, ~ In EvLost es -> up = true -> fold_left up_step es up = true.
Proof.
  induction es as [|e es IH]; intros up N U; [exact U|]. cbn [fold_left]. apply IH; [intros I; apply N; right; exact I|].
  destruct e; cbn; try assumption; try reflexivity. elim N. left. reflexivity.
Qed.
Lemma answered_up es : orderly false es -> ~ In EvLost es -> answered es = true -> fold_left up_step es false = true.
Proof.
  induction es as [|e es IH] using rev_ind; intros O N A; [discriminate A|].
  apply orderly_app in O. destruct O as [O1 O2]. rewrite fold_left_app. cbn [fold_left].
  assert (~ In EvLost es) as N1 by (intros I; apply N; apply in_or_app; left; exact I).
  unfold answered in A. rewrite existsb_app in A. destruct (existsb _ es) eqn:E.
  - rewrite IH by assumption. destruct e; try reflexivity. elim N. apply in_or_app. right. left. reflexivity.
  - destruct e as [| |d|]; try discriminate A. cbn in O2. cbn [up_step]. tauto.
Qed.
Lemma turns_snoc es e : turns (es ++ [e]) = (turns es + match e with EvWriter => 1 | _ => 0 end)%nat.
Proof. unfold turns. rewrite filter_app, app_length. destruct e; reflexivity. Qed.
Lemma never_dead ip c msgs : good ip c -> c_writer c = WWait msgs -> c_connected c = false -> c_transport c = false ->
  (forall m, In m msgs -> message_repr m = Ok tt /\
     forall s, same_tables (c_state c) s -> st_channel s <> None -> exists b, fst (encode_msg m s) = Ok b) ->
  forall es, orderly false es -> ~ In EvLost es -> forall e, c_writer (after c es) <> WDead e.
Proof.
  intros Gd W K T Enc.
  induction es as [|e es IH] using rev_ind; intros O N x.
  - cbn. rewrite W. discriminate.
  - pose proof O as O2. apply orderly_app in O2. destruct O2 as [O2 _].
    assert (~ In EvLost es) as N1 by (intros I; apply N; apply in_or_app; left; exact I).
    rewrite <- T in O, O2. pose proof (history ip c es Gd O2) as S. pose proof (allowed_of ip c es e S O) as Al.
    rewrite T in O, O2. specialize (IH O2 N1).
    destruct (match e with EvWriter => true | _ => false end) eqn:Ee.
    2: { rewrite (other_writer ip) by (assumption || (intros ->; discriminate Ee)). apply IH. }
    destruct e; try discriminate Ee. destruct (shown_writer ip c es S) as [_ ->].
    rewrite <- T in O2. destruct (writer_history ip c es msgs Gd W O2) as (dn & rest & E & _ & X).
    assert (Y : c_connected (after c es) = true -> forall l, l = rest -> fst (turn (after c es) l) <> WDead x).
    { intros Hc l ->. destruct rest as [|m rest]; [discriminate|]. cbn [turn].
      destruct (Enc m) as [-> Es]; [rewrite E; apply in_or_app; right; left; reflexivity|].
      destruct (Es (c_state (after c es))) as [b ->].
      - apply S.
      - destruct (s_good _ _ _ _ S) as (_ & _ & F & _). apply F.
      - rewrite (s_up _ _ _ _ S), T. rewrite T in O2. rewrite answered_up; try assumption; [discriminate|].
        rewrite (s_conn _ _ _ _ S), K in Hc. exact Hc. }
    unfold turned. destruct (c_writer (after c es)) as [l|l| |z] eqn:Ew.
    + destruct (c_connected (after c es)); [apply Y; [reflexivity|apply X]|discriminate].
    + apply Y; [|exact X]. rewrite (s_conn _ _ _ _ S), K. cbn [orb].
      destruct (answered es) eqn:Ea; [reflexivity|]. destruct (writer_before ip c es msgs Gd W K O2 Ea) as [_ Z]. congruence.
    + discriminate.
    + elim (IH z). reflexivity.
Qed.
Lemma writer_progress ip c es1 msgs : good ip c -> c_writer c = WWait msgs -> c_connected c = false -> c_transport c = false ->
  (forall m, In m msgs -> message_repr m = Ok tt /\
     forall s, same_tables (c_state c) s -> st_channel s <> None -> exists b, fst (encode_msg m s) = Ok b) ->
  answered es1 = true ->
  forall es2, orderly false (es1 ++ es2) -> ~ In EvLost (es1 ++ es2) ->
  (Nat.min (length msgs) (turns es2) <= length (writer_sent (trace c (es1 ++ es2))))%nat.
Proof.
  intros Gd W K T Enc A.
  pose proof (never_dead ip c msgs Gd W K T Enc) as D.
  induction es2 as [|e es2 IH] using rev_ind; intros O N; [cbn; lia|].
  rewrite app_assoc in *. pose proof O as O2. apply orderly_app in O2. destruct O2 as [O2 _].
  assert (~ In EvLost (es1 ++ es2)) as N1 by (intros I; apply N; apply in_or_app; left; exact I).
  specialize (IH O2 N1). rewrite writer_sent_snoc, app_length, turns_snoc.
  destruct (match e with EvWriter => true | _ => false end) eqn:Ee; [|destruct e; discriminate || lia].
  destruct e; try discriminate Ee. specialize (D (es1 ++ es2) O2 N1).
  rewrite <- T in O2. pose proof (history ip c _ Gd O2) as S. destruct (shown_writer ip c _ S) as [-> _].
  destruct (writer_history ip c _ msgs Gd W O2) as (dn & rest & E & F & X).
  apply Forall2_len in F. pose proof (f_equal (@length _) E) as L. rewrite app_length in L.
  assert (Hc : c_connected (after c (es1 ++ es2)) = true).
  { rewrite (s_conn _ _ _ _ S), K. unfold answered. rewrite existsb_app. fold (answered es1). rewrite A. reflexivity. }
  assert (Y : forall l, l = rest -> (Nat.min (length msgs) (turns es2 + 1) <=
     length (writer_sent (trace c (es1 ++ es2))) + length (snd (turn (after c (es1 ++ es2)) l)))%nat).
  { intros l ->. destruct rest as [|m rest]; [cbn in *; lia|]. cbn [turn].
    destruct (Enc m) as [-> Es]; [rewrite E; apply in_or_app; right; left; reflexivity|].
    destruct (Es (c_state (after c (es1 ++ es2)))) as [b ->].
    - apply S.
    - destruct (s_good _ _ _ _ S) as (_ & _ & Ft & _). apply Ft.
    - rewrite (s_up _ _ _ _ S), T. rewrite T in O2. rewrite answered_up; try assumption; [cbn; lia|].
      rewrite (s_conn _ _ _ _ S), K in Hc. exact Hc. }
  unfold turned. destruct (c_writer (after c (es1 ++ es2))) as [l|l| |z].
  - rewrite Hc. apply Y, X.
  - apply Y, X.
  - subst rest. cbn in *. lia.
  - elim (D z). reflexivity.
Qed.
