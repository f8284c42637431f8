(** C116: the blocks of KNXnet/IP frames: what their readers take from any octets,
    and that they read back what the encoders write. *)
From Coq Require Import String ZArith List Bool Lia.
From Verif Require Import Base Py Msg Address Dpt Tables LData Inet State Encode Decode SpecMsg SpecTables SpecWire SpecDecode SpecInet
  MsgProofs EncodeProofs InetProofs DecodeProofs IpProofs Props_Encode Props_Inet Props_Client.
Import ListNotations.
Open Scope Z_scope.

(** Every reader, on all octets: endpoint (HPAI), connection request information
    (CRI), connection response data (CRD) and connection header.  The classes of
    definition/knxnet_ip and definition/usb_hid differ in how HPAI fails on a short
    block: the first returns None, which the decoders cannot unpack. *)
Theorem C116_blocks : forall m, octets m ->
  HPAI CNetIP m = match m with
    | _ :: _ :: i1 :: i2 :: i3 :: i4 :: p1 :: p2 :: r => Ok (dotted [i1; i2; i3; i4], 256 * p1 + p2, r)
    | _ => Err TypeError end /\
  HPAI CUsbHid m = match m with
    | _ :: _ :: i1 :: i2 :: i3 :: i4 :: p1 :: p2 :: r => Ok (dotted [i1; i2; i3; i4], 256 * p1 + p2, r)
    | _ => Err IndexError end /\
  CRI m = match m with _ :: t :: k :: _ :: r => Ok (t, k, r) | _ => Err IndexError end /\
  CRD CNetIP m = match m with _ :: t :: x :: y :: r => Ok (t, 256 * x + y, r) | _ => Err IndexError end /\
  CRD CUsbHid m = CRD CNetIP m /\
  ip_conn_header CNetIP m = match m with _ :: c :: n :: s :: r => Ok (c, n, s, r) | _ => Err IndexError end.
Proof.
  intros m O.
  assert (C : forall k, k <> CPlain -> CRD k m = match m with _ :: t :: x :: y :: r => Ok (t, 256 * x + y, r) | _ => Err IndexError end).
  { intros k Hk. unfold CRD. destruct k; [congruence| |];
      (destruct m as [|a [|b [|x [|y r]]]]; try reflexivity; cbn [octect rbind]; rewrite !octets_cons in O;
       rewrite short_spec by tauto; reflexivity). }
  assert (X : forall a b i1 i2 i3 i4 p1 p2 r, octets (a :: b :: i1 :: i2 :: i3 :: i4 :: p1 :: p2 :: r) -> octets [i1; i2; i3; i4; p1; p2]).
  { intros a b i1 i2 i3 i4 p1 p2 r H. rewrite !octets_cons in H. rewrite !octets_cons. assert (octets []) by constructor. tauto. }
  split; [|split; [|split; [|split; [|split]]]].
  - destruct m as [|a [|b [|i1 [|i2 [|i3 [|i4 [|p1 [|p2 r]]]]]]]]; try (rewrite HPAI_short; [reflexivity|cbn; lia]).
    apply HPAI_long. exact (X _ _ _ _ _ _ _ _ _ O).
  - destruct m as [|a [|b [|i1 [|i2 [|i3 [|i4 [|p1 [|p2 r]]]]]]]]; try reflexivity.
    rewrite <- (HPAI_long a b) by exact (X _ _ _ _ _ _ _ _ _ O). unfold HPAI.
    rewrite !zlen_cons. pose proof (zlen_nonneg r). match goal with |- _ = (if ?b then _ else _) => destruct b eqn:E; [reflexivity|lia] end.
  - destruct m as [|a [|b [|x [|y r]]]]; reflexivity.
  - apply C. discriminate.
  - rewrite !C by discriminate. reflexivity.
  - destruct m as [|a [|b [|x [|y r]]]]; reflexivity.
Qed.
Print Assumptions C116_blocks.

(** A written endpoint is read back, with the port modulo 65536, whatever follows. *)
Lemma endpoint_back ip p r : ipv4 ip -> HPAI CNetIP (endpoint ip p ++ r) = Ok (dotted ip, p mod 65536, r).
Proof.
  intros [L F]. destruct ip as [|i1 [|i2 [|i3 [|i4 [|? ?]]]]]; try discriminate L.
  unfold endpoint. cbn [app be]. rewrite HPAI_long.
  - replace (p mod 65536) with (256 * ((p / 256) mod 256) + p mod 256) by lia. reflexivity.
  - assert (F' : octets [i1; i2; i3; i4]) by exact F. rewrite !octets_cons in *. unfold is_octet in *. assert (octets []) by constructor. repeat split; try tauto; try lia.
Qed.

(** A connect request: reading the two endpoints one after the other and then the
    request information gives what the request was made with and leaves nothing. *)
Theorem C116_connect : forall a1 p1 a2 p2 st f st', encode_msg (MConnectReq a1 p1 a2 p2) st = (Ok f, st') ->
  exists ip1 ip2 r1 r2, inet_aton a1 = Ok ip1 /\ inet_aton a2 = Ok ip2 /\
    HPAI CNetIP (skipn 6 f) = Ok (dotted ip1, p1 mod 65536, r1) /\
    HPAI CNetIP r1 = Ok (dotted ip2, p2 mod 65536, r2) /\ CRI r2 = Ok (4, 2, []).
Proof.
  intros a1 p1 a2 p2 st f st' H. rewrite C72_connect in H.
  pose proof (C72_refused a1) as V1. pose proof (C72_refused a2) as V2.
  destruct (inet_aton a1) as [ip1|]; [|discriminate]. destruct (inet_aton a2) as [ip2|]; [|discriminate].
  injection H as <- _. exists ip1, ip2, (endpoint ip2 p2 ++ [4; 4; 2; 0]), [4; 4; 2; 0].
  split; [reflexivity|]. split; [reflexivity|]. split; [|split; [apply endpoint_back; exact V2|reflexivity]].
  cbn [app skipn]. apply endpoint_back. exact V1.
Qed.
Print Assumptions C116_connect.

(** Search, connection state and disconnect requests carry one endpoint and nothing
    behind it. *)
Theorem C116_single : forall a p st f st' m k,
  (m = MSearchReq a p /\ k = 6%nat) \/ ((m = MConnectionstateReq a p \/ m = MDisconnectReq a p) /\ k = 8%nat) ->
  encode_msg m st = (Ok f, st') ->
  exists ip, inet_aton a = Ok ip /\ HPAI CNetIP (skipn k f) = Ok (dotted ip, p mod 65536, []).
Proof.
  intros a p st f st' m k Hm H. pose proof (C72_refused a) as V.
  assert (E : exists ip h, inet_aton a = Ok ip /\ length h = k /\ f = h ++ endpoint ip p).
  { destruct Hm as [[-> ->]|[Hm ->]].
    - rewrite C72_search in H. destruct (inet_aton a) as [ip|]; [|discriminate]. injection H as <- _.
      exists ip, [6; 16; 2; 1; 0; 14]. auto.
    - assert (G : exists s, e_channel_req s a p st = (Ok f, st')) by (destruct Hm as [-> | ->]; eexists; exact H).
      destruct G as [s G]. unfold e_channel_req in G. unfold mbind at 1, mlift at 1 in G.
      destruct (inet_aton a) as [ip|]; [|discriminate]. unfold channel_id, mbind, mget, mlift, need, mret in G.
      destruct (st_channel st) as [c|]; [|discriminate]. injection G as <- _. rewrite hpai_endpoint by exact V.
      exists ip. eexists (_ :: _ :: _ :: _ :: _ :: _ :: _ :: [_]). split; [reflexivity|]. split; [reflexivity|]. reflexivity. }
  destruct E as (ip & h & E & L & ->). exists ip. rewrite E in V. split; [exact E|].
  rewrite <- L, skipn_app, skipn_all, Nat.sub_diag. cbn [app skipn]. rewrite <- (app_nil_r (endpoint ip p)).
  apply endpoint_back. exact V.
Qed.
Print Assumptions C116_single.

(** Tunnelling requests and acknowledgements: the connection header gives the
    channel, the counter and the status; behind it is the frame that USB would
    carry, or nothing. *)
Theorem C116_tunnel : forall m st f, link_request m = true ->
  fst (encode_msg m (on_medium Knxnet_ip st)) = Ok f ->
  exists ch cemi, st_channel st = Some ch /\
    ip_conn_header CNetIP (skipn 6 f) = Ok (ch mod 256, st_local st mod 256, 0, cemi) /\
    fst (encode_msg m (on_medium Usb_hid st)) = Ok (usb_report cemi).
Proof.
  intros m st f L H. pose proof (C16_same_frame m st L) as S0.
  destruct (fst (encode_msg m (on_medium Usb_hid st))) as [u|]; [|congruence].
  destruct S0 as (cemi & -> & E). rewrite E in H. destruct (st_channel st) as [ch|]; [|discriminate].
  injection H as <-. exists ch, cemi. split; [reflexivity|]. split; [reflexivity|reflexivity].
Qed.
Print Assumptions C116_tunnel.
Theorem C116_ack : forall seq status st f st', encode_msg (MTunnelingAck seq status) st = (Ok f, st') ->
  exists ch, st_channel st = Some ch /\
    ip_conn_header CNetIP (skipn 6 f) = Ok (ch mod 256, st_remote st mod 256, status mod 256, []).
Proof.
  intros seq status st f st' H. rewrite C37_encode in H. destruct (st_channel st) as [ch|]; [|discriminate].
  injection H as <- _. exists ch. split; reflexivity.
Qed.
Print Assumptions C116_ack.

Example C116_example :
  (exists f, encode_msg (MConnectReq "127.1" 65537 "10.0.0.255" 3671) (ex_state Knxnet_ip) = (Ok f, ex_state Knxnet_ip) /\
     HPAI CNetIP (skipn 6 f) = Ok ("127.0.0.1"%string, 1, skipn 14 f)) /\
  HPAI CNetIP [8; 1; 10] = Err TypeError /\ HPAI CUsbHid [8; 1; 10] = Err IndexError /\ octets [8; 1; 10].
Proof.
  split; [eexists; split; [vm_compute; reflexivity|vm_compute; reflexivity]|].
  split; [reflexivity|]. split; [reflexivity|]. rewrite !octets_cons. unfold is_octet. repeat split; try lia. constructor.
Qed.
