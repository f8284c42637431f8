(** C83: the discovery listener and any datagrams. *)
From Coq Require Import String ZArith List Bool Lia ZifyBool.
From Verif Require Import Py Base Msg Address Inet State Encode Decode Client.
From Verif Require Import SpecMsg SpecWire SpecDecode SpecFail SpecListen.
From Verif Require Import MsgProofs Props_Decode DecodeProofs ClientProofs FailProofs ListenProofs.
Import ListNotations.
Open Scope Z_scope.

(** After any datagrams, the next one raises exactly what [listen_failure]
    (SpecListen.v) says of it: nothing received before makes a difference. *)
Theorem C83_failures : forall ds d e, Forall octets ds -> octets d ->
  (fst (listen_received d (heard ds)) = Err e <-> listen_failure d e).
Proof. intros ds d e F O. apply listen_fails; [apply heard_bare; assumption|exact O]. Qed.
Print Assumptions C83_failures.
(** A device is found exactly in a search response that is long enough, after
    any datagrams. *)
Theorem C83_found : forall ds d a port ia, Forall octets ds -> octets d ->
  ((exists r, fst (listen_received d (heard ds)) = Ok r /\ In (MSearchRes a port ia) (reported r)) <->
   search_response d a port ia).
Proof.
  intros ds d a port ia F O. pose proof (heard_bare ds F) as B. split.
  - intros (r & E & I). pose proof (listen_reports (heard ds) d r B O E) as X.
    destruct d as [|h [|v [|s1 [|s2 b]]]]; try (cbn in X; subst r; destruct I; fail).
    cbn [ip_service] in X. destruct (h =? 6) eqn:Eh; [|cbn [andb] in X; subst r; destruct I]. destruct (v =? 16) eqn:Ev; [|cbn [andb] in X; subst r; destruct I].
    cbn [andb] in X. destruct (256 * s1 + s2 =? 0x202) eqn:E1.
    + destruct b as [|l1 [|l2 [|s [|t [|i1 [|i2 [|i3 [|i4 [|p1 [|p2 [|dl [|dt [|x1 [|x2 b]]]]]]]]]]]]]]; try contradiction.
      subst r. destruct I as [I|[]]. injection I as <- <- <-.
      assert (s1 = 2 /\ s2 = 2 /\ h = 6 /\ v = 16) as (-> & -> & -> & ->).
      { rewrite !octets_cons in O. unfold is_octet in O. lia. }
      exists l1, l2, s, t, i1, i2, i3, i4, p1, p2, dl, dt, x1, x2, b. repeat split.
    + exfalso.
      destruct (_ =? 0x20A); [destruct X as [->|[ch ->]]; [destruct I|destruct I as [I|[]]; discriminate I]|].
      destruct (_ =? 0x206); [destruct X as (? & ? & ? & ? & ->); destruct I as [I|[]]; discriminate I|].
      destruct (_ =? 0x208); [destruct X as (? & ->); destruct I as [I|[]]; discriminate I|].
      destruct (_ =? 0x420); [destruct b as [|? [|? [|? [|? [|ct b]]]]]; try contradiction; subst r; destruct I as [I|[]]; discriminate I|].
      destruct (_ =? 0x421); [destruct X as (? & ? & ->); destruct I as [I|[]]; discriminate I|].
      subst r. destruct I.
  - intros (l1 & l2 & s & t & i1 & i2 & i3 & i4 & p1 & p2 & dl & dt & x1 & x2 & b & -> & -> & -> & ->).
    destruct (fst (listen_received ([6; 16; 2; 2; l1; l2; s; t; i1; i2; i3; i4; p1; p2; dl; dt; x1; x2] ++ b) (heard ds))) as [r|e] eqn:E.
    + exists r. split; [reflexivity|]. apply listen_reports in E; [|assumption|assumption].
      cbn -[Z.mul Z.add dotted] in E. change (256 * 2 + 2 =? 514) with true in E. cbv iota in E. subst r. left. reflexivity.
    + exfalso. apply listen_fails in E; [|assumption|assumption].
      inversion E as [X|n r X Y|? ? ? r X Y|n r X Y Z|r X Y|cemi e' X Y]; subst; cbn -[Z.mul Z.add zlen] in X.
      * rewrite !zlen_cons in X. pose proof (zlen_nonneg b). lia.
      * change (256 * 2 + 2) with 514 in X. injection X as <- <-. unfold needs in Y. cbn -[zlen] in Y.
        rewrite !zlen_cons in Y. pose proof (zlen_nonneg b). lia.
      * change (256 * 2 + 2) with 514 in X. discriminate X.
      * unfold unknown_status in Y. cbn -[Z.mul Z.add] in Y. change (256 * 2 + 2) with 514 in Y. discriminate Y.
      * change (256 * 2 + 2) with 514 in X. discriminate X.
      * discriminate X.
Qed.
Print Assumptions C83_found.
(** Whatever arrives, at most one message is reported, and it belongs to the
    KNXnet/IP layer: the listener never reports a bus telegram. *)
Theorem C83_quiet : forall ds d r, Forall octets ds -> octets d ->
  fst (listen_received d (heard ds)) = Ok r ->
  (length (reported r) <= 1)%nat /\ forall m, In m (reported r) -> of_ip m = true.
Proof.
  intros ds d r F O E. pose proof (listen_reports (heard ds) d r (heard_bare ds F) O E) as X.
  assert (C : reported r = [] \/ exists m, reported r = [m] /\ of_ip m = true).
  { assert (Y : forall m, of_ip m = true -> [m] = [] \/ exists m', [m] = [m'] /\ of_ip m' = true) by (intros m W; right; exists m; auto).
    destruct (ip_service d) as [[n b]|]; [|subst; left; reflexivity].
    destruct (n =? 0x202).
    { destruct b as [|? [|? [|? [|? [|? [|? [|? [|? [|? [|? [|? [|? [|? [|? b]]]]]]]]]]]]]]; try contradiction. subst r. apply Y. reflexivity. }
    destruct (n =? 0x20A); [destruct X as [->|[ch ->]]; [left; reflexivity|apply Y; reflexivity]|].
    destruct (n =? 0x206); [destruct X as (? & ? & ? & ? & ->); apply Y; reflexivity|].
    destruct (n =? 0x208); [destruct X as (? & ->); apply Y; reflexivity|].
    destruct (n =? 0x420); [destruct b as [|? [|? [|? [|? [|ct b]]]]]; try contradiction; subst r; apply Y; reflexivity|].
    destruct (n =? 0x421); [destruct X as (? & ? & ->); apply Y; reflexivity|].
    subst r. left. reflexivity. }
  destruct C as [->|(m & -> & W)]; [split; [cbn; lia|intros m []]|].
  split; [cbn; lia|]. intros m' [<-|[]]. exact W.
Qed.
Print Assumptions C83_quiet.
(** It does not ignore them either: every complete group telegram in a tunnelling
    request with counter 0 raises, because it is looked up in a table that is
    [None]; other counters do not. *)
Theorem C83_telegrams : forall ds d counter cemi k t, Forall octets ds -> octets d ->
  tunnelled d = Some (counter, cemi) -> cemi_telegram cemi = Some (k, t) -> concerns t ->
  fst (listen_received d (heard ds)) =
    if counter =? 0 then Err AttributeError else Ok (RList [MTunnelingReq counter 3]).
Proof.
  intros ds d counter cemi k t F O T C K. pose proof (heard_bare ds F) as B.
  destruct (counter =? 0) eqn:E.
  - assert (counter = 0) as -> by lia. apply listen_fails; [assumption|assumption|].
    eapply Lf_tunnelled; [eassumption|]. eapply Uh_table; eassumption.
  - destruct d as [|h [|v [|s1 [|s2 [|l1 [|l2 [|sz [|ch [|ct [|sta r]]]]]]]]]]; try discriminate T.
    cbn [tunnelled] in T. destruct (h =? 6) eqn:Eh; [|discriminate T]. destruct (v =? 16) eqn:Ev; [|discriminate T].
    destruct (s1 =? 4) eqn:E1; [|discriminate T]. destruct (s2 =? 32) eqn:E2; [|discriminate T].
    cbn [andb] in T. injection T as -> ->.
    assert (h = 6 /\ v = 16 /\ s1 = 4 /\ s2 = 32) as (-> & -> & -> & ->) by lia.
    destruct (fst (listen_received _ (heard ds))) as [x|e] eqn:X.
    + apply listen_reports in X; [|assumption|assumption]. cbn -[Z.mul Z.add] in X.
      change (256 * 4 + 32) with 1056 in X. cbn in X. rewrite E in X. subst x. reflexivity.
    + exfalso. apply listen_fails in X; [|assumption|assumption].
      inversion X as [Y|n r Y Z|? ? ? r Y Z|n r Y Z W|r Y Z|cemi' e' Y Z]; subst; cbn -[Z.mul Z.add zlen] in Y.
      * rewrite !zlen_cons in Y. pose proof (zlen_nonneg cemi). lia.
      * change (256 * 4 + 32) with 1056 in Y. injection Y as <- <-. unfold needs in Z. cbn -[zlen] in Z.
        rewrite !zlen_cons in Z. pose proof (zlen_nonneg cemi). lia.
      * change (256 * 4 + 32) with 1056 in Y. discriminate Y.
      * unfold unknown_status in Z. cbn -[Z.mul Z.add] in Z. change (256 * 4 + 32) with 1056 in Z. discriminate Z.
      * change (256 * 4 + 32) with 1056 in Y. discriminate Y.
      * injection Y as -> _. lia.
Qed.
Print Assumptions C83_telegrams.

(** Its own search request comes back by multicast; a search response; a group
    write in a tunnelling request with counter 0 and 1; a connect response; a
    second search response after all of these. *)
Definition ex_request : list Z := [6; 16; 2; 1; 0; 14; 8; 1; 192; 168; 0; 10; 14; 87].
Definition ex_response : list Z := [6; 16; 2; 2; 0; 78; 8; 1; 192; 168; 0; 1; 14; 87; 54; 1; 2; 0; 17; 255].
Definition ex_group (counter : Z) : list Z :=
  [6; 16; 4; 32; 0; 21; 4; 7; counter; 0; 0x29; 0; 0xBC; 0xE0; 0x11; 0x02; 0x09; 0x00; 0x01; 0x00; 0x81].
Definition ex_connect : list Z := [6; 16; 2; 6; 0; 20; 7; 0; 8; 1; 192; 168; 0; 1; 14; 87; 4; 4; 17; 1].
Example C83_example :
  let ds := [ex_request; ex_response; ex_group 0; ex_group 1; [6; 16]; ex_connect] in
  Forall octets ds /\
  map (fun d => fst (listen_received d (heard ds))) (ds ++ [ex_response]) =
    [Ok (RList []); Ok (RList [MSearchRes "192.168.0.1" 3671 512]); Err AttributeError;
     Ok (RList [MTunnelingReq 1 3]); Err IndexError; Ok (RList [MConnectRes "192.168.0.1" 3671 (Some 4353) 0]);
     Ok (RList [MSearchRes "192.168.0.1" 3671 512])] /\
  search_response ex_response "192.168.0.1" 3671 512 /\
  listen_failure (ex_group 0) AttributeError /\ (forall e, ~ listen_failure (ex_group 1) e) /\
  (exists cemi k t, tunnelled (ex_group 0) = Some (0, cemi) /\ cemi_telegram cemi = Some (k, t) /\ concerns t /\
     t_dst t = 0x0900) /\
  st_channel (heard ds) = Some 7.
Proof.
  cbv zeta.
  assert (F : Forall octets [ex_request; ex_response; ex_group 0; ex_group 1; [6; 16]; ex_connect]).
  { repeat (apply Forall_cons; [unfold ex_request, ex_response, ex_group, ex_connect; octets_tac|]). constructor. }
  split; [exact F|]. split; [vm_compute; reflexivity|]. split.
  { unfold search_response, ex_response. do 14 eexists. exists [17; 255]. split; [reflexivity|]. split; [vm_compute; reflexivity|]. split; reflexivity. }
  assert (C : exists cemi k t, tunnelled (ex_group 0) = Some (0, cemi) /\ cemi_telegram cemi = Some (k, t) /\ concerns t /\ t_dst t = 0x0900).
  { do 3 eexists. split; [reflexivity|]. split; [reflexivity|]. split; [split; [reflexivity|intros _; discriminate]|reflexivity]. }
  split. { destruct C as (cemi & k & t & A & B & D & _). eapply Lf_tunnelled; [exact A|]. eapply Uh_table; eassumption. }
  split. { intros e L. apply (C83_failures [] (ex_group 1) e) in L; [vm_compute in L; discriminate L|constructor|unfold ex_group; octets_tac]. }
  split; [exact C|]. vm_compute. reflexivity.
Qed.
