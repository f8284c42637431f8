(** C84: what a client writes and the pieces in which it arrives. *)
From Coq Require Import String Ascii ZArith List Bool Lia ZifyBool.
From Verif Require Import Py Base Msg Daemon SpecMsg SpecDaemon SpecPieces MsgProofs DaemonProofs PiecesProofs Props_Daemon.
Import ListNotations.
Open Scope Z_scope.

(** Every delivery makes one packet on the bus and nothing else does: the
    daemon takes each read() for one line, however the text was cut. *)
Theorem C84_count : forall scan d es,
  length (bus_packets (snd (daemon_run scan d es))) = length (deliveries es).
Proof.
  intros scan d es. revert d. induction es as [|e es IH]; intros d; [reflexivity|]. cbn [daemon_run].
  destruct (daemon_step scan d e) as [d1 o] eqn:E. specialize (IH d1). destruct (daemon_run scan d1 es) as [d2 os].
  cbn [snd] in *. unfold bus_packets in *. cbn [flat_map]. rewrite app_length, IH.
  replace o with (snd (daemon_step scan d e)) by (rewrite E; reflexivity). clear E IH.
  destruct e as [fd|data|fd [|c chunk] u]; [reflexivity| | |].
  - cbn [daemon_step snd]. unfold deliveries. cbn [filter].
    match goal with |- (length (flat_map ?f (map ?g ?l)) + _)%nat = _ => assert (flat_map f (map g l) = []) as -> end; [|reflexivity].
    generalize (filter (fun fd => fd >? 0) (dm_slots d)). intros l. induction l as [|x l IH]; [reflexivity|exact IH].
  - reflexivity.
  - rewrite client_step by discriminate. reflexivity.
Qed.
Print Assumptions C84_count.

(** A piece of digits, wherever the text was cut and whatever happened before:
    the octets of the piece at the start, then what the buffer held. *)
Theorem C84_piece : forall scan packet es fd p q u, c_scanner scan -> octets packet -> zlen packet = 56 ->
  possible [] (es ++ [DClient fd p u]) -> p <> [] -> stores p q ->
  let before := dm_packet (dafter scan packet es) in
  answers scan packet es (DClient fd p u) = [ToBus (q ++ skipn (length q) before)] /\
  dm_packet (dafter scan packet (es ++ [DClient fd p u])) = q ++ skipn (length q) before.
Proof.
  intros scan packet es fd p q u CS O L P N S. apply possible_snoc in P. destruct P as [P1 (_ & _ & P2 & _)].
  pose proof (i_len _ _ _ (inv_history scan packet CS O L es P1)) as I. cbv zeta.
  pose proof (stores_step scan (dafter scan packet es) fd p q u CS I N P2 S) as X. unfold over in X.
  unfold answers. rewrite step_packet by assumption. rewrite X. split; [reflexivity|].
  unfold dafter. rewrite run_snoc. exact X.
Qed.
Print Assumptions C84_piece.
(** A line cut in two: the first piece stores the octets whose digits it holds in
    full, and if it ends between two digits neither piece stores anything, so
    that the packet from before goes out twice and the line is lost. *)
Theorem C84_cut : forall scan packet es fd text o a b u v, c_scanner scan -> octets packet -> zlen packet = 56 ->
  possible [] (es ++ [DClient fd a u; DClient fd b v]) -> denotes text o -> text ++ [10] = a ++ b -> a <> [] -> b <> [] ->
  let before := dm_packet (dafter scan packet es) in
  let k := Z.to_nat (zlen a / 2) in
  let first := if Z.odd (zlen a) then before else over (firstn k o) before in
  let second := if Z.odd (zlen a) then before else over (skipn k o) first in
  answers scan packet es (DClient fd a u) = [ToBus first] /\
  answers scan packet (es ++ [DClient fd a u]) (DClient fd b v) = [ToBus second].
Proof.
  intros scan packet es fd text o a b u v CS O L P D E Na Nb.
  assert (P2 : possible [] ((es ++ [DClient fd a u]) ++ [DClient fd b v])) by (rewrite <- app_assoc; exact P).
  pose proof P2 as P1. apply possible_snoc in P1. destruct P1 as [P1 _].
  destruct (exists_last Nb) as (b0 & y & Eb). rewrite Eb, app_assoc in E. apply app_inj_tail in E. destruct E as [E <-].
  cbv zeta. destruct (denotes_cut text o D a b0 E) as [(qa & qb & A & B & ->)|(a' & c & b' & w & w' & qa & qb & x & -> & E0 & A & C & X & B & ->)].
  - pose proof (denotes_len _ _ A) as La. rewrite La. rewrite Z.odd_mul. cbn [Z.odd andb].
    replace (2 * zlen qa / 2) with (zlen qa) by lia. unfold zlen. rewrite Nat2Z.id.
    rewrite firstn_app, firstn_all, Nat.sub_diag. cbn [firstn]. rewrite app_nil_r.
    rewrite skipn_app, skipn_all, Nat.sub_diag. cbn [skipn app].
    assert (Sa : stores a qa). { rewrite <- (app_nil_r a). apply st_even; [exact A|left; reflexivity]. }
    destruct (C84_piece scan packet es fd a qa u CS O L P1 Na Sa) as [R1 R2]. split; [exact R1|].
    assert (Sb : stores b qb). { rewrite Eb. apply st_even; [exact B|right; reflexivity]. }
    destruct (C84_piece scan packet (es ++ [DClient fd a u]) fd b qb v CS O L P2 Nb Sb) as [R3 _]. rewrite R3, R2. reflexivity.
  - pose proof (denotes_len _ _ A) as La. rewrite zlen_app, La. change (zlen [c]) with 1. rewrite Z.odd_add, Z.odd_mul. cbn [Z.odd andb xorb].
    assert (Sa : stores (a' ++ [c]) []). { rewrite <- (app_nil_r (a' ++ [c])), <- app_assoc. eapply st_odd; [exact A|exact C|left; reflexivity]. }
    destruct (C84_piece scan packet es fd (a' ++ [c]) [] u CS O L P1 Na Sa) as [R1 R2]. split; [exact R1|].
    destruct (odd_digits (zlen b') b' qb ltac:(lia) B x w' X) as (t & c' & q & v' & Et & T & C').
    assert (Sb : stores b []). { rewrite Eb, E0, Et, <- app_assoc. eapply st_odd; [exact T|exact C'|right; reflexivity]. }
    destruct (C84_piece scan packet (es ++ [DClient fd (a' ++ [c]) u]) fd b [] v CS O L P2 Nb Sb) as [R3 _]. rewrite R3, R2. reflexivity.
Qed.
Print Assumptions C84_cut.
(** When every delivery is one line, the lines reach the bus in order, each at the
    start of a buffer that still holds the end of the packet before, from
    whichever client or from the bus itself. *)
Theorem C84_whole : forall scan packet es ps, c_scanner scan -> octets packet -> zlen packet = 56 -> possible [] es ->
  wires packet es ps -> bus_packets (snd (daemon_run scan (daemon_new packet) es)) = ps.
Proof.
  intros scan packet es ps CS O L P W.
  assert (G : forall b es ps, wires b es ps -> forall d conn, dm_packet d = b -> zlen b = 56 -> possible conn es ->
    bus_packets (snd (daemon_run scan d es)) = ps).
  { clear - CS. intros b es ps W. induction W as [b|b fd es ps W IH|b fd u es ps W IH|b data es ps W IH|b fd text o u es ps D W IH];
      intros d conn Hd L P; [reflexivity| | | |].
    all: cbn [possible] in P; destruct P as [P1 P]; cbn [daemon_run].
    - destruct (daemon_step scan d (DAccept fd)) as [d1 out] eqn:E. injection E as <- <-. 
      specialize (IH (mkdaemon (dm_packet d) (take_slot fd (dm_slots d)) (fd :: dm_active d)) _ Hd L P).
      destruct (daemon_run _ _ es). exact IH.
    - destruct (daemon_step scan d (DClient fd [] u)) as [d1 out] eqn:E. cbn in E. injection E as <- <-.
      specialize (IH (mkdaemon (dm_packet d) (free_slot fd (dm_slots d)) (filter (fun x => negb (x =? fd)) (dm_active d))) _ Hd L P).
      destruct (daemon_run _ _ es). exact IH.
    - destruct P1 as [Od Ld].
      destruct (daemon_step scan d (DBus data)) as [d1 out] eqn:E.
      assert (E1 : dm_packet d1 = over data b).
      { replace d1 with (fst (daemon_step scan d (DBus data))) by (rewrite E; reflexivity). cbn [daemon_step fst dm_packet].
        rewrite overlay_over, Hd. reflexivity. }
      specialize (IH d1 _ E1 ltac:(rewrite over_length; lia) P). destruct (daemon_run scan d1 es) as [d2 os].
      cbn [snd] in *. unfold bus_packets in *. cbn [flat_map]. rewrite IH.
      replace out with (snd (daemon_step scan d (DBus data))) by (rewrite E; reflexivity). rewrite bus_step by exact Od.
      generalize (live (dm_slots d)). intros l. induction l as [|x l Hl]; [reflexivity|exact Hl].
    - destruct P1 as (_ & _ & Lc & _).
      assert (N : text ++ [10] <> []) by (destruct text; discriminate).
      assert (L0 : zlen (dm_packet d) = 56) by (rewrite Hd; exact L).
      assert (S : stores (text ++ [10]) o) by (apply st_even; [exact D|right; reflexivity]).
      pose proof (stores_step scan d fd _ o u CS L0 N Lc S) as X. pose proof (step_packet scan d fd _ u N L0) as Y. rewrite X in Y.
      destruct (daemon_step scan d (DClient fd (text ++ [10]) u)) as [d1 out]. cbn [fst snd] in X, Y. rewrite Hd in X, Y.
      pose proof (denotes_len _ _ D) as Ld. rewrite zlen_app in Lc. change (zlen [10]) with 1 in Lc.
      specialize (IH d1 _ X ltac:(rewrite over_length; lia) P). destruct (daemon_run scan d1 es) as [d2 os].
      cbn [snd] in *. subst out. unfold bus_packets in *. cbn [flat_map app]. rewrite IH. reflexivity. }
  exact (G packet es ps W (daemon_new packet) [] eq_refl L P).
Qed.
Print Assumptions C84_whole.

(** "0113aa" and its line feed, cut after every character in turn, on a buffer
    that a bus packet has filled. *)
Example C84_example :
  let line := bytes_of "0113aa" ++ [10] in
  let es := [DAccept 7; DBus (repeat 0xEE 56)] in
  let twice k := bus_packets (snd (daemon_run ex_scan (daemon_new ex_packet)
    (es ++ [DClient 7 (firstn k line) ex_around; DClient 7 (skipn k line) ex_around]))) in
  let ee n := repeat 0xEE n in
  denotes (bytes_of "0113aa") [0x01; 0x13; 0xAA] /\
  possible [] (es ++ [DClient 7 (firstn 3 line) ex_around; DClient 7 (skipn 3 line) ex_around]) /\
  map twice [1; 2; 3; 4; 5; 6]%nat =
    [[ee 56%nat; ee 56%nat];
     [0x01 :: ee 55%nat; 0x13 :: 0xAA :: ee 54%nat];
     [ee 56%nat; ee 56%nat];
     [0x01 :: 0x13 :: ee 54%nat; 0xAA :: 0x13 :: ee 54%nat];
     [ee 56%nat; ee 56%nat];
     [0x01 :: 0x13 :: 0xAA :: ee 53%nat; 0x01 :: 0x13 :: 0xAA :: ee 53%nat]] /\
  wires ex_packet (es ++ [DClient 7 line ex_around]) [0x01 :: 0x13 :: 0xAA :: ee 53%nat] /\
  stores (bytes_of "113") [].
Proof.
  cbv zeta.
  assert (D : denotes (bytes_of "0113aa") [0x01; 0x13; 0xAA]).
  { change [0x01; 0x13; 0xAA] with [16 * 0 + 1; 16 * 1 + 3; 16 * 10 + 10]. repeat constructor; cbn; lia. }
  split; [exact D|]. split. { vm_compute. repeat split; try (octs; fail); try discriminate; auto. }
  split; [vm_compute; reflexivity|]. split.
  - cbn [app]. apply wires_accept, wires_bus.
    change (0x01 :: 0x13 :: 0xAA :: repeat 0xEE 53) with (over [0x01; 0x13; 0xAA] (over (repeat 0xEE 56) ex_packet)).
    apply wires_line; [exact D|constructor].
  - apply (st_odd (bytes_of "11") 51 3 [0x11] []); [|left; lia|left; reflexivity].
    change [0x11] with [16 * 1 + 1]. repeat constructor; cbn; lia.
Qed.
