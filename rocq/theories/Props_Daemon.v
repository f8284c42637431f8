(** C55-C58: the daemon. *)
From Coq Require Import String Ascii ZArith List Bool Lia ZifyBool Permutation.
From Verif Require Import Py Base Msg Address Dpt Tables LData Inet State Encode Decode Client Daemon.
From Verif Require Import SpecMsg SpecTables SpecWire SpecDecode SpecClient SpecDaemon.
From Verif Require Import MsgProofs TablesProofs AssocProofs EncodeProofs DecodeProofs IpProofs OctetsProofs ClientProofs DeliveryProofs DaemonProofs.
From Verif Require Import Props_Tables Props_Encode Props_Decode.
Import ListNotations.
Open Scope Z_scope.

(** ** The scanner, the buffer and the history of the examples *)

Definition ex_digit (c : Z) : option Z :=
  if (48 <=? c) && (c <=? 57) then Some (c - 48)
  else if (65 <=? c) && (c <=? 70) then Some (c - 55)
  else if (97 <=? c) && (c <=? 102) then Some (c - 87) else None.
Definition ex_pair (text : list Z) : option Z :=
  match text with
  | [] => None
  | [c] => ex_digit c
  | c1 :: c2 :: _ =>
      match ex_digit c1, ex_digit c2 with
      | Some h, Some l => Some (16 * h + l)
      | Some h, None => if (c1 =? 48) && ((c2 =? 88) || (c2 =? 120)) then None else Some h
      | None, _ => None
      end
  end.
Fixpoint ex_skip (text : list Z) : list Z :=
  match text with
  | c :: r => if (c =? 32) || ((9 <=? c) && (c <=? 13)) then ex_skip r else text
  | [] => []
  end.
Definition ex_scan (text : list Z) : option Z := ex_pair (ex_skip text).
Lemma ex_digit_spec c v : ex_digit c = Some v <-> hex_code c v.
Proof.
  unfold ex_digit, hex_code.
  destruct ((48 <=? c) && (c <=? 57)) eqn:A; [split; [intros [= <-]; lia|intros H; f_equal; lia]|].
  destruct ((65 <=? c) && (c <=? 70)) eqn:B; [split; [intros [= <-]; lia|intros H; f_equal; lia]|].
  destruct ((97 <=? c) && (c <=? 102)) eqn:C; [split; [intros [= <-]; lia|intros H; f_equal; lia]|].
  split; [discriminate|]. lia.
Qed.
Lemma ex_no_digit c : no_digit c -> ex_digit c = None.
Proof. intros H. destruct (ex_digit c) as [v|] eqn:E; [|reflexivity]. apply ex_digit_spec in E. exfalso. exact (H v E). Qed.
Lemma ex_skip_not c rest : ~ white c -> ex_skip (c :: rest) = c :: rest.
Proof. unfold white. intros H. cbn [ex_skip]. destruct ((c =? 32) || ((9 <=? c) && (c <=? 13))) eqn:E; [lia|reflexivity]. Qed.
Lemma hex_not_white c v : hex_code c v -> ~ white c.
Proof. unfold hex_code, white. lia. Qed.
Lemma ex_scanner : c_scanner ex_scan.
Proof.
  constructor; unfold ex_scan.
  - intros c1 c2 h l rest H1 H2. rewrite ex_skip_not by (eapply hex_not_white; exact H1).
    apply ex_digit_spec in H1. apply ex_digit_spec in H2. unfold ex_pair. rewrite H1, H2. reflexivity.
  - intros c1 c2 h rest H1 H2 N. rewrite ex_skip_not by (eapply hex_not_white; exact H1).
    apply ex_digit_spec in H1. unfold ex_pair. rewrite H1, (ex_no_digit _ H2).
    destruct ((c1 =? 48) && ((c2 =? 88) || (c2 =? 120))) eqn:E; [exfalso; apply N; lia|reflexivity].
  - intros c rest H W _ _. rewrite ex_skip_not by exact W. unfold ex_pair. rewrite (ex_no_digit _ H). destruct rest; reflexivity.
  - unfold white. intros c rest H. cbn [ex_skip]. destruct ((c =? 32) || ((9 <=? c) && (c <=? 13))) eqn:E; [reflexivity|lia].
  - intros text v. generalize (ex_skip text). clear text. intros text H. destruct text as [|c1 [|c2 rest]]; cbn [ex_pair] in H; [discriminate| |].
    + apply ex_digit_spec in H. pose proof (hex_range _ _ H). unfold is_octet. lia.
    + destruct (ex_digit c1) as [h|] eqn:E1; [|discriminate]. apply ex_digit_spec, hex_range in E1.
      destruct (ex_digit c2) as [l|] eqn:E2.
      * apply ex_digit_spec, hex_range in E2. injection H as <-. unfold is_octet. lia.
      * destruct ((c1 =? 48) && ((c2 =? 88) || (c2 =? 120))); [discriminate|]. injection H as <-. unfold is_octet. lia.
Qed.
Definition ex_packet : list Z := repeat 0xEE 56.
Lemma ex_packet_ok : octets ex_packet /\ zlen ex_packet = 56.
Proof. split; [|reflexivity]. unfold ex_packet. cbn [repeat]. repeat constructor; discriminate. Qed.
(** Clients 7 and 8 connect, 7 sends a line, a packet arrives, 7 leaves and its
    descriptor is used again for the next client. *)
Definition ex_line7 : list Z := bytes_of "0113" ++ [10].
Definition ex_around : around := mkaround 0 [0; 0x7F].
Definition ex_history : list devent :=
  [DAccept 7; DAccept 8; DClient 7 ex_line7 ex_around; DBus [0x01; 0x13; 0xFF]; DClient 7 [] ex_around; DAccept 7].
Ltac octs := repeat constructor; cbn; try discriminate.
Lemma ex_possible : possible [] ex_history.
Proof.
  cbn. repeat split; try lia; try (octs; fail); try (intros []; fail).
Qed.

(** ** C55 *)

(** Every access the daemon makes, at any point of any history, is inside its
    array, except the one before the text buffer when a client sends a lone
    line end. *)
Theorem C55_inside : forall scan packet es e, c_scanner scan -> octets packet -> zlen packet = 56 ->
  possible [] (es ++ [e]) ->
  Forall (fun a => inside a \/ (a = RdBuf (-1) /\ exists fd c u, e = DClient fd [c] u /\ line_end c))
         (daemon_trace scan (dafter scan packet es) e).
Proof.
  intros scan packet es e CS O L P. apply possible_snoc in P. destruct P as [P1 P2]. cbn [possible1] in P2.
  destruct e as [fd|data|fd chunk u]; cbn [daemon_trace].
  - constructor.
  - destruct P2 as [_ Ld]. apply (Forall_impl (P := inside)); [intros a H; left; exact H|]. apply Forall_app. split.
    + apply store_inside; [lia|]. exact Ld.
    + apply Forall_forall. intros a I. apply in_flat_map in I. destruct I as (x & _ & I).
      pose proof (zlen_nonneg data). pose proof (write_inside (zlen data) ltac:(lia)) as W. rewrite Forall_forall in W. apply W. exact I.
  - destruct P2 as (_ & _ & Lc & _). eapply Forall_impl; [|apply read_inside; exact Lc].
    intros a [H|[-> (c & -> & H)]]; [left; exact H|]. right. split; [reflexivity|]. exists fd, c, u. split; [reflexivity|exact H].
Qed.
Print Assumptions C55_inside.
(** That access does happen. *)
Theorem C55_before : forall scan d fd c u, line_end c -> In (RdBuf (-1)) (daemon_trace scan d (DClient fd [c] u)).
Proof. intros scan d fd c u H. apply lone_reads. exact H. Qed.
Print Assumptions C55_before.
(** The packet buffer never changes its size and never holds anything but
    octets. *)
Theorem C55_buffer : forall scan packet es, c_scanner scan -> octets packet -> zlen packet = 56 -> possible [] es ->
  zlen (dm_packet (dafter scan packet es)) = 56 /\ octets (dm_packet (dafter scan packet es)).
Proof.
  intros scan packet es CS O L P. pose proof (inv_history scan packet CS O L es P) as I.
  split; [exact (i_len _ _ _ I)|exact (i_oct _ _ _ I)].
Qed.
Print Assumptions C55_buffer.
(** What is written to the bus always has the size of the buffer. *)
Theorem C55_packets : forall scan packet es e p, c_scanner scan -> octets packet -> zlen packet = 56 ->
  possible [] (es ++ [e]) -> In (ToBus p) (answers scan packet es e) -> zlen p = 56 /\ octets p.
Proof.
  intros scan packet es e p CS O L P I. apply possible_snoc in P. destruct P as [P1 P2].
  pose proof (inv_history scan packet CS O L es P1) as V. unfold answers in I.
  destruct e as [fd|data|fd chunk u].
  - destruct I.
  - rewrite bus_step in I by apply P2. apply in_map_iff in I. destruct I as (x & E & _). discriminate E.
  - destruct chunk as [|x chunk]; [destruct I|]. rewrite client_step in I by discriminate. destruct I as [E|[]]. injection E as <-.
    destruct (read_buffer scan u (x :: chunk) (dm_packet (dafter scan packet es)) CS (i_oct _ _ _ V)) as [B1 B2].
    rewrite (i_len _ _ _ V) in B1. rewrite ztake_ge by lia. split; assumption.
Qed.
Print Assumptions C55_packets.
(** The accesses are all there: an octet of the packet buffer that a step changes
    is stored by one of them ... *)
Theorem C55_changes : forall scan d e k,
  nth_error (dm_packet (fst (daemon_step scan d e))) k <> nth_error (dm_packet d) k ->
  In (WrPkt (Z.of_nat k)) (daemon_trace scan d e).
Proof. exact step_changes. Qed.
Print Assumptions C55_changes.
(** ... a bus packet stores its octets and, when somebody is registered, all its
    digits, the line feed and the NUL of the last sprintf in its place before;
    nothing else ... *)
Theorem C55_bus : forall scan d data a, In a (daemon_trace scan d (DBus data)) <->
  (exists i, a = WrPkt i /\ 0 <= i < zlen data) \/
  (exists i, a = WrBuf i /\ 0 <= i <= 2 * zlen data /\ exists fd, In fd (dm_slots d) /\ 0 < fd).
Proof. exact bus_accesses. Qed.
Print Assumptions C55_bus.
(** ... and a line of digits looks at the two characters that may end it, begins
    to read at every second one, and stores one octet for each pair. *)
Theorem C55_line : forall scan d fd text o eol u a, c_scanner scan -> denotes text o -> o <> [] ->
  Forall line_end eol -> zlen eol <= 2 ->
  (In a (daemon_trace scan d (DClient fd (text ++ eol) u)) <->
   (exists i, (a = WrPkt i \/ a = RdBuf (2 * i)) /\ 0 <= i < zlen o) \/
   a = RdBuf (zlen (text ++ eol) - 1) \/ (a = RdBuf (zlen (text ++ eol) - 2) /\ eol <> [])).
Proof.
  intros scan d fd text o eol u a CS D N E L. apply line_accesses; try assumption; [split; assumption|].
  intros X. apply app_eq_nil in X. destruct X as [-> _]. inversion D. subst. contradiction.
Qed.
Print Assumptions C55_line.
Example C55_accesses_ex : denotes (bytes_of "011f") [1; 31] /\
  daemon_trace ex_scan (dafter ex_scan ex_packet ex_history) (DBus [7; 8]) =
    WrPkt 0 :: WrPkt 1 :: flat_map (fun _ => [WrBuf 0; WrBuf 1; WrBuf 2; WrBuf 2; WrBuf 3; WrBuf 4; WrBuf 4]) (registered ex_history) /\
  registered ex_history <> [] /\
  nth_error (dm_packet (fst (daemon_step ex_scan (dafter ex_scan ex_packet ex_history) (DBus [7; 8])))) 1 = Some 8 /\
  nth_error (dm_packet (dafter ex_scan ex_packet ex_history)) 1 <> Some 8.
Proof.
  split.
  { apply (denotes_pair 48 49 0 1 [49; 102] [31]); [left; lia|left; lia|].
    apply (denotes_pair 49 102 1 15 [] []); [left; lia|right; right; lia|constructor]. }
  split; [vm_compute; reflexivity|]. split; [vm_compute; discriminate|]. split; [vm_compute; reflexivity|vm_compute; discriminate].
Qed.
Example C55_ex : c_scanner ex_scan /\ octets ex_packet /\ zlen ex_packet = 56 /\ possible [] (ex_history ++ [DClient 7 [10] (mkaround 13 [])]) /\
  daemon_trace ex_scan (dafter ex_scan ex_packet ex_history) (DClient 7 [10] (mkaround 13 [])) = [RdBuf 0; RdBuf (-1)] /\
  daemon_trace ex_scan (dafter ex_scan ex_packet ex_history) (DClient 7 ex_line7 ex_around) =
    [RdBuf 4; RdBuf 3; RdBuf 0; WrPkt 0; RdBuf 2; WrPkt 1] /\
  answers ex_scan ex_packet ex_history (DClient 7 (bytes_of "011Z") ex_around) = [ToBus ([0x01; 0x01; 0xFF] ++ repeat 0xEE 53)].
Proof.
  split; [exact ex_scanner|]. split; [apply ex_packet_ok|]. split; [reflexivity|]. split.
  - apply possible_snoc. split; [exact ex_possible|]. cbn. split; [left; reflexivity|]. split; [octs|]. split; [discriminate|]. split; [split; [discriminate|reflexivity]|constructor].
  - repeat split; vm_compute; reflexivity.
Qed.

(** ** C56 *)

(** A bus packet is written, as lower-case hexadecimal with a line feed, once to
    each client that holds a place and to nobody else. *)
Theorem C56_broadcast : forall scan packet es data, c_scanner scan -> octets packet -> zlen packet = 56 ->
  possible [] (es ++ [DBus data]) ->
  Permutation (answers scan packet es (DBus data)) (map (fun fd => ToClient fd (lower_line data)) (registered es)).
Proof.
  intros scan packet es data CS O L P. apply possible_snoc in P. destruct P as [P1 P2].
  pose proof (inv_history scan packet CS O L es P1) as I. unfold answers. rewrite bus_step by apply P2.
  apply Permutation_map. exact (i_reg _ _ _ I).
Qed.
Print Assumptions C56_broadcast.
(** No client holds two places. *)
Theorem C56_once : forall scan packet es data fd, c_scanner scan -> octets packet -> zlen packet = 56 ->
  possible [] (es ++ [DBus data]) -> NoDup (registered es) /\
  (In (ToClient fd (lower_line data)) (answers scan packet es (DBus data)) <-> In fd (registered es)).
Proof.
  intros scan packet es data fd CS O L P. pose proof (C56_broadcast scan packet es data CS O L P) as B.
  apply possible_snoc in P. destruct P as [P1 P2]. pose proof (inv_history scan packet CS O L es P1) as I.
  split; [exact (i_nodup _ _ _ I)|]. split; intros H.
  - apply (Permutation_in _ B) in H. apply in_map_iff in H. destruct H as (x & E & H). injection E as ->. exact H.
  - apply (Permutation_in _ (Permutation_sym B)). apply in_map_iff. exists fd. split; [reflexivity|exact H].
Qed.
Print Assumptions C56_once.
(** Nothing else is ever written to a client. *)
Theorem C56_silent : forall scan packet es e fd text, (forall data, e <> DBus data) ->
  ~ In (ToClient fd text) (answers scan packet es e).
Proof.
  intros scan packet es e fd text N I. unfold answers in I. destruct e as [x|data|x chunk u].
  - destruct I.
  - exact (N data eq_refl).
  - destruct chunk as [|y chunk]; [destruct I|]. rewrite client_step in I by discriminate. destruct I as [E|[]]. discriminate E.
Qed.
Print Assumptions C56_silent.
(** A client that finds all places taken stays without one until it leaves,
    even when places become free. *)
Theorem C56_latecomer : forall es fd es', possible [] (es ++ DAccept fd :: es') -> zlen (registered es) = 64 ->
  Forall (fun e => leaves e <> Some fd) es' -> In fd (connected (es ++ DAccept fd :: es')) /\ ~ In fd (registered (es ++ DAccept fd :: es')).
Proof.
  intros es fd es' P F N. revert P. induction es' as [|e es' IH] using rev_ind; intros P.
  - apply possible_snoc in P. destruct P as [P1 [P2 P3]].
    pose proof (inv_history ex_scan ex_packet ex_scanner (proj1 ex_packet_ok) (proj2 ex_packet_ok) es P1) as I.
    rewrite connected_snoc, registered_snoc. cbn [connect1 register1]. split; [left; reflexivity|].
    rewrite F. cbn. intros J. apply P3, (i_incl _ _ _ I), J.
  - apply Forall_app in N. destruct N as [N1 N2]. pose proof (Forall_inv N2) as Ne.
    replace (es ++ DAccept fd :: es' ++ [e]) with ((es ++ DAccept fd :: es') ++ [e]) in * by (rewrite <- app_assoc; reflexivity).
    apply possible_snoc in P. destruct P as [P1 P2]. destruct (IH N1 P1) as [A B].
    rewrite connected_snoc, registered_snoc. destruct e as [x|data|x chunk u]; cbn [connect1 register1 leaves] in *.
    + split; [right; exact A|]. destruct (zlen _ <? 64); [|exact B]. intros J. apply in_app_or in J.
      destruct J as [J|[->|[]]]; [exact (B J)|]. apply (proj2 P2). exact A.
    + split; assumption.
    + destruct chunk as [|y chunk]; [|split; assumption]. split.
      * apply without_in. split; [exact A|]. intros ->. apply Ne. reflexivity.
      * intros J. apply without_in in J. apply B. tauto.
Qed.
Print Assumptions C56_latecomer.
(** What a client receives is what the python client reads as the same octets. *)
Theorem C56_text : forall data line, octets data -> bytes_of line = lower_line data -> make_from_str (line_text line) = Ok data.
Proof.
  intros data line O E.
  assert (H : line = String.append (bytes_hex data) newline).
  { rewrite <- (string_of_list_ascii_of_string line), <- (string_of_list_ascii_of_string (String.append _ _)). f_equal.
    assert (Inj : forall a b, map (fun c => Z.of_N (N_of_ascii c)) a = map (fun c => Z.of_N (N_of_ascii c)) b -> a = b).
    { induction a as [|x a IH]; intros [|y b] M; try discriminate M; [reflexivity|]. injection M as Mx Mr.
      f_equal; [|apply IH; exact Mr]. rewrite <- (ascii_N_embedding x), <- (ascii_N_embedding y). f_equal. lia. }
    apply Inj. unfold bytes_of in E. rewrite E. unfold lower_line. clear -O.
    induction O as [|x data X O IH]; [reflexivity|].
    cbn [flat_map bytes_hex String.append list_ascii_of_string map app]. rewrite <- IH.
    destruct (nibbles _ X) as (A & B & _). rewrite <- !lower_hexchar by assumption.
    f_equal; [|f_equal]; unfold hexdigit_lower, hexchar; destruct (_ <? 10) eqn:Y; rewrite N_ascii_embedding by lia; lia. }
  rewrite H, text_newline. apply bytes_hex_parse. exact O.
Qed.
Print Assumptions C56_text.
(** So the python client makes of the line what decode_msg makes of the packet. *)
Theorem C56_client : forall st data line l, octets data -> bytes_of line = lower_line data ->
  fst (decode_msg CPlain data st) = Ok (RList l) -> forallb displayable l = true -> line_result st line = Ok (RList l).
Proof.
  intros st data line l O E D F. unfold line_result. rewrite (C56_text _ _ O E). cbn [rbind]. rewrite D. cbn [rbind]. rewrite F. reflexivity.
Qed.
Print Assumptions C56_client.
(** 64 clients, then one more. *)
Definition ex_crowd : list devent := map (fun n => DAccept (Z.of_nat n)) (seq 10 64).
Example C56_ex : registered ex_history = [8; 7] /\
  answers ex_scan ex_packet ex_history (DBus [0x01; 0xAB]) =
    [ToClient 7 (bytes_of "01ab" ++ [10]); ToClient 8 (bytes_of "01ab" ++ [10])] /\
  zlen (registered ex_crowd) = 64 /\ connected (ex_crowd ++ [DAccept 99; DClient 20 [] ex_around]) <> connected ex_crowd /\
  ~ In 99 (registered (ex_crowd ++ [DAccept 99; DClient 20 [] ex_around])) /\
  exists line, bytes_of line = lower_line [0x01; 0xAB].
Proof.
  split; [reflexivity|]. split; [vm_compute; reflexivity|]. split; [reflexivity|]. split; [vm_compute; discriminate|]. split.
  - vm_compute. intuition discriminate.
  - exists (String.append "01ab" newline). reflexivity.
Qed.

(** ** C57 *)

(** A line of digits makes one bus packet: its octets, then what the buffer held
    before. *)
Theorem C57_line : forall scan packet es fd text o eol u, c_scanner scan -> octets packet -> zlen packet = 56 ->
  possible [] (es ++ [DClient fd (text ++ eol) u]) -> denotes text o -> Forall line_end eol -> zlen eol <= 2 -> text ++ eol <> [] ->
  let before := dm_packet (dafter scan packet es) in
  answers scan packet es (DClient fd (text ++ eol) u) = [ToBus (o ++ skipn (length o) before)] /\
  dm_packet (dafter scan packet (es ++ [DClient fd (text ++ eol) u])) = o ++ skipn (length o) before.
Proof.
  intros scan packet es fd text o eol u CS O L P D E Le N. apply possible_snoc in P. destruct P as [P1 (_ & _ & P2 & _)].
  pose proof (inv_history scan packet CS O L es P1) as I. cbv zeta.
  pose proof (denotes_len _ _ D) as Ld. rewrite zlen_app in P2. pose proof (zlen_nonneg eol).
  assert (Lo : zlen o <= zlen (dm_packet (dafter scan packet es))) by (rewrite (i_len _ _ _ I); lia).
  destruct (line_read scan u text o eol _ CS D (conj E Le) N Lo) as (r & R & X).
  unfold answers, dafter. rewrite run_snoc. fold (dafter scan packet es). rewrite client_step by exact N. rewrite X.
  cbn [fst snd dm_packet]. split; [|reflexivity]. rewrite ztake_ge; [reflexivity|]. rewrite over_length by exact Lo. rewrite (i_len _ _ _ I). lia.
Qed.
Print Assumptions C57_line.
(** A line with an odd number of characters sends the previous packet again. *)
Theorem C57_odd : forall scan packet es fd text x eol u, c_scanner scan -> octets packet -> zlen packet = 56 ->
  possible [] (es ++ [DClient fd ((text ++ [x]) ++ eol) u]) -> ~ line_end x -> Forall line_end eol -> zlen eol <= 2 ->
  Z.odd (zlen (text ++ [x])) = true ->
  answers scan packet es (DClient fd ((text ++ [x]) ++ eol) u) = [ToBus (dm_packet (dafter scan packet es))] /\
  dm_packet (dafter scan packet (es ++ [DClient fd ((text ++ [x]) ++ eol) u])) = dm_packet (dafter scan packet es).
Proof.
  intros scan packet es fd text x eol u CS O L P N E Le Od. apply possible_snoc in P. destruct P as [P1 _].
  pose proof (inv_history scan packet CS O L es P1) as I.
  assert (Ne : (text ++ [x]) ++ eol <> []) by (destruct text; discriminate).
  unfold answers, dafter. rewrite run_snoc. fold (dafter scan packet es). rewrite client_step by exact Ne.
  rewrite odd_read by (try assumption; split; assumption).
  cbn [fst snd dm_packet]. split; [|reflexivity]. rewrite ztake_ge; [reflexivity|]. rewrite (i_len _ _ _ I). lia.
Qed.
Print Assumptions C57_odd.
(** Two lines that arrive in one piece are both lost; the previous packet is sent
    again instead. *)
Theorem C57_two_lines : forall scan packet es fd t1 o1 t2 o2 u, c_scanner scan -> octets packet -> zlen packet = 56 ->
  possible [] (es ++ [DClient fd (t1 ++ [10] ++ t2 ++ [10]) u]) -> denotes t1 o1 -> denotes t2 o2 -> o2 <> [] ->
  answers scan packet es (DClient fd (t1 ++ [10] ++ t2 ++ [10]) u) = [ToBus (dm_packet (dafter scan packet es))].
Proof.
  intros scan packet es fd t1 o1 t2 o2 u CS O L P D1 D2 N.
  assert (T : t2 <> []) by (intros ->; inversion D2; subst; contradiction).
  destruct (exists_last T) as (t & x & Et).
  assert (Nx : ~ line_end x) by (intros X; apply eol_spec in X; rewrite (denotes_last _ _ D2 _ _ Et) in X; discriminate).
  replace (t1 ++ [10] ++ t2 ++ [10]) with (((t1 ++ [10] ++ t) ++ [x]) ++ [10]) in * by (rewrite Et, <- !app_assoc; reflexivity).
  apply (C57_odd scan packet es fd _ x [10] u CS O L P Nx).
  - repeat constructor.
  - discriminate.
  - pose proof (denotes_len _ _ D1) as L1. pose proof (denotes_len _ _ D2) as L2. rewrite Et, zlen_app in L2. change (zlen [x]) with 1 in L2.
    rewrite !zlen_app. change (zlen [x]) with 1. change (zlen [10]) with 1.
    replace (zlen t1 + (1 + zlen t) + 1) with (1 + 2 * (zlen o1 + zlen o2)) by lia. rewrite Z.odd_add, Z.odd_mul. reflexivity.
Qed.
Print Assumptions C57_two_lines.
(** The first piece of a line of more than 56 octets is refused as well. *)
Theorem C57_long : forall scan packet es fd text o u, c_scanner scan -> octets packet -> zlen packet = 56 ->
  possible [] (es ++ [DClient fd (ztake 113 text) u]) -> denotes text o -> 56 < zlen o ->
  answers scan packet es (DClient fd (ztake 113 text) u) = [ToBus (dm_packet (dafter scan packet es))].
Proof.
  intros scan packet es fd text o u CS O L P D Lo. pose proof (denotes_len _ _ D) as Lt.
  assert (Lz : zlen (ztake 113 text) = 113) by (rewrite zlen_ztake; lia).
  assert (T : ztake 113 text <> []) by (intros X; rewrite X in Lz; discriminate Lz).
  destruct (exists_last T) as (t & x & Et).
  assert (Hx : forall y, In y text -> ~ line_end y).
  { clear -D. induction D as [|c1 c2 h l text o H1 H2 D IH]; intros y I; [destruct I|].
    destruct I as [<-|[<-|I]]; [| |apply IH; exact I]; intros X; apply eol_spec in X;
      [rewrite (hex_not_eol _ _ H1) in X|rewrite (hex_not_eol _ _ H2) in X]; discriminate. }
  assert (Nx : ~ line_end x).
  { apply Hx. rewrite <- (ztake_zdrop 113 text), Et. apply in_or_app. left. apply in_or_app. right. left. reflexivity. }
  replace (ztake 113 text) with ((t ++ [x]) ++ []) in * by (rewrite app_nil_r; symmetry; exact Et).
  apply (C57_odd scan packet es fd t x [] u CS O L P Nx); [constructor|discriminate|].
  rewrite app_nil_r in Lz. rewrite Lz. reflexivity.
Qed.
Print Assumptions C57_long.
(** A line with a bad pair: the octets before it and the previous content after
    them are sent all the same. *)
Theorem C57_bad : forall scan packet es fd text o c rest x eol u, c_scanner scan -> octets packet -> zlen packet = 56 ->
  possible [] (es ++ [DClient fd ((text ++ c :: rest ++ [x]) ++ eol) u]) ->
  denotes text o -> no_digit c -> ~ white c -> c <> 43 -> c <> 45 -> ~ line_end x -> Forall line_end eol -> zlen eol <= 2 ->
  Z.odd (zlen (text ++ c :: rest ++ [x])) = false ->
  answers scan packet es (DClient fd ((text ++ c :: rest ++ [x]) ++ eol) u) =
    [ToBus (o ++ skipn (length o) (dm_packet (dafter scan packet es)))].
Proof.
  intros scan packet es fd text o c rest x eol u CS O L P D H1 H2 H3 H4 N E Le Od.
  apply possible_snoc in P. destruct P as [P1 (_ & _ & P2 & _)].
  pose proof (inv_history scan packet CS O L es P1) as I.
  assert (Ne : (text ++ c :: rest ++ [x]) ++ eol <> []) by (destruct text; discriminate).
  pose proof (denotes_len _ _ D) as Ld. rewrite !zlen_app in P2. pose proof (zlen_nonneg eol). pose proof (zlen_nonneg (c :: rest ++ [x])).
  assert (Lo : zlen o <= zlen (dm_packet (dafter scan packet es))) by (rewrite (i_len _ _ _ I); lia).
  unfold answers. rewrite client_step by exact Ne. rewrite (bad_read scan u text o) by (try assumption; split; assumption).
  cbn [fst snd]. rewrite ztake_ge; [reflexivity|]. rewrite over_length by exact Lo. rewrite (i_len _ _ _ I). lia.
Qed.
Print Assumptions C57_bad.
(** A message of the python client reaches the bus and means there what it meant
    when it was encoded, whatever the buffer held before. *)
Theorem C57_client : forall scan packet es fd u m st frame line, c_scanner scan -> octets packet -> zlen packet = 56 ->
  st_medium st = Usb_hid -> link_request m = true -> fst (encode_msg m st) = Ok frame -> zlen frame <= 56 ->
  line = String.append (msg_str frame) newline -> possible [] (es ++ [DClient fd (bytes_of line) u]) ->
  exists p, answers scan packet es (DClient fd (bytes_of line) u) = [ToBus p] /\ zlen p = 56 /\ firstn (length frame) p = frame /\
    forall c st', st_medium st' = Usb_hid -> decode_msg c p st' = decode_msg c frame st'.
Proof.
  intros scan packet es fd u m st frame line CS O L Md Lr En Lf -> P.
  pose proof (encoded_octets _ _ _ En) as Of.
  assert (B : bytes_of (String.append (msg_str frame) newline) = bytes_of (msg_str frame) ++ [10]).
  { unfold bytes_of. rewrite list_ascii_app, map_app. reflexivity. }
  assert (D : denotes (bytes_of (msg_str frame)) frame).
  { clear -Of. induction Of as [|x frame X Of IH]; [constructor|].
    destruct (nibbles _ X) as (A & C & E).
    change (bytes_of (msg_str (x :: frame))) with
      (Z.of_N (N_of_ascii (hexdigit (x / 16))) :: Z.of_N (N_of_ascii (hexdigit (x mod 16))) :: bytes_of (msg_str frame)).
    rewrite E at 3. constructor; [| |exact IH].
    - unfold hexdigit, hex_code. destruct (x / 16 <? 10) eqn:Y; rewrite N_ascii_embedding by lia; lia.
    - unfold hexdigit, hex_code. destruct (x mod 16 <? 10) eqn:Y; rewrite N_ascii_embedding by lia; lia. }
  rewrite B in *.
  destruct (C57_line scan packet es fd _ frame [10] u CS O L P D) as [R _]; [repeat constructor|discriminate|destruct (bytes_of (msg_str frame)); discriminate|].
  eexists. split; [exact R|].
  apply possible_snoc in P. destruct P as [P1 _]. pose proof (inv_history scan packet CS O L es P1) as I.
  split; [|split].
  - pose proof (over_length frame (dm_packet (dafter scan packet es))) as X. unfold over in X. rewrite X; rewrite (i_len _ _ _ I); [reflexivity|exact Lf].
  - rewrite firstn_app, firstn_all, Nat.sub_diag. cbn [firstn]. apply app_nil_r.
  - intros c st' Ms. destruct (request_cemi m st Lr) as [r Hr]. specialize (Hr Usb_hid).
    assert (Es : on_medium Usb_hid st = st) by (destruct st; cbn in *; rewrite <- Md; reflexivity).
    rewrite Es, En in Hr. destruct r as [cemi|e]; [|discriminate Hr]. cbn [rbind] in Hr. unfold wire in Hr. rewrite Md in Hr.
    injection Hr as Hr. generalize (skipn (length frame) (dm_packet (dafter scan packet es))). intros pad.
    rewrite Hr. unfold usb_report. apply (C27_padding c st' _ _ _ _ pad Ms).
    cbn [be app]. rewrite ?zlen_cons. pose proof (zlen_nonneg cemi). lia.
Qed.
Print Assumptions C57_client.
(** A digit followed by a character that is none counts as an octet of its own. *)
Theorem C57_lenient : forall scan packet es fd c1 c2 h u, c_scanner scan -> octets packet -> zlen packet = 56 ->
  possible [] (es ++ [DClient fd [c1; c2; 10] u]) -> hex_code c1 h -> no_digit c2 -> ~ line_end c2 ->
  ~ (c1 = 48 /\ (c2 = 88 \/ c2 = 120)) ->
  answers scan packet es (DClient fd [c1; c2; 10] u) = [ToBus (h :: skipn 1 (dm_packet (dafter scan packet es)))].
Proof.
  intros scan packet es fd c1 c2 h u CS O L P H1 H2 H3 H4. apply possible_snoc in P. destruct P as [P1 _].
  pose proof (inv_history scan packet CS O L es P1) as I. pose proof (i_len _ _ _ I) as Lp.
  unfold answers. rewrite client_step by discriminate.
  destruct (read_steps scan u [c1; c2; 10] (dm_packet (dafter scan packet es)) ltac:(discriminate)) as (t1 & _ & ->).
  pose proof (stripped_one u [c1] c2 10 H3 (or_introl eq_refl)) as S. cbn [app] in S. rewrite S. change (zlen [c1] + 1) with 2.
  change (Z.rem 2 2 =? 0) with true. change (Z.to_nat (Z.quot 2 2)) with 1%nat. cbn [negb parse_loop]. change (0 * 2) with 0. rewrite zdrop_0.
  cbn [app]. rewrite (scan_one _ CS c1 c2 h _ H1 H2 H4).
  destruct (dm_packet (dafter scan packet es)) as [|y p]; [discriminate Lp|]. cbn [fst snd skipn upd Z.eqb].
  rewrite ztake_ge; [reflexivity|]. rewrite zlen_cons in *. lia.
Qed.
Print Assumptions C57_lenient.
(** The line of the python client in the second example is a write request of
    24 octets. *)
Definition ex_write : message := MGroupValueWriteReq (mkasap 2 None) (mkdpt Value_Temp 0x0C1A).
Definition ex_usb_line : string :=
  match fst (encode_msg ex_write (ex_st Usb_hid)) with Ok b => String.append (msg_str b) newline | Err _ => newline end.
Example C57_ex :
  denotes (bytes_of "01aF") [0x01; 0xAF] /\
  possible [] (ex_history ++ [DClient 7 (bytes_of "01aF" ++ [13; 10]) ex_around]) /\
  answers ex_scan ex_packet ex_history (DClient 7 (bytes_of "01aF" ++ [13; 10]) ex_around) = [ToBus ([0x01; 0xAF; 0xFF] ++ repeat 0xEE 53)] /\
  answers ex_scan ex_packet ex_history (DClient 7 (bytes_of "02g3" ++ [10]) ex_around) = [ToBus ([0x02; 0x13; 0xFF] ++ repeat 0xEE 53)] /\
  answers ex_scan ex_packet ex_history (DClient 7 (bytes_of "4Z" ++ [10]) ex_around) = [ToBus ([0x04; 0x13; 0xFF] ++ repeat 0xEE 53)] /\
  answers ex_scan ex_packet ex_history (DClient 7 (bytes_of "0A" ++ [10] ++ bytes_of "0B" ++ [10]) ex_around) =
    [ToBus ([0x01; 0x13; 0xFF] ++ repeat 0xEE 53)] /\
  link_request ex_write = true /\ possible [] (ex_history ++ [DClient 7 (bytes_of ex_usb_line) ex_around]) /\
  exists frame, fst (encode_msg ex_write (ex_st Usb_hid)) = Ok frame /\ zlen frame = 24 /\
    answers ex_scan ex_packet ex_history (DClient 7 (bytes_of ex_usb_line) ex_around) = [ToBus (frame ++ repeat 0xEE 32)].
Proof.
  split. { change [0x01; 0xAF] with [16 * 0 + 1; 16 * 10 + 15]. repeat constructor; cbn; lia. }
  split. { apply possible_snoc. split; [exact ex_possible|]. cbn. repeat split; try (octs; fail); try lia. }
  do 4 (split; [vm_compute; reflexivity|]). split; [reflexivity|].
  split. { apply possible_snoc. split; [exact ex_possible|]. vm_compute. repeat split; try (octs; fail); try discriminate. }
  eexists. split; [vm_compute; reflexivity|]. split; reflexivity.
Qed.

(** ** C58 *)

(** There are always 64 slots; those in use hold, each once, the registered
    clients, of which there are at most 64. *)
Theorem C58_slots : forall scan packet es, c_scanner scan -> octets packet -> zlen packet = 56 -> possible [] es ->
  let slots := dm_slots (dafter scan packet es) in
  zlen slots = 64 /\ zlen (registered es) <= 64 /\ NoDup (filter (fun x => negb (x =? -1)) slots) /\
  (forall fd, fd <> -1 -> (In fd slots <-> In fd (registered es))).
Proof.
  intros scan packet es CS O L P. pose proof (inv_history scan packet CS O L es P) as I. cbv zeta.
  assert (E : filter (fun x => negb (x =? -1)) (dm_slots (dafter scan packet es)) = live (dm_slots (dafter scan packet es))).
  { pose proof (i_kind _ _ _ I) as K. induction K as [|x l S K IH]; [reflexivity|]. unfold live in *. cbn [filter].
    rewrite IH. destruct S as [->|S]; [reflexivity|]. replace (x >? 0) with true by lia. replace (x =? -1) with false by lia. reflexivity. }
  split; [exact (i_slots _ _ _ I)|]. split; [|split].
  - pose proof (Permutation_length (i_reg _ _ _ I)). pose proof (live_le (dm_slots (dafter scan packet es))). pose proof (i_slots _ _ _ I). unfold zlen in *. lia.
  - rewrite E. apply (Permutation_NoDup (Permutation_sym (i_reg _ _ _ I))). exact (i_nodup _ _ _ I).
  - intros fd N. split; intros H.
    + apply (Permutation_in _ (i_reg _ _ _ I)). rewrite <- E. apply filter_In. split; [exact H|lia].
    + apply (Permutation_in _ (Permutation_sym (i_reg _ _ _ I))) in H. apply live_in in H. tauto.
Qed.
Print Assumptions C58_slots.
(** A new client takes the first free slot, if there is one. *)
Theorem C58_accept : forall scan packet es fd, c_scanner scan -> octets packet -> zlen packet = 56 -> possible [] (es ++ [DAccept fd]) ->
  let slots := dm_slots (dafter scan packet es) in
  let slots' := dm_slots (dafter scan packet (es ++ [DAccept fd])) in
  (exists pre post, slots = pre ++ -1 :: post /\ ~ In (-1) pre /\ slots' = pre ++ fd :: post) \/
  (~ In (-1) slots /\ slots' = slots).
Proof.
  intros scan packet es fd CS O L P. apply possible_snoc in P. destruct P as [P1 [P2 P3]].
  pose proof (inv_history scan packet CS O L es P1) as I. cbv zeta. unfold dafter at 2 4. rewrite run_snoc. fold (dafter scan packet es).
  cbn [daemon_step fst dm_slots].
  destruct (accept_slots _ _ _ fd I P2 P3) as [(pre & post & E & Np & _ & T)|(N & _ & T)].
  - left. exists pre, post. split; [exact E|]. split; [exact Np|exact T].
  - right. split; [exact N|exact T].
Qed.
Print Assumptions C58_accept.
(** A leaving client frees its slot and no other. *)
Theorem C58_leave : forall scan packet es fd u, c_scanner scan -> octets packet -> zlen packet = 56 -> possible [] (es ++ [DClient fd [] u]) ->
  let slots := dm_slots (dafter scan packet es) in
  let slots' := dm_slots (dafter scan packet (es ++ [DClient fd [] u])) in
  (exists pre post, slots = pre ++ fd :: post /\ ~ In fd (pre ++ post) /\ slots' = pre ++ -1 :: post) \/
  (~ In fd slots /\ slots' = slots).
Proof.
  intros scan packet es fd u CS O L P. apply possible_snoc in P. destruct P as [P1 [P2 P3]].
  pose proof (inv_history scan packet CS O L es P1) as I. cbv zeta. unfold dafter at 2 4. rewrite run_snoc. fold (dafter scan packet es).
  change (dm_slots (fst (daemon_step scan (dafter scan packet es) (DClient fd [] u)))) with (free_slot fd (dm_slots (dafter scan packet es))).
  assert (Pf : 0 < fd) by (pose proof (i_pos _ _ _ I) as F; rewrite Forall_forall in F; apply F; exact P2).
  destruct (in_dec Z.eq_dec fd (dm_slots (dafter scan packet es))) as [J|J].
  - left. destruct (first_in _ _ J) as (pre & post & E & Np). destruct (slot_once _ _ _ fd pre post I Pf E) as [_ Nq].
    exists pre, post. split; [exact E|]. split; [intros X; apply in_app_or in X; tauto|]. rewrite E. apply free_first. exact Np.
  - right. split; [exact J|apply free_none; exact J].
Qed.
Print Assumptions C58_leave.
(** Nothing else changes the slots. *)
Theorem C58_others : forall scan packet es e, (forall fd, e <> DAccept fd) -> leaves e = None ->
  dm_slots (dafter scan packet (es ++ [e])) = dm_slots (dafter scan packet es).
Proof.
  intros scan packet es e N V. unfold dafter. rewrite run_snoc. fold (dafter scan packet es). destruct e as [fd|data|fd chunk u].
  - exfalso. exact (N fd eq_refl).
  - reflexivity.
  - destruct chunk as [|x chunk]; [discriminate V|]. rewrite client_step by discriminate. reflexivity.
Qed.
Print Assumptions C58_others.
(** The set that select() watches is exactly the set of connected clients. *)
Theorem C58_watched : forall scan packet es, c_scanner scan -> octets packet -> zlen packet = 56 -> possible [] es ->
  dm_active (dafter scan packet es) = connected es /\ incl (registered es) (connected es).
Proof.
  intros scan packet es CS O L P. pose proof (inv_history scan packet CS O L es P) as I.
  split; [exact (i_conn _ _ _ I)|exact (i_incl _ _ _ I)].
Qed.
Print Assumptions C58_watched.
Example C58_ex : possible [] ex_history /\ dm_slots (dafter ex_scan ex_packet ex_history) = [7; 8] ++ repeat (-1) 62 /\
  dm_slots (dafter ex_scan ex_packet (firstn 5 ex_history)) = [-1; 8] ++ repeat (-1) 62.
Proof. split; [exact ex_possible|]. split; vm_compute; reflexivity. Qed.
