(** C89: the stream of bytes between the daemon and the reader. *)
From Coq Require Import String Ascii ZArith List Bool Lia ZifyBool Permutation.
From Verif Require Import Py Base Msg Address Dpt Tables LData Inet State Encode Decode Client ClientStream Daemon.
From Verif Require Import SpecMsg SpecTables SpecWire SpecDecode SpecClient SpecDaemon SpecStream.
From Verif Require Import ClientProofs DeliveryProofs DaemonProofs StreamProofs.
From Verif Require Import Props_Decode Props_Client Props_Daemon.
Import ListNotations.
Open Scope Z_scope.

(** In whatever pieces the bytes arrive, and whenever the reader looks: what it
    has reported are the results of the first lines, up to the first failure. *)
Theorem C89_order : forall st msgs es ls rest ts, st_medium st = Usb_hid -> Forall (fun m => is_ack_message m = false) msgs -> open_still es ->
  bytes_in es = concat ls ++ rest -> Forall a_line ls -> ~ In 10 rest -> zlen rest <= 65536 -> Forall2 text_is ls ts ->
  exists k, usb_reads (snd (sd_run (sd_new st msgs) es)) = until_failure (map (line_result st) (firstn k ts)).
Proof.
  intros st msgs es ls rest ts M N O R F Nr Lr T.
  destruct (reads_cases st msgs es ls rest ts M N O F R (stuck_end _ Nr) T) as [(done & more & -> & E & _)|(_ & _ & _ & t & m & -> & _ & L)].
  - exists (length done). rewrite firstn_app, firstn_all, Nat.sub_diag, firstn_O, app_nil_r. exact E.
  - exfalso. rewrite zlen_app in Lr. pose proof (zlen_nonneg m). lia.
Qed.
Print Assumptions C89_order.
(** Once it has looked more often than there are lines, it has reported them all. *)
Theorem C89_all : forall st msgs es ls rest ts n, st_medium st = Usb_hid -> Forall (fun m => is_ack_message m = false) msgs -> open_still es ->
  bytes_in es = concat ls ++ rest -> Forall a_line ls -> ~ In 10 rest -> zlen rest <= 65536 -> Forall2 text_is ls ts -> (length ls < n)%nat ->
  usb_reads (snd (sd_run (sd_new st msgs) (es ++ repeat SvRead n))) = until_failure (map (line_result st) ts).
Proof.
  intros st msgs es ls rest ts n M N O R F Nr Lr T L.
  destruct (reads_all st msgs es ls rest ts n M N O F R (stuck_end _ Nr) T L) as [(E & _)|(_ & _ & _ & t & m & -> & _ & X)]; [exact E|].
  exfalso. rewrite zlen_app in Lr. pose proof (zlen_nonneg m). lia.
Qed.
Print Assumptions C89_all.
(** More than 65536 bytes without a line feed end the reader with ValueError,
    when the lines before did not. *)
Theorem C89_long : forall st msgs es ls text more ts n, st_medium st = Usb_hid -> Forall (fun m => is_ack_message m = false) msgs -> open_still es ->
  bytes_in es = concat ls ++ text ++ more -> Forall a_line ls -> ~ In 10 text -> 65536 < zlen text -> Forall2 text_is ls ts ->
  (forall t, In t ts -> exists data, line_result st t = Ok data) -> (length ls < n)%nat ->
  usb_reads (snd (sd_run (sd_new st msgs) (es ++ repeat SvRead n))) = map (line_result st) ts ++ [Err ValueError].
Proof.
  intros st msgs es ls text more ts n M N O R F Nr Lr T G L.
  assert (Fl : fails st ts = false).
  { unfold fails. destruct (existsb _ _) eqn:E; [|reflexivity]. apply existsb_exists in E. destruct E as (r & I & E). apply in_map_iff in I.
    destruct I as (t & <- & I). destruct (G t I) as [d D]. rewrite D in E. discriminate E. }
  destruct (reads_all st msgs es ls (text ++ more) ts n M N O F R (stuck_long _ _ Nr Lr) T L) as [(_ & _ & X)|(_ & E & _)]; [|exact E].
  exfalso. destruct (X Fl) as (_ & A & B). rewrite zlen_app in B. pose proof (zlen_nonneg more). lia.
Qed.
Print Assumptions C89_long.
Lemma nothing_ends st : st_medium st = Usb_hid -> line_result st "" = Err IndexError.
Proof. intros M. unfold line_result. cbn. unfold decode_msg. rewrite M. reflexivity. Qed.
Lemma sd_run_reads : forall a x b, usb_reads (snd (sd_run x (a ++ b))) = usb_reads (snd (sd_run x a)) ++ usb_reads (snd (sd_run (fst (sd_run x a)) b)).
Proof.
  induction a as [|e a IH]; intros x b; [reflexivity|]. cbn [app sd_run]. destruct (sd_step x e) as [x1 o]. specialize (IH x1 b).
  destruct (sd_run x1 (a ++ b)), (sd_run x1 a). cbn [fst snd] in *. unfold usb_reads in *. cbn [flat_map]. rewrite IH, <- app_assoc. reflexivity.
Qed.
(** When the connection ends, what is left counts as a line, its last character
    is cut off, and the reader ends: with the failure of that line, otherwise
    with IndexError. *)
Theorem C89_end : forall st msgs es ls rest ts t n, st_medium st = Usb_hid -> Forall (fun m => is_ack_message m = false) msgs -> open_still es ->
  bytes_in es = concat ls ++ rest -> Forall a_line ls -> ~ In 10 rest -> zlen rest <= 65536 -> Forall2 text_is ls ts -> text_is rest t ->
  (length ls < n)%nat ->
  usb_reads (snd (sd_run (sd_new st msgs) ((es ++ repeat SvRead n) ++ [SvEnd; SvRead; SvRead]))) =
  until_failure (map (line_result st) ts ++ [line_result st t; Err IndexError]).
Proof.
  intros st msgs es ls rest ts t n M N O R F Nr Lr T Tt L.
  destruct (reads_all st msgs es ls rest ts n M N O F R (stuck_end _ Nr) T L) as [(E & A & B)|(_ & _ & _ & u & m & -> & _ & X)].
  2: { exfalso. rewrite zlen_app in Lr. pose proof (zlen_nonneg m). lia. }
  pose proof (open_looks n es O) as O1. destruct (taken_off_all st msgs _ O1) as (ls1 & r1 & es' & _ & _ & _ & _ & C).
  rewrite sd_run_reads. set (x := fst (sd_run (sd_new st msgs) (es ++ repeat SvRead n))) in *.
  set (os := snd (sd_run (sd_new st msgs) (es ++ repeat SvRead n))) in *.
  destruct (fails st ts) eqn:Fl.
  - unfold fails in Fl. rewrite until_failed by exact Fl. rewrite E. rewrite <- (app_nil_r (until_failure _)) at 2. f_equal. clear -A.
    cbn [sd_run sd_step sd_client]. destruct (u_reader (sd_client x)) eqn:D; [|destruct A as [A _]; discriminate (A eq_refl)]. cbn [sd_client fst snd]. rewrite D. reflexivity.
  - assert (Al : u_reader (sd_client x) = None) by (apply A; reflexivity). destruct (B eq_refl) as (Bx & _ & _).
    destruct C as [(C1 & C2 & _)|(_ & C2 & _)]; [|congruence].
    unfold fails in Fl. rewrite until_fine by exact Fl. rewrite E, until_all by exact Fl. f_equal.
    pose proof (decoded_text _ _ Tt) as Dt.
    destruct (usb_history st msgs M N es') as (Ag & _). rewrite <- C1 in Ag.
    assert (Rd : readline rest true = (Some (Ok rest), [])).
    { unfold readline. pose proof Nr as Q. apply find_lf_none in Q. rewrite Q. unfold stream_limit, zlen in *. destruct (_ >? _) eqn:Y; [lia|reflexivity]. }
    cbn [sd_run sd_step sd_client sd_buf sd_eof]. rewrite Al, Bx, Rd, Dt. cbn [usb_step]. rewrite Al.
    destruct (usb_read_spec st (u_state (sd_client x)) t M Ag) as [Q1 Q2]. destruct (usb_read t (u_state (sd_client x))) as [r s1]. cbn [fst snd] in Q1, Q2. subst r.
    cbn [sd_client sd_buf sd_eof u_reader]. destruct (line_result st t) as [d|e]; [|reflexivity].
    cbn [u_reader readline find_lf length]. cbv iota beta. change (decoded []) with ""%string. cbn [u_state].
    destruct (usb_read_spec st s1 "" M Q2) as [Q3 _]. rewrite (nothing_ends st M) in Q3.
    change (Z.of_nat 0 >? stream_limit) with false. cbv iota. change (decoded []) with ""%string. destruct (usb_read "" s1) as [r2 s2]. cbn [fst] in Q3. subst r2. reflexivity.
Qed.
Print Assumptions C89_end.
(** What arrives after the end changes nothing. *)
Theorem C89_closed : forall st msgs es1 es2, let x := sd_new st msgs in
  let quiet := filter (fun e => match e with SvData _ => false | _ => true end) es2 in
  fst (sd_run x (es1 ++ SvEnd :: es2)) = fst (sd_run x (es1 ++ SvEnd :: quiet)) /\
  usb_reads (snd (sd_run x (es1 ++ SvEnd :: es2))) = usb_reads (snd (sd_run x (es1 ++ SvEnd :: quiet))).
Proof.
  intros st msgs es1 es2. cbv zeta.
  assert (E : forall es x, sd_eof x = true -> let quiet := filter (fun e => match e with SvData _ => false | _ => true end) es in
    fst (sd_run x es) = fst (sd_run x quiet) /\ usb_reads (snd (sd_run x es)) = usb_reads (snd (sd_run x quiet))).
  { induction es as [|e es IH]; intros x H; cbv zeta; [split; reflexivity|].
    assert (H1 : sd_eof (fst (sd_step x e)) = true).
    { destruct e; cbn [sd_step]; try exact H; try reflexivity.
      - destruct (u_reader _); [exact H|]. destruct (readline _ _) as [[[l|x0]|] b]; try exact H. destruct (usb_step _ _). exact H.
      - destruct (usb_step _ _). exact H. }
    destruct (IH _ H1) as [I1 I2]. cbv zeta in I1, I2. cbn [filter]. destruct e as [b| | |]; cbn [sd_run].
    1: { cbn [sd_step] in *. rewrite H in *. replace (mkstreamed (sd_client x) (sd_buf x) true) with x in * by (destruct x; cbn in *; congruence).
         cbn [fst] in I1, I2. revert I1 I2. destruct (sd_run x es). intros I1 I2. split; [exact I1|exact I2]. }
    all: destruct (sd_step x _) as [x1 o]; cbn [fst] in *; revert I1 I2; destruct (sd_run x1 es), (sd_run x1 (filter _ es)); cbn [fst snd]; intros I1 I2;
      split; [exact I1|]; unfold usb_reads in *; cbn [flat_map]; rewrite I2; reflexivity. }
  revert E. generalize (sd_new st msgs) as x. induction es1 as [|e es1 IH]; intros x E; cbn [app].
  - cbn [sd_run]. destruct (E es2 (fst (sd_step x SvEnd)) eq_refl) as [E1 E2]. cbv zeta in E1, E2. cbn [sd_step fst] in *.
    revert E1 E2. destruct (sd_run _ es2), (sd_run _ (filter _ es2)). cbn [fst snd]. intros E1 E2. split; [exact E1|]. unfold usb_reads in *. cbn [flat_map]. rewrite E2. reflexivity.
  - cbn [sd_run]. destruct (sd_step x e) as [x1 o]. destruct (IH x1 E) as [I1 I2].
    revert I1 I2. destruct (sd_run x1 (es1 ++ SvEnd :: es2)), (sd_run x1 (es1 ++ SvEnd :: filter _ es2)). cbn [fst snd]. intros I1 I2. split; [exact I1|].
    unfold usb_reads in *. cbn [flat_map]. rewrite I2. reflexivity.
Qed.
Print Assumptions C89_closed.

(** ** With the daemon *)
Lemma daemon_run_snoc scan : forall es d e, snd (daemon_run scan d (es ++ [e])) =
  snd (daemon_run scan d es) ++ [snd (daemon_step scan (fst (daemon_run scan d es)) e)].
Proof.
  induction es as [|a es IH]; intros d e; cbn [app daemon_run].
  - cbn [fst snd]. destruct (daemon_step scan d e). reflexivity.
  - destruct (daemon_step scan d a) as [d1 o]. specialize (IH d1 e). destruct (daemon_run scan d1 (es ++ [e])), (daemon_run scan d1 es). cbn [fst snd] in *. rewrite IH. reflexivity.
Qed.
Lemma daemon_run_app scan : forall a d b, fst (daemon_run scan d (a ++ b)) = fst (daemon_run scan (fst (daemon_run scan d a)) b).
Proof.
  induction a as [|e a IH]; intros d b; [reflexivity|]. cbn [app daemon_run]. destruct (daemon_step scan d e) as [d1 o]. specialize (IH d1 b).
  destruct (daemon_run scan d1 (a ++ b)), (daemon_run scan d1 a). exact IH.
Qed.
Lemma text_to_one fd t : forall l, NoDup l -> text_to fd (map (fun x => ToClient x t) l) = if existsb (Z.eqb fd) l then t else [].
Proof.
  induction l as [|x l IH]; intros D; [reflexivity|]. inversion D as [|? ? Nx D']; subst. cbn [map text_to flat_map existsb]. fold (text_to fd (map (fun x => ToClient x t) l)).
  rewrite (IH D'), (Z.eqb_sym fd x). destruct (x =? fd) eqn:E; cbn [orb app]; [|reflexivity].
  assert (Nf : existsb (Z.eqb fd) l = false).
  { destruct (existsb _ _) eqn:X; [|reflexivity]. apply existsb_exists in X. destruct X as (y & I & Y). destruct Nx. assert (x = y) by lia. congruence. }
  rewrite Nf. apply app_nil_r.
Qed.
Lemma stays_registered fd : forall es1 es0, zlen (registered es0) < 64 -> Forall (fun e => leaves e <> Some fd) es1 ->
  In fd (registered (es0 ++ DAccept fd :: es1)).
Proof.
  induction es1 as [|e es1 IH] using rev_ind; intros es0 R F.
  - rewrite registered_snoc. cbn [register1]. destruct (_ <? _) eqn:B; [|lia]. apply in_or_app. right. left. reflexivity.
  - apply Forall_app in F. destruct F as [F1 F2]. pose proof (Forall_inv F2) as Fe. specialize (IH es0 R F1).
    replace (es0 ++ DAccept fd :: es1 ++ [e]) with ((es0 ++ DAccept fd :: es1) ++ [e]) by (rewrite <- app_assoc; reflexivity). rewrite registered_snoc.
    destruct e as [x|data|x chunk u]; cbn [register1 leaves] in *.
    + destruct (_ <? _); [apply in_or_app; left|]; exact IH.
    + exact IH.
    + destruct chunk; [|exact IH]. unfold without. apply filter_In. split; [exact IH|]. destruct (fd =? x) eqn:B; [|reflexivity]. destruct Fe. f_equal. lia.
Qed.
(** What the daemon writes to a client that has got a place: a line for each
    packet from the bus, in order, and nothing else. *)
Theorem C89_daemon : forall scan packet es0 fd es1, c_scanner scan -> octets packet -> zlen packet = 56 ->
  possible [] (es0 ++ DAccept fd :: es1) -> zlen (registered es0) < 64 -> Forall (fun e => leaves e <> Some fd) es1 ->
  text_to fd (concat (snd (daemon_run scan (dafter scan packet (es0 ++ [DAccept fd])) es1))) = concat (map lower_line (packets es1)).
Proof.
  intros scan packet es0 fd es1 CS O L. induction es1 as [|e es1 IH] using rev_ind; intros P R F; [reflexivity|].
  apply Forall_app in F. destruct F as [F1 F2].
  replace (es0 ++ DAccept fd :: es1 ++ [e]) with ((es0 ++ DAccept fd :: es1) ++ [e]) in P by (rewrite <- app_assoc; reflexivity).
  pose proof P as P0. apply possible_snoc in P. destruct P as [P1 P2].
  rewrite daemon_run_snoc, concat_app. unfold text_to, packets in *. rewrite !flat_map_app, map_app, concat_app, IH by assumption. f_equal. cbn [concat flat_map map]. rewrite app_nil_r.
  change (flat_map _ (snd ?x)) with (text_to fd (snd x)).
  assert (D : fst (daemon_run scan (dafter scan packet (es0 ++ [DAccept fd])) es1) = dafter scan packet (es0 ++ DAccept fd :: es1)).
  { unfold dafter. rewrite <- daemon_run_app, <- app_assoc. reflexivity. }
  rewrite D. fold (answers scan packet (es0 ++ DAccept fd :: es1) e).
  destruct e as [x|data|x chunk u].
  - reflexivity.
  - cbn [map concat]. rewrite !app_nil_r. unfold answers. rewrite bus_step by apply P2.
    pose proof (inv_history scan packet CS O L _ P1) as I. pose proof (i_nodup _ _ _ I) as Nd. pose proof (i_reg _ _ _ I) as Rg.
    rewrite text_to_one by (apply (Permutation_NoDup (Permutation_sym Rg) Nd)).
    assert (E : existsb (Z.eqb fd) (live (dm_slots (dafter scan packet (es0 ++ DAccept fd :: es1)))) = true).
    { apply existsb_exists. exists fd. split; [|lia]. apply (Permutation_in _ (Permutation_sym Rg)). apply stays_registered; assumption. }
    rewrite E. symmetry. apply app_nil_r.
  - unfold answers. destruct chunk as [|y chunk]; [reflexivity|]. rewrite client_step by discriminate. reflexivity.
Qed.
Print Assumptions C89_daemon.
Lemma digit_text n : 0 <= lower_digit n < 128 /\ lower_digit n <> 10.
Proof.
  unfold lower_digit. assert (F : Forall (fun b => 0 <= b < 128 /\ b <> 10) (bytes_of "0123456789abcdef")) by (vm_compute; repeat constructor; discriminate).
  destruct (nth_in_or_default (Z.to_nat n) (bytes_of "0123456789abcdef") 0) as [I| ->]; [|lia]. rewrite Forall_forall in F. apply F, I.
Qed.
Lemma lower_a_line data : zlen data <= 56 -> a_line (lower_line data) /\ Forall (fun b => 0 <= b < 128) (lower_line data).
Proof.
  intros L. unfold lower_line. set (t := flat_map _ data).
  assert (F : Forall (fun b => 0 <= b < 128 /\ b <> 10) t).
  { unfold t. clear. induction data as [|x data IH]; [constructor|]. cbn [flat_map app]. constructor; [apply digit_text|]. constructor; [apply digit_text|exact IH]. }
  split.
  - exists t. split; [reflexivity|]. rewrite Forall_forall in F. split; [intros I; destruct (F _ I); congruence|].
    assert (X : zlen t = 2 * zlen data).
    { unfold t, zlen. clear. induction data as [|x data IH]; [reflexivity|]. cbn [flat_map app length]. lia. }
    lia.
  - apply Forall_app. split; [apply (Forall_impl _ (fun b H => proj1 H) F)|]. constructor; [lia|constructor].
Qed.
Lemma text_decoded l : Forall (fun b => 0 <= b < 128) l -> text_is l (decoded l).
Proof.
  intros F. split; [|apply (Forall_impl _ (fun b (H : 0 <= b < 128) => proj2 H) F)]. unfold bytes_of, decoded. rewrite list_ascii_of_string_of_list_ascii, map_map.
  induction F as [|b l H F IH]; [reflexivity|]. cbn [map]. rewrite IH, N_ascii_embedding by lia. f_equal. lia.
Qed.
Lemma packet_line st data : octets data -> zlen data <= 56 -> line_result st (decoded (lower_line data)) = packet_result st data.
Proof.
  intros O L. destruct (lower_a_line data L) as [_ F]. destruct (text_decoded _ F) as [E _]. unfold line_result. rewrite (C56_text data _ O E). cbn [rbind].
  unfold packet_result. destruct (fst (decode_msg CPlain data st)) as [[l| |]|]; reflexivity.
Qed.
Lemma cut_anywhere : forall ls p u, Forall a_line ls -> p ++ u = concat ls ->
  exists j r, p = concat (firstn j ls) ++ r /\ ~ In 10 r /\ zlen r <= 65536.
Proof.
  induction ls as [|l ls IH]; intros p u F E.
  - cbn [concat] in E. apply app_eq_nil in E. destruct E as [-> _]. exists O, []. split; [reflexivity|]. split; [intros []|cbn; lia].
  - inversion F as [|? ? (t & -> & N & L) F']; subst. cbn [concat] in E.
    destruct (le_lt_dec (length (t ++ [10])) (length p)) as [Le|Lt].
    + assert (X : exists q, p = (t ++ [10]) ++ q /\ q ++ u = concat ls).
      { exists (skipn (length (t ++ [10])) p). rewrite <- (firstn_skipn (length (t ++ [10])) p) in E at 1. rewrite <- app_assoc in E.
        assert (Fp : firstn (length (t ++ [10])) p = t ++ [10]).
        { apply (f_equal (firstn (length (t ++ [10])))) in E. rewrite firstn_app, firstn_firstn, Nat.min_id, firstn_length_le, Nat.sub_diag, firstn_O, app_nil_r in E by exact Le.
          rewrite firstn_app, firstn_all, Nat.sub_diag, firstn_O, app_nil_r in E. exact E. }
        rewrite Fp in E. apply app_inv_head in E. split; [rewrite <- Fp at 1; symmetry; apply firstn_skipn|exact E]. }
      destruct X as (q & -> & Eq). destruct (IH q u F' Eq) as (j & r & -> & Nr & Lr). exists (S j), r. cbn [firstn concat]. rewrite <- !app_assoc. auto.
    + exists O, p. split; [reflexivity|]. apply (f_equal (firstn (length p))) in E. rewrite firstn_app, firstn_all, Nat.sub_diag, firstn_O, app_nil_r in E.
      rewrite app_length in Lt. cbn in Lt. rewrite <- !app_assoc, firstn_app in E. replace (length p - length t)%nat with O in E by lia. rewrite firstn_O, app_nil_r in E.
      split; [|unfold zlen in *; lia]. rewrite E. intros I. apply N. rewrite <- (firstn_skipn (length p) t). apply in_or_app. left. exact I.
Qed.
Lemma packets_octets conn es0 fd es1 : possible conn (es0 ++ DAccept fd :: es1) -> Forall (fun d => octets d /\ zlen d <= 56) (packets es1).
Proof.
  assert (Q : forall es conn, possible conn es -> Forall (fun d => octets d /\ zlen d <= 56) (packets es)).
  { induction es as [|e es IH]; intros c H; [constructor|]. destruct H as [H1 H2]. cbn [packets flat_map]. apply Forall_app. split; [|apply (IH _ H2)].
    destruct e; [constructor| |constructor]. constructor; [exact H1|constructor]. }
  intros P. specialize (Q _ _ P). unfold packets in *. rewrite flat_map_app in Q. apply Forall_app in Q. apply Q.
Qed.
(** From the bus to a client, whatever the pieces: the reader of a client that
    holds a place reports the packets from the bus in order, each once, up to
    the first that fails; all of them, when everything has arrived and been
    looked at. *)
Theorem C89_bus : forall scan packet es0 fd es1 st msgs es under_way, c_scanner scan -> octets packet -> zlen packet = 56 ->
  possible [] (es0 ++ DAccept fd :: es1) -> zlen (registered es0) < 64 -> Forall (fun e => leaves e <> Some fd) es1 ->
  st_medium st = Usb_hid -> Forall (fun m => is_ack_message m = false) msgs -> open_still es ->
  bytes_in es ++ under_way = text_to fd (concat (snd (daemon_run scan (dafter scan packet (es0 ++ [DAccept fd])) es1))) ->
  (exists k, usb_reads (snd (sd_run (sd_new st msgs) es)) = until_failure (map (packet_result st) (firstn k (packets es1)))) /\
  (forall n, under_way = [] -> (length (packets es1) < n)%nat ->
   usb_reads (snd (sd_run (sd_new st msgs) (es ++ repeat SvRead n))) = until_failure (map (packet_result st) (packets es1))).
Proof.
  intros scan packet es0 fd es1 st msgs es under_way CS O L P R F M N Op E. rewrite (C89_daemon scan packet es0 fd es1 CS O L P R F) in E.
  pose proof (packets_octets _ _ _ _ P) as Pk.
  set (ls := map lower_line (packets es1)) in *.
  assert (Fl : Forall a_line ls) by (unfold ls; apply Forall_forall; intros l I; apply in_map_iff in I; destruct I as (d & <- & I); rewrite Forall_forall in Pk; apply lower_a_line, (Pk d I)).
  assert (T : Forall2 text_is ls (map decoded ls)).
  { unfold ls. clear -Pk. induction Pk as [|d ds [_ H] Pk IH]; [constructor|]. cbn [map]. constructor; [|exact IH]. apply text_decoded, lower_a_line, H. }
  assert (Mp : map (line_result st) (map decoded ls) = map (packet_result st) (packets es1)).
  { unfold ls. rewrite !map_map. apply map_ext_in. intros d I. rewrite Forall_forall in Pk. apply packet_line; apply (Pk d I). }
  split.
  - destruct (cut_anywhere ls _ _ Fl E) as (j & r & Er & Nr & Lr).
    assert (Tj : Forall2 text_is (firstn j ls) (firstn j (map decoded ls))).
    { clear -T. revert j. induction T as [|a b l1 l2 H T IH]; intros [|j]; cbn [firstn]; constructor; auto. }
    assert (Fj : Forall a_line (firstn j ls)).
    { rewrite <- (firstn_skipn j ls) in Fl. apply Forall_app in Fl. apply Fl. }
    destruct (C89_order st msgs es _ r _ M N Op Er Fj Nr Lr Tj) as [k Ek].
    exists (Nat.min k j). rewrite Ek, firstn_firstn, <- !firstn_map, Mp. reflexivity.
  - intros n -> Ln. rewrite app_nil_r in E. rewrite <- Mp.
    apply (C89_all st msgs es ls [] (map decoded ls) n M N Op); try assumption; [rewrite app_nil_r; exact E|intros []|cbn; lia|].
    unfold ls. rewrite map_length. exact Ln.
Qed.
Print Assumptions C89_bus.
(** Two packets for a client, cut inside the first octets, inside the second line
    and before its line feed; the reader looks in between.  Then the same and the
    end of the connection in the middle of a third line. *)
Definition ex_packets : list devent := [DBus (ex_usb ex_frame); DAccept 10; DClient 7 ex_line7 ex_around; DBus (ex_usb ex_frame)].
Definition ex_text : list Z := lower_line (ex_usb ex_frame) ++ lower_line (ex_usb ex_frame).
Definition ex_pieces : list stream_event :=
  [SvData (firstn 5 ex_text); SvRead; SvData (firstn 90 (skipn 5 ex_text)); SvRead; SvRead; SvWriter; SvData (skipn 95 ex_text)].
Example C89_example :
  possible [] (ex_history ++ DAccept 9 :: ex_packets) /\ zlen (registered ex_history) < 64 /\ Forall (fun e => leaves e <> Some 9) ex_packets /\
  open_still ex_pieces /\
  bytes_in ex_pieces ++ [] = text_to 9 (concat (snd (daemon_run ex_scan (dafter ex_scan ex_packet (ex_history ++ [DAccept 9])) ex_packets))) /\
  usb_reads (snd (sd_run (sd_new (ex_st Usb_hid) ex_msgs) ex_pieces)) = [Ok (RList ex_delivered)] /\
  usb_reads (snd (sd_run (sd_new (ex_st Usb_hid) ex_msgs) (ex_pieces ++ repeat SvRead 3))) = [Ok (RList ex_delivered); Ok (RList ex_delivered)] /\
  usb_reads (snd (sd_run (sd_new (ex_st Usb_hid) ex_msgs) (((ex_pieces ++ [SvData (bytes_of "0113")]) ++ repeat SvRead 3) ++ [SvEnd; SvRead; SvRead]))) =
    [Ok (RList ex_delivered); Ok (RList ex_delivered); Err IndexError] /\
  usb_reads (snd (sd_run (sd_new (ex_st Usb_hid) ex_msgs) ([SvEnd] ++ ex_pieces))) = [Err IndexError].
Proof.
  split. { cbn. repeat split; try lia; try (octs; fail); try (intros []; fail). }
  split; [vm_compute; reflexivity|]. split; [repeat constructor; discriminate|]. split; [intros H; cbn in H; repeat (destruct H as [H|H]; [discriminate H|]); exact H|].
  repeat split; vm_compute; reflexivity.
Qed.
(** A text of more than 65536 characters. *)
Example C89_example_long : exists text,
  ~ In 10 text /\ 65536 < zlen text /\ bytes_in [SvData (firstn 3 text); SvRead; SvData (skipn 3 text)] = concat [] ++ text ++ [].
Proof.
  exists (repeat 48 (Z.to_nat 65537)). split; [intros I; apply repeat_spec in I; discriminate I|].
  split; [unfold zlen; rewrite repeat_length; lia|]. cbn [bytes_in flat_map concat app]. rewrite !app_nil_r. apply firstn_skipn.
Qed.
