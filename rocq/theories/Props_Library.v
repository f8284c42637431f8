(** C68: what sscanf() and fprintf() read of the daemon's text buffer. *)
From Coq Require Import String Ascii ZArith List Bool Lia ZifyBool Permutation.
From Verif Require Import Py Base Daemon SpecMsg SpecDaemon DaemonProofs Props_Daemon.
Import ListNotations.
Open Scope Z_scope.

(** A line without white space in it keeps the reads of sscanf() inside the
    buffer; so are those of fprintf() when one of the 113 bytes happens to be
    zero. *)
Theorem C68_inside : forall scan u body eol, zlen (body ++ eol) <= 113 ->
  (forall c, In c body -> ~ white c) -> Forall line_end eol -> zlen eol <= 2 ->
  In 0 (firstn 113 ((body ++ eol) ++ ar_behind u)) ->
  Forall inside (library_trace scan u (body ++ eol)).
Proof.
  intros scan u body eol L W E Le Z0. unfold library_trace.
  destruct (zlen (body ++ eol) =? 0) eqn:N0; cbn [orb]; [constructor|].
  destruct (negb (Z.rem (stripped u (body ++ eol)) 2 =? 0)) eqn:R; [constructor|].
  assert (S : Forall inside (string_trace ((body ++ eol) ++ ar_behind u) 0)).
  { eapply Forall_impl; [|apply (string_inside 113); exact Z0]. intros a (k & -> & K). cbn. lia. }
  assert (T : Forall inside (fst (scan_trace scan (Z.to_nat (Z.quot (stripped u (body ++ eol)) 2)) 0 ((body ++ eol) ++ ar_behind u)))).
  { destruct body as [|c0 b0].
    - cbn [app] in *. destruct (stripped_bare u eol (conj E Le)) as [-> | ->]; [destruct eol; discriminate| |]; constructor.
    - assert (T : c0 :: b0 <> []) by discriminate. destruct (exists_last T) as (t & x & Et). rewrite Et in *.
      assert (Nx : ~ line_end x).
      { intros X. apply (W x); [apply in_or_app; right; left; reflexivity|]. unfold white. destruct X; lia. }
      assert (Hs : stripped u ((t ++ [x]) ++ eol) = zlen (t ++ [x])).
      { rewrite <- app_assoc, stripped_body by (try assumption; split; assumption). rewrite zlen_app. reflexivity. }
      rewrite Hs in *. rewrite zlen_app in L. pose proof (zlen_nonneg eol). pose proof (zlen_nonneg (t ++ [x])) as Lb.
      eapply Forall_impl; [|apply scan_trace_inside; [lia|]].
      + intros a (k & -> & K). cbn. rewrite Z.quot_div_nonneg in K by lia. lia.
      + intros j Hj. rewrite Z.quot_div_nonneg in Hj by lia.
        assert (J : (Z.to_nat (j * 2) < length (t ++ [x]))%nat) by (unfold zlen in *; lia).
        rewrite zdrop_skipn, <- app_assoc, skipn_app.
        destruct (skipn (Z.to_nat (j * 2)) (t ++ [x])) as [|c' r'] eqn:Sk'.
        { exfalso. apply (f_equal (@length Z)) in Sk'. rewrite skipn_length in Sk'. cbn in Sk'. lia. }
        exists c'. eexists. split; [reflexivity|].
        apply W. rewrite <- (firstn_skipn (Z.to_nat (j * 2)) (t ++ [x])), Sk'. apply in_or_app. right. left. reflexivity. }
  destruct (scan_trace _ _ _ _) as [t b]. cbn [fst] in T. apply Forall_app. split; [exact T|]. destruct b; [exact S|constructor].
Qed.
Print Assumptions C68_inside.
(** Without a zero there, every line of digits makes fprintf() read on behind the
    buffer. *)
Theorem C68_outside : forall scan u text o eol, c_scanner scan -> denotes text o -> o <> [] ->
  Forall line_end eol -> zlen eol <= 2 -> 113 < zlen ((text ++ eol) ++ ar_behind u) ->
  ~ In 0 (firstn 113 ((text ++ eol) ++ ar_behind u)) ->
  In (RdBuf 113) (library_trace scan u (text ++ eol)).
Proof.
  intros scan u text o eol CS D N E Le L Z0. unfold library_trace.
  assert (T : text <> []) by (intros ->; inversion D; subst; contradiction).
  destruct (exists_last T) as (t & x & Et).
  assert (Nx : ~ line_end x) by (intros X; apply eol_spec in X; rewrite (denotes_last _ _ D _ _ Et) in X; discriminate).
  assert (Hs : stripped u (text ++ eol) = zlen o * 2).
  { rewrite Et, <- app_assoc, stripped_body by (try assumption; split; assumption).
    pose proof (denotes_len _ _ D) as X. rewrite Et, zlen_app in X. change (zlen [x]) with 1 in X. lia. }
  rewrite Hs, Z.rem_mul, Z.quot_mul by lia.
  assert (P : 0 < zlen o) by (destruct o; [contradiction|rewrite zlen_cons; pose proof (zlen_nonneg o); lia]).
  pose proof (denotes_len _ _ D) as Ld. pose proof (zlen_nonneg eol).
  replace (zlen (text ++ eol) =? 0) with false by (rewrite zlen_app; lia). cbn [orb negb Z.eqb].
  pose proof (scan_trace_good scan CS _ _ D [] (eol ++ ar_behind u) 0 eq_refl) as G. cbn [app] in G.
  rewrite <- app_assoc in *. unfold zlen at 1. rewrite Nat2Z.id.
  destruct (scan_trace scan (length o) 0 (text ++ eol ++ ar_behind u)) as [t' b]. cbn [snd] in G. subst b.
  apply in_or_app. right. change 113 with (0 + Z.of_nat 113). apply string_outside; [exact Z0|]. unfold zlen in L. lia.
Qed.
Print Assumptions C68_outside.
(** Exactly which bytes are read for a line of digits: sscanf() the digits, each
    once, fprintf() everything up to the first zero in memory. *)
Theorem C68_exact : forall scan u text o eol str rest, c_scanner scan -> denotes text o -> o <> [] ->
  Forall line_end eol -> zlen eol <= 2 -> (text ++ eol) ++ ar_behind u = str ++ 0 :: rest -> ~ In 0 str ->
  library_trace scan u (text ++ eol) =
  map (fun k => RdBuf (Z.of_nat k)) (seq 0 (length text)) ++ map (fun k => RdBuf (Z.of_nat k)) (seq 0 (length str + 1)).
Proof.
  intros scan u text o eol str rest CS D N E Le M Z0. unfold library_trace.
  assert (T : text <> []) by (intros ->; inversion D; subst; contradiction).
  destruct (exists_last T) as (t & x & Et).
  assert (Nx : ~ line_end x) by (intros X; apply eol_spec in X; rewrite (denotes_last _ _ D _ _ Et) in X; discriminate).
  assert (Hs : stripped u (text ++ eol) = zlen o * 2).
  { rewrite Et, <- app_assoc, stripped_body by (try assumption; split; assumption).
    pose proof (denotes_len _ _ D) as X. rewrite Et, zlen_app in X. change (zlen [x]) with 1 in X. lia. }
  rewrite Hs, Z.rem_mul, Z.quot_mul by lia.
  assert (P : 0 < zlen o) by (destruct o; [contradiction|rewrite zlen_cons; pose proof (zlen_nonneg o); lia]).
  pose proof (denotes_len _ _ D) as Ld. pose proof (zlen_nonneg eol).
  replace (zlen (text ++ eol) =? 0) with false by (rewrite zlen_app; lia). cbn [orb negb Z.eqb].
  pose proof (scan_trace_good scan CS _ _ D [] (eol ++ ar_behind u) 0 eq_refl) as G.
  pose proof (scan_trace_exact scan CS _ _ D [] (eol ++ ar_behind u) 0%nat eq_refl) as X. cbn [app] in G, X.
  change (Z.of_nat 0) with 0 in X. rewrite app_assoc in G, X. replace (Z.to_nat (zlen o)) with (length o) by (unfold zlen; lia).
  destruct (scan_trace scan (length o) 0 ((text ++ eol) ++ ar_behind u)) as [t' b]. cbn [fst snd] in G, X. rewrite G, X.
  f_equal. rewrite M. apply (string_exact str rest 0 Z0).
Qed.
Print Assumptions C68_exact.
(** The line of a full packet always does: it leaves no room for a zero. *)
Theorem C68_full : forall scan u text o, c_scanner scan -> denotes text o -> zlen o = 56 -> ar_behind u <> [] ->
  In (RdBuf 113) (library_trace scan u (text ++ [10])).
Proof.
  intros scan u text o CS D Lo Nb. pose proof (denotes_len _ _ D) as Ld.
  apply (C68_outside scan u text o [10] CS D); [intros ->; discriminate Lo|repeat constructor|discriminate| |].
  - rewrite !zlen_app. change (zlen [10]) with 1. destruct (ar_behind u) as [|x b]; [contradiction|]. rewrite zlen_cons. pose proof (zlen_nonneg b). lia.
  - rewrite firstn_app. replace (113 - length (text ++ [10%Z]))%nat with 0%nat by (rewrite app_length; cbn [length]; unfold zlen in *; lia).
    cbn [firstn]. rewrite app_nil_r. intros I.
    assert (J : In 0 (text ++ [10])) by (rewrite <- (firstn_skipn 113); apply in_or_app; left; exact I).
    apply in_app_or in J. destruct J as [J|[J|[]]]; [|discriminate J].
    clear -D J. induction D as [|c1 c2 h l text o H1 H2 D IH]; [destruct J|].
    destruct J as [->|[->|J]]; [unfold hex_code in H1; lia|unfold hex_code in H2; lia|exact (IH J)].
Qed.
Print Assumptions C68_full.
(** 112 blanks and a line end make sscanf() read behind the buffer. *)
Theorem C68_blank : forall scan u body x c, Forall white (body ++ [x; c]) -> ~ line_end x -> line_end c ->
  zlen (body ++ [x; c]) = 113 -> ar_behind u <> [] ->
  In (RdBuf 113) (library_trace scan u (body ++ [x; c])).
Proof.
  intros scan u body x c W Nx Hc L Nb. unfold library_trace. rewrite (stripped_one u body x c Nx Hc). rewrite L.
  rewrite zlen_app in L. change (zlen [x; c]) with 2 in L. replace (zlen body + 1) with 112 by lia. cbn [Z.eqb orb].
  change (negb (Z.rem 112 2 =? 0)) with false. change (Z.to_nat (Z.quot 112 2)) with 56%nat.
  assert (I : In (RdBuf 113) (reads_from (Z.to_nat (scan_reads ((body ++ [x; c]) ++ ar_behind u))) 0)).
  { apply reads_in. rewrite (scan_reads_white _ _ W), zlen_app. change (zlen [x; c]) with 2.
    destruct (ar_behind u) as [|b r]; [contradiction|]. pose proof (scan_reads_pos b r). lia. }
  pose proof (scan_trace_first scan 55 0 ((body ++ [x; c]) ++ ar_behind u) (RdBuf 113)) as F. change (0 * 2) with 0 in F. rewrite zdrop_0 in F.
  specialize (F I). destruct (scan_trace scan 56 0 ((body ++ [x; c]) ++ ar_behind u)) as [t b]. apply in_or_app. left. exact F.
Qed.
Print Assumptions C68_blank.
(** What it finds there goes to the bus: when two digits follow the buffer in
    memory, the packet consists of the octet they denote. *)
Theorem C68_leak : forall scan packet es fd body x c b behind c1 c2 h l, c_scanner scan -> octets packet -> zlen packet = 56 ->
  possible [] (es ++ [DClient fd (body ++ [x; c]) (mkaround b (c1 :: c2 :: behind))]) ->
  Forall white (body ++ [x; c]) -> ~ line_end x -> line_end c -> zlen (body ++ [x; c]) = 113 ->
  hex_code c1 h -> hex_code c2 l ->
  answers scan packet es (DClient fd (body ++ [x; c]) (mkaround b (c1 :: c2 :: behind))) = [ToBus (repeat (16 * h + l) 56)].
Proof.
  intros scan packet es fd body x c b behind c1 c2 h l CS O L P W Nx Hc Lc H1 H2. apply possible_snoc in P. destruct P as [P1 _].
  pose proof (inv_history scan packet CS O L es P1) as I. pose proof (i_len _ _ _ I) as Lp.
  assert (Ne : body ++ [x; c] <> []) by (destruct body; discriminate).
  unfold answers. rewrite client_step by exact Ne.
  destruct (read_steps scan (mkaround b (c1 :: c2 :: behind)) _ (dm_packet (dafter scan packet es)) Ne) as (t1 & _ & ->).
  rewrite (stripped_one _ body x c Nx Hc).
  rewrite zlen_app in Lc. change (zlen [x; c]) with 2 in Lc. replace (zlen body + 1) with 112 by lia.
  change (negb (Z.rem 112 2 =? 0)) with false. change (Z.to_nat (Z.quot 112 2)) with 56%nat. cbn [ar_behind].
  pose proof (parse_same scan (16 * h + l) ((body ++ [x; c]) ++ c1 :: c2 :: behind) 56 0 [] (dm_packet (dafter scan packet es))) as Q.
  cbn [app] in Q. destruct (parse_loop _ _ _ _ _) as [[r p] t]. cbn [fst] in Q. cbv iota.
  assert (Q' : (r, p) = (0 + Z.of_nat 56, repeat (16 * h + l) 56 ++ skipn 56 (dm_packet (dafter scan packet es)))).
  { apply Q; [lia|reflexivity|unfold zlen in Lp; lia|]. intros j Hj.
    assert (J : (Z.to_nat (j * 2) <= length (body ++ [x; c]))%nat) by (rewrite app_length; cbn [length]; unfold zlen in Lc; lia).
    rewrite zdrop_skipn, skipn_app. replace (Z.to_nat (j * 2) - length (body ++ [x; c]))%nat with 0%nat by lia. cbn [skipn].
    rewrite (scan_whites scan _ _ CS); [apply (scan_two _ CS); assumption|].
    rewrite <- (firstn_skipn (Z.to_nat (j * 2)) (body ++ [x; c])) in W. apply Forall_app in W. apply W. }
  pose proof (f_equal snd Q') as Qp. cbn [snd] in Qp. cbn [fst snd]. rewrite Qp. f_equal. f_equal.
  rewrite skipn_all2 by (unfold zlen in Lp; lia). rewrite app_nil_r. rewrite ztake_ge; [reflexivity|]. unfold zlen. rewrite repeat_length. reflexivity.
Qed.
Print Assumptions C68_leak.
(** A line of a full packet, a short one with and without a zero behind it, and
    blanks. *)
Definition ex_full : list Z := flat_map (fun _ => [48; 49]) (repeat tt 56).
Definition ex_blank : list Z := repeat 32 111 ++ [32; 10].
Example C68_ex :
  denotes ex_full (repeat 1 56) /\ In (RdBuf 113) (library_trace ex_scan (mkaround 0 [7; 0]) (ex_full ++ [10])) /\
  library_trace ex_scan (mkaround 0 (repeat 0 108 ++ [9])) (bytes_of "0113" ++ [10]) =
    map RdBuf [0; 1; 2; 3] ++ map RdBuf [0; 1; 2; 3; 4; 5] /\
  In (RdBuf 115) (library_trace ex_scan (mkaround 0 (repeat 65 110 ++ [0])) (bytes_of "0113" ++ [10])) /\
  In (RdBuf 114) (library_trace ex_scan (mkaround 0 [49; 50; 0]) ex_blank) /\
  Forall white ex_blank /\ zlen ex_blank = 113 /\
  possible [] (ex_history ++ [DClient 7 ex_blank (mkaround 0 [49; 50; 0])]) /\
  answers ex_scan ex_packet ex_history (DClient 7 ex_blank (mkaround 0 [49; 50; 0])) = [ToBus (repeat 0x12 56)].
Proof.
  split. { unfold ex_full. generalize 56%nat. intros n. induction n as [|n IH]; [constructor|].
    apply (denotes_pair 48 49 0 1); [unfold hex_code; lia|unfold hex_code; lia|exact IH]. }
  split. { apply (nth_error_In _ 225). vm_compute. reflexivity. }
  split. { vm_compute. reflexivity. }
  split. { apply (nth_error_In _ 119). vm_compute. reflexivity. }
  split. { apply (nth_error_In _ 114). vm_compute. reflexivity. }
  split. { apply Forall_app. split; [apply Forall_forall; intros y Y; apply repeat_spec in Y|repeat constructor]; unfold white; lia. }
  split; [reflexivity|].
  split; [|vm_compute; reflexivity].
  apply possible_snoc. split; [exact ex_possible|]. cbn [possible1]. split; [left; reflexivity|].
  split. { apply Forall_app. split; [apply Forall_forall; intros y Y; apply repeat_spec in Y; subst y; split; [discriminate|reflexivity]|octs]. }
  split; [discriminate|]. split; [split; [discriminate|reflexivity]|octs].
Qed.
