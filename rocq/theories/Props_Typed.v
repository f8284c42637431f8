(** C109: what the daemon makes of any bytes that a client sends. *)
From Coq Require Import String Ascii ZArith List Bool Lia ZifyBool.
From Verif Require Import Py Base Msg Daemon SpecMsg SpecDaemon SpecTyped.
From Verif Require Import MsgProofs DaemonProofs Props_Daemon TypedProofs.
Import ListNotations.
Open Scope Z_scope.

(** For every history and every chunk that is not empty: one packet goes to the
    bus, the octets read from the chunk and behind them those of the buffer. *)
Theorem C109_chunk : forall zx scan packet es fd chunk u o,
  libc_scanner zx scan -> octets packet -> zlen packet = 56 -> possible [] (es ++ [DClient fd chunk u]) ->
  chunk <> [] -> read_as zx (ar_behind u) chunk o ->
  let before := dm_packet (dafter scan packet es) in
  zlen o <= 56 /\
  answers scan packet es (DClient fd chunk u) = [ToBus (o ++ skipn (length o) before)] /\
  dm_packet (dafter scan packet (es ++ [DClient fd chunk u])) = o ++ skipn (length o) before.
Proof.
  intros zx scan packet es fd chunk u o LS O L P N R. apply possible_snoc in P. destruct P as [P1 (_ & _ & P2 & _)].
  pose proof (inv_history scan packet (libc_c _ _ LS) O L es P1) as I. cbv zeta.
  destruct (read_typed zx scan u chunk o (dm_packet (dafter scan packet es)) LS N P2 (i_len _ _ _ I) R) as [X Lo].
  split; [exact Lo|]. unfold answers, dafter. rewrite run_snoc. fold (dafter scan packet es). rewrite client_step by exact N. rewrite X.
  cbn [fst snd dm_packet]. split; [|reflexivity]. rewrite ztake_ge; [reflexivity|].
  rewrite over_length by (rewrite (i_len _ _ _ I); exact Lo). rewrite (i_len _ _ _ I). lia.
Qed.
Print Assumptions C109_chunk.

(** The octets read are determined, and there always are some (perhaps none)
    when a NUL follows the chunk in memory. *)
Theorem C109_total : forall zx u chunk, chunk <> [] -> In 0 (ar_behind u) -> exists o, read_as zx (ar_behind u) chunk o.
Proof. exact read_exists. Qed.
Print Assumptions C109_total.
Lemma numbers_unique zx scan : libc_scanner zx scan -> forall n t o, numbers zx n t o -> forall o', numbers zx n t o' -> o = o'.
Proof.
  intros LS n t o N. induction N as [t|n t R|n c1 c2 t v o R N IH]; intros o' N'.
  - inversion N'. reflexivity.
  - inversion N' as [|n' t' R'|n' a b t' v' o'' R' N'']; subst; [reflexivity|]. apply (number_scan zx scan LS) in R. apply (number_scan zx scan LS) in R'. congruence.
  - inversion N' as [|n' t' R'|n' a b t' v' o'' R' N'']; subst.
    + apply (number_scan zx scan LS) in R. apply (number_scan zx scan LS) in R'. congruence.
    + f_equal; [|apply IH; assumption]. apply (number_scan zx scan LS) in R. apply (number_scan zx scan LS) in R'. congruence.
Qed.
Theorem C109_unique : forall zx scan behind chunk o o',
  libc_scanner zx scan -> chunk <> [] -> read_as zx behind chunk o -> read_as zx behind chunk o' -> o = o'.
Proof.
  intros zx scan behind chunk o o' LS N R R'.
  assert (Z : forall b1 e1 b2 e2, line_of chunk b1 e1 -> line_of chunk b2 e2 -> zlen b1 = zlen b2).
  { intros b1 e1 b2 e2 L1 L2. pose proof (zlen_nonneg b1). pose proof (zlen_nonneg b2).
    destruct (line_stripped (mkaround 0 []) chunk b1 e1 N L1) as [S1|[S1 ->]], (line_stripped (mkaround 0 []) chunk b2 e2 N L2) as [S2|[S2 ->]]; lia. }
  destruct R as [b1 e1 L1 O1|b1 e1 n1 o1 L1 E1 N1], R' as [b2 e2 L2 O2|b2 e2 n2 o2 L2 E2 N2].
  - reflexivity.
  - exfalso. rewrite (Z _ _ _ _ L1 L2), E2, Z.odd_mul in O1. discriminate O1.
  - exfalso. rewrite <- (Z _ _ _ _ L1 L2), E1, Z.odd_mul in O2. discriminate O2.
  - pose proof (Z _ _ _ _ L1 L2). assert (n1 = n2) by lia. subst n2. eapply numbers_unique; eassumption.
Qed.
Print Assumptions C109_unique.

(** What follows the chunk in memory plays no role if the text has no blanks. *)
Theorem C109_memory : forall zx b b' chunk body eol o, line_of chunk body eol -> (forall c, In c body -> ~ white c) -> chunk <> [] ->
  read_as zx b chunk o -> read_as zx b' chunk o.
Proof.
  intros zx b b' chunk body eol o L W N R.
  assert (Z : forall b2 e2, line_of chunk b2 e2 -> zlen b2 = zlen body).
  { intros b2 e2 L2. pose proof (zlen_nonneg body). pose proof (zlen_nonneg b2).
    destruct (line_stripped (mkaround 0 []) chunk body eol N L) as [S1|[S1 ->]], (line_stripped (mkaround 0 []) chunk b2 e2 N L2) as [S2|[S2 ->]]; lia. }
  destruct R as [b2 e2 L2 O2|b2 e2 n o L2 E2 N2]; [eapply ra_odd; eassumption|].
  rewrite (Z _ _ L2) in E2. apply (ra_even zx b' chunk body eol n o L E2). destruct L as (-> & _). rewrite <- app_assoc in *.
  clear -W E2 N2. revert body W E2 o N2. induction n as [|n IH]; intros body W E o N2.
  - inversion N2. constructor.
  - destruct body as [|c1 [|c2 body]]; [discriminate E|cbn in E; lia|]. cbn [app] in *.
    assert (W1 : ~ white c1) by (apply W; left; reflexivity).
    assert (T : forall r t t', number zx (c1 :: c2 :: t) r -> number zx (c1 :: c2 :: t') r).
    { intros r t t' M. inversion M; subst; try contradiction; [apply n_two|apply n_prefix|apply n_one|apply n_plus|apply n_minus|apply n_sign|apply n_other]; assumption. }
    inversion N2 as [|n' t' R'|n' x y t' v o' R' N']; subst.
    + apply ns_stop. eapply T. exact R'.
    + apply ns_next; [eapply T; exact R'|]. apply IH; [intros c I; apply W; right; right; exact I|rewrite !zlen_cons in E; lia|exact N'].
Qed.
Print Assumptions C109_memory.
(** Digits are read as the octets they denote. *)
Theorem C109_digits : forall zx b chunk body eol o, line_of chunk body eol -> denotes body o -> read_as zx b chunk o.
Proof.
  intros zx b chunk body eol o L D. pose proof (denotes_len _ _ D) as E.
  apply (ra_even zx b chunk body eol (length o) o L E). destruct L as (-> & _). rewrite <- app_assoc. clear E.
  induction D as [|c1 c2 h l text o H1 H2 D IH]; [constructor|]. cbn [length app]. apply ns_next; [apply n_two; assumption|exact IH].
Qed.
Print Assumptions C109_digits.

(** The packet buffer after every history: each bus packet and each chunk is laid
    over what was there. *)
Theorem C109_content : forall zx scan packet es p,
  libc_scanner zx scan -> octets packet -> zlen packet = 56 -> possible [] es ->
  content zx packet es p -> dm_packet (dafter scan packet es) = p.
Proof.
  intros zx scan packet es p LS O L P C. induction C as [|es fd p C IH|es data p C IH|es fd u p C IH|es fd chunk u o p C IH N R].
  - reflexivity.
  - apply possible_snoc in P. destruct P as [P1 P2]. unfold dafter. rewrite run_snoc. fold (dafter scan packet es). exact (IH P1).
  - apply possible_snoc in P. destruct P as [P1 P2]. unfold dafter. rewrite run_snoc. fold (dafter scan packet es).
    cbn [daemon_step fst dm_packet]. unfold overlay, over. rewrite zdrop_skipn, (IH P1). unfold zlen. rewrite Nat2Z.id. reflexivity.
  - apply possible_snoc in P. destruct P as [P1 P2]. unfold dafter. rewrite run_snoc. fold (dafter scan packet es). exact (IH P1).
  - pose proof P as P'. apply possible_snoc in P. destruct P as [P1 P2].
    destruct (C109_chunk zx scan packet es fd chunk u o LS O L P' N R) as (_ & _ & ->). rewrite (IH P1). reflexivity.
Qed.
Print Assumptions C109_content.
Theorem C109_known : forall zx packet es, Forall ended es -> exists p, content zx packet es p.
Proof.
  intros zx packet es. induction es as [|e es IH] using rev_ind; intros F; [exists packet; constructor|].
  apply Forall_app in F. destruct F as [F1 F2]. inversion F2 as [|? ? Fe _]. subst. destruct (IH F1) as [p C].
  destruct e as [fd|data|fd chunk u]; [exists p; constructor; exact C|exists (over data p); constructor; exact C|].
  destruct chunk as [|x chunk]; [exists p; constructor; exact C|].
  destruct (read_exists zx u (x :: chunk) ltac:(discriminate) Fe) as [o R]. exists (over o p). apply co_client; [exact C|discriminate|exact R].
Qed.
Print Assumptions C109_known.

(** ** Examples *)

(** "+5-5 A0xZZ" and a line feed: a sign and a digit twice, a blank before a digit
    (whose place is then read again), a prefix that this library does not accept. *)
Definition ty_chunk : list Z := bytes_of "+5-5 A0xZZ" ++ [10].
Definition ty_event : devent := DClient 7 ty_chunk ex_around.
Example C109_example :
  libc_scanner None (li_scan None) /\ libc_scanner (Some 0) (li_scan (Some 0)) /\
  octets ex_packet /\ zlen ex_packet = 56 /\ possible [] (ex_history ++ [ty_event]) /\ Forall ended (ex_history ++ [ty_event]) /\
  read_as None (ar_behind ex_around) ty_chunk [0x05; 0xFB; 0xA0] /\
  read_as (Some 0) (ar_behind ex_around) ty_chunk [0x05; 0xFB; 0xA0; 0x00] /\
  answers (li_scan None) ex_packet ex_history ty_event = [ToBus ([0x05; 0xFB; 0xA0] ++ repeat 0xEE 53)] /\
  answers (li_scan (Some 0)) ex_packet ex_history ty_event = [ToBus ([0x05; 0xFB; 0xA0; 0x00] ++ repeat 0xEE 52)].
Proof.
  assert (D5 : hex_code 53 5) by (left; split; [lia|reflexivity]).
  assert (DA : hex_code 65 10) by (right; left; split; [lia|reflexivity]).
  assert (D0 : hex_code 48 0) by (left; split; [lia|reflexivity]).
  assert (DZ : no_digit 90) by (unfold no_digit, hex_code; lia).
  assert (LO : line_of ty_chunk (bytes_of "+5-5 A0xZZ") [10]).
  { split; [reflexivity|]. split; [constructor; [left; reflexivity|constructor]|]. split; [discriminate|].
    right. right. exists (bytes_of "+5-5 A0xZ"), 90. split; [reflexivity|unfold line_end; lia]. }
  assert (R : forall zx o, numbers zx 2 ([48; 120; 90; 90; 10] ++ ar_behind ex_around) o ->
     read_as zx (ar_behind ex_around) ty_chunk (0x05 :: 0xFB :: 0xA0 :: o)).
  { intros zx o N. apply (ra_even zx _ ty_chunk _ _ 5 _ LO eq_refl). unfold ty_chunk. cbn [bytes_of list_ascii_of_string map app].
    apply (ns_next zx 4 43 53 _ 5); [exact (n_plus zx 53 5 _ D5)|].
    apply (ns_next zx 3 45 53 _ 0xFB); [exact (n_minus zx 53 5 _ D5)|].
    apply (ns_next zx 2 32 65 _ 0xA0); [|exact N].
    apply n_white; [left; reflexivity|]. exact (n_two zx 65 48 10 0 _ DA D0). }
  split; [apply li_scanner; discriminate|]. split; [apply li_scanner; intros v [= <-]; split; lia|].
  split; [apply ex_packet_ok|]. split; [apply ex_packet_ok|].
  split.
  { apply possible_snoc. split; [exact ex_possible|]. cbn [possible1 ty_event]. split; [vm_compute; auto|].
    split; [octs|]. split; [discriminate|]. split; [split; discriminate || reflexivity|octs]. }
  split; [repeat (apply Forall_cons; [cbn; auto|]); constructor|].
  split; [apply R; apply ns_stop; apply n_prefix; right; reflexivity|].
  split.
  { apply R. apply (ns_next _ 1 48 120 _ 0); [apply n_prefix; right; reflexivity|].
    apply ns_stop. apply n_other; [exact DZ|unfold white; lia|lia|lia]. }
  split; vm_compute; reflexivity.
Qed.
